(** The opcode names of src/chain/enums/opcode.cpp, transcribed mechanically from
    the source text (the enumerators are replaced by their values in
    include/bitcoin/system/chain/enums/opcode.hpp).  *)
From Coq Require Import String.
From Verif Require Import Base Bytes RadixModel.

(** opcode.cpp:45-435: the cases of opcode_to_mnemonic that return a literal. *)
Definition named_opcodes : list (Z * list Z) := [
  (0, chars "zero"%string);
  (76, chars "pushdata1"%string);
  (77, chars "pushdata2"%string);
  (78, chars "pushdata4"%string);
  (79, chars "-1"%string);
  (80, chars "reserved"%string);
  (97, chars "nop"%string);
  (98, chars "ver"%string);
  (99, chars "if"%string);
  (100, chars "notif"%string);
  (101, chars "verif"%string);
  (102, chars "vernotif"%string);
  (103, chars "else"%string);
  (104, chars "endif"%string);
  (105, chars "verify"%string);
  (106, chars "return"%string);
  (107, chars "toaltstack"%string);
  (108, chars "fromaltstack"%string);
  (109, chars "2drop"%string);
  (110, chars "2dup"%string);
  (111, chars "3dup"%string);
  (112, chars "2over"%string);
  (113, chars "2rot"%string);
  (114, chars "2swap"%string);
  (115, chars "ifdup"%string);
  (116, chars "depth"%string);
  (117, chars "drop"%string);
  (118, chars "dup"%string);
  (119, chars "nip"%string);
  (120, chars "over"%string);
  (121, chars "pick"%string);
  (122, chars "roll"%string);
  (123, chars "rot"%string);
  (124, chars "swap"%string);
  (125, chars "tuck"%string);
  (126, chars "cat"%string);
  (127, chars "substr"%string);
  (128, chars "left"%string);
  (129, chars "right"%string);
  (130, chars "size"%string);
  (131, chars "invert"%string);
  (132, chars "and"%string);
  (133, chars "or"%string);
  (134, chars "xor"%string);
  (135, chars "equal"%string);
  (136, chars "equalverify"%string);
  (137, chars "reserved_137"%string);
  (138, chars "reserved_138"%string);
  (139, chars "1add"%string);
  (140, chars "1sub"%string);
  (141, chars "2mul"%string);
  (142, chars "2div"%string);
  (143, chars "negate"%string);
  (144, chars "abs"%string);
  (145, chars "not"%string);
  (146, chars "nonzero"%string);
  (147, chars "add"%string);
  (148, chars "sub"%string);
  (149, chars "mul"%string);
  (150, chars "div"%string);
  (151, chars "mod"%string);
  (152, chars "lshift"%string);
  (153, chars "rshift"%string);
  (154, chars "booland"%string);
  (155, chars "boolor"%string);
  (156, chars "numequal"%string);
  (157, chars "numequalverify"%string);
  (158, chars "numnotequal"%string);
  (159, chars "lessthan"%string);
  (160, chars "greaterthan"%string);
  (161, chars "lessthanorequal"%string);
  (162, chars "greaterthanorequal"%string);
  (163, chars "min"%string);
  (164, chars "max"%string);
  (165, chars "within"%string);
  (166, chars "ripemd160"%string);
  (167, chars "sha1"%string);
  (168, chars "sha256"%string);
  (169, chars "hash160"%string);
  (170, chars "hash256"%string);
  (171, chars "codeseparator"%string);
  (172, chars "checksig"%string);
  (173, chars "checksigverify"%string);
  (174, chars "checkmultisig"%string);
  (175, chars "checkmultisigverify"%string);
  (176, chars "nop1"%string);
  (179, chars "nop4"%string);
  (180, chars "nop5"%string);
  (181, chars "nop6"%string);
  (182, chars "nop7"%string);
  (183, chars "nop8"%string);
  (184, chars "nop9"%string);
  (185, chars "nop10"%string)].

(** opcode.cpp:416-674: the comparisons of opcode_from_mnemonic in order (a line
    with an alias is two entries). *)
Definition opcode_names : list (list Z * Z) := [
  (chars "zero"%string, 0);
  (chars "push_0"%string, 0);
  (chars "push_1"%string, 1);
  (chars "push_2"%string, 2);
  (chars "push_3"%string, 3);
  (chars "push_4"%string, 4);
  (chars "push_5"%string, 5);
  (chars "push_6"%string, 6);
  (chars "push_7"%string, 7);
  (chars "push_8"%string, 8);
  (chars "push_9"%string, 9);
  (chars "push_10"%string, 10);
  (chars "push_11"%string, 11);
  (chars "push_12"%string, 12);
  (chars "push_13"%string, 13);
  (chars "push_14"%string, 14);
  (chars "push_15"%string, 15);
  (chars "push_16"%string, 16);
  (chars "push_17"%string, 17);
  (chars "push_18"%string, 18);
  (chars "push_19"%string, 19);
  (chars "push_20"%string, 20);
  (chars "push_21"%string, 21);
  (chars "push_22"%string, 22);
  (chars "push_23"%string, 23);
  (chars "push_24"%string, 24);
  (chars "push_25"%string, 25);
  (chars "push_26"%string, 26);
  (chars "push_27"%string, 27);
  (chars "push_28"%string, 28);
  (chars "push_29"%string, 29);
  (chars "push_30"%string, 30);
  (chars "push_31"%string, 31);
  (chars "push_32"%string, 32);
  (chars "push_33"%string, 33);
  (chars "push_34"%string, 34);
  (chars "push_35"%string, 35);
  (chars "push_36"%string, 36);
  (chars "push_37"%string, 37);
  (chars "push_38"%string, 38);
  (chars "push_39"%string, 39);
  (chars "push_40"%string, 40);
  (chars "push_41"%string, 41);
  (chars "push_42"%string, 42);
  (chars "push_43"%string, 43);
  (chars "push_44"%string, 44);
  (chars "push_45"%string, 45);
  (chars "push_46"%string, 46);
  (chars "push_47"%string, 47);
  (chars "push_48"%string, 48);
  (chars "push_49"%string, 49);
  (chars "push_50"%string, 50);
  (chars "push_51"%string, 51);
  (chars "push_52"%string, 52);
  (chars "push_53"%string, 53);
  (chars "push_54"%string, 54);
  (chars "push_55"%string, 55);
  (chars "push_56"%string, 56);
  (chars "push_57"%string, 57);
  (chars "push_58"%string, 58);
  (chars "push_59"%string, 59);
  (chars "push_60"%string, 60);
  (chars "push_61"%string, 61);
  (chars "push_62"%string, 62);
  (chars "push_63"%string, 63);
  (chars "push_64"%string, 64);
  (chars "push_65"%string, 65);
  (chars "push_66"%string, 66);
  (chars "push_67"%string, 67);
  (chars "push_68"%string, 68);
  (chars "push_69"%string, 69);
  (chars "push_70"%string, 70);
  (chars "push_71"%string, 71);
  (chars "push_72"%string, 72);
  (chars "push_73"%string, 73);
  (chars "push_74"%string, 74);
  (chars "push_75"%string, 75);
  (chars "push_one"%string, 76);
  (chars "pushdata1"%string, 76);
  (chars "push_two"%string, 77);
  (chars "pushdata2"%string, 77);
  (chars "push_four"%string, 78);
  (chars "pushdata4"%string, 78);
  (chars "-1"%string, 79);
  (chars "reserved_80"%string, 80);
  (chars "reserved"%string, 80);
  (chars "0"%string, 0);
  (chars "1"%string, 81);
  (chars "2"%string, 82);
  (chars "3"%string, 83);
  (chars "4"%string, 84);
  (chars "5"%string, 85);
  (chars "6"%string, 86);
  (chars "7"%string, 87);
  (chars "8"%string, 88);
  (chars "9"%string, 89);
  (chars "10"%string, 90);
  (chars "11"%string, 91);
  (chars "12"%string, 92);
  (chars "13"%string, 93);
  (chars "14"%string, 94);
  (chars "15"%string, 95);
  (chars "16"%string, 96);
  (chars "nop"%string, 97);
  (chars "op_ver"%string, 98);
  (chars "ver"%string, 98);
  (chars "if"%string, 99);
  (chars "notif"%string, 100);
  (chars "op_verif"%string, 101);
  (chars "verif"%string, 101);
  (chars "op_vernotif"%string, 102);
  (chars "vernotif"%string, 102);
  (chars "else"%string, 103);
  (chars "endif"%string, 104);
  (chars "verify"%string, 105);
  (chars "return"%string, 106);
  (chars "toaltstack"%string, 107);
  (chars "fromaltstack"%string, 108);
  (chars "drop2"%string, 109);
  (chars "2drop"%string, 109);
  (chars "dup2"%string, 110);
  (chars "2dup"%string, 110);
  (chars "dup3"%string, 111);
  (chars "3dup"%string, 111);
  (chars "over2"%string, 112);
  (chars "2over"%string, 112);
  (chars "rot2"%string, 113);
  (chars "2rot"%string, 113);
  (chars "swap2"%string, 114);
  (chars "2swap"%string, 114);
  (chars "ifdup"%string, 115);
  (chars "depth"%string, 116);
  (chars "drop"%string, 117);
  (chars "dup"%string, 118);
  (chars "nip"%string, 119);
  (chars "over"%string, 120);
  (chars "pick"%string, 121);
  (chars "roll"%string, 122);
  (chars "rot"%string, 123);
  (chars "swap"%string, 124);
  (chars "tuck"%string, 125);
  (chars "cat"%string, 126);
  (chars "substr"%string, 127);
  (chars "left"%string, 128);
  (chars "right"%string, 129);
  (chars "size"%string, 130);
  (chars "invert"%string, 131);
  (chars "and"%string, 132);
  (chars "or"%string, 133);
  (chars "xor"%string, 134);
  (chars "equal"%string, 135);
  (chars "equalverify"%string, 136);
  (chars "reserved_137"%string, 137);
  (chars "reserved1"%string, 137);
  (chars "reserved_138"%string, 138);
  (chars "reserved2"%string, 138);
  (chars "add1"%string, 139);
  (chars "1add"%string, 139);
  (chars "sub1"%string, 140);
  (chars "1sub"%string, 140);
  (chars "mul2"%string, 141);
  (chars "2mul"%string, 141);
  (chars "div2"%string, 142);
  (chars "2div"%string, 142);
  (chars "negate"%string, 143);
  (chars "abs"%string, 144);
  (chars "not"%string, 145);
  (chars "nonzero"%string, 146);
  (chars "0notequal"%string, 146);
  (chars "add"%string, 147);
  (chars "sub"%string, 148);
  (chars "mul"%string, 149);
  (chars "div"%string, 150);
  (chars "mod"%string, 151);
  (chars "lshift"%string, 152);
  (chars "rshift"%string, 153);
  (chars "booland"%string, 154);
  (chars "boolor"%string, 155);
  (chars "numequal"%string, 156);
  (chars "numequalverify"%string, 157);
  (chars "numnotequal"%string, 158);
  (chars "lessthan"%string, 159);
  (chars "greaterthan"%string, 160);
  (chars "lessthanorequal"%string, 161);
  (chars "greaterthanorequal"%string, 162);
  (chars "min"%string, 163);
  (chars "max"%string, 164);
  (chars "within"%string, 165);
  (chars "ripemd160"%string, 166);
  (chars "sha1"%string, 167);
  (chars "sha256"%string, 168);
  (chars "hash160"%string, 169);
  (chars "hash256"%string, 170);
  (chars "codeseparator"%string, 171);
  (chars "checksig"%string, 172);
  (chars "checksigverify"%string, 173);
  (chars "checkmultisig"%string, 174);
  (chars "checkmultisigverify"%string, 175);
  (chars "nop1"%string, 176);
  (chars "checklocktimeverify"%string, 177);
  (chars "nop2"%string, 177);
  (chars "checksequenceverify"%string, 178);
  (chars "nop3"%string, 178);
  (chars "nop4"%string, 179);
  (chars "nop5"%string, 180);
  (chars "nop6"%string, 181);
  (chars "nop7"%string, 182);
  (chars "nop8"%string, 183);
  (chars "nop9"%string, 184);
  (chars "nop10"%string, 185);
  (chars "checksigadd"%string, 186);
  (chars "reserved_186"%string, 186);
  (chars "reserved_186"%string, 186);
  (chars "reserved_187"%string, 187);
  (chars "reserved_188"%string, 188);
  (chars "reserved_189"%string, 189);
  (chars "reserved_190"%string, 190);
  (chars "reserved_191"%string, 191);
  (chars "reserved_192"%string, 192);
  (chars "reserved_193"%string, 193);
  (chars "reserved_194"%string, 194);
  (chars "reserved_195"%string, 195);
  (chars "reserved_196"%string, 196);
  (chars "reserved_197"%string, 197);
  (chars "reserved_198"%string, 198);
  (chars "reserved_199"%string, 199);
  (chars "reserved_200"%string, 200);
  (chars "reserved_201"%string, 201);
  (chars "reserved_202"%string, 202);
  (chars "reserved_203"%string, 203);
  (chars "reserved_204"%string, 204);
  (chars "reserved_205"%string, 205);
  (chars "reserved_206"%string, 206);
  (chars "reserved_207"%string, 207);
  (chars "reserved_208"%string, 208);
  (chars "reserved_209"%string, 209);
  (chars "reserved_210"%string, 210);
  (chars "reserved_211"%string, 211);
  (chars "reserved_212"%string, 212);
  (chars "reserved_213"%string, 213);
  (chars "reserved_214"%string, 214);
  (chars "reserved_215"%string, 215);
  (chars "reserved_216"%string, 216);
  (chars "reserved_217"%string, 217);
  (chars "reserved_218"%string, 218);
  (chars "reserved_219"%string, 219);
  (chars "reserved_220"%string, 220);
  (chars "reserved_221"%string, 221);
  (chars "reserved_222"%string, 222);
  (chars "reserved_223"%string, 223);
  (chars "reserved_224"%string, 224);
  (chars "reserved_225"%string, 225);
  (chars "reserved_226"%string, 226);
  (chars "reserved_227"%string, 227);
  (chars "reserved_228"%string, 228);
  (chars "reserved_229"%string, 229);
  (chars "reserved_230"%string, 230);
  (chars "reserved_231"%string, 231);
  (chars "reserved_232"%string, 232);
  (chars "reserved_233"%string, 233);
  (chars "reserved_234"%string, 234);
  (chars "reserved_235"%string, 235);
  (chars "reserved_236"%string, 236);
  (chars "reserved_237"%string, 237);
  (chars "reserved_238"%string, 238);
  (chars "reserved_239"%string, 239);
  (chars "reserved_240"%string, 240);
  (chars "reserved_241"%string, 241);
  (chars "reserved_242"%string, 242);
  (chars "reserved_243"%string, 243);
  (chars "reserved_244"%string, 244);
  (chars "reserved_245"%string, 245);
  (chars "reserved_246"%string, 246);
  (chars "reserved_247"%string, 247);
  (chars "reserved_248"%string, 248);
  (chars "reserved_249"%string, 249);
  (chars "reserved_250"%string, 250);
  (chars "reserved_251"%string, 251);
  (chars "reserved_252"%string, 252);
  (chars "reserved_253"%string, 253);
  (chars "reserved_254"%string, 254);
  (chars "reserved_255"%string, 255)].
