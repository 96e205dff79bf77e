(** Simulation: dispatch over all 256 opcodes, the loop, and the whole run. *)
From Verif Require Import Base Bytes MathModel MathSpec MathProofs NumberModel NumberSpec NumberProofs NumberProps OpModel OpSpec
  OpProofs OpProofs3 OpProps InterpEnv InterpModel InterpSpec InterpElem InterpSim InterpSim2 InterpSim3 SubscriptProofs.

Lemma code_in c : 79 <= c < 256 -> In c (map (fun n => 79 + Z.of_nat n) (seq 0 177)).
Proof. intros H. apply in_map_iff. exists (Z.to_nat (c - 79)). split; [lia|]. apply in_seq. lia. Qed.

Section Sim4.
Variable e : env.
Hypothesis K : ctx_ok e.
Hypothesis W : Forall op_wf (escript e).
Hypothesis Len : Z.of_nat (length (escript e)) < 2 ^ 32.
Notation R := (R e).
Notation sim := (sim e).

Lemma sim_hash_word c h s r : hash_ok h ->
  (forall t, hash_word e c t = match t with a :: u => Some (h a :: u) | [] => None end) ->
  R s r -> sim (op_hash h s) (lift (hash_word e c) r).
Proof.
  intros Hh Hw H. pose proof (sim_hash e h s r Hh H) as S. unfold lift. rewrite Hw. destruct (stk r); exact S.
Qed.
Lemma sim_number n s r : -1 <= n <= 16 -> R s r -> sim (op_push_number n s) (Some (with_stk (script_num n :: stk r) r)).
Proof.
  intros Hn H. apply sim_ok. apply R_set_prim; [exact H|]. constructor; [apply elem_small; lia|apply (R_prim _ _ _ H)].
Qed.
Lemma sim_ruled rl c s (r : rst) : sim (ret (ruled e rl c) s) None.
Proof. apply sim_fail. unfold ruled, op_unevaluated. destruct (enabled e rl); [destruct (is_invalid_op c)|]; discriminate. Qed.
Lemma sim_uneval c s : sim (ret (op_unevaluated c) s) None.
Proof. apply sim_fail. unfold op_unevaluated. destruct (is_invalid_op c); discriminate. Qed.
Lemma sim_codesep position s r rest : R s r -> (position < length (escript e))%nat -> ops_to_data (skipn (S position) (escript e)) = rest ->
  sim (op_codeseparator position s) (Some (with_code rest (Z.of_nat position) r)).
Proof.
  intros H L E. apply sim_ok. destruct H as [A1 A2 A3 A4 A5 A6 A7 A8]. constructor; try assumption.
  - unfold subscript_v1. cbn [fst snd offset set_offset sep_pos with_code]. destruct (escript e) as [|o l]; [cbn in L; lia|].
    change (wrap u32 (Z.of_nat position) = Z.of_nat position). apply wrap_fits; [reflexivity|]. unfold fits, imin, imax. cbn [sg u32 bits] in *. lia.
  - intros _ f h X. discriminate X.
Qed.
Lemma sim_push er o s r : op_wf o -> code o <= 78 -> code o <> 0 -> len (data o) <= 520 -> R s r ->
  sim (op_push er o s) (Some (with_stk (data o :: stk r) r)).
Proof.
  intros (U & Hc & Hd & Hs) C N L H. unfold op_push.
  assert (is_underclaimed o = false) as ->.
  { unfold is_underclaimed, opcode_to_maximum_size, push_one_size, push_two_size, push_four_size, push_size_75. unfold max_bytes in Hs.
    destruct (code o =? 76); [lia|]. destruct (code o =? 77); [lia|]. destruct (code o =? 78); [lia|]. rewrite <- Hs. lia. }
  apply sim_ok. apply R_set_prim; [exact H|]. constructor; [apply elem_vchunk; assumption|apply (R_prim _ _ _ H)].
Qed.

Lemma run_op_sim position o rest s r :
  op_wf o -> (position < length (escript e))%nat -> ops_to_data (skipn (S position) (escript e)) = rest ->
  len (data o) <= 520 -> len (prim s) <= 2 ^ 62 -> R s r ->
  sim (run_op e position o s) (exec e false (code o) (data o) rest (Z.of_nat position) r).
Proof.
  intros Ho HN HR Hd L H. pose proof Ho as (Hu & Hc & _ & Hs). unfold byte_ok in Hc.
  destruct (Z.le_gt_cases (code o) 78) as [C|C].
  - unfold run_op, exec. destruct (Z.leb_spec (code o) 78); [|lia].
    destruct (Z.eqb_spec (code o) 0) as [E|E].
    + rewrite E in Hs. cbn in Hs. apply len_zero in Hs. rewrite Hs. apply (sim_number 0); [lia|exact H].
    + destruct (Z.leb_spec 1 (code o)), (Z.leb_spec (code o) 75); try lia; cbn [andb]; try (apply sim_push; assumption).
      destruct (Z.eqb_spec (code o) 76); [apply sim_push; assumption|]. destruct (Z.eqb_spec (code o) 77); [apply sim_push; assumption|].
      destruct (Z.eqb_spec (code o) 78); [apply sim_push; assumption|]. lia.
  - destruct o as [c d u]. cbn [code data underflow] in *. clear Ho Hu Hs Hd.
    assert (I : In c (map (fun n => 79 + Z.of_nat n) (seq 0 177))) by (apply code_in; lia). clear Hc C.
    cbn in I.
    repeat (destruct I as [I|I]; [subst c|]); [..|contradiction].
    + exact (sim_number (-1) s r ltac:(lia) H). (* 79 *)
    + exact (sim_uneval 80 s). (* 80 *)
    + exact (sim_number (1) s r ltac:(lia) H). (* 81 *)
    + exact (sim_number (2) s r ltac:(lia) H). (* 82 *)
    + exact (sim_number (3) s r ltac:(lia) H). (* 83 *)
    + exact (sim_number (4) s r ltac:(lia) H). (* 84 *)
    + exact (sim_number (5) s r ltac:(lia) H). (* 85 *)
    + exact (sim_number (6) s r ltac:(lia) H). (* 86 *)
    + exact (sim_number (7) s r ltac:(lia) H). (* 87 *)
    + exact (sim_number (8) s r ltac:(lia) H). (* 88 *)
    + exact (sim_number (9) s r ltac:(lia) H). (* 89 *)
    + exact (sim_number (10) s r ltac:(lia) H). (* 90 *)
    + exact (sim_number (11) s r ltac:(lia) H). (* 91 *)
    + exact (sim_number (12) s r ltac:(lia) H). (* 92 *)
    + exact (sim_number (13) s r ltac:(lia) H). (* 93 *)
    + exact (sim_number (14) s r ltac:(lia) H). (* 94 *)
    + exact (sim_number (15) s r ltac:(lia) H). (* 95 *)
    + exact (sim_number (16) s r ltac:(lia) H). (* 96 *)
    + exact (sim_ok e s r H). (* 97 *)
    + exact (sim_ruled nops_rule 98 s r). (* 98 *)
    + exact (sim_branch e false s r H). (* 99 *)
    + exact (sim_branch e true s r H). (* 100 *)
    + exact (sim_ruled nops_rule 101 s r). (* 101 *)
    + exact (sim_ruled nops_rule 102 s r). (* 102 *)
    + exact (sim_else e s r H). (* 103 *)
    + exact (sim_endif e s r H). (* 104 *)
    + exact (sim_verify e s r H). (* 105 *)
    + exact (sim_ruled nops_rule 106 s r). (* 106 *)
    + exact (sim_to_alt e s r H). (* 107 *)
    + exact (sim_from_alt e s r H). (* 108 *)
    + exact (sim_drop2 e s r H). (* 109 *)
    + exact (sim_dup2 e s r H). (* 110 *)
    + exact (sim_dup3 e s r H). (* 111 *)
    + exact (sim_over2 e s r H). (* 112 *)
    + exact (sim_rot2 e s r H). (* 113 *)
    + exact (sim_swap2 e s r H). (* 114 *)
    + exact (sim_if_dup e s r H). (* 115 *)
    + exact (sim_depth e s r H L). (* 116 *)
    + exact (sim_drop e s r H). (* 117 *)
    + exact (sim_dup e s r H). (* 118 *)
    + exact (sim_nip e s r H). (* 119 *)
    + exact (sim_over e s r H). (* 120 *)
    + exact (sim_pick e s r H L). (* 121 *)
    + exact (sim_roll e s r H L). (* 122 *)
    + exact (sim_rot e s r H). (* 123 *)
    + exact (sim_swap e s r H). (* 124 *)
    + exact (sim_tuck e s r H). (* 125 *)
    + exact (sim_ruled cats_rule 126 s r). (* 126 *)
    + exact (sim_ruled cats_rule 127 s r). (* 127 *)
    + exact (sim_ruled cats_rule 128 s r). (* 128 *)
    + exact (sim_ruled cats_rule 129 s r). (* 129 *)
    + exact (sim_size e s r H). (* 130 *)
    + exact (sim_ruled cats_rule 131 s r). (* 131 *)
    + exact (sim_ruled cats_rule 132 s r). (* 132 *)
    + exact (sim_ruled cats_rule 133 s r). (* 133 *)
    + exact (sim_ruled cats_rule 134 s r). (* 134 *)
    + exact (sim_equal e s r H). (* 135 *)
    + exact (sim_equal_verify e s r H). (* 136 *)
    + exact (sim_uneval 137 s). (* 137 *)
    + exact (sim_uneval 138 s). (* 138 *)
    + exact (sim_unary e 139 UAdd1 s r eq_refl H). (* 139 *)
    + exact (sim_unary e 140 USub1 s r eq_refl H). (* 140 *)
    + exact (sim_ruled cats_rule 141 s r). (* 141 *)
    + exact (sim_ruled cats_rule 142 s r). (* 142 *)
    + exact (sim_unary e 143 UNegate s r eq_refl H). (* 143 *)
    + exact (sim_unary e 144 UAbs s r eq_refl H). (* 144 *)
    + exact (sim_unary e 145 UNot s r eq_refl H). (* 145 *)
    + exact (sim_unary e 146 UNonzero s r eq_refl H). (* 146 *)
    + exact (sim_binary e 147 BAdd s r eq_refl H). (* 147 *)
    + exact (sim_binary e 148 BSub s r eq_refl H). (* 148 *)
    + exact (sim_ruled cats_rule 149 s r). (* 149 *)
    + exact (sim_ruled cats_rule 150 s r). (* 150 *)
    + exact (sim_ruled cats_rule 151 s r). (* 151 *)
    + exact (sim_ruled cats_rule 152 s r). (* 152 *)
    + exact (sim_ruled cats_rule 153 s r). (* 153 *)
    + exact (sim_binary e 154 BAnd s r eq_refl H). (* 154 *)
    + exact (sim_binary e 155 BOr s r eq_refl H). (* 155 *)
    + exact (sim_binary e 156 BEq s r eq_refl H). (* 156 *)
    + exact (sim_num_equal_verify e s r H). (* 157 *)
    + exact (sim_binary e 158 BNe s r eq_refl H). (* 158 *)
    + exact (sim_binary e 159 BLt s r eq_refl H). (* 159 *)
    + exact (sim_binary e 160 BGt s r eq_refl H). (* 160 *)
    + exact (sim_binary e 161 BLe s r eq_refl H). (* 161 *)
    + exact (sim_binary e 162 BGe s r eq_refl H). (* 162 *)
    + exact (sim_binary e 163 BMin s r eq_refl H). (* 163 *)
    + exact (sim_binary e 164 BMax s r eq_refl H). (* 164 *)
    + exact (sim_within e s r H). (* 165 *)
    + exact (sim_hash_word 166 (h_ripemd160 e) s r ltac:(apply K) ltac:(intros [|a t]; reflexivity) H). (* 166 *)
    + exact (sim_hash_word 167 (h_sha1 e) s r ltac:(apply K) ltac:(intros [|a t]; reflexivity) H). (* 167 *)
    + exact (sim_hash_word 168 (h_sha256 e) s r ltac:(apply K) ltac:(intros [|a t]; reflexivity) H). (* 168 *)
    + exact (sim_hash_word 169 (h_hash160 e) s r ltac:(apply K) ltac:(intros [|a t]; reflexivity) H). (* 169 *)
    + exact (sim_hash_word 170 (h_hash256 e) s r ltac:(apply K) ltac:(intros [|a t]; reflexivity) H). (* 170 *)
    + exact (sim_codesep position s r rest H HN HR). (* 171 *)
    + exact (sim_check_sig e K W s r H). (* 172 *)
    + exact (sim_check_sig_verify e K W s r H). (* 173 *)
    + exact (sim_check_multisig e W s r H). (* 174 *)
    + exact (sim_check_multisig_verify e W s r H). (* 175 *)
    + exact (sim_ok e s r H). (* 176 *)
    + exact (sim_cltv e s r H). (* 177 *)
    + exact (sim_csv e K s r H). (* 178 *)
    + exact (sim_ok e s r H). (* 179 *)
    + exact (sim_ok e s r H). (* 180 *)
    + exact (sim_ok e s r H). (* 181 *)
    + exact (sim_ok e s r H). (* 182 *)
    + exact (sim_ok e s r H). (* 183 *)
    + exact (sim_ok e s r H). (* 184 *)
    + exact (sim_ok e s r H). (* 185 *)
    + exact (sim_check_sig_add e K s r H). (* 186 *)
    + exact (sim_uneval 187 s). (* 187 *)
    + exact (sim_uneval 188 s). (* 188 *)
    + exact (sim_uneval 189 s). (* 189 *)
    + exact (sim_uneval 190 s). (* 190 *)
    + exact (sim_uneval 191 s). (* 191 *)
    + exact (sim_uneval 192 s). (* 192 *)
    + exact (sim_uneval 193 s). (* 193 *)
    + exact (sim_uneval 194 s). (* 194 *)
    + exact (sim_uneval 195 s). (* 195 *)
    + exact (sim_uneval 196 s). (* 196 *)
    + exact (sim_uneval 197 s). (* 197 *)
    + exact (sim_uneval 198 s). (* 198 *)
    + exact (sim_uneval 199 s). (* 199 *)
    + exact (sim_uneval 200 s). (* 200 *)
    + exact (sim_uneval 201 s). (* 201 *)
    + exact (sim_uneval 202 s). (* 202 *)
    + exact (sim_uneval 203 s). (* 203 *)
    + exact (sim_uneval 204 s). (* 204 *)
    + exact (sim_uneval 205 s). (* 205 *)
    + exact (sim_uneval 206 s). (* 206 *)
    + exact (sim_uneval 207 s). (* 207 *)
    + exact (sim_uneval 208 s). (* 208 *)
    + exact (sim_uneval 209 s). (* 209 *)
    + exact (sim_uneval 210 s). (* 210 *)
    + exact (sim_uneval 211 s). (* 211 *)
    + exact (sim_uneval 212 s). (* 212 *)
    + exact (sim_uneval 213 s). (* 213 *)
    + exact (sim_uneval 214 s). (* 214 *)
    + exact (sim_uneval 215 s). (* 215 *)
    + exact (sim_uneval 216 s). (* 216 *)
    + exact (sim_uneval 217 s). (* 217 *)
    + exact (sim_uneval 218 s). (* 218 *)
    + exact (sim_uneval 219 s). (* 219 *)
    + exact (sim_uneval 220 s). (* 220 *)
    + exact (sim_uneval 221 s). (* 221 *)
    + exact (sim_uneval 222 s). (* 222 *)
    + exact (sim_uneval 223 s). (* 223 *)
    + exact (sim_uneval 224 s). (* 224 *)
    + exact (sim_uneval 225 s). (* 225 *)
    + exact (sim_uneval 226 s). (* 226 *)
    + exact (sim_uneval 227 s). (* 227 *)
    + exact (sim_uneval 228 s). (* 228 *)
    + exact (sim_uneval 229 s). (* 229 *)
    + exact (sim_uneval 230 s). (* 230 *)
    + exact (sim_uneval 231 s). (* 231 *)
    + exact (sim_uneval 232 s). (* 232 *)
    + exact (sim_uneval 233 s). (* 233 *)
    + exact (sim_uneval 234 s). (* 234 *)
    + exact (sim_uneval 235 s). (* 235 *)
    + exact (sim_uneval 236 s). (* 236 *)
    + exact (sim_uneval 237 s). (* 237 *)
    + exact (sim_uneval 238 s). (* 238 *)
    + exact (sim_uneval 239 s). (* 239 *)
    + exact (sim_uneval 240 s). (* 240 *)
    + exact (sim_uneval 241 s). (* 241 *)
    + exact (sim_uneval 242 s). (* 242 *)
    + exact (sim_uneval 243 s). (* 243 *)
    + exact (sim_uneval 244 s). (* 244 *)
    + exact (sim_uneval 245 s). (* 245 *)
    + exact (sim_uneval 246 s). (* 246 *)
    + exact (sim_uneval 247 s). (* 247 *)
    + exact (sim_uneval 248 s). (* 248 *)
    + exact (sim_uneval 249 s). (* 249 *)
    + exact (sim_uneval 250 s). (* 250 *)
    + exact (sim_uneval 251 s). (* 251 *)
    + exact (sim_uneval 252 s). (* 252 *)
    + exact (sim_uneval 253 s). (* 253 *)
    + exact (sim_uneval 254 s). (* 254 *)
    + exact (sim_uneval 255 s). (* 255 *)
Qed.
End Sim4.
