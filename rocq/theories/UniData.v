(** The Unicode tables, generated from /repo/src/unicode/unicode_tables.cpp:33-5868 and
    /repo/src/unicode/code_points.cpp:417-3400 by copying the numbers; a table is written as
    runs (value, count) where the source repeats a value. *)
From Coq Require Import ZArith List.
Import ListNotations.
Open Scope Z_scope.
(** unicode_tables.cpp:33 decomposition_pool, items 0-499 *)
Definition decomposition_pool_data_0 : list Z := [
0;2164260864;32;2181038080;32;776;2164260864;97;2181038080;32;772;2164260864;50;2164260864;51;2181038080;32;769;2164260864;956;2181038080;32;807;2164260864;49;2164260864;111;2197815296;49;8260;52;2197815296;49;8260;50;2197815296;51;8260;52;33554432;65;768;33554432;65;769;33554432;65;770;33554432;65;771;33554432;65;776;33554432;65;778;33554432;67;807;33554432;69;768;33554432;69;769;33554432;69;770;33554432;69;776;33554432;73;768;33554432;73;769;33554432;73;770;33554432;73;776;33554432;78;771;33554432;79;768;33554432;79;769;33554432;79;770;33554432;79;771;33554432;79;776;33554432;85;768;33554432;85;769;33554432;85;770;33554432;85;776;33554432;89;769;33554432;97;768;33554432;97;769;33554432;97;770;33554432;97;771;33554432;97;776;33554432;97;778;33554432;99;807;33554432;101;768;33554432;101;769;33554432;101;770;33554432;101;776;33554432;105;768;33554432;105;769;33554432;105;770;33554432;105;776;33554432;110;771;33554432;111;768;33554432;111;769;33554432;111;770;33554432;111;771;33554432;111;776;33554432;117;768;33554432;117;769;33554432;117;770;33554432;117;776;33554432;121;769;33554432;121;776;33554432;65;772;33554432;97;772;33554432;65;774;33554432;97;774;33554432;65;808;33554432;97;808;33554432;67;769;33554432;99;769;33554432;67;770;33554432;99;770;33554432;67;775;33554432;99;775;33554432;67;780;33554432;99;780;33554432;68;780;33554432;100;780;33554432;69;772;33554432;101;772;33554432;69;774;33554432;101;774;33554432;69;775;33554432;101;775;33554432;69;808;33554432;101;808;33554432;69;780;33554432;101;780;33554432;71;770;33554432;103;770;33554432;71;774;33554432;103;774;33554432;71;775;33554432;103;775;33554432;71;807;33554432;103;807;33554432;72;770;33554432;104;770;33554432;73;771;33554432;105;771;33554432;73;772;33554432;105;772;33554432;73;774;33554432;105;774;33554432;73;808;33554432;105;808;33554432;73;775;2181038080;73;74;2181038080;105;106;33554432;74;770;33554432;106;770;33554432;75;807;33554432;107;807;33554432;76;769;33554432;108;769;33554432;76;807;33554432;108;807;33554432;76;780;33554432;108;780;2181038080;76;183;2181038080;108;183;33554432;78;769;33554432;110;769;33554432;78;807;33554432;110;807;33554432;78;780;33554432;110;780;2181038080;700;110;33554432;79;772;33554432;111;772;33554432;79;774;33554432;111;774;33554432;79;779;33554432;111;779;33554432;82;769;33554432;114;769;33554432;82;807;33554432;114;807;33554432;82;780;33554432;114;780;33554432;83;769;33554432;115;769;33554432;83;770;33554432;115;770;33554432;83;807;33554432;115;807;33554432;83;780;33554432;115;780;33554432;84;807;33554432;116;807;33554432;84;780;33554432;116;780;33554432;85;771;33554432;117;771;33554432;85;772;33554432;117;772;33554432;85;774;33554432;117;774;33554432;85;778;33554432;117;778;33554432;85;779;33554432;117;779;33554432;85].
(** unicode_tables.cpp:33 decomposition_pool, items 500-999 *)
Definition decomposition_pool_data_1 : list Z := [
808;33554432;117;808;33554432;87;770;33554432;119;770;33554432;89;770;33554432;121;770;33554432;89;776;33554432;90;769;33554432;122;769;33554432;90;775;33554432;122;775;33554432;90;780;33554432;122;780;2164260864;115;33554432;79;795;33554432;111;795;33554432;85;795;33554432;117;795;2181038080;68;381;2181038080;68;382;2181038080;100;382;2181038080;76;74;2181038080;76;106;2181038080;108;106;2181038080;78;74;2181038080;78;106;2181038080;110;106;33554432;65;780;33554432;97;780;33554432;73;780;33554432;105;780;33554432;79;780;33554432;111;780;33554432;85;780;33554432;117;780;33554432;220;772;33554432;252;772;33554432;220;769;33554432;252;769;33554432;220;780;33554432;252;780;33554432;220;768;33554432;252;768;33554432;196;772;33554432;228;772;33554432;550;772;33554432;551;772;33554432;198;772;33554432;230;772;33554432;71;780;33554432;103;780;33554432;75;780;33554432;107;780;33554432;79;808;33554432;111;808;33554432;490;772;33554432;491;772;33554432;439;780;33554432;658;780;33554432;106;780;2181038080;68;90;2181038080;68;122;2181038080;100;122;33554432;71;769;33554432;103;769;33554432;78;768;33554432;110;768;33554432;197;769;33554432;229;769;33554432;198;769;33554432;230;769;33554432;216;769;33554432;248;769;33554432;65;783;33554432;97;783;33554432;65;785;33554432;97;785;33554432;69;783;33554432;101;783;33554432;69;785;33554432;101;785;33554432;73;783;33554432;105;783;33554432;73;785;33554432;105;785;33554432;79;783;33554432;111;783;33554432;79;785;33554432;111;785;33554432;82;783;33554432;114;783;33554432;82;785;33554432;114;785;33554432;85;783;33554432;117;783;33554432;85;785;33554432;117;785;33554432;83;806;33554432;115;806;33554432;84;806;33554432;116;806;33554432;72;780;33554432;104;780;33554432;65;775;33554432;97;775;33554432;69;807;33554432;101;807;33554432;214;772;33554432;246;772;33554432;213;772;33554432;245;772;33554432;79;775;33554432;111;775;33554432;558;772;33554432;559;772;33554432;89;772;33554432;121;772;2164260864;104;2164260864;614;2164260864;106;2164260864;114;2164260864;633;2164260864;635;2164260864;641;2164260864;119;2164260864;121;2181038080;32;774;2181038080;32;775;2181038080;32;778;2181038080;32;808;2181038080;32;771;2181038080;32;779;2164260864;611;2164260864;108;2164260864;120;2164260864;661;16777216;768;16777216;769;16777216;787;33554432;776;769;16777216;697;2181038080;32;837;16777216;59;33554432;168;769;33554432;913;769;16777216;183;33554432;917;769;33554432;919;769;33554432;921;769;33554432;927;769;33554432;933;769;33554432;937;769;33554432;970;769;33554432;921;776;33554432;933;776;33554432;945;769;33554432;949;769;33554432;951;769;33554432;953;769;33554432;971;769;33554432;953;776;33554432;965;776;33554432;959;769;33554432;965;769;33554432;969;769;2164260864;946;2164260864;952;2164260864;933;33554432;978;769;33554432;978;776;2164260864;966;2164260864;960;2164260864;954;2164260864;961;2164260864;962;2164260864;920;2164260864;949;2164260864].
(** unicode_tables.cpp:33 decomposition_pool, items 1000-1499 *)
Definition decomposition_pool_data_2 : list Z := [
931;33554432;1045;768;33554432;1045;776;33554432;1043;769;33554432;1030;776;33554432;1050;769;33554432;1048;768;33554432;1059;774;33554432;1048;774;33554432;1080;774;33554432;1077;768;33554432;1077;776;33554432;1075;769;33554432;1110;776;33554432;1082;769;33554432;1080;768;33554432;1091;774;33554432;1140;783;33554432;1141;783;33554432;1046;774;33554432;1078;774;33554432;1040;774;33554432;1072;774;33554432;1040;776;33554432;1072;776;33554432;1045;774;33554432;1077;774;33554432;1240;776;33554432;1241;776;33554432;1046;776;33554432;1078;776;33554432;1047;776;33554432;1079;776;33554432;1048;772;33554432;1080;772;33554432;1048;776;33554432;1080;776;33554432;1054;776;33554432;1086;776;33554432;1256;776;33554432;1257;776;33554432;1069;776;33554432;1101;776;33554432;1059;772;33554432;1091;772;33554432;1059;776;33554432;1091;776;33554432;1059;779;33554432;1091;779;33554432;1063;776;33554432;1095;776;33554432;1067;776;33554432;1099;776;2181038080;1381;1410;33554432;1575;1619;33554432;1575;1620;33554432;1608;1620;33554432;1575;1621;33554432;1610;1620;2181038080;1575;1652;2181038080;1608;1652;2181038080;1735;1652;2181038080;1610;1652;33554432;1749;1620;33554432;1729;1620;33554432;1746;1620;33554432;2344;2364;33554432;2352;2364;33554432;2355;2364;33554432;2325;2364;33554432;2326;2364;33554432;2327;2364;33554432;2332;2364;33554432;2337;2364;33554432;2338;2364;33554432;2347;2364;33554432;2351;2364;33554432;2503;2494;33554432;2503;2519;33554432;2465;2492;33554432;2466;2492;33554432;2479;2492;33554432;2610;2620;33554432;2616;2620;33554432;2582;2620;33554432;2583;2620;33554432;2588;2620;33554432;2603;2620;33554432;2887;2902;33554432;2887;2878;33554432;2887;2903;33554432;2849;2876;33554432;2850;2876;33554432;2962;3031;33554432;3014;3006;33554432;3015;3006;33554432;3014;3031;33554432;3142;3158;33554432;3263;3285;33554432;3270;3285;33554432;3270;3286;33554432;3270;3266;33554432;3274;3285;33554432;3398;3390;33554432;3399;3390;33554432;3398;3415;33554432;3545;3530;33554432;3545;3535;33554432;3548;3530;33554432;3545;3551;2181038080;3661;3634;2181038080;3789;3762;2181038080;3755;3737;2181038080;3755;3745;2164260864;3851;33554432;3906;4023;33554432;3916;4023;33554432;3921;4023;33554432;3926;4023;33554432;3931;4023;33554432;3904;4021;33554432;3953;3954;33554432;3953;3956;33554432;4018;3968;2181038080;4018;3969;33554432;4019;3968;2181038080;4019;3969;33554432;3953;3968;33554432;3986;4023;33554432;3996;4023;33554432;4001;4023;33554432;4006;4023;33554432;4011;4023;33554432;3984;4021;33554432;4133;4142;2164260864;4316;33554432;6917;6965;33554432;6919;6965;33554432;6921;6965;33554432;6923;6965;33554432;6925;6965;33554432;6929;6965;33554432;6970;6965;33554432;6972;6965;33554432;6974;6965;33554432;6975;6965;33554432;6978;6965;2164260864;65;2164260864;198;2164260864;66;2164260864;68;2164260864;69;2164260864;398;2164260864;71;2164260864;72;2164260864;73;2164260864;74;2164260864;75;2164260864;76;2164260864;77;2164260864;78;2164260864;79;2164260864;546;2164260864;80;2164260864;82;2164260864;84;2164260864;85;2164260864;87;2164260864;592;2164260864;593;2164260864;7426;2164260864;98;2164260864;100;2164260864;101;2164260864;601;2164260864;603;2164260864;604;2164260864;103;2164260864].
(** unicode_tables.cpp:33 decomposition_pool, items 1500-1999 *)
Definition decomposition_pool_data_3 : list Z := [
107;2164260864;109;2164260864;331;2164260864;596;2164260864;7446;2164260864;7447;2164260864;112;2164260864;116;2164260864;117;2164260864;7453;2164260864;623;2164260864;118;2164260864;7461;2164260864;947;2164260864;948;2164260864;967;2164260864;105;2164260864;1085;2164260864;594;2164260864;99;2164260864;597;2164260864;240;2164260864;102;2164260864;607;2164260864;609;2164260864;613;2164260864;616;2164260864;617;2164260864;618;2164260864;7547;2164260864;669;2164260864;621;2164260864;7557;2164260864;671;2164260864;625;2164260864;624;2164260864;626;2164260864;627;2164260864;628;2164260864;629;2164260864;632;2164260864;642;2164260864;643;2164260864;427;2164260864;649;2164260864;650;2164260864;7452;2164260864;651;2164260864;652;2164260864;122;2164260864;656;2164260864;657;2164260864;658;33554432;65;805;33554432;97;805;33554432;66;775;33554432;98;775;33554432;66;803;33554432;98;803;33554432;66;817;33554432;98;817;33554432;199;769;33554432;231;769;33554432;68;775;33554432;100;775;33554432;68;803;33554432;100;803;33554432;68;817;33554432;100;817;33554432;68;807;33554432;100;807;33554432;68;813;33554432;100;813;33554432;274;768;33554432;275;768;33554432;274;769;33554432;275;769;33554432;69;813;33554432;101;813;33554432;69;816;33554432;101;816;33554432;552;774;33554432;553;774;33554432;70;775;33554432;102;775;33554432;71;772;33554432;103;772;33554432;72;775;33554432;104;775;33554432;72;803;33554432;104;803;33554432;72;776;33554432;104;776;33554432;72;807;33554432;104;807;33554432;72;814;33554432;104;814;33554432;73;816;33554432;105;816;33554432;207;769;33554432;239;769;33554432;75;769;33554432;107;769;33554432;75;803;33554432;107;803;33554432;75;817;33554432;107;817;33554432;76;803;33554432;108;803;33554432;7734;772;33554432;7735;772;33554432;76;817;33554432;108;817;33554432;76;813;33554432;108;813;33554432;77;769;33554432;109;769;33554432;77;775;33554432;109;775;33554432;77;803;33554432;109;803;33554432;78;775;33554432;110;775;33554432;78;803;33554432;110;803;33554432;78;817;33554432;110;817;33554432;78;813;33554432;110;813;33554432;213;769;33554432;245;769;33554432;213;776;33554432;245;776;33554432;332;768;33554432;333;768;33554432;332;769;33554432;333;769;33554432;80;769;33554432;112;769;33554432;80;775;33554432;112;775;33554432;82;775;33554432;114;775;33554432;82;803;33554432;114;803;33554432;7770;772;33554432;7771;772;33554432;82;817;33554432;114;817;33554432;83;775;33554432;115;775;33554432;83;803;33554432;115;803;33554432;346;775;33554432;347;775;33554432;352;775;33554432;353;775;33554432;7778;775;33554432;7779;775;33554432;84;775;33554432;116;775;33554432;84;803;33554432;116;803;33554432;84;817;33554432;116;817;33554432;84;813;33554432;116;813;33554432;85;804;33554432;117;804;33554432;85;816;33554432;117;816;33554432;85;813;33554432;117;813;33554432;360;769;33554432;361;769;33554432;362;776;33554432;363;776;33554432;86;771;33554432;118;771;33554432;86;803;33554432;118;803;33554432;87;768;33554432;119;768;33554432;87;769;33554432;119].
(** unicode_tables.cpp:33 decomposition_pool, items 2000-2499 *)
Definition decomposition_pool_data_4 : list Z := [
769;33554432;87;776;33554432;119;776;33554432;87;775;33554432;119;775;33554432;87;803;33554432;119;803;33554432;88;775;33554432;120;775;33554432;88;776;33554432;120;776;33554432;89;775;33554432;121;775;33554432;90;770;33554432;122;770;33554432;90;803;33554432;122;803;33554432;90;817;33554432;122;817;33554432;104;817;33554432;116;776;33554432;119;778;33554432;121;778;2181038080;97;702;33554432;383;775;33554432;65;803;33554432;97;803;33554432;65;777;33554432;97;777;33554432;194;769;33554432;226;769;33554432;194;768;33554432;226;768;33554432;194;777;33554432;226;777;33554432;194;771;33554432;226;771;33554432;7840;770;33554432;7841;770;33554432;258;769;33554432;259;769;33554432;258;768;33554432;259;768;33554432;258;777;33554432;259;777;33554432;258;771;33554432;259;771;33554432;7840;774;33554432;7841;774;33554432;69;803;33554432;101;803;33554432;69;777;33554432;101;777;33554432;69;771;33554432;101;771;33554432;202;769;33554432;234;769;33554432;202;768;33554432;234;768;33554432;202;777;33554432;234;777;33554432;202;771;33554432;234;771;33554432;7864;770;33554432;7865;770;33554432;73;777;33554432;105;777;33554432;73;803;33554432;105;803;33554432;79;803;33554432;111;803;33554432;79;777;33554432;111;777;33554432;212;769;33554432;244;769;33554432;212;768;33554432;244;768;33554432;212;777;33554432;244;777;33554432;212;771;33554432;244;771;33554432;7884;770;33554432;7885;770;33554432;416;769;33554432;417;769;33554432;416;768;33554432;417;768;33554432;416;777;33554432;417;777;33554432;416;771;33554432;417;771;33554432;416;803;33554432;417;803;33554432;85;803;33554432;117;803;33554432;85;777;33554432;117;777;33554432;431;769;33554432;432;769;33554432;431;768;33554432;432;768;33554432;431;777;33554432;432;777;33554432;431;771;33554432;432;771;33554432;431;803;33554432;432;803;33554432;89;768;33554432;121;768;33554432;89;803;33554432;121;803;33554432;89;777;33554432;121;777;33554432;89;771;33554432;121;771;33554432;945;787;33554432;945;788;33554432;7936;768;33554432;7937;768;33554432;7936;769;33554432;7937;769;33554432;7936;834;33554432;7937;834;33554432;913;787;33554432;913;788;33554432;7944;768;33554432;7945;768;33554432;7944;769;33554432;7945;769;33554432;7944;834;33554432;7945;834;33554432;949;787;33554432;949;788;33554432;7952;768;33554432;7953;768;33554432;7952;769;33554432;7953;769;33554432;917;787;33554432;917;788;33554432;7960;768;33554432;7961;768;33554432;7960;769;33554432;7961;769;33554432;951;787;33554432;951;788;33554432;7968;768;33554432;7969;768;33554432;7968;769;33554432;7969;769;33554432;7968;834;33554432;7969;834;33554432;919;787;33554432;919;788;33554432;7976;768;33554432;7977;768;33554432;7976;769;33554432;7977;769;33554432;7976;834;33554432;7977;834;33554432;953;787;33554432;953;788;33554432;7984;768;33554432;7985;768;33554432;7984;769;33554432;7985;769;33554432;7984;834;33554432;7985;834;33554432].
(** unicode_tables.cpp:33 decomposition_pool, items 2500-2999 *)
Definition decomposition_pool_data_5 : list Z := [
921;787;33554432;921;788;33554432;7992;768;33554432;7993;768;33554432;7992;769;33554432;7993;769;33554432;7992;834;33554432;7993;834;33554432;959;787;33554432;959;788;33554432;8000;768;33554432;8001;768;33554432;8000;769;33554432;8001;769;33554432;927;787;33554432;927;788;33554432;8008;768;33554432;8009;768;33554432;8008;769;33554432;8009;769;33554432;965;787;33554432;965;788;33554432;8016;768;33554432;8017;768;33554432;8016;769;33554432;8017;769;33554432;8016;834;33554432;8017;834;33554432;933;788;33554432;8025;768;33554432;8025;769;33554432;8025;834;33554432;969;787;33554432;969;788;33554432;8032;768;33554432;8033;768;33554432;8032;769;33554432;8033;769;33554432;8032;834;33554432;8033;834;33554432;937;787;33554432;937;788;33554432;8040;768;33554432;8041;768;33554432;8040;769;33554432;8041;769;33554432;8040;834;33554432;8041;834;33554432;945;768;16777216;940;33554432;949;768;16777216;941;33554432;951;768;16777216;942;33554432;953;768;16777216;943;33554432;959;768;16777216;972;33554432;965;768;16777216;973;33554432;969;768;16777216;974;33554432;7936;837;33554432;7937;837;33554432;7938;837;33554432;7939;837;33554432;7940;837;33554432;7941;837;33554432;7942;837;33554432;7943;837;33554432;7944;837;33554432;7945;837;33554432;7946;837;33554432;7947;837;33554432;7948;837;33554432;7949;837;33554432;7950;837;33554432;7951;837;33554432;7968;837;33554432;7969;837;33554432;7970;837;33554432;7971;837;33554432;7972;837;33554432;7973;837;33554432;7974;837;33554432;7975;837;33554432;7976;837;33554432;7977;837;33554432;7978;837;33554432;7979;837;33554432;7980;837;33554432;7981;837;33554432;7982;837;33554432;7983;837;33554432;8032;837;33554432;8033;837;33554432;8034;837;33554432;8035;837;33554432;8036;837;33554432;8037;837;33554432;8038;837;33554432;8039;837;33554432;8040;837;33554432;8041;837;33554432;8042;837;33554432;8043;837;33554432;8044;837;33554432;8045;837;33554432;8046;837;33554432;8047;837;33554432;945;774;33554432;945;772;33554432;8048;837;33554432;945;837;33554432;940;837;33554432;945;834;33554432;8118;837;33554432;913;774;33554432;913;772;33554432;913;768;16777216;902;33554432;913;837;2181038080;32;787;16777216;953;2181038080;32;834;33554432;168;834;33554432;8052;837;33554432;951;837;33554432;942;837;33554432;951;834;33554432;8134;837;33554432;917;768;16777216;904;33554432;919;768;16777216;905;33554432;919;837;33554432;8127;768;33554432;8127;769;33554432;8127;834;33554432;953;774;33554432;953;772;33554432;970;768;16777216;912;33554432;953;834;33554432;970;834;33554432;921;774;33554432;921;772;33554432;921;768;16777216;906;33554432;8190;768;33554432;8190;769;33554432;8190;834;33554432;965;774;33554432;965;772;33554432;971;768;16777216;944;33554432;961;787;33554432;961;788;33554432;965;834;33554432;971;834;33554432;933;774;33554432;933;772;33554432;933;768;16777216;910;33554432;929;788;33554432;168;768;16777216;901;16777216;96;33554432;8060;837;33554432;969;837;33554432;974;837;33554432;969;834;33554432;8182].
(** unicode_tables.cpp:33 decomposition_pool, items 3000-3499 *)
Definition decomposition_pool_data_6 : list Z := [
837;33554432;927;768;16777216;908;33554432;937;768;16777216;911;33554432;937;837;16777216;180;2181038080;32;788;16777216;8194;16777216;8195;2164260864;8208;2181038080;32;819;2164260864;46;2181038080;46;46;2197815296;46;46;46;2181038080;8242;8242;2197815296;8242;8242;8242;2181038080;8245;8245;2197815296;8245;8245;8245;2181038080;33;33;2181038080;32;773;2181038080;63;63;2181038080;63;33;2181038080;33;63;2214592512;8242;8242;8242;8242;2164260864;48;2164260864;52;2164260864;53;2164260864;54;2164260864;55;2164260864;56;2164260864;57;2164260864;43;2164260864;8722;2164260864;61;2164260864;40;2164260864;41;2164260864;110;2181038080;82;115;2197815296;97;47;99;2197815296;97;47;115;2164260864;67;2181038080;176;67;2197815296;99;47;111;2197815296;99;47;117;2164260864;400;2181038080;176;70;2164260864;295;2181038080;78;111;2164260864;81;2181038080;83;77;2197815296;84;69;76;2181038080;84;77;2164260864;90;16777216;937;16777216;75;16777216;197;2164260864;70;2164260864;1488;2164260864;1489;2164260864;1490;2164260864;1491;2197815296;70;65;88;2164260864;915;2164260864;928;2164260864;8721;2197815296;49;8260;55;2197815296;49;8260;57;2214592512;49;8260;49;48;2197815296;49;8260;51;2197815296;50;8260;51;2197815296;49;8260;53;2197815296;50;8260;53;2197815296;51;8260;53;2197815296;52;8260;53;2197815296;49;8260;54;2197815296;53;8260;54;2197815296;49;8260;56;2197815296;51;8260;56;2197815296;53;8260;56;2197815296;55;8260;56;2181038080;49;8260;2181038080;73;73;2197815296;73;73;73;2181038080;73;86;2164260864;86;2181038080;86;73;2197815296;86;73;73;2214592512;86;73;73;73;2181038080;73;88;2164260864;88;2181038080;88;73;2197815296;88;73;73;2181038080;105;105;2197815296;105;105;105;2181038080;105;118;2181038080;118;105;2197815296;118;105;105;2214592512;118;105;105;105;2181038080;105;120;2181038080;120;105;2197815296;120;105;105;2197815296;48;8260;51;33554432;8592;824;33554432;8594;824;33554432;8596;824;33554432;8656;824;33554432;8660;824;33554432;8658;824;33554432;8707;824;33554432;8712;824;33554432;8715;824;33554432;8739;824;33554432;8741;824;2181038080;8747;8747;2197815296;8747;8747;8747;2181038080;8750;8750;2197815296;8750;8750;8750;33554432;8764;824;33554432;8771;824;33554432;8773;824;33554432;8776;824;33554432;61;824;33554432;8801;824;33554432;8781;824;33554432;60;824;33554432;62;824;33554432;8804;824;33554432;8805;824;33554432;8818;824;33554432;8819;824;33554432;8822;824;33554432;8823;824;33554432;8826;824;33554432;8827;824;33554432;8834;824;33554432;8835;824;33554432;8838;824;33554432;8839;824;33554432;8866;824;33554432;8872;824;33554432;8873;824;33554432;8875;824;33554432;8828;824;33554432;8829;824;33554432;8849;824;33554432;8850;824;33554432;8882;824;33554432;8883;824;33554432;8884;824;33554432;8885;824;16777216;12296;16777216;12297;2181038080;49;48;2181038080;49;49;2181038080;49;50;2181038080;49;51;2181038080;49;52;2181038080;49;53;2181038080;49;54;2181038080;49;55;2181038080;49;56;2181038080;49;57;2181038080;50;48;2197815296;40;49;41;2197815296;40;50;41;2197815296;40].
(** unicode_tables.cpp:33 decomposition_pool, items 3500-3999 *)
Definition decomposition_pool_data_7 : list Z := [
51;41;2197815296;40;52;41;2197815296;40;53;41;2197815296;40;54;41;2197815296;40;55;41;2197815296;40;56;41;2197815296;40;57;41;2214592512;40;49;48;41;2214592512;40;49;49;41;2214592512;40;49;50;41;2214592512;40;49;51;41;2214592512;40;49;52;41;2214592512;40;49;53;41;2214592512;40;49;54;41;2214592512;40;49;55;41;2214592512;40;49;56;41;2214592512;40;49;57;41;2214592512;40;50;48;41;2181038080;49;46;2181038080;50;46;2181038080;51;46;2181038080;52;46;2181038080;53;46;2181038080;54;46;2181038080;55;46;2181038080;56;46;2181038080;57;46;2197815296;49;48;46;2197815296;49;49;46;2197815296;49;50;46;2197815296;49;51;46;2197815296;49;52;46;2197815296;49;53;46;2197815296;49;54;46;2197815296;49;55;46;2197815296;49;56;46;2197815296;49;57;46;2197815296;50;48;46;2197815296;40;97;41;2197815296;40;98;41;2197815296;40;99;41;2197815296;40;100;41;2197815296;40;101;41;2197815296;40;102;41;2197815296;40;103;41;2197815296;40;104;41;2197815296;40;105;41;2197815296;40;106;41;2197815296;40;107;41;2197815296;40;108;41;2197815296;40;109;41;2197815296;40;110;41;2197815296;40;111;41;2197815296;40;112;41;2197815296;40;113;41;2197815296;40;114;41;2197815296;40;115;41;2197815296;40;116;41;2197815296;40;117;41;2197815296;40;118;41;2197815296;40;119;41;2197815296;40;120;41;2197815296;40;121;41;2197815296;40;122;41;2164260864;83;2164260864;89;2164260864;113;2214592512;8747;8747;8747;8747;2197815296;58;58;61;2181038080;61;61;2197815296;61;61;61;33554432;10973;824;2164260864;11617;2164260864;27597;2164260864;40863;2164260864;19968;2164260864;20008;2164260864;20022;2164260864;20031;2164260864;20057;2164260864;20101;2164260864;20108;2164260864;20128;2164260864;20154;2164260864;20799;2164260864;20837;2164260864;20843;2164260864;20866;2164260864;20886;2164260864;20907;2164260864;20960;2164260864;20981;2164260864;20992;2164260864;21147;2164260864;21241;2164260864;21269;2164260864;21274;2164260864;21304;2164260864;21313;2164260864;21340;2164260864;21353;2164260864;21378;2164260864;21430;2164260864;21448;2164260864;21475;2164260864;22231;2164260864;22303;2164260864;22763;2164260864;22786;2164260864;22794;2164260864;22805;2164260864;22823;2164260864;22899;2164260864;23376;2164260864;23424;2164260864;23544;2164260864;23567;2164260864;23586;2164260864;23608;2164260864;23662;2164260864;23665;2164260864;24027;2164260864;24037;2164260864;24049;2164260864;24062;2164260864;24178;2164260864;24186;2164260864;24191;2164260864;24308;2164260864;24318;2164260864;24331;2164260864;24339;2164260864;24400;2164260864;24417;2164260864;24435;2164260864;24515;2164260864;25096;2164260864;25142;2164260864;25163;2164260864;25903;2164260864;25908;2164260864;25991;2164260864;26007;2164260864;26020;2164260864;26041;2164260864;26080;2164260864;26085;2164260864;26352;2164260864;26376;2164260864;26408;2164260864;27424;2164260864;27490;2164260864;27513;2164260864;27571;2164260864;27595;2164260864;27604;2164260864;27611;2164260864;27663;2164260864;27668;2164260864;27700;2164260864;28779;2164260864;29226;2164260864;29238;2164260864;29243;2164260864;29247;2164260864;29255;2164260864;29273;2164260864;29275;2164260864;29356;2164260864;29572;2164260864;29577;2164260864;29916;2164260864;29926;2164260864;29976;2164260864;29983;2164260864;29992;2164260864;30000;2164260864;30091;2164260864;30098;2164260864;30326;2164260864;30333;2164260864].
(** unicode_tables.cpp:33 decomposition_pool, items 4000-4499 *)
Definition decomposition_pool_data_8 : list Z := [
30382;2164260864;30399;2164260864;30446;2164260864;30683;2164260864;30690;2164260864;30707;2164260864;31034;2164260864;31160;2164260864;31166;2164260864;31348;2164260864;31435;2164260864;31481;2164260864;31859;2164260864;31992;2164260864;32566;2164260864;32593;2164260864;32650;2164260864;32701;2164260864;32769;2164260864;32780;2164260864;32786;2164260864;32819;2164260864;32895;2164260864;32905;2164260864;33251;2164260864;33258;2164260864;33267;2164260864;33276;2164260864;33292;2164260864;33307;2164260864;33311;2164260864;33390;2164260864;33394;2164260864;33400;2164260864;34381;2164260864;34411;2164260864;34880;2164260864;34892;2164260864;34915;2164260864;35198;2164260864;35211;2164260864;35282;2164260864;35328;2164260864;35895;2164260864;35910;2164260864;35925;2164260864;35960;2164260864;35997;2164260864;36196;2164260864;36208;2164260864;36275;2164260864;36523;2164260864;36554;2164260864;36763;2164260864;36784;2164260864;36789;2164260864;37009;2164260864;37193;2164260864;37318;2164260864;37324;2164260864;37329;2164260864;38263;2164260864;38272;2164260864;38428;2164260864;38582;2164260864;38585;2164260864;38632;2164260864;38737;2164260864;38750;2164260864;38754;2164260864;38761;2164260864;38859;2164260864;38893;2164260864;38899;2164260864;38913;2164260864;39080;2164260864;39131;2164260864;39135;2164260864;39318;2164260864;39321;2164260864;39340;2164260864;39592;2164260864;39640;2164260864;39647;2164260864;39717;2164260864;39727;2164260864;39730;2164260864;39740;2164260864;39770;2164260864;40165;2164260864;40565;2164260864;40575;2164260864;40613;2164260864;40635;2164260864;40643;2164260864;40653;2164260864;40657;2164260864;40697;2164260864;40701;2164260864;40718;2164260864;40723;2164260864;40736;2164260864;40763;2164260864;40778;2164260864;40786;2164260864;40845;2164260864;40860;2164260864;40864;2164260864;12306;2164260864;21316;2164260864;21317;33554432;12363;12441;33554432;12365;12441;33554432;12367;12441;33554432;12369;12441;33554432;12371;12441;33554432;12373;12441;33554432;12375;12441;33554432;12377;12441;33554432;12379;12441;33554432;12381;12441;33554432;12383;12441;33554432;12385;12441;33554432;12388;12441;33554432;12390;12441;33554432;12392;12441;33554432;12399;12441;33554432;12399;12442;33554432;12402;12441;33554432;12402;12442;33554432;12405;12441;33554432;12405;12442;33554432;12408;12441;33554432;12408;12442;33554432;12411;12441;33554432;12411;12442;33554432;12358;12441;2181038080;32;12441;2181038080;32;12442;33554432;12445;12441;2181038080;12424;12426;33554432;12459;12441;33554432;12461;12441;33554432;12463;12441;33554432;12465;12441;33554432;12467;12441;33554432;12469;12441;33554432;12471;12441;33554432;12473;12441;33554432;12475;12441;33554432;12477;12441;33554432;12479;12441;33554432;12481;12441;33554432;12484;12441;33554432;12486;12441;33554432;12488;12441;33554432;12495;12441;33554432;12495;12442;33554432;12498;12441;33554432;12498;12442;33554432;12501;12441;33554432;12501;12442;33554432;12504;12441;33554432;12504;12442;33554432;12507;12441;33554432;12507;12442;33554432;12454;12441;33554432;12527;12441;33554432;12528;12441;33554432;12529;12441;33554432;12530;12441;33554432;12541;12441;2181038080;12467;12488;2164260864;4352;2164260864;4353;2164260864;4522;2164260864;4354;2164260864;4524;2164260864;4525;2164260864;4355;2164260864;4356;2164260864;4357;2164260864;4528;2164260864;4529;2164260864;4530;2164260864;4531;2164260864;4532;2164260864;4533;2164260864;4378;2164260864;4358;2164260864;4359;2164260864;4360;2164260864;4385;2164260864;4361;2164260864;4362;2164260864;4363;2164260864;4364;2164260864;4365;2164260864;4366;2164260864;4367;2164260864;4368;2164260864;4369;2164260864;4370;2164260864;4449;2164260864;4450;2164260864;4451;2164260864;4452;2164260864;4453;2164260864;4454;2164260864;4455;2164260864;4456;2164260864;4457;2164260864;4458;2164260864;4459;2164260864;4460;2164260864;4461;2164260864;4462;2164260864;4463;2164260864;4464;2164260864].
(** unicode_tables.cpp:33 decomposition_pool, items 4500-4999 *)
Definition decomposition_pool_data_9 : list Z := [
4465;2164260864;4466;2164260864;4467;2164260864;4468;2164260864;4469;2164260864;4448;2164260864;4372;2164260864;4373;2164260864;4551;2164260864;4552;2164260864;4556;2164260864;4558;2164260864;4563;2164260864;4567;2164260864;4569;2164260864;4380;2164260864;4573;2164260864;4575;2164260864;4381;2164260864;4382;2164260864;4384;2164260864;4386;2164260864;4387;2164260864;4391;2164260864;4393;2164260864;4395;2164260864;4396;2164260864;4397;2164260864;4398;2164260864;4399;2164260864;4402;2164260864;4406;2164260864;4416;2164260864;4423;2164260864;4428;2164260864;4593;2164260864;4594;2164260864;4439;2164260864;4440;2164260864;4441;2164260864;4484;2164260864;4485;2164260864;4488;2164260864;4497;2164260864;4498;2164260864;4500;2164260864;4510;2164260864;4513;2164260864;19977;2164260864;22235;2164260864;19978;2164260864;20013;2164260864;19979;2164260864;30002;2164260864;19993;2164260864;19969;2164260864;22825;2164260864;22320;2197815296;40;4352;41;2197815296;40;4354;41;2197815296;40;4355;41;2197815296;40;4357;41;2197815296;40;4358;41;2197815296;40;4359;41;2197815296;40;4361;41;2197815296;40;4363;41;2197815296;40;4364;41;2197815296;40;4366;41;2197815296;40;4367;41;2197815296;40;4368;41;2197815296;40;4369;41;2197815296;40;4370;41;2214592512;40;4352;4449;41;2214592512;40;4354;4449;41;2214592512;40;4355;4449;41;2214592512;40;4357;4449;41;2214592512;40;4358;4449;41;2214592512;40;4359;4449;41;2214592512;40;4361;4449;41;2214592512;40;4363;4449;41;2214592512;40;4364;4449;41;2214592512;40;4366;4449;41;2214592512;40;4367;4449;41;2214592512;40;4368;4449;41;2214592512;40;4369;4449;41;2214592512;40;4370;4449;41;2214592512;40;4364;4462;41;2264924160;40;4363;4457;4364;4453;4523;41;2248146944;40;4363;4457;4370;4462;41;2197815296;40;19968;41;2197815296;40;20108;41;2197815296;40;19977;41;2197815296;40;22235;41;2197815296;40;20116;41;2197815296;40;20845;41;2197815296;40;19971;41;2197815296;40;20843;41;2197815296;40;20061;41;2197815296;40;21313;41;2197815296;40;26376;41;2197815296;40;28779;41;2197815296;40;27700;41;2197815296;40;26408;41;2197815296;40;37329;41;2197815296;40;22303;41;2197815296;40;26085;41;2197815296;40;26666;41;2197815296;40;26377;41;2197815296;40;31038;41;2197815296;40;21517;41;2197815296;40;29305;41;2197815296;40;36001;41;2197815296;40;31069;41;2197815296;40;21172;41;2197815296;40;20195;41;2197815296;40;21628;41;2197815296;40;23398;41;2197815296;40;30435;41;2197815296;40;20225;41;2197815296;40;36039;41;2197815296;40;21332;41;2197815296;40;31085;41;2197815296;40;20241;41;2197815296;40;33258;41;2197815296;40;33267;41;2164260864;21839;2164260864;24188;2164260864;31631;2197815296;80;84;69;2181038080;50;49;2181038080;50;50;2181038080;50;51;2181038080;50;52;2181038080;50;53;2181038080;50;54;2181038080;50;55;2181038080;50;56;2181038080;50;57;2181038080;51;48;2181038080;51;49;2181038080;51;50;2181038080;51;51;2181038080;51;52;2181038080;51;53;2181038080;4352;4449;2181038080;4354;4449;2181038080;4355;4449;2181038080;4357;4449;2181038080;4358;4449;2181038080;4359;4449;2181038080;4361;4449;2181038080;4363;4449;2181038080;4364;4449;2181038080;4366;4449;2181038080;4367;4449;2181038080;4368;4449;2181038080;4369;4449;2181038080].
(** unicode_tables.cpp:33 decomposition_pool, items 5000-5499 *)
Definition decomposition_pool_data_10 : list Z := [
4370;4449;2231369728;4366;4449;4535;4352;4457;2214592512;4364;4462;4363;4468;2181038080;4363;4462;2164260864;20116;2164260864;20845;2164260864;19971;2164260864;20061;2164260864;26666;2164260864;26377;2164260864;31038;2164260864;21517;2164260864;29305;2164260864;36001;2164260864;31069;2164260864;21172;2164260864;31192;2164260864;30007;2164260864;36969;2164260864;20778;2164260864;21360;2164260864;27880;2164260864;38917;2164260864;20241;2164260864;20889;2164260864;27491;2164260864;24038;2164260864;21491;2164260864;21307;2164260864;23447;2164260864;23398;2164260864;30435;2164260864;20225;2164260864;36039;2164260864;21332;2164260864;22812;2181038080;51;54;2181038080;51;55;2181038080;51;56;2181038080;51;57;2181038080;52;48;2181038080;52;49;2181038080;52;50;2181038080;52;51;2181038080;52;52;2181038080;52;53;2181038080;52;54;2181038080;52;55;2181038080;52;56;2181038080;52;57;2181038080;53;48;2181038080;49;26376;2181038080;50;26376;2181038080;51;26376;2181038080;52;26376;2181038080;53;26376;2181038080;54;26376;2181038080;55;26376;2181038080;56;26376;2181038080;57;26376;2197815296;49;48;26376;2197815296;49;49;26376;2197815296;49;50;26376;2181038080;72;103;2197815296;101;114;103;2181038080;101;86;2197815296;76;84;68;2164260864;12450;2164260864;12452;2164260864;12454;2164260864;12456;2164260864;12458;2164260864;12459;2164260864;12461;2164260864;12463;2164260864;12465;2164260864;12467;2164260864;12469;2164260864;12471;2164260864;12473;2164260864;12475;2164260864;12477;2164260864;12479;2164260864;12481;2164260864;12484;2164260864;12486;2164260864;12488;2164260864;12490;2164260864;12491;2164260864;12492;2164260864;12493;2164260864;12494;2164260864;12495;2164260864;12498;2164260864;12501;2164260864;12504;2164260864;12507;2164260864;12510;2164260864;12511;2164260864;12512;2164260864;12513;2164260864;12514;2164260864;12516;2164260864;12518;2164260864;12520;2164260864;12521;2164260864;12522;2164260864;12523;2164260864;12524;2164260864;12525;2164260864;12527;2164260864;12528;2164260864;12529;2164260864;12530;2181038080;20196;21644;2214592512;12450;12497;12540;12488;2214592512;12450;12523;12501;12449;2214592512;12450;12531;12506;12450;2197815296;12450;12540;12523;2214592512;12452;12491;12531;12464;2197815296;12452;12531;12481;2197815296;12454;12457;12531;2231369728;12456;12473;12463;12540;12489;2214592512;12456;12540;12459;12540;2197815296;12458;12531;12473;2197815296;12458;12540;12512;2197815296;12459;12452;12522;2214592512;12459;12521;12483;12488;2214592512;12459;12525;12522;12540;2197815296;12460;12525;12531;2197815296;12460;12531;12510;2181038080;12462;12460;2197815296;12462;12491;12540;2214592512;12461;12517;12522;12540;2214592512;12462;12523;12480;12540;2181038080;12461;12525;2231369728;12461;12525;12464;12521;12512;2248146944;12461;12525;12513;12540;12488;12523;2231369728;12461;12525;12527;12483;12488;2197815296;12464;12521;12512;2231369728;12464;12521;12512;12488;12531;2231369728;12463;12523;12476;12452;12525;2214592512;12463;12525;12540;12493;2197815296;12465;12540;12473;2197815296;12467;12523;12490;2197815296;12467;12540;12509;2214592512;12469;12452;12463;12523;2231369728;12469;12531;12481;12540;12512;2214592512;12471;12522;12531;12464;2197815296;12475;12531;12481;2197815296;12475;12531;12488;2197815296;12480;12540;12473;2181038080;12487;12471;2181038080;12489;12523;2181038080;12488;12531;2181038080;12490;12494;2197815296;12494;12483;12488;2197815296;12495;12452;12484;2231369728;12497;12540;12475;12531;12488;2197815296;12497;12540;12484;2214592512;12496;12540;12524;12523;2231369728;12500;12450;12473;12488;12523;2197815296;12500;12463;12523;2181038080;12500;12467;2181038080;12499;12523;2231369728].
(** unicode_tables.cpp:33 decomposition_pool, items 5500-5999 *)
Definition decomposition_pool_data_11 : list Z := [
12501;12449;12521;12483;12489;2214592512;12501;12451;12540;12488;2231369728;12502;12483;12471;12455;12523;2197815296;12501;12521;12531;2231369728;12504;12463;12479;12540;12523;2181038080;12506;12477;2197815296;12506;12491;12498;2197815296;12504;12523;12484;2197815296;12506;12531;12473;2197815296;12506;12540;12472;2197815296;12505;12540;12479;2214592512;12509;12452;12531;12488;2197815296;12508;12523;12488;2181038080;12507;12531;2197815296;12509;12531;12489;2197815296;12507;12540;12523;2197815296;12507;12540;12531;2214592512;12510;12452;12463;12525;2197815296;12510;12452;12523;2197815296;12510;12483;12495;2197815296;12510;12523;12463;2231369728;12510;12531;12471;12519;12531;2214592512;12511;12463;12525;12531;2181038080;12511;12522;2231369728;12511;12522;12496;12540;12523;2181038080;12513;12460;2214592512;12513;12460;12488;12531;2214592512;12513;12540;12488;12523;2197815296;12516;12540;12489;2197815296;12516;12540;12523;2197815296;12518;12450;12531;2214592512;12522;12483;12488;12523;2181038080;12522;12521;2197815296;12523;12500;12540;2214592512;12523;12540;12502;12523;2181038080;12524;12512;2231369728;12524;12531;12488;12466;12531;2197815296;12527;12483;12488;2181038080;48;28857;2181038080;49;28857;2181038080;50;28857;2181038080;51;28857;2181038080;52;28857;2181038080;53;28857;2181038080;54;28857;2181038080;55;28857;2181038080;56;28857;2181038080;57;28857;2197815296;49;48;28857;2197815296;49;49;28857;2197815296;49;50;28857;2197815296;49;51;28857;2197815296;49;52;28857;2197815296;49;53;28857;2197815296;49;54;28857;2197815296;49;55;28857;2197815296;49;56;28857;2197815296;49;57;28857;2197815296;50;48;28857;2197815296;50;49;28857;2197815296;50;50;28857;2197815296;50;51;28857;2197815296;50;52;28857;2197815296;104;80;97;2181038080;100;97;2181038080;65;85;2197815296;98;97;114;2181038080;111;86;2181038080;112;99;2181038080;100;109;2197815296;100;109;178;2197815296;100;109;179;2181038080;73;85;2181038080;24179;25104;2181038080;26157;21644;2181038080;22823;27491;2181038080;26126;27835;2214592512;26666;24335;20250;31038;2181038080;112;65;2181038080;110;65;2181038080;956;65;2181038080;109;65;2181038080;107;65;2181038080;75;66;2181038080;77;66;2181038080;71;66;2197815296;99;97;108;2214592512;107;99;97;108;2181038080;112;70;2181038080;110;70;2181038080;956;70;2181038080;956;103;2181038080;109;103;2181038080;107;103;2181038080;72;122;2197815296;107;72;122;2197815296;77;72;122;2197815296;71;72;122;2197815296;84;72;122;2181038080;956;8467;2181038080;109;8467;2181038080;100;8467;2181038080;107;8467;2181038080;102;109;2181038080;110;109;2181038080;956;109;2181038080;109;109;2181038080;99;109;2181038080;107;109;2197815296;109;109;178;2197815296;99;109;178;2181038080;109;178;2197815296;107;109;178;2197815296;109;109;179;2197815296;99;109;179;2181038080;109;179;2197815296;107;109;179;2197815296;109;8725;115;2214592512;109;8725;115;178;2181038080;80;97;2197815296;107;80;97;2197815296;77;80;97;2197815296;71;80;97;2197815296;114;97;100;2231369728;114;97;100;8725;115;2248146944;114;97;100;8725;115;178;2181038080;112;115;2181038080;110;115;2181038080;956;115;2181038080;109;115;2181038080;112;86;2181038080;110;86;2181038080;956;86;2181038080;109].
(** unicode_tables.cpp:33 decomposition_pool, items 6000-6499 *)
Definition decomposition_pool_data_12 : list Z := [
86;2181038080;107;86;2181038080;77;86;2181038080;112;87;2181038080;110;87;2181038080;956;87;2181038080;109;87;2181038080;107;87;2181038080;77;87;2181038080;107;937;2181038080;77;937;2214592512;97;46;109;46;2181038080;66;113;2181038080;99;99;2181038080;99;100;2214592512;67;8725;107;103;2197815296;67;111;46;2181038080;100;66;2181038080;71;121;2181038080;104;97;2181038080;72;80;2181038080;105;110;2181038080;75;75;2181038080;75;77;2181038080;107;116;2181038080;108;109;2181038080;108;110;2197815296;108;111;103;2181038080;108;120;2181038080;109;98;2197815296;109;105;108;2197815296;109;111;108;2181038080;80;72;2214592512;112;46;109;46;2197815296;80;80;77;2181038080;80;82;2181038080;115;114;2181038080;83;118;2181038080;87;98;2197815296;86;8725;109;2197815296;65;8725;109;2181038080;49;26085;2181038080;50;26085;2181038080;51;26085;2181038080;52;26085;2181038080;53;26085;2181038080;54;26085;2181038080;55;26085;2181038080;56;26085;2181038080;57;26085;2197815296;49;48;26085;2197815296;49;49;26085;2197815296;49;50;26085;2197815296;49;51;26085;2197815296;49;52;26085;2197815296;49;53;26085;2197815296;49;54;26085;2197815296;49;55;26085;2197815296;49;56;26085;2197815296;49;57;26085;2197815296;50;48;26085;2197815296;50;49;26085;2197815296;50;50;26085;2197815296;50;51;26085;2197815296;50;52;26085;2197815296;50;53;26085;2197815296;50;54;26085;2197815296;50;55;26085;2197815296;50;56;26085;2197815296;50;57;26085;2197815296;51;48;26085;2197815296;51;49;26085;2197815296;103;97;108;2164260864;1098;2164260864;1100;2164260864;42863;2164260864;294;2164260864;339;2164260864;42791;2164260864;43831;2164260864;619;2164260864;43858;2164260864;653;16777216;35912;16777216;26356;16777216;36554;16777216;36040;16777216;28369;16777216;20018;16777216;21477;16777216;40860;16777216;22865;16777216;37329;16777216;21895;16777216;22856;16777216;25078;16777216;30313;16777216;32645;16777216;34367;16777216;34746;16777216;35064;16777216;37007;16777216;27138;16777216;27931;16777216;28889;16777216;29662;16777216;33853;16777216;37226;16777216;39409;16777216;20098;16777216;21365;16777216;27396;16777216;29211;16777216;34349;16777216;40478;16777216;23888;16777216;28651;16777216;34253;16777216;35172;16777216;25289;16777216;33240;16777216;34847;16777216;24266;16777216;26391;16777216;28010;16777216;29436;16777216;37070;16777216;20358;16777216;20919;16777216;21214;16777216;25796;16777216;27347;16777216;29200;16777216;30439;16777216;32769;16777216;34310;16777216;34396;16777216;36335;16777216;38706;16777216;39791;16777216;40442;16777216;30860;16777216;31103;16777216;32160;16777216;33737;16777216;37636;16777216;40575;16777216;35542;16777216;22751;16777216;24324;16777216;31840;16777216;32894;16777216;29282;16777216;30922;16777216;36034;16777216;38647;16777216;22744;16777216;23650;16777216;27155;16777216;28122;16777216;28431;16777216;32047;16777216;32311;16777216;38475;16777216;21202;16777216;32907;16777216;20956;16777216;20940;16777216;31260;16777216;32190;16777216;33777;16777216;38517;16777216;35712;16777216;25295;16777216;35582;16777216;20025;16777216;23527;16777216;24594;16777216;29575;16777216;30064;16777216;21271;16777216;30971;16777216;20415;16777216;24489;16777216;19981;16777216;27852;16777216;25976;16777216;32034;16777216;21443;16777216;22622;16777216;30465;16777216;33865;16777216;35498;16777216;27578;16777216;36784;16777216;27784;16777216].
(** unicode_tables.cpp:33 decomposition_pool, items 6500-6999 *)
Definition decomposition_pool_data_13 : list Z := [
25342;16777216;33509;16777216;25504;16777216;30053;16777216;20142;16777216;20841;16777216;20937;16777216;26753;16777216;31975;16777216;33391;16777216;35538;16777216;37327;16777216;21237;16777216;21570;16777216;22899;16777216;24300;16777216;26053;16777216;28670;16777216;31018;16777216;38317;16777216;39530;16777216;40599;16777216;40654;16777216;21147;16777216;26310;16777216;27511;16777216;36706;16777216;24180;16777216;24976;16777216;25088;16777216;25754;16777216;28451;16777216;29001;16777216;29833;16777216;31178;16777216;32244;16777216;32879;16777216;36646;16777216;34030;16777216;36899;16777216;37706;16777216;21015;16777216;21155;16777216;21693;16777216;28872;16777216;35010;16777216;24265;16777216;24565;16777216;25467;16777216;27566;16777216;31806;16777216;29557;16777216;20196;16777216;22265;16777216;23994;16777216;24604;16777216;29618;16777216;29801;16777216;32666;16777216;32838;16777216;37428;16777216;38646;16777216;38728;16777216;38936;16777216;20363;16777216;31150;16777216;37300;16777216;38584;16777216;24801;16777216;20102;16777216;20698;16777216;23534;16777216;23615;16777216;26009;16777216;29134;16777216;30274;16777216;34044;16777216;36988;16777216;40845;16777216;26248;16777216;38446;16777216;21129;16777216;26491;16777216;26611;16777216;27969;16777216;28316;16777216;29705;16777216;30041;16777216;30827;16777216;32016;16777216;39006;16777216;20845;16777216;25134;16777216;38520;16777216;20523;16777216;23833;16777216;28138;16777216;36650;16777216;24459;16777216;24900;16777216;26647;16777216;38534;16777216;21033;16777216;21519;16777216;23653;16777216;26131;16777216;26446;16777216;26792;16777216;27877;16777216;29702;16777216;30178;16777216;32633;16777216;35023;16777216;35041;16777216;37324;16777216;38626;16777216;21311;16777216;28346;16777216;21533;16777216;29136;16777216;29848;16777216;34298;16777216;38563;16777216;40023;16777216;40607;16777216;26519;16777216;28107;16777216;33256;16777216;31435;16777216;31520;16777216;31890;16777216;29376;16777216;28825;16777216;35672;16777216;20160;16777216;33590;16777216;21050;16777216;20999;16777216;24230;16777216;25299;16777216;31958;16777216;23429;16777216;27934;16777216;26292;16777216;36667;16777216;34892;16777216;38477;16777216;35211;16777216;24275;16777216;20800;16777216;21952;16777216;22618;16777216;26228;16777216;20958;16777216;29482;16777216;30410;16777216;31036;16777216;31070;16777216;31077;16777216;31119;16777216;38742;16777216;31934;16777216;32701;16777216;34322;16777216;35576;16777216;36920;16777216;37117;16777216;39151;16777216;39164;16777216;39208;16777216;40372;16777216;37086;16777216;38583;16777216;20398;16777216;20711;16777216;20813;16777216;21193;16777216;21220;16777216;21329;16777216;21917;16777216;22022;16777216;22120;16777216;22592;16777216;22696;16777216;23652;16777216;23662;16777216;24724;16777216;24936;16777216;24974;16777216;25074;16777216;25935;16777216;26082;16777216;26257;16777216;26757;16777216;28023;16777216;28186;16777216;28450;16777216;29038;16777216;29227;16777216;29730;16777216;30865;16777216;31038;16777216;31049;16777216;31048;16777216;31056;16777216;31062;16777216;31069;16777216;31117;16777216;31118;16777216;31296;16777216;31361;16777216;31680;16777216;32265;16777216;32321;16777216;32626;16777216;32773;16777216;33261;16777216;33401;16777216;33879;16777216;35088;16777216;35222;16777216;35585;16777216;35641;16777216;36051;16777216;36104;16777216;36790;16777216;38627;16777216;38911;16777216;38971;16777216;24693;16777216;148206;16777216;33304;16777216;20006;16777216;20917;16777216;20840;16777216;20352;16777216;20805;16777216;20864;16777216;21191;16777216;21242;16777216;21845;16777216;21913;16777216;21986;16777216;22707;16777216;22852;16777216;22868;16777216;23138;16777216;23336;16777216;24274;16777216;24281;16777216].
(** unicode_tables.cpp:33 decomposition_pool, items 7000-7499 *)
Definition decomposition_pool_data_14 : list Z := [
24425;16777216;24493;16777216;24792;16777216;24910;16777216;24840;16777216;24928;16777216;25140;16777216;25540;16777216;25628;16777216;25682;16777216;25942;16777216;26395;16777216;26454;16777216;27513;16777216;28379;16777216;28363;16777216;28702;16777216;30631;16777216;29237;16777216;29359;16777216;29809;16777216;29958;16777216;30011;16777216;30237;16777216;30239;16777216;30427;16777216;30452;16777216;30538;16777216;30528;16777216;30924;16777216;31409;16777216;31867;16777216;32091;16777216;32574;16777216;33618;16777216;33775;16777216;34681;16777216;35137;16777216;35206;16777216;35519;16777216;35531;16777216;35565;16777216;35722;16777216;36664;16777216;36978;16777216;37273;16777216;37494;16777216;38524;16777216;38875;16777216;38923;16777216;39698;16777216;141386;16777216;141380;16777216;144341;16777216;15261;16777216;16408;16777216;16441;16777216;152137;16777216;154832;16777216;163539;16777216;40771;16777216;40846;2181038080;102;102;2181038080;102;105;2181038080;102;108;2197815296;102;102;105;2197815296;102;102;108;2181038080;383;116;2181038080;115;116;2181038080;1396;1398;2181038080;1396;1381;2181038080;1396;1387;2181038080;1406;1398;2181038080;1396;1389;33554432;1497;1460;33554432;1522;1463;2164260864;1506;2164260864;1492;2164260864;1499;2164260864;1500;2164260864;1501;2164260864;1512;2164260864;1514;33554432;1513;1473;33554432;1513;1474;33554432;64329;1473;33554432;64329;1474;33554432;1488;1463;33554432;1488;1464;33554432;1488;1468;33554432;1489;1468;33554432;1490;1468;33554432;1491;1468;33554432;1492;1468;33554432;1493;1468;33554432;1494;1468;33554432;1496;1468;33554432;1497;1468;33554432;1498;1468;33554432;1499;1468;33554432;1500;1468;33554432;1502;1468;33554432;1504;1468;33554432;1505;1468;33554432;1507;1468;33554432;1508;1468;33554432;1510;1468;33554432;1511;1468;33554432;1512;1468;33554432;1513;1468;33554432;1514;1468;33554432;1493;1465;33554432;1489;1471;33554432;1499;1471;33554432;1508;1471;2181038080;1488;1500;2164260864;1649;2164260864;1659;2164260864;1662;2164260864;1664;2164260864;1658;2164260864;1663;2164260864;1657;2164260864;1700;2164260864;1702;2164260864;1668;2164260864;1667;2164260864;1670;2164260864;1671;2164260864;1677;2164260864;1676;2164260864;1678;2164260864;1672;2164260864;1688;2164260864;1681;2164260864;1705;2164260864;1711;2164260864;1715;2164260864;1713;2164260864;1722;2164260864;1723;2164260864;1728;2164260864;1729;2164260864;1726;2164260864;1746;2164260864;1747;2164260864;1709;2164260864;1735;2164260864;1734;2164260864;1736;2164260864;1655;2164260864;1739;2164260864;1733;2164260864;1737;2164260864;1744;2164260864;1609;2181038080;1574;1575;2181038080;1574;1749;2181038080;1574;1608;2181038080;1574;1735;2181038080;1574;1734;2181038080;1574;1736;2181038080;1574;1744;2181038080;1574;1609;2164260864;1740;2181038080;1574;1580;2181038080;1574;1581;2181038080;1574;1605;2181038080;1574;1610;2181038080;1576;1580;2181038080;1576;1581;2181038080;1576;1582;2181038080;1576;1605;2181038080;1576;1609;2181038080;1576;1610;2181038080;1578;1580;2181038080;1578;1581;2181038080;1578;1582;2181038080;1578;1605;2181038080;1578;1609;2181038080;1578;1610;2181038080;1579;1580;2181038080;1579;1605;2181038080;1579;1609;2181038080;1579;1610;2181038080;1580;1581;2181038080;1580;1605;2181038080;1581;1580;2181038080;1581;1605;2181038080;1582;1580;2181038080;1582;1581;2181038080;1582;1605;2181038080;1587;1580;2181038080;1587;1581;2181038080;1587;1582;2181038080;1587;1605;2181038080;1589;1581;2181038080;1589;1605;2181038080;1590;1580;2181038080;1590;1581;2181038080;1590;1582;2181038080;1590;1605;2181038080;1591;1581].
(** unicode_tables.cpp:33 decomposition_pool, items 7500-7999 *)
Definition decomposition_pool_data_15 : list Z := [
2181038080;1591;1605;2181038080;1592;1605;2181038080;1593;1580;2181038080;1593;1605;2181038080;1594;1580;2181038080;1594;1605;2181038080;1601;1580;2181038080;1601;1581;2181038080;1601;1582;2181038080;1601;1605;2181038080;1601;1609;2181038080;1601;1610;2181038080;1602;1581;2181038080;1602;1605;2181038080;1602;1609;2181038080;1602;1610;2181038080;1603;1575;2181038080;1603;1580;2181038080;1603;1581;2181038080;1603;1582;2181038080;1603;1604;2181038080;1603;1605;2181038080;1603;1609;2181038080;1603;1610;2181038080;1604;1580;2181038080;1604;1581;2181038080;1604;1582;2181038080;1604;1605;2181038080;1604;1609;2181038080;1604;1610;2181038080;1605;1580;2181038080;1605;1581;2181038080;1605;1582;2181038080;1605;1605;2181038080;1605;1609;2181038080;1605;1610;2181038080;1606;1580;2181038080;1606;1581;2181038080;1606;1582;2181038080;1606;1605;2181038080;1606;1609;2181038080;1606;1610;2181038080;1607;1580;2181038080;1607;1605;2181038080;1607;1609;2181038080;1607;1610;2181038080;1610;1580;2181038080;1610;1581;2181038080;1610;1582;2181038080;1610;1605;2181038080;1610;1609;2181038080;1610;1610;2181038080;1584;1648;2181038080;1585;1648;2181038080;1609;1648;2197815296;32;1612;1617;2197815296;32;1613;1617;2197815296;32;1614;1617;2197815296;32;1615;1617;2197815296;32;1616;1617;2197815296;32;1617;1648;2181038080;1574;1585;2181038080;1574;1586;2181038080;1574;1606;2181038080;1576;1585;2181038080;1576;1586;2181038080;1576;1606;2181038080;1578;1585;2181038080;1578;1586;2181038080;1578;1606;2181038080;1579;1585;2181038080;1579;1586;2181038080;1579;1606;2181038080;1605;1575;2181038080;1606;1585;2181038080;1606;1586;2181038080;1606;1606;2181038080;1610;1585;2181038080;1610;1586;2181038080;1610;1606;2181038080;1574;1582;2181038080;1574;1607;2181038080;1576;1607;2181038080;1578;1607;2181038080;1589;1582;2181038080;1604;1607;2181038080;1606;1607;2181038080;1607;1648;2181038080;1610;1607;2181038080;1579;1607;2181038080;1587;1607;2181038080;1588;1605;2181038080;1588;1607;2197815296;1600;1614;1617;2197815296;1600;1615;1617;2197815296;1600;1616;1617;2181038080;1591;1609;2181038080;1591;1610;2181038080;1593;1609;2181038080;1593;1610;2181038080;1594;1609;2181038080;1594;1610;2181038080;1587;1609;2181038080;1587;1610;2181038080;1588;1609;2181038080;1588;1610;2181038080;1581;1609;2181038080;1581;1610;2181038080;1580;1609;2181038080;1580;1610;2181038080;1582;1609;2181038080;1582;1610;2181038080;1589;1609;2181038080;1589;1610;2181038080;1590;1609;2181038080;1590;1610;2181038080;1588;1580;2181038080;1588;1581;2181038080;1588;1582;2181038080;1588;1585;2181038080;1587;1585;2181038080;1589;1585;2181038080;1590;1585;2181038080;1575;1611;2197815296;1578;1580;1605;2197815296;1578;1581;1580;2197815296;1578;1581;1605;2197815296;1578;1582;1605;2197815296;1578;1605;1580;2197815296;1578;1605;1581;2197815296;1578;1605;1582;2197815296;1580;1605;1581;2197815296;1581;1605;1610;2197815296;1581;1605;1609;2197815296;1587;1581;1580;2197815296;1587;1580;1581;2197815296;1587;1580;1609;2197815296;1587;1605;1581;2197815296;1587;1605;1580;2197815296;1587;1605;1605;2197815296;1589;1581;1581;2197815296;1589;1605;1605;2197815296;1588;1581;1605;2197815296;1588;1580;1610;2197815296;1588;1605;1582;2197815296;1588;1605;1605;2197815296;1590;1581;1609;2197815296;1590;1582;1605;2197815296;1591;1605;1581;2197815296;1591;1605;1605;2197815296;1591;1605;1610;2197815296;1593;1580;1605;2197815296;1593;1605;1605;2197815296;1593;1605].
(** unicode_tables.cpp:33 decomposition_pool, items 8000-8499 *)
Definition decomposition_pool_data_16 : list Z := [
1609;2197815296;1594;1605;1605;2197815296;1594;1605;1610;2197815296;1594;1605;1609;2197815296;1601;1582;1605;2197815296;1602;1605;1581;2197815296;1602;1605;1605;2197815296;1604;1581;1605;2197815296;1604;1581;1610;2197815296;1604;1581;1609;2197815296;1604;1580;1580;2197815296;1604;1582;1605;2197815296;1604;1605;1581;2197815296;1605;1581;1580;2197815296;1605;1581;1605;2197815296;1605;1581;1610;2197815296;1605;1580;1581;2197815296;1605;1580;1605;2197815296;1605;1582;1580;2197815296;1605;1582;1605;2197815296;1605;1580;1582;2197815296;1607;1605;1580;2197815296;1607;1605;1605;2197815296;1606;1581;1605;2197815296;1606;1581;1609;2197815296;1606;1580;1605;2197815296;1606;1580;1609;2197815296;1606;1605;1610;2197815296;1606;1605;1609;2197815296;1610;1605;1605;2197815296;1576;1582;1610;2197815296;1578;1580;1610;2197815296;1578;1580;1609;2197815296;1578;1582;1610;2197815296;1578;1582;1609;2197815296;1578;1605;1610;2197815296;1578;1605;1609;2197815296;1580;1605;1610;2197815296;1580;1581;1609;2197815296;1580;1605;1609;2197815296;1587;1582;1609;2197815296;1589;1581;1610;2197815296;1588;1581;1610;2197815296;1590;1581;1610;2197815296;1604;1580;1610;2197815296;1604;1605;1610;2197815296;1610;1581;1610;2197815296;1610;1580;1610;2197815296;1610;1605;1610;2197815296;1605;1605;1610;2197815296;1602;1605;1610;2197815296;1606;1581;1610;2197815296;1593;1605;1610;2197815296;1603;1605;1610;2197815296;1606;1580;1581;2197815296;1605;1582;1610;2197815296;1604;1580;1605;2197815296;1603;1605;1605;2197815296;1580;1581;1610;2197815296;1581;1580;1610;2197815296;1605;1580;1610;2197815296;1601;1605;1610;2197815296;1576;1581;1610;2197815296;1587;1582;1610;2197815296;1606;1580;1610;2197815296;1589;1604;1746;2197815296;1602;1604;1746;2214592512;1575;1604;1604;1607;2214592512;1575;1603;1576;1585;2214592512;1605;1581;1605;1583;2214592512;1589;1604;1593;1605;2214592512;1585;1587;1608;1604;2214592512;1593;1604;1610;1607;2214592512;1608;1587;1604;1605;2197815296;1589;1604;1609;2449473536;1589;1604;1609;32;1575;1604;1604;1607;32;1593;1604;1610;1607;32;1608;1587;1604;1605;2281701376;1580;1604;32;1580;1604;1575;1604;1607;2214592512;1585;1740;1575;1604;2164260864;44;2164260864;12289;2164260864;12290;2164260864;58;2164260864;59;2164260864;33;2164260864;63;2164260864;12310;2164260864;12311;2164260864;8230;2164260864;8229;2164260864;8212;2164260864;8211;2164260864;95;2164260864;123;2164260864;125;2164260864;12308;2164260864;12309;2164260864;12304;2164260864;12305;2164260864;12298;2164260864;12299;2164260864;12296;2164260864;12297;2164260864;12300;2164260864;12301;2164260864;12302;2164260864;12303;2164260864;91;2164260864;93;2164260864;8254;2164260864;35;2164260864;38;2164260864;42;2164260864;45;2164260864;60;2164260864;62;2164260864;92;2164260864;36;2164260864;37;2164260864;64;2181038080;32;1611;2181038080;1600;1611;2181038080;32;1612;2181038080;32;1613;2181038080;32;1614;2181038080;1600;1614;2181038080;32;1615;2181038080;1600;1615;2181038080;32;1616;2181038080;1600;1616;2181038080;32;1617;2181038080;1600;1617;2181038080;32;1618;2181038080;1600;1618;2164260864;1569;2164260864;1570;2164260864;1571;2164260864;1572;2164260864;1573;2164260864;1574;2164260864;1575;2164260864;1576;2164260864;1577;2164260864;1578;2164260864;1579;2164260864;1580;2164260864;1581;2164260864;1582;2164260864;1583;2164260864;1584;2164260864;1585;2164260864;1586;2164260864;1587;2164260864].
(** unicode_tables.cpp:33 decomposition_pool, items 8500-8999 *)
Definition decomposition_pool_data_17 : list Z := [
1588;2164260864;1589;2164260864;1590;2164260864;1591;2164260864;1592;2164260864;1593;2164260864;1594;2164260864;1601;2164260864;1602;2164260864;1603;2164260864;1604;2164260864;1605;2164260864;1606;2164260864;1607;2164260864;1608;2164260864;1610;2181038080;1604;1570;2181038080;1604;1571;2181038080;1604;1573;2181038080;1604;1575;2164260864;34;2164260864;39;2164260864;47;2164260864;94;2164260864;96;2164260864;124;2164260864;126;2164260864;10629;2164260864;10630;2164260864;12539;2164260864;12449;2164260864;12451;2164260864;12453;2164260864;12455;2164260864;12457;2164260864;12515;2164260864;12517;2164260864;12519;2164260864;12483;2164260864;12540;2164260864;12531;2164260864;12441;2164260864;12442;2164260864;12644;2164260864;12593;2164260864;12594;2164260864;12595;2164260864;12596;2164260864;12597;2164260864;12598;2164260864;12599;2164260864;12600;2164260864;12601;2164260864;12602;2164260864;12603;2164260864;12604;2164260864;12605;2164260864;12606;2164260864;12607;2164260864;12608;2164260864;12609;2164260864;12610;2164260864;12611;2164260864;12612;2164260864;12613;2164260864;12614;2164260864;12615;2164260864;12616;2164260864;12617;2164260864;12618;2164260864;12619;2164260864;12620;2164260864;12621;2164260864;12622;2164260864;12623;2164260864;12624;2164260864;12625;2164260864;12626;2164260864;12627;2164260864;12628;2164260864;12629;2164260864;12630;2164260864;12631;2164260864;12632;2164260864;12633;2164260864;12634;2164260864;12635;2164260864;12636;2164260864;12637;2164260864;12638;2164260864;12639;2164260864;12640;2164260864;12641;2164260864;12642;2164260864;12643;2164260864;162;2164260864;163;2164260864;172;2164260864;175;2164260864;166;2164260864;165;2164260864;8361;2164260864;9474;2164260864;8592;2164260864;8593;2164260864;8594;2164260864;8595;2164260864;9632;2164260864;9675;2164260864;720;2164260864;721;2164260864;230;2164260864;665;2164260864;595;2164260864;675;2164260864;43878;2164260864;677;2164260864;676;2164260864;598;2164260864;599;2164260864;7569;2164260864;600;2164260864;606;2164260864;681;2164260864;612;2164260864;610;2164260864;608;2164260864;667;2164260864;668;2164260864;615;2164260864;644;2164260864;682;2164260864;683;2164260864;620;2164260864;122628;2164260864;42894;2164260864;622;2164260864;122629;2164260864;654;2164260864;122630;2164260864;248;2164260864;630;2164260864;631;2164260864;634;2164260864;122632;2164260864;637;2164260864;638;2164260864;640;2164260864;680;2164260864;678;2164260864;43879;2164260864;679;2164260864;648;2164260864;11377;2164260864;655;2164260864;673;2164260864;674;2164260864;664;2164260864;448;2164260864;449;2164260864;450;2164260864;122634;2164260864;122654;33554432;69785;69818;33554432;69787;69818;33554432;69797;69818;33554432;69937;69927;33554432;69938;69927;33554432;70471;70462;33554432;70471;70487;33554432;70841;70842;33554432;70841;70832;33554432;70841;70845;33554432;71096;71087;33554432;71097;71087;33554432;71989;71984;33554432;119127;119141;33554432;119128;119141;33554432;119135;119150;33554432;119135;119151;33554432;119135;119152;33554432;119135;119153;33554432;119135;119154;33554432;119225;119141;33554432;119226;119141;33554432;119227;119150;33554432;119228;119150;33554432;119227;119151;33554432;119228;119151;2164260864;305;2164260864;567;2164260864;913;2164260864;914;2164260864;916;2164260864;917;2164260864;918;2164260864;919;2164260864;921;2164260864;922;2164260864;923;2164260864;924;2164260864;925;2164260864;926;2164260864;927;2164260864;929;2164260864;1012;2164260864;932;2164260864;934;2164260864;935;2164260864;936;2164260864;937;2164260864;8711;2164260864;945;2164260864;950;2164260864;951;2164260864;953;2164260864;955;2164260864;957;2164260864;958;2164260864;959;2164260864;963;2164260864;964;2164260864;965;2164260864;968;2164260864;969;2164260864;8706;2164260864;1013;2164260864;977;2164260864;1008;2164260864;981;2164260864;1009;2164260864;982;2164260864;988;2164260864;989;2164260864;1072;2164260864].
(** unicode_tables.cpp:33 decomposition_pool, items 9000-9499 *)
Definition decomposition_pool_data_18 : list Z := [
1073;2164260864;1074;2164260864;1075;2164260864;1076;2164260864;1077;2164260864;1078;2164260864;1079;2164260864;1080;2164260864;1082;2164260864;1083;2164260864;1084;2164260864;1086;2164260864;1087;2164260864;1088;2164260864;1089;2164260864;1090;2164260864;1091;2164260864;1092;2164260864;1093;2164260864;1094;2164260864;1095;2164260864;1096;2164260864;1099;2164260864;1101;2164260864;1102;2164260864;42633;2164260864;1241;2164260864;1110;2164260864;1112;2164260864;1257;2164260864;1199;2164260864;1231;2164260864;1169;2164260864;1109;2164260864;1119;2164260864;1195;2164260864;42577;2164260864;1201;2164260864;1646;2164260864;1697;2164260864;1647;2181038080;48;46;2181038080;48;44;2181038080;49;44;2181038080;50;44;2181038080;51;44;2181038080;52;44;2181038080;53;44;2181038080;54;44;2181038080;55;44;2181038080;56;44;2181038080;57;44;2197815296;40;65;41;2197815296;40;66;41;2197815296;40;67;41;2197815296;40;68;41;2197815296;40;69;41;2197815296;40;70;41;2197815296;40;71;41;2197815296;40;72;41;2197815296;40;73;41;2197815296;40;74;41;2197815296;40;75;41;2197815296;40;76;41;2197815296;40;77;41;2197815296;40;78;41;2197815296;40;79;41;2197815296;40;80;41;2197815296;40;81;41;2197815296;40;82;41;2197815296;40;83;41;2197815296;40;84;41;2197815296;40;85;41;2197815296;40;86;41;2197815296;40;87;41;2197815296;40;88;41;2197815296;40;89;41;2197815296;40;90;41;2197815296;12308;83;12309;2181038080;67;68;2181038080;87;90;2181038080;72;86;2181038080;83;68;2181038080;83;83;2197815296;80;80;86;2181038080;87;67;2181038080;77;67;2181038080;77;68;2181038080;77;82;2181038080;68;74;2181038080;12411;12363;2181038080;12467;12467;2164260864;23383;2164260864;21452;2164260864;12487;2164260864;22810;2164260864;35299;2164260864;20132;2164260864;26144;2164260864;28961;2164260864;26009;2164260864;21069;2164260864;24460;2164260864;20877;2164260864;26032;2164260864;21021;2164260864;32066;2164260864;36009;2164260864;22768;2164260864;21561;2164260864;28436;2164260864;25237;2164260864;25429;2164260864;36938;2164260864;25351;2164260864;25171;2164260864;31105;2164260864;31354;2164260864;21512;2164260864;28288;2164260864;30003;2164260864;21106;2164260864;21942;2164260864;37197;2197815296;12308;26412;12309;2197815296;12308;19977;12309;2197815296;12308;20108;12309;2197815296;12308;23433;12309;2197815296;12308;28857;12309;2197815296;12308;25171;12309;2197815296;12308;30423;12309;2197815296;12308;21213;12309;2197815296;12308;25943;12309;2164260864;24471;2164260864;21487;16777216;20029;16777216;20024;16777216;20033;16777216;131362;16777216;20320;16777216;20411;16777216;20482;16777216;20602;16777216;20633;16777216;20687;16777216;13470;16777216;132666;16777216;20820;16777216;20836;16777216;20855;16777216;132380;16777216;13497;16777216;20839;16777216;20877;16777216;132427;16777216;20887;16777216;20900;16777216;20172;16777216;20908;16777216;168415;16777216;20981;16777216;20995;16777216;13535;16777216;21051;16777216;21062;16777216;21106;16777216;21111;16777216;13589;16777216;21253;16777216;21254;16777216;21321;16777216;21338;16777216;21363;16777216;21373;16777216;21375;16777216;133676;16777216;28784;16777216;21450;16777216;21471;16777216;133987;16777216;21483;16777216;21489;16777216;21510;16777216;21662;16777216;21560;16777216;21576;16777216;21608;16777216;21666;16777216;21750;16777216;21776;16777216;21843;16777216;21859;16777216;21892;16777216;21931;16777216;21939;16777216;21954;16777216;22294;16777216;22295;16777216;22097;16777216;22132;16777216;22766;16777216;22478].
(** unicode_tables.cpp:33 decomposition_pool, items 9500-9999 *)
Definition decomposition_pool_data_19 : list Z := [
16777216;22516;16777216;22541;16777216;22411;16777216;22578;16777216;22577;16777216;22700;16777216;136420;16777216;22770;16777216;22775;16777216;22790;16777216;22810;16777216;22818;16777216;22882;16777216;136872;16777216;136938;16777216;23020;16777216;23067;16777216;23079;16777216;23000;16777216;23142;16777216;14062;16777216;14076;16777216;23304;16777216;23358;16777216;137672;16777216;23491;16777216;23512;16777216;23539;16777216;138008;16777216;23551;16777216;23558;16777216;24403;16777216;23586;16777216;14209;16777216;23648;16777216;23744;16777216;23693;16777216;138724;16777216;23875;16777216;138726;16777216;23918;16777216;23915;16777216;23932;16777216;24033;16777216;24034;16777216;14383;16777216;24061;16777216;24104;16777216;24125;16777216;24169;16777216;14434;16777216;139651;16777216;14460;16777216;24240;16777216;24243;16777216;24246;16777216;172946;16777216;24318;16777216;140081;16777216;33281;16777216;24354;16777216;14535;16777216;144056;16777216;156122;16777216;24418;16777216;24427;16777216;14563;16777216;24474;16777216;24525;16777216;24535;16777216;24569;16777216;24705;16777216;14650;16777216;14620;16777216;141012;16777216;24775;16777216;24904;16777216;24908;16777216;24954;16777216;25010;16777216;24996;16777216;25007;16777216;25054;16777216;25104;16777216;25115;16777216;25181;16777216;25265;16777216;25300;16777216;25424;16777216;142092;16777216;25405;16777216;25340;16777216;25448;16777216;25475;16777216;25572;16777216;142321;16777216;25634;16777216;25541;16777216;25513;16777216;14894;16777216;25705;16777216;25726;16777216;25757;16777216;25719;16777216;14956;16777216;25964;16777216;143370;16777216;26083;16777216;26360;16777216;26185;16777216;15129;16777216;15112;16777216;15076;16777216;20882;16777216;20885;16777216;26368;16777216;26268;16777216;32941;16777216;17369;16777216;26401;16777216;26462;16777216;26451;16777216;144323;16777216;15177;16777216;26618;16777216;26501;16777216;26706;16777216;144493;16777216;26766;16777216;26655;16777216;26900;16777216;26946;16777216;27043;16777216;27114;16777216;27304;16777216;145059;16777216;27355;16777216;15384;16777216;27425;16777216;145575;16777216;27476;16777216;15438;16777216;27506;16777216;27551;16777216;27579;16777216;146061;16777216;138507;16777216;146170;16777216;27726;16777216;146620;16777216;27839;16777216;27853;16777216;27751;16777216;27926;16777216;27966;16777216;28009;16777216;28024;16777216;28037;16777216;146718;16777216;27956;16777216;28207;16777216;28270;16777216;15667;16777216;28359;16777216;147153;16777216;28153;16777216;28526;16777216;147294;16777216;147342;16777216;28614;16777216;28729;16777216;28699;16777216;15766;16777216;28746;16777216;28797;16777216;28791;16777216;28845;16777216;132389;16777216;28997;16777216;148067;16777216;29084;16777216;148395;16777216;29224;16777216;29264;16777216;149000;16777216;29312;16777216;29333;16777216;149301;16777216;149524;16777216;29562;16777216;29579;16777216;16044;16777216;29605;16777216;16056;16777216;29767;16777216;29788;16777216;29829;16777216;29898;16777216;16155;16777216;29988;16777216;150582;16777216;30014;16777216;150674;16777216;139679;16777216;30224;16777216;151457;16777216;151480;16777216;151620;16777216;16380;16777216;16392;16777216;151795;16777216;151794;16777216;151833;16777216;151859;16777216;30494;16777216;30495;16777216;30603;16777216;16454;16777216;16534;16777216;152605;16777216;30798;16777216;16611;16777216;153126;16777216;153242;16777216;153285;16777216;31211;16777216;16687;16777216;31306;16777216;31311;16777216;153980;16777216;154279;16777216;31470;16777216;16898;16777216;154539;16777216;31686;16777216;31689;16777216;16935;16777216;154752;16777216;31954;16777216;17056;16777216;31976;16777216;31971;16777216;32000;16777216;155526;16777216;32099;16777216;17153;16777216;32199;16777216;32258;16777216;32325;16777216;17204].
(** unicode_tables.cpp:33 decomposition_pool, items 10000-10319 *)
Definition decomposition_pool_data_20 : list Z := [
16777216;156200;16777216;156231;16777216;17241;16777216;156377;16777216;32634;16777216;156478;16777216;32661;16777216;32762;16777216;156890;16777216;156963;16777216;32864;16777216;157096;16777216;32880;16777216;144223;16777216;17365;16777216;32946;16777216;33027;16777216;17419;16777216;33086;16777216;23221;16777216;157607;16777216;157621;16777216;144275;16777216;144284;16777216;33284;16777216;36766;16777216;17515;16777216;33425;16777216;33419;16777216;33437;16777216;21171;16777216;33457;16777216;33459;16777216;33469;16777216;33510;16777216;158524;16777216;33565;16777216;33635;16777216;33709;16777216;33571;16777216;33725;16777216;33767;16777216;33619;16777216;33738;16777216;33740;16777216;33756;16777216;158774;16777216;159083;16777216;158933;16777216;17707;16777216;34033;16777216;34035;16777216;34070;16777216;160714;16777216;34148;16777216;159532;16777216;17757;16777216;17761;16777216;159665;16777216;159954;16777216;17771;16777216;34384;16777216;34407;16777216;34409;16777216;34473;16777216;34440;16777216;34574;16777216;34530;16777216;34600;16777216;34667;16777216;34694;16777216;17879;16777216;34785;16777216;34817;16777216;17913;16777216;34912;16777216;34915;16777216;161383;16777216;35031;16777216;35038;16777216;17973;16777216;35066;16777216;13499;16777216;161966;16777216;162150;16777216;18110;16777216;18119;16777216;35488;16777216;35925;16777216;162984;16777216;36011;16777216;36033;16777216;36123;16777216;36215;16777216;163631;16777216;133124;16777216;36299;16777216;36284;16777216;36336;16777216;133342;16777216;36564;16777216;165330;16777216;165357;16777216;37012;16777216;37105;16777216;37137;16777216;165678;16777216;37147;16777216;37432;16777216;37591;16777216;37592;16777216;37500;16777216;37881;16777216;37909;16777216;166906;16777216;38283;16777216;18837;16777216;38327;16777216;167287;16777216;18918;16777216;38595;16777216;23986;16777216;38691;16777216;168261;16777216;168474;16777216;19054;16777216;19062;16777216;38880;16777216;168970;16777216;19122;16777216;169110;16777216;38953;16777216;169398;16777216;39138;16777216;19251;16777216;39209;16777216;39335;16777216;39362;16777216;39422;16777216;19406;16777216;170800;16777216;40000;16777216;40189;16777216;19662;16777216;19693;16777216;40295;16777216;172238;16777216;19704;16777216;172293;16777216;172558;16777216;172689;16777216;40635;16777216;19798;16777216;40697;16777216;40702;16777216;40709;16777216;40719;16777216;40726;16777216;40763;16777216;173568].
(** unicode_tables.cpp:33 decomposition_pool *)
Definition decomposition_pool_data : list Z := decomposition_pool_data_0 ++ decomposition_pool_data_1 ++ decomposition_pool_data_2 ++ decomposition_pool_data_3 ++ decomposition_pool_data_4 ++ decomposition_pool_data_5 ++ decomposition_pool_data_6 ++ decomposition_pool_data_7 ++ decomposition_pool_data_8 ++ decomposition_pool_data_9 ++ decomposition_pool_data_10 ++ decomposition_pool_data_11 ++ decomposition_pool_data_12 ++ decomposition_pool_data_13 ++ decomposition_pool_data_14 ++ decomposition_pool_data_15 ++ decomposition_pool_data_16 ++ decomposition_pool_data_17 ++ decomposition_pool_data_18 ++ decomposition_pool_data_19 ++ decomposition_pool_data_20.
(** unicode_tables.cpp:2103 decomposition_index1, items 0-132 *)
Definition decomposition_index1_runs_0 : list (Z * Z) := [
(0,1);(1,1);(2,1);(3,1);(4,1);(5,1);(6,1);(7,1);(8,1);(9,1);(0,1);(10,1);(11,1);(12,1);(0,4);(13,1);(14,1);(15,1);(0,1);(16,1);(17,1);(18,1);(19,1);(20,1);(21,1);(22,1);(23,1);(24,1);(25,1);(26,1);(27,1);(0,20);(28,1);(0,3);(29,1);(30,1);(31,1);(32,1);(33,1);(34,1);(35,1);(36,1);(37,1);(38,1);(39,1);(40,1);(41,1);(0,1);(42,1);(43,1);(0,10);(44,1);(45,1);(0,2);(46,1);(0,1);(47,1);(0,2);(48,1);(49,1);(50,1);(51,1);(52,1);(53,1);(54,1);(55,1);(56,1);(57,1);(58,1);(0,229);(59,1);(60,1);(61,1);(0,6);(62,1);(0,155);(63,1);(64,1);(65,1);(66,1);(67,1);(68,1);(69,1);(70,1);(71,1);(72,1);(73,1);(74,1);(75,1);(76,1);(0,15);(77,1);(0,17);(78,1);(79,1);(0,3);(80,1);(0,2);(81,1);(0,1);(82,1);(0,6);(83,1);(0,367);(84,1);(85,1);(0,4);(86,1);(87,1);(88,1);(89,1);(90,1);(91,1);(92,1);(93,1);(0,16);(94,1);(0,27);(95,1);(96,1);(0,4);(97,1);(98,1);(99,1);(0,18);(100,1);(0,504);(101,1);(102,1);(103,1);(104,1);(105,1);(0,7179)].
(** unicode_tables.cpp:2103 decomposition_index1 *)
Definition decomposition_index1_runs : list (Z * Z) := decomposition_index1_runs_0.
(** unicode_tables.cpp:3352 decomposition_index2, items 0-499 *)
Definition decomposition_index2_runs_0 : list (Z * Z) := [
(0,160);(1,1);(0,7);(3,1);(0,1);(6,1);(0,4);(8,1);(0,2);(11,1);(13,1);(15,1);(18,1);(0,2);(20,1);(23,1);(25,1);(0,1);(27,1);(31,1);(35,1);(0,1);(39,1);(42,1);(45,1);(48,1);(51,1);(54,1);(0,1);(57,1);(60,1);(63,1);(66,1);(69,1);(72,1);(75,1);(78,1);(81,1);(0,1);(84,1);(87,1);(90,1);(93,1);(96,1);(99,1);(0,2);(102,1);(105,1);(108,1);(111,1);(114,1);(0,2);(117,1);(120,1);(123,1);(126,1);(129,1);(132,1);(0,1);(135,1);(138,1);(141,1);(144,1);(147,1);(150,1);(153,1);(156,1);(159,1);(0,1);(162,1);(165,1);(168,1);(171,1);(174,1);(177,1);(0,2);(180,1);(183,1);(186,1);(189,1);(192,1);(0,1);(195,1);(198,1);(201,1);(204,1);(207,1);(210,1);(213,1);(216,1);(219,1);(222,1);(225,1);(228,1);(231,1);(234,1);(237,1);(240,1);(243,1);(0,2);(246,1);(249,1);(252,1);(255,1);(258,1);(261,1);(264,1);(267,1);(270,1);(273,1);(276,1);(279,1);(282,1);(285,1);(288,1);(291,1);(294,1);(297,1);(300,1);(303,1);(0,2);(306,1);(309,1);(312,1);(315,1);(318,1);(321,1);(324,1);(327,1);(330,1);(0,1);(333,1);(336,1);(339,1);(342,1);(345,1);(348,1);(0,1);(351,1);(354,1);(357,1);(360,1);(363,1);(366,1);(369,1);(372,1);(0,2);(375,1);(378,1);(381,1);(384,1);(387,1);(390,1);(393,1);(0,2);(396,1);(399,1);(402,1);(405,1);(408,1);(411,1);(0,2);(414,1);(417,1);(420,1);(423,1);(426,1);(429,1);(432,1);(435,1);(438,1);(441,1);(444,1);(447,1);(450,1);(453,1);(456,1);(459,1);(462,1);(465,1);(0,2);(468,1);(471,1);(474,1);(477,1);(480,1);(483,1);(486,1);(489,1);(492,1);(495,1);(498,1);(501,1);(504,1);(507,1);(510,1);(513,1);(516,1);(519,1);(522,1);(525,1);(528,1);(531,1);(534,1);(537,1);(0,32);(539,1);(542,1);(0,13);(545,1);(548,1);(0,19);(551,1);(554,1);(557,1);(560,1);(563,1);(566,1);(569,1);(572,1);(575,1);(578,1);(581,1);(584,1);(587,1);(590,1);(593,1);(596,1);(599,1);(602,1);(605,1);(608,1);(611,1);(614,1);(617,1);(620,1);(623,1);(0,1);(626,1);(629,1);(632,1);(635,1);(638,1);(641,1);(0,2);(644,1);(647,1);(650,1);(653,1);(656,1);(659,1);(662,1);(665,1);(668,1);(671,1);(674,1);(677,1);(680,1);(683,1);(686,1);(689,1);(0,2);(692,1);(695,1);(698,1);(701,1);(704,1);(707,1);(710,1);(713,1);(716,1);(719,1);(722,1);(725,1);(728,1);(731,1);(734,1);(737,1);(740,1);(743,1);(746,1);(749,1);(752,1);(755,1);(758,1);(761,1);(764,1);(767,1);(770,1);(773,1);(776,1);(779,1);(782,1);(785,1);(788,1);(791,1);(794,1);(797,1);(0,2);(800,1);(803,1);(0,6);(806,1);(809,1);(812,1);(815,1);(818,1);(821,1);(824,1);(827,1);(830,1);(833,1);(836,1);(839,1);(842,1);(845,1);(0,124);(848,1);(850,1);(852,1);(854,1);(856,1);(858,1);(860,1);(862,1);(864,1);(0,31);(866,1);(869,1);(872,1);(875,1);(878,1);(881,1);(0,2);(884,1);(886,1);(537,1);(888,1);(890,1);(0,91);(892,1);(894,1);(0,1);(896,1);(898,1);(0,47);(901,1);(0,5);(903,1);(0,3);(906,1);(0,5);(15,1);(908,1);(911,1);(914,1);(916,1);(919,1);(922,1);(0,1);(925,1);(0,1);(928,1);(931,1);(934,1);(0,25);(937,1);(940,1);(943,1);(946,1);(949,1);(952,1);(955,1);(0,25);(958,1);(961,1);(964,1);(967,1);(970,1);(0,1);(973,1);(975,1);(977,1);(979,1);(982,1);(985,1);(987,1);(0,25);(989,1);(991,1);(993,1);(0,1);(995,1);(997,1);(0,3);(999,1);(0,6);(1001,1);(1004,1);(0,1);(1007,1);(0,3);(1010,1);(0,4);(1013,1);(1016,1);(1019,1);(0,10);(1022,1);(0,31);(1025,1);(0,22);(1028,1);(1031,1);(0,1);(1034,1);(0,3);(1037,1);(0,4);(1040,1);(1043,1);(1046,1);(0,23);(1049,1);(1052,1);(0,73);(1055,1);(1058,1);(0,13);(1061,1);(1064,1);(1067,1);(1070,1);(0,2);(1073,1);(1076,1);(0,2);(1079,1);(1082,1);(1085,1);(1088,1);(1091,1);(1094,1);(0,2);(1097,1);(1100,1);(1103,1);(1106,1);(1109,1);(1112,1);(0,2);(1115,1);(1118,1);(1121,1);(1124,1);(1127,1);(1130,1);(1133,1);(1136,1);(1139,1);(1142,1);(1145,1);(1148,1);(0,2);(1151,1);(1154,1);(0,13);(1157,1);(0,154);(1160,1);(1163,1);(1166,1);(1169,1);(1172,1);(0,78);(1175,1);(1178,1);(1181,1);(1184,1);(0,71);(1187,1);(0,1);(1190,1);(0,16);(1193,1);(0,85);(1196,1);(0,7);(1199,1);(0,2);(1202,1);(0,35);(1205,1);(1208,1);(1211,1);(1214,1);(1217,1);(1220,1);(1223,1);(1226,1)].
(** unicode_tables.cpp:3352 decomposition_index2, items 500-999 *)
Definition decomposition_index2_runs_1 : list (Z * Z) := [
(0,107);(1229,1);(1232,1);(0,15);(1235,1);(1238,1);(0,1);(1241,1);(0,83);(1244,1);(0,2);(1247,1);(0,34);(1250,1);(1253,1);(1256,1);(0,2);(1259,1);(0,105);(1262,1);(0,2);(1265,1);(1268,1);(0,15);(1271,1);(1274,1);(0,54);(1277,1);(0,53);(1280,1);(1283,1);(1286,1);(0,123);(1289,1);(0,119);(1292,1);(0,6);(1295,1);(1298,1);(0,1);(1301,1);(1304,1);(0,126);(1307,1);(1310,1);(1313,1);(0,141);(1316,1);(0,1);(1319,1);(1322,1);(1325,1);(0,84);(1328,1);(0,127);(1331,1);(0,40);(1334,1);(1337,1);(0,46);(1340,1);(0,54);(1342,1);(0,9);(1345,1);(0,4);(1348,1);(0,4);(1351,1);(0,4);(1354,1);(0,12);(1357,1);(0,9);(1360,1);(0,1);(1363,1);(1366,1);(1369,1);(1372,1);(1375,1);(0,7);(1378,1);(0,17);(1381,1);(0,9);(1384,1);(0,4);(1387,1);(0,4);(1390,1);(0,4);(1393,1);(0,12);(1396,1);(0,108);(1399,1);(0,213);(1402,1);(0,9);(1404,1);(0,1);(1407,1);(0,1);(1410,1);(0,1);(1413,1);(0,1);(1416,1);(0,3);(1419,1);(0,40);(1422,1);(0,1);(1425,1);(0,2);(1428,1);(1431,1);(0,1);(1434,1);(0,104);(1437,1);(1439,1);(1441,1);(0,1);(1443,1);(1445,1);(1447,1);(1449,1);(1451,1);(1453,1);(1455,1);(1457,1);(1459,1);(1461,1);(1463,1);(0,1);(1465,1);(1467,1);(1469,1);(1471,1);(1473,1);(1475,1);(1477,1);(6,1);(1479,1);(1481,1);(1483,1);(1485,1);(1487,1);(1489,1);(1491,1);(1493,1);(1495,1);(1497,1);(0,1);(1499,1);(1501,1);(1503,1);(25,1);(1505,1);(1507,1);(1509,1);(1511,1);(1513,1);(1515,1);(1517,1);(1519,1);(1521,1);(1523,1);(973,1);(1525,1);(1527,1);(985,1);(1529,1);(1531,1);(854,1);(1515,1);(1521,1);(973,1);(1525,1);(991,1);(985,1);(1529,1);(0,13);(1533,1);(0,34);(1535,1);(1537,1);(1539,1);(1541,1);(1495,1);(1543,1);(1545,1);(1547,1);(1549,1);(1551,1);(1553,1);(1555,1);(1557,1);(1559,1);(1561,1);(1563,1);(1565,1);(1567,1);(1569,1);(1571,1);(1573,1);(1575,1);(1577,1);(1579,1);(1581,1);(1583,1);(1585,1);(1587,1);(1589,1);(1591,1);(1593,1);(1595,1);(1597,1);(1599,1);(1601,1);(1603,1);(975,1);(0,64);(1605,1);(1608,1);(1611,1);(1614,1);(1617,1);(1620,1);(1623,1);(1626,1);(1629,1);(1632,1);(1635,1);(1638,1);(1641,1);(1644,1);(1647,1);(1650,1);(1653,1);(1656,1);(1659,1);(1662,1);(1665,1);(1668,1);(1671,1);(1674,1);(1677,1);(1680,1);(1683,1);(1686,1);(1689,1);(1692,1);(1695,1);(1698,1);(1701,1);(1704,1);(1707,1);(1710,1);(1713,1);(1716,1);(1719,1);(1722,1);(1725,1);(1728,1);(1731,1);(1734,1);(1737,1);(1740,1);(1743,1);(1746,1);(1749,1);(1752,1);(1755,1);(1758,1);(1761,1);(1764,1);(1767,1);(1770,1);(1773,1);(1776,1);(1779,1);(1782,1);(1785,1);(1788,1);(1791,1);(1794,1);(1797,1);(1800,1);(1803,1);(1806,1);(1809,1);(1812,1);(1815,1);(1818,1);(1821,1);(1824,1);(1827,1);(1830,1);(1833,1);(1836,1);(1839,1);(1842,1);(1845,1);(1848,1);(1851,1);(1854,1);(1857,1);(1860,1);(1863,1);(1866,1);(1869,1);(1872,1);(1875,1);(1878,1);(1881,1);(1884,1);(1887,1);(1890,1);(1893,1);(1896,1);(1899,1);(1902,1);(1905,1);(1908,1);(1911,1);(1914,1);(1917,1);(1920,1);(1923,1);(1926,1);(1929,1);(1932,1);(1935,1);(1938,1);(1941,1);(1944,1);(1947,1);(1950,1);(1953,1);(1956,1);(1959,1);(1962,1);(1965,1);(1968,1);(1971,1);(1974,1);(1977,1);(1980,1);(1983,1);(1986,1);(1989,1);(1992,1);(1995,1);(1998,1);(2001,1);(2004,1);(2007,1);(2010,1);(2013,1);(2016,1);(2019,1);(2022,1);(2025,1);(2028,1);(2031,1);(2034,1);(2037,1);(2040,1);(2043,1);(2046,1);(2049,1);(2052,1);(2055,1);(2058,1);(2061,1);(2064,1);(2067,1);(2070,1);(0,4);(2073,1);(2076,1);(2079,1);(2082,1);(2085,1);(2088,1);(2091,1);(2094,1);(2097,1);(2100,1);(2103,1);(2106,1);(2109,1);(2112,1);(2115,1);(2118,1);(2121,1);(2124,1);(2127,1);(2130,1);(2133,1);(2136,1);(2139,1);(2142,1);(2145,1);(2148,1);(2151,1);(2154,1);(2157,1);(2160,1);(2163,1);(2166,1);(2169,1);(2172,1);(2175,1);(2178,1);(2181,1);(2184,1);(2187,1);(2190,1);(2193,1);(2196,1);(2199,1);(2202,1);(2205,1);(2208,1);(2211,1);(2214,1);(2217,1);(2220,1);(2223,1);(2226,1);(2229,1);(2232,1);(2235,1);(2238,1);(2241,1);(2244,1);(2247,1);(2250,1);(2253,1);(2256,1);(2259,1);(2262,1);(2265,1);(2268,1);(2271,1);(2274,1);(2277,1);(2280,1);(2283,1);(2286,1);(2289,1);(2292,1);(2295,1);(2298,1);(2301,1);(2304,1);(2307,1);(2310,1);(2313,1);(2316,1);(2319,1);(2322,1);(2325,1);(2328,1);(2331,1);(2334,1);(2337,1);(2340,1);(0,6);(2343,1);(2346,1);(2349,1);(2352,1);(2355,1);(2358,1);(2361,1);(2364,1);(2367,1);(2370,1);(2373,1);(2376,1);(2379,1);(2382,1);(2385,1);(2388,1);(2391,1);(2394,1);(2397,1);(2400,1);(2403,1);(2406,1);(0,2);(2409,1);(2412,1);(2415,1);(2418,1)].
(** unicode_tables.cpp:3352 decomposition_index2, items 1000-1499 *)
Definition decomposition_index2_runs_2 : list (Z * Z) := [
(2421,1);(2424,1);(0,2);(2427,1);(2430,1);(2433,1);(2436,1);(2439,1);(2442,1);(2445,1);(2448,1);(2451,1);(2454,1);(2457,1);(2460,1);(2463,1);(2466,1);(2469,1);(2472,1);(2475,1);(2478,1);(2481,1);(2484,1);(2487,1);(2490,1);(2493,1);(2496,1);(2499,1);(2502,1);(2505,1);(2508,1);(2511,1);(2514,1);(2517,1);(2520,1);(2523,1);(2526,1);(2529,1);(2532,1);(2535,1);(2538,1);(0,2);(2541,1);(2544,1);(2547,1);(2550,1);(2553,1);(2556,1);(0,2);(2559,1);(2562,1);(2565,1);(2568,1);(2571,1);(2574,1);(2577,1);(2580,1);(0,1);(2583,1);(0,1);(2586,1);(0,1);(2589,1);(0,1);(2592,1);(2595,1);(2598,1);(2601,1);(2604,1);(2607,1);(2610,1);(2613,1);(2616,1);(2619,1);(2622,1);(2625,1);(2628,1);(2631,1);(2634,1);(2637,1);(2640,1);(2643,1);(2646,1);(2648,1);(2651,1);(2653,1);(2656,1);(2658,1);(2661,1);(2663,1);(2666,1);(2668,1);(2671,1);(2673,1);(2676,1);(0,2);(2678,1);(2681,1);(2684,1);(2687,1);(2690,1);(2693,1);(2696,1);(2699,1);(2702,1);(2705,1);(2708,1);(2711,1);(2714,1);(2717,1);(2720,1);(2723,1);(2726,1);(2729,1);(2732,1);(2735,1);(2738,1);(2741,1);(2744,1);(2747,1);(2750,1);(2753,1);(2756,1);(2759,1);(2762,1);(2765,1);(2768,1);(2771,1);(2774,1);(2777,1);(2780,1);(2783,1);(2786,1);(2789,1);(2792,1);(2795,1);(2798,1);(2801,1);(2804,1);(2807,1);(2810,1);(2813,1);(2816,1);(2819,1);(2822,1);(2825,1);(2828,1);(2831,1);(2834,1);(0,1);(2837,1);(2840,1);(2843,1);(2846,1);(2849,1);(2852,1);(2854,1);(2857,1);(2860,1);(2857,1);(2862,1);(2865,1);(2868,1);(2871,1);(2874,1);(0,1);(2877,1);(2880,1);(2883,1);(2886,1);(2888,1);(2891,1);(2893,1);(2896,1);(2899,1);(2902,1);(2905,1);(2908,1);(2911,1);(2914,1);(0,2);(2916,1);(2919,1);(2922,1);(2925,1);(2928,1);(2931,1);(0,1);(2933,1);(2936,1);(2939,1);(2942,1);(2945,1);(2948,1);(2951,1);(2953,1);(2956,1);(2959,1);(2962,1);(2965,1);(2968,1);(2971,1);(2974,1);(2976,1);(2979,1);(2982,1);(2984,1);(0,2);(2986,1);(2989,1);(2992,1);(0,1);(2995,1);(2998,1);(3001,1);(3004,1);(3006,1);(3009,1);(3011,1);(3014,1);(3016,1);(0,1);(3019,1);(3021,1);(1,9);(0,6);(3023,1);(0,5);(3025,1);(0,12);(3028,1);(3030,1);(3033,1);(0,8);(1,1);(0,3);(3037,1);(3040,1);(0,1);(3044,1);(3047,1);(0,4);(3051,1);(0,1);(3054,1);(0,8);(3057,1);(3060,1);(3063,1);(0,13);(3066,1);(0,7);(1,1);(0,16);(3071,1);(1531,1);(0,2);(3073,1);(3075,1);(3077,1);(3079,1);(3081,1);(3083,1);(3085,1);(3087,1);(3089,1);(3091,1);(3093,1);(3095,1);(3071,1);(23,1);(11,1);(13,1);(3073,1);(3075,1);(3077,1);(3079,1);(3081,1);(3083,1);(3085,1);(3087,1);(3089,1);(3091,1);(3093,1);(0,1);(6,1);(1489,1);(25,1);(888,1);(1491,1);(848,1);(1499,1);(886,1);(1501,1);(3095,1);(1511,1);(537,1);(1513,1);(0,11);(3097,1);(0,87);(3100,1);(3104,1);(3108,1);(3110,1);(0,1);(3113,1);(3117,1);(3121,1);(0,1);(3123,1);(1497,1);(1451,3);(848,1);(3126,1);(1453,2);(1459,1);(886,1);(0,1);(1463,1);(3128,1);(0,2);(1469,1);(3131,1);(1471,3);(0,2);(3133,1);(3136,1);(3140,1);(0,1);(3143,1);(0,1);(3145,1);(0,1);(3143,1);(0,1);(3147,1);(3149,1);(1441,1);(3108,1);(0,1);(1489,1);(1445,1);(3151,1);(0,1);(1461,1);(25,1);(3153,1);(3155,1);(3157,1);(3159,1);(1531,1);(0,1);(3161,1);(987,1);(1525,1);(3165,1);(3167,1);(3169,1);(0,4);(1443,1);(1487,1);(1489,1);(1531,1);(852,1);(0,6);(3171,1);(3175,1);(3179,1);(3184,1);(3188,1);(3192,1);(3196,1);(3200,1);(3204,1);(3208,1);(3212,1);(3216,1);(3220,1);(3224,1);(3228,1);(3232,1);(1453,1);(3235,1);(3238,1);(3242,1);(3245,1);(3247,1);(3250,1);(3254,1);(3259,1);(3262,1);(3264,1);(3267,1);(1459,1);(3108,1);(1443,1);(1461,1);(1531,1);(3271,1);(3274,1);(3278,1);(1521,1);(3281,1);(3284,1);(3288,1);(3293,1);(888,1);(3296,1);(3299,1);(886,1);(1537,1);(1487,1);(1501,1);(0,9);(3303,1);(0,16);(3307,1);(3310,1);(0,18);(3313,1);(0,30);(3316,1);(3319,1);(3322,1);(0,52);(3325,1);(0,4);(3328,1);(0,2);(3331,1);(0,23);(3334,1);(0,1);(3337,1);(0,5);(3340,1);(3343,1);(0,1);(3347,1);(3350,1);(0,16);(3354,1);(0,2);(3357,1);(0,2);(3360,1);(0,1);(3363,1);(0,22);(3366,1);(0,1);(3369,1);(0,10);(3372,1);(3375,1);(3378,1);(3381,1);(3384,1);(0,2);(3387,1);(3390,1);(0,2);(3393,1);(3396,1);(0,6);(3399,1);(3402,1);(0,2);(3405,1);(3408,1);(0,2);(3411,1);(3414,1);(0,34);(3417,1);(3420,1);(3423,1);(3426,1);(0,48);(3429,1);(3432,1);(3435,1);(3438,1);(0,6);(3441,1);(3444,1);(3447,1);(3450,1);(0,59);(3453,1);(3455,1);(0,181);(23,1);(11,1);(13,1);(3073,1);(3075,1);(3077,1);(3079,1)].
(** unicode_tables.cpp:3352 decomposition_index2, items 1500-1999 *)
Definition decomposition_index2_runs_3 : list (Z * Z) := [
(3081,1);(3083,1);(3457,1);(3460,1);(3463,1);(3466,1);(3469,1);(3472,1);(3475,1);(3478,1);(3481,1);(3484,1);(3487,1);(3490,1);(3494,1);(3498,1);(3502,1);(3506,1);(3510,1);(3514,1);(3518,1);(3522,1);(3526,1);(3531,1);(3536,1);(3541,1);(3546,1);(3551,1);(3556,1);(3561,1);(3566,1);(3571,1);(3576,1);(3581,1);(3584,1);(3587,1);(3590,1);(3593,1);(3596,1);(3599,1);(3602,1);(3605,1);(3608,1);(3612,1);(3616,1);(3620,1);(3624,1);(3628,1);(3632,1);(3636,1);(3640,1);(3644,1);(3648,1);(3652,1);(3656,1);(3660,1);(3664,1);(3668,1);(3672,1);(3676,1);(3680,1);(3684,1);(3688,1);(3692,1);(3696,1);(3700,1);(3704,1);(3708,1);(3712,1);(3716,1);(3720,1);(3724,1);(3728,1);(3732,1);(3736,1);(3740,1);(3744,1);(3748,1);(3752,1);(1437,1);(1441,1);(3108,1);(1443,1);(1445,1);(3151,1);(1449,1);(1451,1);(1453,1);(1455,1);(1457,1);(1459,1);(1461,1);(1463,1);(1465,1);(1469,1);(3131,1);(1471,1);(3756,1);(1473,1);(1475,1);(3245,1);(1477,1);(3262,1);(3758,1);(3143,1);(6,1);(1485,1);(1537,1);(1487,1);(1489,1);(1543,1);(1497,1);(848,1);(1531,1);(852,1);(1499,1);(886,1);(1501,1);(3095,1);(25,1);(1511,1);(3760,1);(854,1);(537,1);(1513,1);(1515,1);(1521,1);(862,1);(888,1);(864,1);(1597,1);(3071,1);(0,33);(3762,1);(0,103);(3767,1);(3771,1);(3774,1);(0,101);(3778,1);(0,159);(852,1);(3245,1);(0,113);(3781,1);(0,47);(3783,1);(0,83);(3785,1);(0,12);(3787,1);(3789,1);(3791,1);(3793,1);(3795,1);(3797,1);(3799,1);(3801,1);(3803,1);(3805,1);(3807,1);(3809,1);(3811,1);(3813,1);(3815,1);(3817,1);(3819,1);(3821,1);(3823,1);(3825,1);(3827,1);(3829,1);(3831,1);(3833,1);(3835,1);(3837,1);(3839,1);(3841,1);(3843,1);(3845,1);(3847,1);(3849,1);(3851,1);(3853,1);(3855,1);(3857,1);(3859,1);(3861,1);(3863,1);(3865,1);(3867,1);(3869,1);(3871,1);(3873,1);(3875,1);(3877,1);(3879,1);(3881,1);(3883,1);(3885,1);(3887,1);(3889,1);(3891,1);(3893,1);(3895,1);(3897,1);(3899,1);(3901,1);(3903,1);(3905,1);(3907,1);(3909,1);(3911,1);(3913,1);(3915,1);(3917,1);(3919,1);(3921,1);(3923,1);(3925,1);(3927,1);(3929,1);(3931,1);(3933,1);(3935,1);(3937,1);(3939,1);(3941,1);(3943,1);(3945,1);(3947,1);(3949,1);(3951,1);(3953,1);(3955,1);(3957,1);(3959,1);(3961,1);(3963,1);(3965,1);(3967,1);(3969,1);(3971,1);(3973,1);(3975,1);(3977,1);(3979,1);(3981,1);(3983,1);(3985,1);(3987,1);(3989,1);(3991,1);(3993,1);(3995,1);(3997,1);(3999,1);(4001,1);(4003,1);(4005,1);(4007,1);(4009,1);(4011,1);(4013,1);(4015,1);(4017,1);(4019,1);(4021,1);(4023,1);(4025,1);(4027,1);(4029,1);(4031,1);(4033,1);(4035,1);(4037,1);(4039,1);(4041,1);(4043,1);(4045,1);(4047,1);(4049,1);(4051,1);(4053,1);(4055,1);(4057,1);(4059,1);(4061,1);(4063,1);(4065,1);(4067,1);(4069,1);(4071,1);(4073,1);(4075,1);(4077,1);(4079,1);(4081,1);(4083,1);(4085,1);(4087,1);(4089,1);(4091,1);(4093,1);(4095,1);(4097,1);(4099,1);(4101,1);(4103,1);(4105,1);(4107,1);(4109,1);(4111,1);(4113,1);(4115,1);(4117,1);(4119,1);(4121,1);(4123,1);(4125,1);(4127,1);(4129,1);(4131,1);(4133,1);(4135,1);(4137,1);(4139,1);(4141,1);(4143,1);(4145,1);(4147,1);(4149,1);(4151,1);(4153,1);(4155,1);(4157,1);(4159,1);(4161,1);(4163,1);(4165,1);(4167,1);(4169,1);(4171,1);(4173,1);(4175,1);(4177,1);(4179,1);(4181,1);(4183,1);(4185,1);(4187,1);(4189,1);(4191,1);(4193,1);(4195,1);(4197,1);(4199,1);(4201,1);(4203,1);(4205,1);(4207,1);(4209,1);(4211,1);(4213,1);(0,42);(1,1);(0,53);(4215,1);(0,1);(3833,1);(4217,1);(4219,1);(0,17);(4221,1);(0,1);(4224,1);(0,1);(4227,1);(0,1);(4230,1);(0,1);(4233,1);(0,1);(4236,1);(0,1);(4239,1);(0,1);(4242,1);(0,1);(4245,1);(0,1);(4248,1);(0,1);(4251,1);(0,1);(4254,1);(0,2);(4257,1);(0,1);(4260,1);(0,1);(4263,1);(0,6);(4266,1);(4269,1);(0,1);(4272,1);(4275,1);(0,1);(4278,1);(4281,1);(0,1);(4284,1);(4287,1);(0,1);(4290,1);(4293,1);(0,22);(4296,1);(0,6);(4299,1);(4302,1);(0,1);(4305,1);(4308,1);(0,12);(4311,1);(0,1);(4314,1);(0,1);(4317,1);(0,1);(4320,1);(0,1);(4323,1);(0,1);(4326,1);(0,1);(4329,1);(0,1);(4332,1);(0,1);(4335,1);(0,1);(4338,1);(0,1);(4341,1);(0,1);(4344,1);(0,2);(4347,1);(0,1);(4350,1);(0,1);(4353,1);(0,6);(4356,1);(4359,1);(0,1);(4362,1);(4365,1);(0,1);(4368,1);(4371,1);(0,1);(4374,1);(4377,1);(0,1);(4380,1);(4383,1);(0,22);(4386,1);(0,2);(4389,1);(4392,1);(4395,1);(4398,1);(0,3);(4401,1);(4404,1);(0,49);(4407,1);(4409,1);(4411,1);(4413,1);(4415,1);(4417,1);(4419,1);(4421,1);(4423,1);(4425,1);(4427,1);(4429,1);(4431,1);(4433,1);(4435,1);(4437,1);(4439,1);(4441,1);(4443,1)].
(** unicode_tables.cpp:3352 decomposition_index2, items 2000-2499 *)
Definition decomposition_index2_runs_4 : list (Z * Z) := [
(4445,1);(4447,1);(4449,1);(4451,1);(4453,1);(4455,1);(4457,1);(4459,1);(4461,1);(4463,1);(4465,1);(4467,1);(4469,1);(4471,1);(4473,1);(4475,1);(4477,1);(4479,1);(4481,1);(4483,1);(4485,1);(4487,1);(4489,1);(4491,1);(4493,1);(4495,1);(4497,1);(4499,1);(4501,1);(4503,1);(4505,1);(4507,1);(4509,1);(4511,1);(4513,1);(4515,1);(4517,1);(4519,1);(4521,1);(4523,1);(4525,1);(4527,1);(4529,1);(4531,1);(4533,1);(4535,1);(4537,1);(4539,1);(4541,1);(4543,1);(4545,1);(4547,1);(4549,1);(4551,1);(4553,1);(4555,1);(4557,1);(4559,1);(4561,1);(4563,1);(4565,1);(4567,1);(4569,1);(4571,1);(4573,1);(4575,1);(4577,1);(4579,1);(4581,1);(4583,1);(4585,1);(4587,1);(4589,1);(4591,1);(4593,1);(0,3);(3787,1);(3799,1);(4595,1);(4597,1);(4599,1);(4601,1);(4603,1);(4605,1);(3795,1);(4607,1);(4609,1);(4611,1);(4613,1);(3803,1);(0,96);(4615,1);(4619,1);(4623,1);(4627,1);(4631,1);(4635,1);(4639,1);(4643,1);(4647,1);(4651,1);(4655,1);(4659,1);(4663,1);(4667,1);(4671,1);(4676,1);(4681,1);(4686,1);(4691,1);(4696,1);(4701,1);(4706,1);(4711,1);(4716,1);(4721,1);(4726,1);(4731,1);(4736,1);(4741,1);(4746,1);(4754,1);(0,1);(4761,1);(4765,1);(4769,1);(4773,1);(4777,1);(4781,1);(4785,1);(4789,1);(4793,1);(4797,1);(4801,1);(4805,1);(4809,1);(4813,1);(4817,1);(4821,1);(4825,1);(4829,1);(4833,1);(4837,1);(4841,1);(4845,1);(4849,1);(4853,1);(4857,1);(4861,1);(4865,1);(4869,1);(4873,1);(4877,1);(4881,1);(4885,1);(4889,1);(4893,1);(4897,1);(4901,1);(4905,1);(4907,1);(3919,1);(4909,1);(0,8);(4911,1);(4915,1);(4918,1);(4921,1);(4924,1);(4927,1);(4930,1);(4933,1);(4936,1);(4939,1);(4942,1);(4945,1);(4948,1);(4951,1);(4954,1);(4957,1);(4407,1);(4413,1);(4419,1);(4423,1);(4439,1);(4441,1);(4447,1);(4451,1);(4453,1);(4457,1);(4459,1);(4461,1);(4463,1);(4465,1);(4960,1);(4963,1);(4966,1);(4969,1);(4972,1);(4975,1);(4978,1);(4981,1);(4984,1);(4987,1);(4990,1);(4993,1);(4996,1);(4999,1);(5002,1);(5008,1);(5013,1);(0,1);(3787,1);(3799,1);(4595,1);(4597,1);(5016,1);(5018,1);(5020,1);(3809,1);(5022,1);(3833,1);(3933,1);(3957,1);(3955,1);(3935,1);(4119,1);(3849,1);(3929,1);(5024,1);(5026,1);(5028,1);(5030,1);(5032,1);(5034,1);(5036,1);(5038,1);(5040,1);(5042,1);(3861,1);(5044,1);(5046,1);(5048,1);(5050,1);(5052,1);(5054,1);(5056,1);(5058,1);(4599,1);(4601,1);(4603,1);(5060,1);(5062,1);(5064,1);(5066,1);(5068,1);(5070,1);(5072,1);(5074,1);(5076,1);(5078,1);(5080,1);(5083,1);(5086,1);(5089,1);(5092,1);(5095,1);(5098,1);(5101,1);(5104,1);(5107,1);(5110,1);(5113,1);(5116,1);(5119,1);(5122,1);(5125,1);(5128,1);(5131,1);(5134,1);(5137,1);(5140,1);(5143,1);(5146,1);(5149,1);(5152,1);(5156,1);(5160,1);(5164,1);(5167,1);(5171,1);(5174,1);(5178,1);(5180,1);(5182,1);(5184,1);(5186,1);(5188,1);(5190,1);(5192,1);(5194,1);(5196,1);(5198,1);(5200,1);(5202,1);(5204,1);(5206,1);(5208,1);(5210,1);(5212,1);(5214,1);(5216,1);(5218,1);(5220,1);(5222,1);(5224,1);(5226,1);(5228,1);(5230,1);(5232,1);(5234,1);(5236,1);(5238,1);(5240,1);(5242,1);(5244,1);(5246,1);(5248,1);(5250,1);(5252,1);(5254,1);(5256,1);(5258,1);(5260,1);(5262,1);(5264,1);(5266,1);(5268,1);(5270,1);(5272,1);(5275,1);(5280,1);(5285,1);(5290,1);(5294,1);(5299,1);(5303,1);(5307,1);(5313,1);(5318,1);(5322,1);(5326,1);(5330,1);(5335,1);(5340,1);(5344,1);(5348,1);(5351,1);(5355,1);(5360,1);(5365,1);(5368,1);(5374,1);(5381,1);(5387,1);(5391,1);(5397,1);(5403,1);(5408,1);(5412,1);(5416,1);(5420,1);(5425,1);(5431,1);(5436,1);(5440,1);(5444,1);(5448,1);(5451,1);(5454,1);(5457,1);(5460,1);(5464,1);(5468,1);(5474,1);(5478,1);(5483,1);(5489,1);(5493,1);(5496,1);(5499,1);(5505,1);(5510,1);(5516,1);(5520,1);(5526,1);(5529,1);(5533,1);(5537,1);(5541,1);(5545,1);(5549,1);(5554,1);(5558,1);(5561,1);(5565,1);(5569,1);(5573,1);(5578,1);(5582,1);(5586,1);(5590,1);(5596,1);(5601,1);(5604,1);(5610,1);(5613,1);(5618,1);(5623,1);(5627,1);(5631,1);(5635,1);(5640,1);(5643,1);(5647,1);(5652,1);(5655,1);(5661,1);(5665,1);(5668,1);(5671,1);(5674,1);(5677,1);(5680,1);(5683,1);(5686,1);(5689,1);(5692,1);(5695,1);(5699,1);(5703,1);(5707,1);(5711,1);(5715,1);(5719,1);(5723,1);(5727,1);(5731,1);(5735,1);(5739,1);(5743,1);(5747,1);(5751,1);(5755,1);(5759,1);(5762,1);(5765,1);(5769,1);(5772,1);(5775,1);(5778,1);(5782,1);(5786,1);(5789,1);(5792,1);(5795,1);(5798,1);(5801,1);(5806,1);(5809,1);(5812,1);(5815,1);(5818,1);(5821,1);(5824,1);(5827,1);(5830,1);(5834,1);(5839,1);(5842,1);(5845,1);(5848,1);(5851,1);(5854,1);(5857,1);(5860,1);(5864,1);(5868,1);(5872,1);(5876,1);(5879,1);(5882,1);(5885,1);(5888,1);(5891,1);(5894,1);(5897,1);(5900,1);(5903,1);(5906,1)].
(** unicode_tables.cpp:3352 decomposition_index2, items 2500-2999 *)
Definition decomposition_index2_runs_5 : list (Z * Z) := [
(5910,1);(5914,1);(5917,1);(5921,1);(5925,1);(5929,1);(5932,1);(5936,1);(5940,1);(5945,1);(5948,1);(5952,1);(5956,1);(5960,1);(5964,1);(5970,1);(5977,1);(5980,1);(5983,1);(5986,1);(5989,1);(5992,1);(5995,1);(5998,1);(6001,1);(6004,1);(6007,1);(6010,1);(6013,1);(6016,1);(6019,1);(6022,1);(6025,1);(6028,1);(6031,1);(6036,1);(6039,1);(6042,1);(6045,1);(6050,1);(6054,1);(6057,1);(6060,1);(6063,1);(6066,1);(6069,1);(6072,1);(6075,1);(6078,1);(6081,1);(6084,1);(6088,1);(6091,1);(6094,1);(6098,1);(6102,1);(6105,1);(6110,1);(6114,1);(6117,1);(6120,1);(6123,1);(6126,1);(6130,1);(6134,1);(6137,1);(6140,1);(6143,1);(6146,1);(6149,1);(6152,1);(6155,1);(6158,1);(6161,1);(6165,1);(6169,1);(6173,1);(6177,1);(6181,1);(6185,1);(6189,1);(6193,1);(6197,1);(6201,1);(6205,1);(6209,1);(6213,1);(6217,1);(6221,1);(6225,1);(6229,1);(6233,1);(6237,1);(6241,1);(6245,1);(6249,1);(0,28);(6253,1);(6255,1);(0,210);(6257,1);(0,129);(3108,1);(3151,1);(3131,1);(0,3);(6259,1);(6261,1);(0,98);(6263,1);(6265,1);(6267,1);(6269,1);(0,9);(6271,1);(0,22);(6273,1);(6275,1);(6277,1);(6279,1);(6281,1);(6283,1);(6285,1);(6287,2);(6289,1);(6291,1);(6293,1);(6295,1);(6297,1);(6299,1);(6301,1);(6303,1);(6305,1);(6307,1);(6309,1);(6311,1);(6313,1);(6315,1);(6317,1);(6319,1);(6321,1);(6323,1);(6325,1);(6327,1);(6329,1);(6331,1);(6333,1);(6335,1);(6337,1);(6339,1);(6341,1);(6343,1);(6345,1);(6347,1);(6349,1);(6351,1);(6353,1);(6355,1);(6357,1);(6359,1);(6361,1);(6363,1);(6365,1);(6367,1);(6369,1);(6371,1);(6373,1);(6375,1);(6377,1);(6379,1);(6381,1);(6383,1);(6385,1);(6387,1);(6389,1);(6391,1);(6393,1);(6395,1);(6397,1);(6399,1);(6401,1);(6403,1);(6405,1);(6407,1);(6409,1);(6411,1);(6413,1);(6415,1);(6417,1);(6419,1);(6421,1);(6423,1);(6425,1);(6427,1);(6429,1);(6431,1);(6433,1);(6435,1);(6437,1);(6439,1);(6441,1);(6443,1);(6445,1);(6447,1);(6449,1);(6451,1);(6453,1);(6311,1);(6455,1);(6457,1);(6459,1);(6461,1);(6463,1);(6465,1);(6467,1);(6469,1);(6471,1);(6473,1);(6475,1);(6477,1);(6479,1);(6481,1);(6483,1);(6485,1);(6487,1);(6489,1);(6491,1);(6493,1);(6495,1);(6497,1);(6499,1);(6501,1);(6503,1);(6505,1);(6507,1);(6509,1);(6511,1);(6513,1);(6515,1);(6517,1);(6519,1);(6521,1);(6523,1);(6525,1);(6527,1);(6529,1);(6531,1);(6533,1);(6535,1);(6537,1);(6539,1);(6541,1);(6543,1);(6545,1);(6547,1);(6549,1);(6551,1);(6553,1);(6555,1);(6557,1);(6559,1);(6561,1);(6563,1);(6565,1);(6567,1);(6569,1);(6571,1);(6573,1);(6575,1);(6577,1);(6579,1);(6581,1);(6583,1);(6585,1);(6587,1);(6589,1);(6491,1);(6591,1);(6593,1);(6595,1);(6597,1);(6599,1);(6601,1);(6603,1);(6605,1);(6459,1);(6607,1);(6609,1);(6611,1);(6613,1);(6615,1);(6617,1);(6619,1);(6621,1);(6623,1);(6625,1);(6627,1);(6629,1);(6631,1);(6633,1);(6635,1);(6637,1);(6639,1);(6641,1);(6643,1);(6645,1);(6311,1);(6647,1);(6649,1);(6651,1);(6653,1);(6655,1);(6657,1);(6659,1);(6661,1);(6663,1);(6665,1);(6667,1);(6669,1);(6671,1);(6673,1);(6675,1);(6677,1);(6679,1);(6681,1);(6683,1);(6685,1);(6687,1);(6689,1);(6691,1);(6693,1);(6695,1);(6697,1);(6699,1);(6463,1);(6701,1);(6703,1);(6705,1);(6707,1);(6709,1);(6711,1);(6713,1);(6715,1);(6717,1);(6719,1);(6721,1);(6723,1);(6725,1);(6727,1);(6729,1);(6731,1);(6733,1);(6735,1);(6737,1);(6739,1);(6741,1);(6743,1);(6745,1);(6747,1);(6749,1);(6751,1);(6753,1);(6755,1);(6757,1);(6759,1);(6761,1);(6763,1);(6765,1);(6767,1);(6769,1);(6771,1);(6773,1);(6775,1);(6777,1);(6779,1);(6781,1);(6783,1);(6785,1);(6787,1);(6789,1);(6791,1);(6793,1);(6795,1);(6797,1);(6799,1);(0,2);(6801,1);(0,1);(6803,1);(0,2);(6805,1);(6807,1);(6809,1);(6811,1);(6813,1);(6815,1);(6817,1);(6819,1);(6821,1);(6823,1);(0,1);(6825,1);(0,1);(6827,1);(0,2);(6829,1);(6831,1);(0,3);(6833,1);(6835,1);(6837,1);(6839,1);(6841,1);(6843,1);(6845,1);(6847,1);(6849,1);(6851,1);(6853,1);(6855,1);(6857,1);(6859,1);(6861,1);(6863,1);(6865,1);(6867,1);(6869,1);(6871,1);(6873,1);(6875,1);(6877,1);(6879,1);(6881,1);(6883,1);(6885,1);(6887,1);(6889,1);(6891,1);(6893,1);(6895,1);(6897,1);(6899,1);(6901,1);(6903,1);(6905,1);(6907,1);(6909,1);(6911,1);(6913,1);(6915,1);(6917,1);(6919,1);(6921,1);(6569,1);(6923,1);(6925,1);(6927,1);(6929,1);(6931,1);(6933,2);(6935,1);(6937,1);(6939,1);(6941,1);(6943,1);(6945,1);(6947,1);(6949,1);(6829,1);(6951,1);(6953,1);(6955,1);(6957,1);(6959,1);(6961,1);(0,2);(6963,1);(6965,1);(6967,1);(6969,1);(6971,1);(6973,1);(6975,1);(6977,1);(6857,1);(6979,1);(6981,1);(6983,1);(6801,1);(6985,1);(6987,1);(6989,1);(6991,1);(6993,1);(6995,1);(6997,1);(6999,1);(7001,1);(7003,1);(7005,1)].
(** unicode_tables.cpp:3352 decomposition_index2, items 3000-3499 *)
Definition decomposition_index2_runs_6 : list (Z * Z) := [
(7007,1);(6875,1);(7009,1);(6877,1);(7011,1);(7013,1);(7015,1);(7017,1);(7019,1);(6803,1);(6353,1);(7021,1);(7023,1);(7025,1);(6493,1);(6667,1);(7027,1);(7029,1);(6891,1);(7031,1);(6893,1);(7033,1);(7035,1);(7037,1);(6807,1);(7039,1);(7041,1);(7043,1);(7045,1);(7047,1);(6809,1);(7049,1);(7051,1);(7053,1);(7055,1);(7057,1);(7059,1);(6921,1);(7061,1);(7063,1);(6569,1);(7065,1);(6929,1);(7067,1);(7069,1);(7071,1);(7073,1);(7075,1);(6939,1);(7077,1);(6827,1);(7079,1);(6941,1);(6455,1);(7081,1);(6943,1);(7083,1);(6947,1);(7085,1);(7087,1);(7089,1);(7091,1);(7093,1);(6951,1);(6819,1);(7095,1);(6953,1);(7097,1);(6955,1);(7099,1);(6287,1);(7101,1);(7103,1);(7105,1);(7107,1);(7109,1);(7111,1);(7113,1);(7115,1);(7117,1);(7119,1);(7121,1);(0,38);(7123,1);(7126,1);(7129,1);(7132,1);(7136,1);(7140,1);(7143,1);(0,12);(7146,1);(7149,1);(7152,1);(7155,1);(7158,1);(0,5);(7161,1);(0,1);(7164,1);(7167,1);(3153,1);(3159,1);(7169,1);(7171,1);(7173,1);(7175,1);(7177,1);(7179,1);(3085,1);(7181,1);(7184,1);(7187,1);(7190,1);(7193,1);(7196,1);(7199,1);(7202,1);(7205,1);(7208,1);(7211,1);(7214,1);(7217,1);(0,1);(7220,1);(7223,1);(7226,1);(7229,1);(7232,1);(0,1);(7235,1);(0,1);(7238,1);(7241,1);(0,1);(7244,1);(7247,1);(0,1);(7250,1);(7253,1);(7256,1);(7259,1);(7262,1);(7265,1);(7268,1);(7271,1);(7274,1);(7277,1);(7280,2);(7282,4);(7284,4);(7286,4);(7288,4);(7290,4);(7292,4);(7294,4);(7296,4);(7298,4);(7300,4);(7302,4);(7304,4);(7306,2);(7308,2);(7310,2);(7312,2);(7314,2);(7316,2);(7318,4);(7320,4);(7322,4);(7324,4);(7326,2);(7328,4);(7330,2);(7332,4);(7334,4);(7336,2);(7338,2);(0,33);(7340,4);(7342,2);(7344,2);(7346,2);(7348,1);(7350,2);(7352,2);(7354,2);(7356,4);(7358,2);(7360,2);(7363,2);(7366,2);(7369,2);(7372,2);(7375,2);(7378,3);(7381,3);(7384,4);(7386,1);(7389,1);(7392,1);(7381,1);(7395,1);(7398,1);(7401,1);(7404,1);(7407,1);(7410,1);(7413,1);(7416,1);(7419,1);(7422,1);(7425,1);(7428,1);(7431,1);(7434,1);(7437,1);(7440,1);(7443,1);(7446,1);(7449,1);(7452,1);(7455,1);(7458,1);(7461,1);(7464,1);(7467,1);(7470,1);(7473,1);(7476,1);(7479,1);(7482,1);(7485,1);(7488,1);(7491,1);(7494,1);(7497,1);(7500,1);(7503,1);(7506,1);(7509,1);(7512,1);(7515,1);(7518,1);(7521,1);(7524,1);(7527,1);(7530,1);(7533,1);(7536,1);(7539,1);(7542,1);(7545,1);(7548,1);(7551,1);(7554,1);(7557,1);(7560,1);(7563,1);(7566,1);(7569,1);(7572,1);(7575,1);(7578,1);(7581,1);(7584,1);(7587,1);(7590,1);(7593,1);(7596,1);(7599,1);(7602,1);(7605,1);(7608,1);(7611,1);(7614,1);(7617,1);(7620,1);(7623,1);(7626,1);(7629,1);(7632,1);(7635,1);(7638,1);(7641,1);(7644,1);(7647,1);(7650,1);(7653,1);(7656,1);(7659,1);(7662,1);(7665,1);(7669,1);(7673,1);(7677,1);(7681,1);(7685,1);(7689,1);(7692,1);(7392,1);(7695,1);(7381,1);(7395,1);(7698,1);(7701,1);(7407,1);(7704,1);(7410,1);(7413,1);(7707,1);(7710,1);(7425,1);(7713,1);(7428,1);(7431,1);(7716,1);(7719,1);(7437,1);(7722,1);(7440,1);(7443,1);(7530,1);(7533,1);(7542,1);(7545,1);(7548,1);(7560,1);(7563,1);(7566,1);(7569,1);(7581,1);(7584,1);(7587,1);(7725,1);(7599,1);(7728,1);(7731,1);(7617,1);(7734,1);(7620,1);(7623,1);(7662,1);(7737,1);(7740,1);(7647,1);(7743,1);(7650,1);(7653,1);(7386,1);(7389,1);(7746,1);(7392,1);(7749,1);(7398,1);(7401,1);(7404,1);(7407,1);(7752,1);(7416,1);(7419,1);(7422,1);(7425,1);(7755,1);(7437,1);(7446,1);(7449,1);(7452,1);(7455,1);(7458,1);(7464,1);(7467,1);(7470,1);(7473,1);(7476,1);(7479,1);(7758,1);(7482,1);(7485,1);(7488,1);(7491,1);(7494,1);(7497,1);(7503,1);(7506,1);(7509,1);(7512,1);(7515,1);(7518,1);(7521,1);(7524,1);(7527,1);(7536,1);(7539,1);(7551,1);(7554,1);(7557,1);(7560,1);(7563,1);(7572,1);(7575,1);(7578,1);(7581,1);(7761,1);(7590,1);(7593,1);(7596,1);(7599,1);(7608,1);(7611,1);(7614,1);(7617,1);(7764,1);(7626,1);(7629,1);(7767,1);(7638,1);(7641,1);(7644,1);(7647,1);(7770,1);(7392,1);(7749,1);(7407,1);(7752,1);(7425,1);(7755,1);(7437,1);(7773,1);(7476,1);(7776,1);(7779,1);(7782,1);(7560,1);(7563,1);(7581,1);(7617,1);(7764,1);(7647,1);(7770,1);(7785,1);(7789,1);(7793,1);(7797,1);(7800,1);(7803,1);(7806,1);(7809,1);(7812,1);(7815,1);(7818,1);(7821,1);(7824,1);(7827,1);(7830,1);(7833,1);(7836,1);(7839,1);(7842,1);(7845,1);(7848,1);(7851,1);(7854,1);(7857,1);(7860,1);(7863,1);(7779,1);(7866,1);(7869,1);(7872,1);(7875,1);(7797,1);(7800,1);(7803,1);(7806,1);(7809,1);(7812,1);(7815,1);(7818,1);(7821,1);(7824,1);(7827,1);(7830,1);(7833,1);(7836,1);(7839,1);(7842,1);(7845,1);(7848,1);(7851,1);(7854,1);(7857,1);(7860,1);(7863,1);(7779,1);(7866,1);(7869,1);(7872,1);(7875,1);(7857,1)].
(** unicode_tables.cpp:3352 decomposition_index2, items 3500-3999 *)
Definition decomposition_index2_runs_7 : list (Z * Z) := [
(7860,1);(7863,1);(7779,1);(7776,1);(7782,1);(7500,1);(7467,1);(7470,1);(7473,1);(7857,1);(7860,1);(7863,1);(7500,1);(7503,1);(7878,2);(0,18);(7881,1);(7885,2);(7889,1);(7893,1);(7897,1);(7901,1);(7905,1);(7909,2);(7913,1);(7917,1);(7921,1);(7925,1);(7929,1);(7933,2);(7937,1);(7941,2);(7945,2);(7949,1);(7953,2);(7957,1);(7961,2);(7965,2);(7969,1);(7973,2);(7977,2);(7981,1);(7985,1);(7989,1);(7993,2);(7997,1);(8001,1);(8005,1);(8009,1);(8013,2);(8017,1);(8021,1);(8025,1);(8029,1);(8033,1);(8037,2);(8041,2);(8045,2);(8049,1);(8053,1);(8057,1);(8061,1);(8065,1);(8069,1);(8073,1);(0,2);(8077,1);(8081,1);(8085,1);(8089,1);(8093,1);(8097,2);(8101,1);(8105,1);(8109,1);(8113,2);(8117,1);(8121,1);(8125,1);(8129,1);(8133,1);(8137,1);(8141,1);(8145,1);(8149,1);(8153,1);(8157,1);(8161,1);(8165,1);(8169,1);(8173,1);(8177,1);(8181,1);(8185,1);(8189,1);(8193,1);(8197,1);(8201,1);(8017,1);(8025,1);(8205,1);(8209,1);(8213,1);(8217,1);(8221,1);(8225,1);(8221,1);(8213,1);(8229,1);(8233,1);(8237,1);(8241,1);(8245,1);(8225,1);(7989,1);(7949,1);(8249,1);(8253,1);(0,40);(8257,1);(8261,1);(8265,1);(8270,1);(8275,1);(8280,1);(8285,1);(8290,1);(8295,1);(8300,1);(8304,1);(8323,1);(8332,1);(0,19);(8337,1);(8339,1);(8341,1);(8343,1);(8345,1);(8347,1);(8349,1);(8351,1);(8353,1);(8355,1);(0,22);(8357,1);(8359,1);(8361,1);(8363,2);(3091,1);(3093,1);(8365,1);(8367,1);(8369,1);(8371,1);(8373,1);(8375,1);(8377,1);(8379,1);(8381,1);(8383,1);(8385,1);(8387,1);(8389,1);(8391,1);(0,2);(8393,1);(8395,1);(8397,4);(8363,3);(8337,1);(8339,1);(3028,1);(0,1);(8345,1);(8343,1);(8349,1);(8347,1);(8359,1);(3091,1);(3093,1);(8365,1);(8367,1);(8369,1);(8371,1);(8399,1);(8401,1);(8403,1);(3085,1);(8405,1);(8407,1);(8409,1);(3089,1);(0,1);(8411,1);(8413,1);(8415,1);(8417,1);(0,4);(8419,1);(8422,1);(8425,1);(0,1);(8428,1);(0,1);(8431,1);(8434,1);(8437,1);(8440,1);(8443,1);(8446,1);(8449,1);(8452,1);(8455,1);(8458,1);(8461,1);(8463,2);(8465,2);(8467,2);(8469,2);(8471,4);(8473,2);(8475,4);(8477,2);(8479,4);(8481,4);(8483,4);(8485,4);(8487,4);(8489,2);(8491,2);(8493,2);(8495,2);(8497,4);(8499,4);(8501,4);(8503,4);(8505,4);(8507,4);(8509,4);(8511,4);(8513,4);(8515,4);(8517,4);(8519,4);(8521,4);(8523,4);(8525,4);(8527,2);(7358,2);(8529,4);(8531,2);(8534,2);(8537,2);(8540,2);(0,4);(8347,1);(8543,1);(8399,1);(8413,1);(8415,1);(8401,1);(8545,1);(3091,1);(3093,1);(8403,1);(3085,1);(8337,1);(8405,1);(3028,1);(8547,1);(3071,1);(23,1);(11,1);(13,1);(3073,1);(3075,1);(3077,1);(3079,1);(3081,1);(3083,1);(8343,1);(8345,1);(8407,1);(3089,1);(8409,1);(8349,1);(8417,1);(1437,1);(1441,1);(3108,1);(1443,1);(1445,1);(3151,1);(1449,1);(1451,1);(1453,1);(1455,1);(1457,1);(1459,1);(1461,1);(1463,1);(1465,1);(1469,1);(3131,1);(1471,1);(3756,1);(1473,1);(1475,1);(3245,1);(1477,1);(3262,1);(3758,1);(3143,1);(8393,1);(8411,1);(8395,1);(8549,1);(8363,1);(8551,1);(6,1);(1485,1);(1537,1);(1487,1);(1489,1);(1543,1);(1497,1);(848,1);(1531,1);(852,1);(1499,1);(886,1);(1501,1);(3095,1);(25,1);(1511,1);(3760,1);(854,1);(537,1);(1513,1);(1515,1);(1521,1);(862,1);(888,1);(864,1);(1597,1);(8365,1);(8553,1);(8367,1);(8555,1);(8557,1);(8559,1);(8341,1);(8385,1);(8387,1);(8339,1);(8561,1);(5270,1);(8563,1);(8565,1);(8567,1);(8569,1);(8571,1);(8573,1);(8575,1);(8577,1);(8579,1);(8581,1);(5178,1);(5180,1);(5182,1);(5184,1);(5186,1);(5188,1);(5190,1);(5192,1);(5194,1);(5196,1);(5198,1);(5200,1);(5202,1);(5204,1);(5206,1);(5208,1);(5210,1);(5212,1);(5214,1);(5216,1);(5218,1);(5220,1);(5222,1);(5224,1);(5226,1);(5228,1);(5230,1);(5232,1);(5234,1);(5236,1);(5238,1);(5240,1);(5242,1);(5244,1);(5246,1);(5248,1);(5250,1);(5252,1);(5254,1);(5256,1);(5258,1);(5260,1);(5262,1);(5264,1);(8583,1);(8585,1);(8587,1);(8589,1);(8591,1);(8593,1);(8595,1);(8597,1);(8599,1);(8601,1);(8603,1);(8605,1);(8607,1);(8609,1);(8611,1);(8613,1);(8615,1);(8617,1);(8619,1);(8621,1);(8623,1);(8625,1);(8627,1);(8629,1);(8631,1);(8633,1);(8635,1);(8637,1);(8639,1);(8641,1);(8643,1);(8645,1);(8647,1);(8649,1);(0,3);(8651,1);(8653,1);(8655,1);(8657,1);(8659,1);(8661,1);(0,2);(8663,1);(8665,1);(8667,1);(8669,1);(8671,1);(8673,1);(0,2);(8675,1);(8677,1);(8679,1);(8681,1);(8683,1);(8685,1);(0,2);(8687,1);(8689,1);(8691,1);(0,3);(8693,1);(8695,1);(8697,1);(8699,1);(8701,1);(8703,1);(8705,1);(0,1);(8707,1);(8709,1);(8711,1);(8713,1);(8715,1);(8717,1);(8719,1);(0,18);(8721,1);(8723,1);(8725,1);(8727,1);(8729,1);(0,1);(8731,1);(8733,1);(8735,1);(8737,1);(8739,1);(8741,1);(8743,1)].
(** unicode_tables.cpp:3352 decomposition_index2, items 4000-4499 *)
Definition decomposition_index2_runs_8 : list (Z * Z) := [
(8745,1);(8747,1);(8749,1);(8751,1);(8753,1);(8755,1);(8757,1);(3126,1);(8759,1);(8761,1);(8763,1);(8765,1);(8767,1);(8769,1);(8771,1);(8773,1);(8775,1);(8777,1);(8779,1);(8781,1);(8783,1);(8785,1);(8787,1);(3760,1);(8789,1);(8791,1);(8793,1);(8795,1);(8797,1);(8799,1);(8801,1);(8803,1);(8805,1);(8807,1);(8809,1);(0,1);(8811,1);(8813,1);(8815,1);(8817,1);(8819,1);(8821,1);(8823,1);(8825,1);(8827,1);(0,95);(8829,1);(0,1);(8832,1);(0,14);(8835,1);(0,130);(8838,1);(8841,1);(0,155);(8844,1);(8847,1);(0,110);(8850,1);(8853,1);(0,1);(8856,1);(0,123);(8859,1);(8862,1);(0,124);(8865,1);(0,165);(8868,1);(8871,1);(8874,1);(8877,1);(8880,1);(8883,1);(8886,1);(0,86);(8889,1);(8892,1);(8895,1);(8898,1);(8901,1);(8904,1);(0,63);(1437,1);(1441,1);(3108,1);(1443,1);(1445,1);(3151,1);(1449,1);(1451,1);(1453,1);(1455,1);(1457,1);(1459,1);(1461,1);(1463,1);(1465,1);(1469,1);(3131,1);(1471,1);(3756,1);(1473,1);(1475,1);(3245,1);(1477,1);(3262,1);(3758,1);(3143,1);(6,1);(1485,1);(1537,1);(1487,1);(1489,1);(1543,1);(1497,1);(848,1);(1531,1);(852,1);(1499,1);(886,1);(1501,1);(3095,1);(25,1);(1511,1);(3760,1);(854,1);(537,1);(1513,1);(1515,1);(1521,1);(862,1);(888,1);(864,1);(1597,1);(1437,1);(1441,1);(3108,1);(1443,1);(1445,1);(3151,1);(1449,1);(1451,1);(1453,1);(1455,1);(1457,1);(1459,1);(1461,1);(1463,1);(1465,1);(1469,1);(3131,1);(1471,1);(3756,1);(1473,1);(1475,1);(3245,1);(1477,1);(3262,1);(3758,1);(3143,1);(6,1);(1485,1);(1537,1);(1487,1);(1489,1);(1543,1);(1497,1);(0,1);(1531,1);(852,1);(1499,1);(886,1);(1501,1);(3095,1);(25,1);(1511,1);(3760,1);(854,1);(537,1);(1513,1);(1515,1);(1521,1);(862,1);(888,1);(864,1);(1597,1);(1437,1);(1441,1);(3108,1);(1443,1);(1445,1);(3151,1);(1449,1);(1451,1);(1453,1);(1455,1);(1457,1);(1459,1);(1461,1);(1463,1);(1465,1);(1469,1);(3131,1);(1471,1);(3756,1);(1473,1);(1475,1);(3245,1);(1477,1);(3262,1);(3758,1);(3143,1);(6,1);(1485,1);(1537,1);(1487,1);(1489,1);(1543,1);(1497,1);(848,1);(1531,1);(852,1);(1499,1);(886,1);(1501,1);(3095,1);(25,1);(1511,1);(3760,1);(854,1);(537,1);(1513,1);(1515,1);(1521,1);(862,1);(888,1);(864,1);(1597,1);(1437,1);(0,1);(3108,1);(1443,1);(0,2);(1449,1);(0,2);(1455,1);(1457,1);(0,2);(1463,1);(1465,1);(1469,1);(3131,1);(0,1);(3756,1);(1473,1);(1475,1);(3245,1);(1477,1);(3262,1);(3758,1);(3143,1);(6,1);(1485,1);(1537,1);(1487,1);(0,1);(1543,1);(0,1);(848,1);(1531,1);(852,1);(1499,1);(886,1);(1501,1);(3095,1);(0,1);(1511,1);(3760,1);(854,1);(537,1);(1513,1);(1515,1);(1521,1);(862,1);(888,1);(864,1);(1597,1);(1437,1);(1441,1);(3108,1);(1443,1);(1445,1);(3151,1);(1449,1);(1451,1);(1453,1);(1455,1);(1457,1);(1459,1);(1461,1);(1463,1);(1465,1);(1469,1);(3131,1);(1471,1);(3756,1);(1473,1);(1475,1);(3245,1);(1477,1);(3262,1);(3758,1);(3143,1);(6,1);(1485,1);(1537,1);(1487,1);(1489,1);(1543,1);(1497,1);(848,1);(1531,1);(852,1);(1499,1);(886,1);(1501,1);(3095,1);(25,1);(1511,1);(3760,1);(854,1);(537,1);(1513,1);(1515,1);(1521,1);(862,1);(888,1);(864,1);(1597,1);(1437,1);(1441,1);(0,1);(1443,1);(1445,1);(3151,1);(1449,1);(0,2);(1455,1);(1457,1);(1459,1);(1461,1);(1463,1);(1465,1);(1469,1);(3131,1);(0,1);(3756,1);(1473,1);(1475,1);(3245,1);(1477,1);(3262,1);(3758,1);(0,1);(6,1);(1485,1);(1537,1);(1487,1);(1489,1);(1543,1);(1497,1);(848,1);(1531,1);(852,1);(1499,1);(886,1);(1501,1);(3095,1);(25,1);(1511,1);(3760,1);(854,1);(537,1);(1513,1);(1515,1);(1521,1);(862,1);(888,1);(864,1);(1597,1);(1437,1);(1441,1);(0,1);(1443,1);(1445,1);(3151,1);(1449,1);(0,1);(1453,1);(1455,1);(1457,1);(1459,1);(1461,1);(0,1);(1465,1);(0,3);(3756,1);(1473,1);(1475,1);(3245,1);(1477,1);(3262,1);(3758,1);(0,1);(6,1);(1485,1);(1537,1);(1487,1);(1489,1);(1543,1);(1497,1);(848,1);(1531,1);(852,1);(1499,1);(886,1);(1501,1);(3095,1);(25,1);(1511,1);(3760,1);(854,1);(537,1);(1513,1);(1515,1);(1521,1);(862,1);(888,1);(864,1);(1597,1);(1437,1);(1441,1);(3108,1);(1443,1);(1445,1);(3151,1);(1449,1);(1451,1);(1453,1);(1455,1);(1457,1);(1459,1);(1461,1);(1463,1);(1465,1);(1469,1);(3131,1);(1471,1);(3756,1);(1473,1);(1475,1);(3245,1);(1477,1);(3262,1);(3758,1);(3143,1);(6,1);(1485,1);(1537,1);(1487,1);(1489,1);(1543,1);(1497,1);(848,1);(1531,1);(852,1);(1499,1);(886,1);(1501,1);(3095,1);(25,1);(1511,1);(3760,1);(854,1);(537,1);(1513,1);(1515,1);(1521,1);(862,1);(888,1);(864,1);(1597,1);(1437,1);(1441,1);(3108,1);(1443,1);(1445,1);(3151,1);(1449,1)].
(** unicode_tables.cpp:3352 decomposition_index2, items 4500-4999 *)
Definition decomposition_index2_runs_9 : list (Z * Z) := [
(1451,1);(1453,1);(1455,1);(1457,1);(1459,1);(1461,1);(1463,1);(1465,1);(1469,1);(3131,1);(1471,1);(3756,1);(1473,1);(1475,1);(3245,1);(1477,1);(3262,1);(3758,1);(3143,1);(6,1);(1485,1);(1537,1);(1487,1);(1489,1);(1543,1);(1497,1);(848,1);(1531,1);(852,1);(1499,1);(886,1);(1501,1);(3095,1);(25,1);(1511,1);(3760,1);(854,1);(537,1);(1513,1);(1515,1);(1521,1);(862,1);(888,1);(864,1);(1597,1);(1437,1);(1441,1);(3108,1);(1443,1);(1445,1);(3151,1);(1449,1);(1451,1);(1453,1);(1455,1);(1457,1);(1459,1);(1461,1);(1463,1);(1465,1);(1469,1);(3131,1);(1471,1);(3756,1);(1473,1);(1475,1);(3245,1);(1477,1);(3262,1);(3758,1);(3143,1);(6,1);(1485,1);(1537,1);(1487,1);(1489,1);(1543,1);(1497,1);(848,1);(1531,1);(852,1);(1499,1);(886,1);(1501,1);(3095,1);(25,1);(1511,1);(3760,1);(854,1);(537,1);(1513,1);(1515,1);(1521,1);(862,1);(888,1);(864,1);(1597,1);(1437,1);(1441,1);(3108,1);(1443,1);(1445,1);(3151,1);(1449,1);(1451,1);(1453,1);(1455,1);(1457,1);(1459,1);(1461,1);(1463,1);(1465,1);(1469,1);(3131,1);(1471,1);(3756,1);(1473,1);(1475,1);(3245,1);(1477,1);(3262,1);(3758,1);(3143,1);(6,1);(1485,1);(1537,1);(1487,1);(1489,1);(1543,1);(1497,1);(848,1);(1531,1);(852,1);(1499,1);(886,1);(1501,1);(3095,1);(25,1);(1511,1);(3760,1);(854,1);(537,1);(1513,1);(1515,1);(1521,1);(862,1);(888,1);(864,1);(1597,1);(1437,1);(1441,1);(3108,1);(1443,1);(1445,1);(3151,1);(1449,1);(1451,1);(1453,1);(1455,1);(1457,1);(1459,1);(1461,1);(1463,1);(1465,1);(1469,1);(3131,1);(1471,1);(3756,1);(1473,1);(1475,1);(3245,1);(1477,1);(3262,1);(3758,1);(3143,1);(6,1);(1485,1);(1537,1);(1487,1);(1489,1);(1543,1);(1497,1);(848,1);(1531,1);(852,1);(1499,1);(886,1);(1501,1);(3095,1);(25,1);(1511,1);(3760,1);(854,1);(537,1);(1513,1);(1515,1);(1521,1);(862,1);(888,1);(864,1);(1597,1);(1437,1);(1441,1);(3108,1);(1443,1);(1445,1);(3151,1);(1449,1);(1451,1);(1453,1);(1455,1);(1457,1);(1459,1);(1461,1);(1463,1);(1465,1);(1469,1);(3131,1);(1471,1);(3756,1);(1473,1);(1475,1);(3245,1);(1477,1);(3262,1);(3758,1);(3143,1);(6,1);(1485,1);(1537,1);(1487,1);(1489,1);(1543,1);(1497,1);(848,1);(1531,1);(852,1);(1499,1);(886,1);(1501,1);(3095,1);(25,1);(1511,1);(3760,1);(854,1);(537,1);(1513,1);(1515,1);(1521,1);(862,1);(888,1);(864,1);(1597,1);(8907,1);(8909,1);(0,2);(8911,1);(8913,1);(3165,1);(8915,1);(8917,1);(8919,1);(8921,1);(995,1);(8923,1);(8925,1);(8927,1);(8929,1);(8931,1);(8933,1);(8935,1);(3167,1);(8937,1);(8939,1);(999,1);(8941,1);(977,1);(8943,1);(8945,1);(8947,1);(8949,1);(8951,1);(8953,1);(973,1);(1525,1);(1527,1);(997,1);(8955,1);(8957,1);(975,1);(8959,1);(989,1);(8961,1);(18,1);(8963,1);(8965,1);(8967,1);(987,1);(991,1);(993,1);(8969,1);(8971,1);(8973,1);(985,1);(1529,1);(8975,1);(8977,1);(8979,1);(8981,1);(8983,1);(8985,1);(8987,1);(8989,1);(8991,1);(8911,1);(8913,1);(3165,1);(8915,1);(8917,1);(8919,1);(8921,1);(995,1);(8923,1);(8925,1);(8927,1);(8929,1);(8931,1);(8933,1);(8935,1);(3167,1);(8937,1);(8939,1);(999,1);(8941,1);(977,1);(8943,1);(8945,1);(8947,1);(8949,1);(8951,1);(8953,1);(973,1);(1525,1);(1527,1);(997,1);(8955,1);(8957,1);(975,1);(8959,1);(989,1);(8961,1);(18,1);(8963,1);(8965,1);(8967,1);(987,1);(991,1);(993,1);(8969,1);(8971,1);(8973,1);(985,1);(1529,1);(8975,1);(8977,1);(8979,1);(8981,1);(8983,1);(8985,1);(8987,1);(8989,1);(8991,1);(8911,1);(8913,1);(3165,1);(8915,1);(8917,1);(8919,1);(8921,1);(995,1);(8923,1);(8925,1);(8927,1);(8929,1);(8931,1);(8933,1);(8935,1);(3167,1);(8937,1);(8939,1);(999,1);(8941,1);(977,1);(8943,1);(8945,1);(8947,1);(8949,1);(8951,1);(8953,1);(973,1);(1525,1);(1527,1);(997,1);(8955,1);(8957,1);(975,1);(8959,1);(989,1);(8961,1);(18,1);(8963,1);(8965,1);(8967,1);(987,1);(991,1);(993,1);(8969,1);(8971,1);(8973,1);(985,1);(1529,1);(8975,1);(8977,1);(8979,1);(8981,1);(8983,1);(8985,1);(8987,1);(8989,1);(8991,1);(8911,1);(8913,1);(3165,1);(8915,1);(8917,1);(8919,1);(8921,1);(995,1);(8923,1);(8925,1);(8927,1);(8929,1);(8931,1);(8933,1);(8935,1);(3167,1);(8937,1);(8939,1);(999,1);(8941,1);(977,1);(8943,1);(8945,1);(8947,1);(8949,1);(8951,1);(8953,1);(973,1);(1525,1);(1527,1);(997,1);(8955,1);(8957,1);(975,1);(8959,1);(989,1);(8961,1);(18,1);(8963,1);(8965,1);(8967,1);(987,1);(991,1);(993,1);(8969,1);(8971,1);(8973,1);(985,1);(1529,1);(8975,1);(8977,1);(8979,1);(8981,1);(8983,1);(8985,1);(8987,1);(8989,1);(8991,1);(8911,1);(8913,1);(3165,1);(8915,1);(8917,1);(8919,1);(8921,1);(995,1);(8923,1);(8925,1);(8927,1);(8929,1)].
(** unicode_tables.cpp:3352 decomposition_index2, items 5000-5499 *)
Definition decomposition_index2_runs_10 : list (Z * Z) := [
(8931,1);(8933,1);(8935,1);(3167,1);(8937,1);(8939,1);(999,1);(8941,1);(977,1);(8943,1);(8945,1);(8947,1);(8949,1);(8951,1);(8953,1);(973,1);(1525,1);(1527,1);(997,1);(8955,1);(8957,1);(975,1);(8959,1);(989,1);(8961,1);(18,1);(8963,1);(8965,1);(8967,1);(987,1);(991,1);(993,1);(8969,1);(8971,1);(8973,1);(985,1);(1529,1);(8975,1);(8977,1);(8979,1);(8981,1);(8983,1);(8985,1);(8987,1);(8989,1);(8991,1);(8993,1);(8995,1);(0,2);(3071,1);(23,1);(11,1);(13,1);(3073,1);(3075,1);(3077,1);(3079,1);(3081,1);(3083,1);(3071,1);(23,1);(11,1);(13,1);(3073,1);(3075,1);(3077,1);(3079,1);(3081,1);(3083,1);(3071,1);(23,1);(11,1);(13,1);(3073,1);(3075,1);(3077,1);(3079,1);(3081,1);(3083,1);(3071,1);(23,1);(11,1);(13,1);(3073,1);(3075,1);(3077,1);(3079,1);(3081,1);(3083,1);(3071,1);(23,1);(11,1);(13,1);(3073,1);(3075,1);(3077,1);(3079,1);(3081,1);(3083,1);(0,48);(8997,1);(8999,1);(9001,1);(9003,1);(9005,1);(9007,1);(9009,1);(9011,1);(9013,1);(9015,1);(9017,1);(9019,1);(9021,1);(9023,1);(9025,1);(9027,1);(9029,1);(9031,1);(9033,1);(9035,1);(9037,1);(9039,1);(9041,1);(9043,1);(9045,1);(9047,1);(9049,1);(9051,1);(9053,1);(9055,1);(9057,1);(9059,1);(9061,1);(8997,1);(8999,1);(9001,1);(9003,1);(9005,1);(9007,1);(9009,1);(9011,1);(9013,1);(9015,1);(9017,1);(9021,1);(9023,1);(9027,1);(9031,1);(9033,1);(9035,1);(9037,1);(9039,1);(9041,1);(6253,1);(9043,1);(9063,1);(9053,1);(9065,1);(9067,1);(9069,1);(9071,1);(9073,1);(0,18);(8473,1);(8475,1);(8483,1);(8489,1);(0,1);(8527,1);(8495,1);(8485,1);(8505,1);(8529,1);(8517,1);(8519,1);(8521,1);(8523,1);(8497,1);(8509,1);(8513,1);(8501,1);(8515,1);(8493,1);(8499,1);(8479,1);(8481,1);(8487,1);(8491,1);(8503,1);(8507,1);(8511,1);(9075,1);(7326,1);(9077,1);(9079,1);(0,1);(8475,1);(8483,1);(0,1);(8525,1);(0,2);(8485,1);(0,1);(8529,1);(8517,1);(8519,1);(8521,1);(8523,1);(8497,1);(8509,1);(8513,1);(8501,1);(8515,1);(0,1);(8499,1);(8479,1);(8481,1);(8487,1);(0,1);(8503,1);(0,1);(8511,1);(0,6);(8483,1);(0,4);(8485,1);(0,1);(8529,1);(0,1);(8519,1);(0,1);(8523,1);(8497,1);(8509,1);(0,1);(8501,1);(8515,1);(0,1);(8499,1);(0,2);(8487,1);(0,1);(8503,1);(0,1);(8511,1);(0,1);(7326,1);(0,1);(9079,1);(0,1);(8475,1);(8483,1);(0,1);(8525,1);(0,2);(8485,1);(8505,1);(8529,1);(8517,1);(0,1);(8521,1);(8523,1);(8497,1);(8509,1);(8513,1);(8501,1);(8515,1);(0,1);(8499,1);(8479,1);(8481,1);(8487,1);(0,1);(8503,1);(8507,1);(8511,1);(9075,1);(0,1);(9077,1);(0,1);(8473,1);(8475,1);(8483,1);(8489,1);(8525,1);(8527,1);(8495,1);(8485,1);(8505,1);(8529,1);(0,1);(8519,1);(8521,1);(8523,1);(8497,1);(8509,1);(8513,1);(8501,1);(8515,1);(8493,1);(8499,1);(8479,1);(8481,1);(8487,1);(8491,1);(8503,1);(8507,1);(8511,1);(0,5);(8475,1);(8483,1);(8489,1);(0,1);(8527,1);(8495,1);(8485,1);(8505,1);(8529,1);(0,1);(8519,1);(8521,1);(8523,1);(8497,1);(8509,1);(8513,1);(8501,1);(8515,1);(8493,1);(8499,1);(8479,1);(8481,1);(8487,1);(8491,1);(8503,1);(8507,1);(8511,1);(0,68);(9081,1);(9084,1);(9087,1);(9090,1);(9093,1);(9096,1);(9099,1);(9102,1);(9105,1);(9108,1);(9111,1);(0,5);(9114,1);(9118,1);(9122,1);(9126,1);(9130,1);(9134,1);(9138,1);(9142,1);(9146,1);(9150,1);(9154,1);(9158,1);(9162,1);(9166,1);(9170,1);(9174,1);(9178,1);(9182,1);(9186,1);(9190,1);(9194,1);(9198,1);(9202,1);(9206,1);(9210,1);(9214,1);(9218,1);(3108,1);(1471,1);(9222,1);(9225,1);(0,1);(1437,1);(1441,1);(3108,1);(1443,1);(1445,1);(3151,1);(1449,1);(1451,1);(1453,1);(1455,1);(1457,1);(1459,1);(1461,1);(1463,1);(1465,1);(1469,1);(3131,1);(1471,1);(3756,1);(1473,1);(1475,1);(3245,1);(1477,1);(3262,1);(3758,1);(3143,1);(9228,1);(6004,1);(9231,1);(9234,1);(9237,1);(9241,1);(0,26);(9244,1);(9247,1);(9250,1);(0,35);(9253,1);(0,111);(9256,1);(9259,1);(5198,1);(0,13);(3913,1);(9262,1);(9264,1);(9266,1);(3799,1);(9268,1);(9270,1);(4611,1);(9272,1);(9274,1);(9276,1);(9278,1);(9280,1);(9282,1);(9284,1);(9286,1);(9288,1);(9290,1);(3985,1);(9292,1);(9294,1);(9296,1);(9298,1);(9300,1);(9302,1);(3787,1);(4595,1);(9304,1);(5060,1);(4601,1);(5062,1);(9306,1);(4097,1);(9308,1);(9310,1);(9312,1);(9314,1);(9316,1);(5026,1);(3933,1);(9318,1);(9320,1);(9322,1);(9324,1);(0,4);(9326,1);(9330,1);(9334,1);(9338,1);(9342,1);(9346,1);(9350,1);(9354,1);(9358,1);(0,7);(9362,1);(9364,1);(0,158);(3071,1);(23,1);(11,1);(13,1);(3073,1);(3075,1);(3077,1);(3079,1);(3081,1);(3083,1);(0,6);(9366,1);(9368,1);(9370,1);(9372,1);(9374,1);(6845,1);(9376,1)].
(** unicode_tables.cpp:3352 decomposition_index2, items 5500-5999 *)
Definition decomposition_index2_runs_11 : list (Z * Z) := [
(9378,1);(9380,1);(9382,1);(6847,1);(9384,1);(9386,1);(9388,1);(6849,1);(9390,1);(9392,1);(9394,1);(9396,1);(9398,1);(9400,1);(9402,1);(9404,1);(9406,1);(9408,1);(9410,1);(9412,1);(6965,1);(9414,1);(9416,1);(9418,1);(9420,1);(9422,1);(9424,1);(9426,1);(9428,1);(9430,1);(6975,1);(6851,1);(6853,1);(6977,1);(9432,1);(9434,1);(6467,1);(9436,1);(6855,1);(9438,1);(9440,1);(9442,1);(9444,3);(9446,1);(9448,1);(9450,1);(9452,1);(9454,1);(9456,1);(9458,1);(9460,1);(9462,1);(9464,1);(9466,1);(9468,1);(9470,1);(9472,1);(9474,1);(9476,1);(9478,1);(9480,2);(6981,1);(9482,1);(9484,1);(9486,1);(9488,1);(6859,1);(9490,1);(9492,1);(9494,1);(6773,1);(9496,1);(9498,1);(9500,1);(9502,1);(9504,1);(9506,1);(9508,1);(9510,1);(9512,1);(9514,1);(9516,1);(9518,1);(9520,1);(9522,1);(9524,1);(9526,1);(9528,1);(9530,1);(9532,1);(9534,1);(9536,1);(9538,1);(9540,1);(9542,1);(9544,1);(9546,2);(9548,1);(9550,1);(9552,1);(6459,1);(9554,1);(9556,1);(9558,1);(9560,1);(9562,1);(9564,1);(9566,1);(9568,1);(6869,1);(9570,1);(9572,1);(9574,1);(9576,1);(9578,1);(9580,1);(9582,1);(9584,1);(9586,1);(9588,1);(9590,1);(9592,1);(9594,1);(9596,1);(9598,1);(9600,1);(9602,1);(9604,1);(9606,1);(9608,1);(9610,1);(6351,1);(9612,1);(9614,1);(9616,2);(9618,1);(9620,2);(9622,1);(9624,1);(9626,1);(9628,1);(9630,1);(9632,1);(9634,1);(9636,1);(9638,1);(9640,1);(9642,1);(9644,1);(9646,1);(6871,1);(9648,1);(9650,1);(9652,1);(9654,1);(7005,1);(9654,1);(9656,1);(6875,1);(9658,1);(9660,1);(9662,1);(9664,1);(6877,1);(6297,1);(9666,1);(9668,1);(9670,1);(9672,1);(9674,1);(9676,1);(9678,1);(9680,1);(9682,1);(9684,1);(9686,1);(9688,1);(9690,1);(9692,1);(9694,1);(9696,1);(9698,1);(9700,1);(9702,1);(9704,1);(9706,1);(9708,1);(6879,1);(9710,1);(9712,1);(9714,1);(9716,1);(9718,1);(9720,1);(6883,1);(9722,1);(9724,1);(9726,1);(9728,1);(9730,1);(9732,1);(9734,1);(9736,1);(6353,1);(7021,1);(9738,1);(9740,1);(9742,1);(9744,1);(9746,1);(9748,1);(9750,1);(9752,1);(6885,1);(9754,1);(9756,1);(9758,1);(9760,1);(7107,1);(9762,1);(9764,1);(9766,1);(9768,1);(9770,1);(9772,1);(9774,1);(9776,1);(9778,1);(9780,1);(9782,1);(9784,1);(9786,1);(6493,1);(9788,1);(9790,1);(9792,1);(9794,1);(9796,1);(9798,1);(9800,1);(9802,1);(9804,1);(9806,1);(9808,1);(6887,1);(6667,1);(9810,1);(9812,1);(9814,1);(9816,1);(9818,1);(9820,1);(9822,1);(9824,1);(7029,1);(9826,1);(9828,1);(9830,1);(9832,1);(9834,1);(9836,1);(9838,1);(9840,1);(7031,1);(9842,1);(9844,1);(9846,1);(9848,1);(9850,1);(9852,1);(9854,1);(9856,1);(9858,1);(9860,1);(9862,1);(9864,1);(7035,1);(9866,1);(9868,1);(9870,1);(9872,1);(9874,1);(9876,1);(9878,1);(9880,1);(9882,1);(9884,1);(9886,2);(9888,1);(9890,1);(7039,1);(9892,1);(9894,1);(9896,1);(9898,1);(9900,1);(9902,1);(9904,1);(6465,1);(9906,1);(9908,1);(9910,1);(9912,1);(9914,1);(9916,1);(9918,1);(7051,1);(9920,1);(9922,1);(9924,1);(9926,1);(9928,1);(9930,2);(7053,1);(7111,1);(9932,1);(9934,1);(9936,1);(9938,1);(9940,1);(6389,1);(7057,1);(9942,1);(9944,1);(6909,1);(9946,1);(9948,1);(6817,1);(9950,1);(9952,1);(6917,1);(9954,1);(9956,1);(9958,1);(9960,2);(9962,1);(9964,1);(9966,1);(9968,1);(9970,1);(9972,1);(9974,1);(9976,1);(9978,1);(9980,1);(9982,1);(9984,1);(9986,1);(9988,1);(9990,1);(9992,1);(9994,1);(9996,1);(9998,1);(10000,1);(10002,1);(10004,1);(10006,1);(10008,1);(10010,1);(10012,1);(10014,1);(6929,1);(10016,1);(10018,1);(10020,1);(10022,1);(10024,1);(10026,1);(10028,1);(10030,1);(10032,1);(10034,1);(10036,1);(10038,1);(10040,1);(10042,1);(10044,1);(10046,1);(9618,1);(10048,1);(10050,1);(10052,1);(10054,1);(10056,1);(10058,1);(10060,1);(10062,1);(10064,1);(10066,1);(10068,1);(10070,1);(6501,1);(10072,1);(10074,1);(10076,1);(10078,1);(10080,1);(10082,1);(6935,1);(10084,1);(10086,1);(10088,1);(10090,1);(10092,1);(10094,1);(10096,1);(10098,1);(10100,1);(10102,1);(10104,1);(10106,1);(10108,1);(10110,1);(10112,1);(10114,1);(10116,1);(10118,1);(10120,1);(10122,1);(6379,1);(10124,1);(10126,1);(10128,1);(10130,1);(10132,1);(10134,1);(7071,1);(10136,1);(10138,1);(10140,1);(10142,1);(10144,1);(10146,1);(10148,1);(10150,1);(10152,1);(10154,1);(10156,1);(10158,1);(10160,1);(10162,1);(10164,1);(10166,1);(10168,1);(10170,1);(10172,1);(10174,1);(7081,1);(7083,1);(10176,1);(10178,1);(10180,1);(10182,1);(10184,1);(10186,1);(10188,1);(10190,1);(10192,1);(10194,1);(10196,1);(10198,1);(10200,1);(7085,1);(10202,1);(10204,1);(10206,1);(10208,1);(10210,1);(10212,1);(10214,1);(10216,1);(10218,1);(10220,1);(10222,1);(10224,1);(10226,1);(10228,1);(10230,1);(10232,1);(10234,1);(10236,1);(10238,1);(10240,1);(10242,1);(10244,1);(10246,1);(10248,1);(10250,1);(10252,1);(10254,1);(10256,1);(10258,1);(10260,1);(7097,2);(10262,1);(10264,1);(10266,1);(10268,1);(10270,1)].
(** unicode_tables.cpp:3352 decomposition_index2, items 6000-6025 *)
Definition decomposition_index2_runs_12 : list (Z * Z) := [
(10272,1);(10274,1);(10276,1);(10278,1);(10280,1);(7099,1);(10282,1);(10284,1);(10286,1);(10288,1);(10290,1);(10292,1);(10294,1);(10296,1);(10298,1);(10300,1);(10302,1);(10304,1);(10306,1);(10308,1);(10310,1);(10312,1);(10314,1);(10316,1);(10318,1);(0,98)].
(** unicode_tables.cpp:3352 decomposition_index2 *)
Definition decomposition_index2_runs : list (Z * Z) := decomposition_index2_runs_0 ++ decomposition_index2_runs_1 ++ decomposition_index2_runs_2 ++ decomposition_index2_runs_3 ++ decomposition_index2_runs_4 ++ decomposition_index2_runs_5 ++ decomposition_index2_runs_6 ++ decomposition_index2_runs_7 ++ decomposition_index2_runs_8 ++ decomposition_index2_runs_9 ++ decomposition_index2_runs_10 ++ decomposition_index2_runs_11 ++ decomposition_index2_runs_12.
(** unicode_tables.cpp:5298 composition_pairs, items 0-499 *)
Definition composition_pairs_data_0 : list Z := [
60;824;8814;61;824;8800;62;824;8815;65;768;192;65;769;193;65;770;194;65;771;195;65;772;256;65;774;258;65;775;550;65;776;196;65;777;7842;65;778;197;65;780;461;65;783;512;65;785;514;65;803;7840;65;805;7680;65;808;260;66;775;7682;66;803;7684;66;817;7686;67;769;262;67;770;264;67;775;266;67;780;268;67;807;199;68;775;7690;68;780;270;68;803;7692;68;807;7696;68;813;7698;68;817;7694;69;768;200;69;769;201;69;770;202;69;771;7868;69;772;274;69;774;276;69;775;278;69;776;203;69;777;7866;69;780;282;69;783;516;69;785;518;69;803;7864;69;807;552;69;808;280;69;813;7704;69;816;7706;70;775;7710;71;769;500;71;770;284;71;772;7712;71;774;286;71;775;288;71;780;486;71;807;290;72;770;292;72;775;7714;72;776;7718;72;780;542;72;803;7716;72;807;7720;72;814;7722;73;768;204;73;769;205;73;770;206;73;771;296;73;772;298;73;774;300;73;775;304;73;776;207;73;777;7880;73;780;463;73;783;520;73;785;522;73;803;7882;73;808;302;73;816;7724;74;770;308;75;769;7728;75;780;488;75;803;7730;75;807;310;75;817;7732;76;769;313;76;780;317;76;803;7734;76;807;315;76;813;7740;76;817;7738;77;769;7742;77;775;7744;77;803;7746;78;768;504;78;769;323;78;771;209;78;775;7748;78;780;327;78;803;7750;78;807;325;78;813;7754;78;817;7752;79;768;210;79;769;211;79;770;212;79;771;213;79;772;332;79;774;334;79;775;558;79;776;214;79;777;7886;79;779;336;79;780;465;79;783;524;79;785;526;79;795;416;79;803;7884;79;808;490;80;769;7764;80;775;7766;82;769;340;82;775;7768;82;780;344;82;783;528;82;785;530;82;803;7770;82;807;342;82;817;7774;83;769;346;83;770;348;83;775;7776;83;780;352;83;803;7778;83;806;536;83;807;350;84;775;7786;84;780;356;84;803;7788;84;806;538;84;807;354;84;813;7792;84;817;7790;85;768;217;85;769;218;85;770;219;85;771;360;85;772;362;85;774;364;85;776;220;85;777;7910;85;778;366;85;779;368;85;780;467;85;783;532;85;785;534;85;795;431;85;803;7908;85;804;7794;85;808;370;85;813;7798;85;816;7796;86;771;7804;86;803;7806;87;768;7808;87;769].
(** unicode_tables.cpp:5298 composition_pairs, items 500-999 *)
Definition composition_pairs_data_1 : list Z := [
7810;87;770;372;87;775;7814;87;776;7812;87;803;7816;88;775;7818;88;776;7820;89;768;7922;89;769;221;89;770;374;89;771;7928;89;772;562;89;775;7822;89;776;376;89;777;7926;89;803;7924;90;769;377;90;770;7824;90;775;379;90;780;381;90;803;7826;90;817;7828;97;768;224;97;769;225;97;770;226;97;771;227;97;772;257;97;774;259;97;775;551;97;776;228;97;777;7843;97;778;229;97;780;462;97;783;513;97;785;515;97;803;7841;97;805;7681;97;808;261;98;775;7683;98;803;7685;98;817;7687;99;769;263;99;770;265;99;775;267;99;780;269;99;807;231;100;775;7691;100;780;271;100;803;7693;100;807;7697;100;813;7699;100;817;7695;101;768;232;101;769;233;101;770;234;101;771;7869;101;772;275;101;774;277;101;775;279;101;776;235;101;777;7867;101;780;283;101;783;517;101;785;519;101;803;7865;101;807;553;101;808;281;101;813;7705;101;816;7707;102;775;7711;103;769;501;103;770;285;103;772;7713;103;774;287;103;775;289;103;780;487;103;807;291;104;770;293;104;775;7715;104;776;7719;104;780;543;104;803;7717;104;807;7721;104;814;7723;104;817;7830;105;768;236;105;769;237;105;770;238;105;771;297;105;772;299;105;774;301;105;776;239;105;777;7881;105;780;464;105;783;521;105;785;523;105;803;7883;105;808;303;105;816;7725;106;770;309;106;780;496;107;769;7729;107;780;489;107;803;7731;107;807;311;107;817;7733;108;769;314;108;780;318;108;803;7735;108;807;316;108;813;7741;108;817;7739;109;769;7743;109;775;7745;109;803;7747;110;768;505;110;769;324;110;771;241;110;775;7749;110;780;328;110;803;7751;110;807;326;110;813;7755;110;817;7753;111;768;242;111;769;243;111;770;244;111;771;245;111;772;333;111;774;335;111;775;559;111;776;246;111;777;7887;111;779;337;111;780;466;111;783;525;111;785;527;111;795;417;111;803;7885;111;808;491;112;769;7765;112;775;7767;114;769;341;114;775;7769;114;780;345;114;783;529;114;785;531;114;803;7771;114;807;343;114;817;7775;115;769;347;115;770;349;115;775;7777;115;780;353;115;803;7779;115;806;537;115;807;351;116;775;7787;116;776;7831;116;780;357;116;803;7789;116;806;539;116;807;355;116;813;7793;116;817;7791;117;768;249;117;769;250;117].
(** unicode_tables.cpp:5298 composition_pairs, items 1000-1499 *)
Definition composition_pairs_data_2 : list Z := [
770;251;117;771;361;117;772;363;117;774;365;117;776;252;117;777;7911;117;778;367;117;779;369;117;780;468;117;783;533;117;785;535;117;795;432;117;803;7909;117;804;7795;117;808;371;117;813;7799;117;816;7797;118;771;7805;118;803;7807;119;768;7809;119;769;7811;119;770;373;119;775;7815;119;776;7813;119;778;7832;119;803;7817;120;775;7819;120;776;7821;121;768;7923;121;769;253;121;770;375;121;771;7929;121;772;563;121;775;7823;121;776;255;121;777;7927;121;778;7833;121;803;7925;122;769;378;122;770;7825;122;775;380;122;780;382;122;803;7827;122;817;7829;168;768;8173;168;769;901;168;834;8129;194;768;7846;194;769;7844;194;771;7850;194;777;7848;196;772;478;197;769;506;198;769;508;198;772;482;199;769;7688;202;768;7872;202;769;7870;202;771;7876;202;777;7874;207;769;7726;212;768;7890;212;769;7888;212;771;7894;212;777;7892;213;769;7756;213;772;556;213;776;7758;214;772;554;216;769;510;220;768;475;220;769;471;220;772;469;220;780;473;226;768;7847;226;769;7845;226;771;7851;226;777;7849;228;772;479;229;769;507;230;769;509;230;772;483;231;769;7689;234;768;7873;234;769;7871;234;771;7877;234;777;7875;239;769;7727;244;768;7891;244;769;7889;244;771;7895;244;777;7893;245;769;7757;245;772;557;245;776;7759;246;772;555;248;769;511;252;768;476;252;769;472;252;772;470;252;780;474;258;768;7856;258;769;7854;258;771;7860;258;777;7858;259;768;7857;259;769;7855;259;771;7861;259;777;7859;274;768;7700;274;769;7702;275;768;7701;275;769;7703;332;768;7760;332;769;7762;333;768;7761;333;769;7763;346;775;7780;347;775;7781;352;775;7782;353;775;7783;360;769;7800;361;769;7801;362;776;7802;363;776;7803;383;775;7835;416;768;7900;416;769;7898;416;771;7904;416;777;7902;416;803;7906;417;768;7901;417;769;7899;417;771;7905;417;777;7903;417;803;7907;431;768;7914;431;769;7912;431;771;7918;431;777;7916;431;803;7920;432;768;7915;432;769;7913;432;771;7919;432;777;7917;432;803;7921;439;780;494;490;772;492;491;772;493;550;772;480;551;772;481;552;774;7708;553;774;7709;558;772;560;559;772;561;658;780;495;913;768;8122;913;769;902;913;772;8121;913;774;8120;913;787;7944;913;788;7945;913;837;8124;917;768;8136;917;769;904;917;787;7960;917;788;7961].
(** unicode_tables.cpp:5298 composition_pairs, items 1500-1999 *)
Definition composition_pairs_data_3 : list Z := [
919;768;8138;919;769;905;919;787;7976;919;788;7977;919;837;8140;921;768;8154;921;769;906;921;772;8153;921;774;8152;921;776;938;921;787;7992;921;788;7993;927;768;8184;927;769;908;927;787;8008;927;788;8009;929;788;8172;933;768;8170;933;769;910;933;772;8169;933;774;8168;933;776;939;933;788;8025;937;768;8186;937;769;911;937;787;8040;937;788;8041;937;837;8188;940;837;8116;942;837;8132;945;768;8048;945;769;940;945;772;8113;945;774;8112;945;787;7936;945;788;7937;945;834;8118;945;837;8115;949;768;8050;949;769;941;949;787;7952;949;788;7953;951;768;8052;951;769;942;951;787;7968;951;788;7969;951;834;8134;951;837;8131;953;768;8054;953;769;943;953;772;8145;953;774;8144;953;776;970;953;787;7984;953;788;7985;953;834;8150;959;768;8056;959;769;972;959;787;8000;959;788;8001;961;787;8164;961;788;8165;965;768;8058;965;769;973;965;772;8161;965;774;8160;965;776;971;965;787;8016;965;788;8017;965;834;8166;969;768;8060;969;769;974;969;787;8032;969;788;8033;969;834;8182;969;837;8179;970;768;8146;970;769;912;970;834;8151;971;768;8162;971;769;944;971;834;8167;974;837;8180;978;769;979;978;776;980;1030;776;1031;1040;774;1232;1040;776;1234;1043;769;1027;1045;768;1024;1045;774;1238;1045;776;1025;1046;774;1217;1046;776;1244;1047;776;1246;1048;768;1037;1048;772;1250;1048;774;1049;1048;776;1252;1050;769;1036;1054;776;1254;1059;772;1262;1059;774;1038;1059;776;1264;1059;779;1266;1063;776;1268;1067;776;1272;1069;776;1260;1072;774;1233;1072;776;1235;1075;769;1107;1077;768;1104;1077;774;1239;1077;776;1105;1078;774;1218;1078;776;1245;1079;776;1247;1080;768;1117;1080;772;1251;1080;774;1081;1080;776;1253;1082;769;1116;1086;776;1255;1091;772;1263;1091;774;1118;1091;776;1265;1091;779;1267;1095;776;1269;1099;776;1273;1101;776;1261;1110;776;1111;1140;783;1142;1141;783;1143;1240;776;1242;1241;776;1243;1256;776;1258;1257;776;1259;1575;1619;1570;1575;1620;1571;1575;1621;1573;1608;1620;1572;1610;1620;1574;1729;1620;1730;1746;1620;1747;1749;1620;1728;2344;2364;2345;2352;2364;2353;2355;2364;2356;2503;2494;2507;2503;2519;2508;2887;2878;2891;2887;2902;2888;2887;2903;2892;2962;3031;2964;3014;3006;3018;3014;3031;3020;3015;3006;3019;3142;3158;3144;3263;3285;3264;3270;3266;3274;3270;3285;3271;3270;3286;3272;3274;3285;3275;3398;3390;3402;3398;3415;3404;3399;3390;3403;3545;3530].
(** unicode_tables.cpp:5298 composition_pairs, items 2000-2499 *)
Definition composition_pairs_data_4 : list Z := [
3546;3545;3535;3548;3545;3551;3550;3548;3530;3549;4133;4142;4134;6917;6965;6918;6919;6965;6920;6921;6965;6922;6923;6965;6924;6925;6965;6926;6929;6965;6930;6970;6965;6971;6972;6965;6973;6974;6965;6976;6975;6965;6977;6978;6965;6979;7734;772;7736;7735;772;7737;7770;772;7772;7771;772;7773;7778;775;7784;7779;775;7785;7840;770;7852;7840;774;7862;7841;770;7853;7841;774;7863;7864;770;7878;7865;770;7879;7884;770;7896;7885;770;7897;7936;768;7938;7936;769;7940;7936;834;7942;7936;837;8064;7937;768;7939;7937;769;7941;7937;834;7943;7937;837;8065;7938;837;8066;7939;837;8067;7940;837;8068;7941;837;8069;7942;837;8070;7943;837;8071;7944;768;7946;7944;769;7948;7944;834;7950;7944;837;8072;7945;768;7947;7945;769;7949;7945;834;7951;7945;837;8073;7946;837;8074;7947;837;8075;7948;837;8076;7949;837;8077;7950;837;8078;7951;837;8079;7952;768;7954;7952;769;7956;7953;768;7955;7953;769;7957;7960;768;7962;7960;769;7964;7961;768;7963;7961;769;7965;7968;768;7970;7968;769;7972;7968;834;7974;7968;837;8080;7969;768;7971;7969;769;7973;7969;834;7975;7969;837;8081;7970;837;8082;7971;837;8083;7972;837;8084;7973;837;8085;7974;837;8086;7975;837;8087;7976;768;7978;7976;769;7980;7976;834;7982;7976;837;8088;7977;768;7979;7977;769;7981;7977;834;7983;7977;837;8089;7978;837;8090;7979;837;8091;7980;837;8092;7981;837;8093;7982;837;8094;7983;837;8095;7984;768;7986;7984;769;7988;7984;834;7990;7985;768;7987;7985;769;7989;7985;834;7991;7992;768;7994;7992;769;7996;7992;834;7998;7993;768;7995;7993;769;7997;7993;834;7999;8000;768;8002;8000;769;8004;8001;768;8003;8001;769;8005;8008;768;8010;8008;769;8012;8009;768;8011;8009;769;8013;8016;768;8018;8016;769;8020;8016;834;8022;8017;768;8019;8017;769;8021;8017;834;8023;8025;768;8027;8025;769;8029;8025;834;8031;8032;768;8034;8032;769;8036;8032;834;8038;8032;837;8096;8033;768;8035;8033;769;8037;8033;834;8039;8033;837;8097;8034;837;8098;8035;837;8099;8036;837;8100;8037;837;8101;8038;837;8102;8039;837;8103;8040;768;8042;8040;769;8044;8040;834;8046;8040;837;8104;8041;768;8043;8041;769;8045;8041;834;8047;8041;837;8105;8042;837;8106;8043;837;8107;8044;837;8108;8045;837;8109;8046;837;8110;8047;837;8111;8048;837;8114;8052;837;8130;8060;837;8178;8118;837;8119;8127;768;8141;8127;769;8142;8127;834;8143;8134;837;8135;8182;837;8183;8190;768;8157;8190;769;8158;8190;834;8159;8592;824;8602;8594;824;8603;8596;824;8622;8656;824;8653;8658].
(** unicode_tables.cpp:5298 composition_pairs, items 2500-2822 *)
Definition composition_pairs_data_5 : list Z := [
824;8655;8660;824;8654;8707;824;8708;8712;824;8713;8715;824;8716;8739;824;8740;8741;824;8742;8764;824;8769;8771;824;8772;8773;824;8775;8776;824;8777;8781;824;8813;8801;824;8802;8804;824;8816;8805;824;8817;8818;824;8820;8819;824;8821;8822;824;8824;8823;824;8825;8826;824;8832;8827;824;8833;8828;824;8928;8829;824;8929;8834;824;8836;8835;824;8837;8838;824;8840;8839;824;8841;8849;824;8930;8850;824;8931;8866;824;8876;8872;824;8877;8873;824;8878;8875;824;8879;8882;824;8938;8883;824;8939;8884;824;8940;8885;824;8941;12358;12441;12436;12363;12441;12364;12365;12441;12366;12367;12441;12368;12369;12441;12370;12371;12441;12372;12373;12441;12374;12375;12441;12376;12377;12441;12378;12379;12441;12380;12381;12441;12382;12383;12441;12384;12385;12441;12386;12388;12441;12389;12390;12441;12391;12392;12441;12393;12399;12441;12400;12399;12442;12401;12402;12441;12403;12402;12442;12404;12405;12441;12406;12405;12442;12407;12408;12441;12409;12408;12442;12410;12411;12441;12412;12411;12442;12413;12445;12441;12446;12454;12441;12532;12459;12441;12460;12461;12441;12462;12463;12441;12464;12465;12441;12466;12467;12441;12468;12469;12441;12470;12471;12441;12472;12473;12441;12474;12475;12441;12476;12477;12441;12478;12479;12441;12480;12481;12441;12482;12484;12441;12485;12486;12441;12487;12488;12441;12489;12495;12441;12496;12495;12442;12497;12498;12441;12499;12498;12442;12500;12501;12441;12502;12501;12442;12503;12504;12441;12505;12504;12442;12506;12507;12441;12508;12507;12442;12509;12527;12441;12535;12528;12441;12536;12529;12441;12537;12530;12441;12538;12541;12441;12542;69785;69818;69786;69787;69818;69788;69797;69818;69803;69937;69927;69934;69938;69927;69935;70471;70462;70475;70471;70487;70476;70841;70832;70844;70841;70842;70843;70841;70845;70846;71096;71087;71098;71097;71087;71099;71989;71984;71992].
(** unicode_tables.cpp:5298 composition_pairs *)
Definition composition_pairs_data : list Z := composition_pairs_data_0 ++ composition_pairs_data_1 ++ composition_pairs_data_2 ++ composition_pairs_data_3 ++ composition_pairs_data_4 ++ composition_pairs_data_5.
(** code_points.cpp:417 combining_index, items 0-101 *)
Definition combining_index_runs_0 : list (Z * Z) := [
(0,59);(230,2);(232,1);(220,1);(216,1);(202,1);(220,1);(202,1);(1,2);(230,1);(240,1);(0,1);(233,1);(234,1);(0,7);(230,1);(0,4);(220,1);(222,1);(228,1);(10,1);(11,1);(12,1);(13,1);(14,1);(15,1);(16,1);(17,1);(18,1);(19,1);(20,1);(21,1);(22,1);(0,1);(23,1);(0,1);(24,1);(25,1);(0,7);(30,1);(31,1);(32,1);(0,4);(27,1);(28,1);(29,1);(33,1);(34,1);(230,1);(220,1);(0,2);(35,1);(0,3);(36,1);(0,7);(7,1);(9,1);(0,2);(7,1);(0,5);(84,1);(91,1);(0,2);(9,1);(0,1);(103,1);(107,1);(118,1);(122,1);(0,1);(216,1);(0,2);(129,1);(130,1);(0,1);(132,1);(0,6);(9,1);(1,1);(234,1);(214,1);(202,1);(232,1);(233,1);(0,76);(218,1);(228,1);(232,1);(222,1);(224,1);(0,2);(8,1);(0,13);(26,1);(0,50);(9,1);(0,1);(6,1);(0,1);(216,1);(226,1);(0,5)].
(** code_points.cpp:417 combining_index *)
Definition combining_index_runs : list (Z * Z) := combining_index_runs_0.
(** code_points.cpp:440 unicode_data1, items 0-322 *)
Definition unicode_data1_runs_0 : list (Z * Z) := [
(0,1);(1,1);(2,1);(3,1);(4,1);(5,1);(6,1);(7,1);(8,1);(9,1);(10,1);(11,1);(12,1);(13,1);(14,1);(15,1);(16,1);(17,1);(18,1);(19,1);(20,1);(21,1);(22,1);(23,1);(24,1);(25,1);(26,1);(27,1);(28,1);(29,1);(30,1);(31,1);(32,1);(33,1);(34,1);(35,1);(36,1);(37,1);(38,1);(39,1);(40,1);(41,3);(42,1);(43,1);(44,1);(45,1);(46,1);(47,1);(48,1);(49,1);(50,1);(51,1);(52,1);(53,1);(54,1);(55,1);(56,1);(57,1);(58,1);(59,1);(60,1);(61,1);(62,1);(63,1);(64,1);(65,1);(66,1);(67,1);(68,1);(69,1);(70,1);(71,1);(72,1);(73,1);(74,1);(75,1);(76,1);(77,1);(78,2);(79,1);(80,1);(81,1);(82,1);(83,1);(84,1);(85,1);(86,1);(87,1);(88,1);(89,1);(90,1);(91,1);(92,1);(93,1);(94,1);(95,1);(96,1);(97,1);(98,1);(99,1);(100,1);(101,51);(102,1);(101,163);(103,1);(104,1);(101,8);(105,1);(41,2);(106,1);(107,1);(108,1);(109,1);(110,1);(111,1);(112,1);(113,1);(114,1);(115,1);(116,1);(117,1);(118,87);(119,1);(120,16);(121,50);(122,2);(123,1);(124,1);(125,1);(126,1);(127,2);(128,1);(129,1);(130,1);(131,1);(132,1);(133,1);(134,1);(135,1);(136,1);(137,1);(138,1);(139,1);(140,1);(141,1);(142,1);(143,1);(144,1);(138,1);(41,2);(145,1);(138,1);(146,1);(147,1);(148,1);(149,1);(150,1);(151,1);(152,1);(153,1);(154,1);(155,1);(156,1);(138,1);(157,1);(158,1);(159,1);(160,1);(161,1);(162,1);(163,1);(164,1);(165,1);(166,1);(167,1);(138,1);(168,1);(169,1);(138,1);(170,1);(171,1);(172,1);(173,1);(138,1);(174,1);(175,1);(176,1);(177,1);(178,1);(179,1);(138,2);(180,1);(181,1);(182,1);(183,1);(138,1);(184,1);(138,1);(185,1);(41,7);(186,1);(187,1);(41,1);(188,1);(138,21);(41,8);(189,1);(138,31);(41,4);(190,1);(138,67);(41,4);(191,1);(192,1);(193,1);(194,1);(138,4);(195,1);(196,1);(197,1);(198,1);(101,47);(199,1);(101,9);(200,1);(201,1);(138,69);(101,2);(202,1);(101,2);(203,1);(138,18);(204,1);(205,1);(138,38);(78,1);(206,1);(207,1);(208,1);(209,1);(210,1);(211,1);(138,1);(212,1);(213,1);(214,1);(215,1);(216,1);(217,1);(218,1);(219,1);(78,4);(220,1);(221,1);(138,10);(222,1);(138,1);(223,1);(138,2);(224,1);(138,10);(225,1);(226,1);(227,1);(138,5);(228,1);(229,1);(230,1);(138,1);(231,1);(232,1);(138,2);(233,1);(234,1);(235,1);(236,1);(237,1);(138,1);(238,1);(239,1);(240,1);(241,1);(242,1);(243,1);(244,1);(245,1);(246,1);(247,1);(248,1);(249,1);(250,1);(251,1);(252,1);(253,1);(254,1);(255,1);(138,8);(101,333);(256,1);(101,32);(257,1);(101,1);(258,1);(101,44);(259,1);(101,57);(260,1);(138,24);(122,4);(261,1);(138,11);(101,38);(262,1);(138,5593);(263,1);(138,1);(264,1);(265,1);(138,508);(121,511);(266,1);(121,511);(266,1)].
(** code_points.cpp:440 unicode_data1 *)
Definition unicode_data1_runs : list (Z * Z) := unicode_data1_runs_0.
(** code_points.cpp:1064 unicode_data2, items 0-499 *)
Definition unicode_data2_runs_0 : list (Z * Z) := [
(1,9);(2,1);(3,1);(2,1);(4,1);(3,1);(1,14);(3,3);(2,1);(5,1);(6,2);(7,1);(8,1);(7,1);(6,2);(9,1);(10,1);(6,1);(11,1);(12,1);(13,1);(12,2);(14,10);(12,1);(6,1);(15,1);(16,1);(15,1);(6,2);(17,26);(9,1);(6,1);(10,1);(18,1);(19,1);(18,1);(20,26);(9,1);(16,1);(10,1);(16,1);(1,6);(3,1);(1,26);(21,1);(22,1);(8,2);(23,1);(8,1);(24,1);(22,1);(25,1);(26,1);(27,1);(28,1);(16,1);(29,1);(30,1);(31,1);(32,1);(33,1);(34,2);(25,1);(35,1);(22,2);(25,1);(34,1);(27,1);(36,1);(37,3);(22,1);(38,6);(39,1);(38,9);(39,1);(38,6);(40,1);(39,1);(38,5);(39,1);(41,1);(42,2);(43,4);(41,1);(43,1);(42,3);(43,1);(42,2);(43,2);(41,1);(43,1);(42,2);(43,3);(40,1);(41,1);(42,2);(43,1);(42,1);(43,1);(41,1);(43,1);(38,1);(42,1);(38,1);(43,1);(38,1);(43,1);(38,1);(43,1);(38,1);(43,1);(38,1);(43,1);(38,1);(43,1);(38,1);(43,1);(44,1);(41,1);(38,1);(42,1);(38,1);(43,1);(38,1);(43,1);(38,1);(43,1);(38,1);(42,1);(38,1);(43,1);(38,1);(43,1);(38,1);(43,1);(38,1);(43,1);(38,1);(43,1);(39,1);(41,1);(38,1);(43,1);(38,1);(42,1);(38,1);(43,1);(38,1);(43,1);(38,1);(41,1);(45,1);(46,1);(38,1);(43,1);(38,1);(43,1);(41,1);(38,1);(43,1);(38,1);(43,1);(38,1);(43,1);(45,1);(46,1);(39,1);(41,1);(38,1);(42,1);(38,1);(43,1);(38,1);(42,1);(46,1);(39,1);(41,1);(38,1);(42,1);(38,1);(43,1);(38,1);(43,1);(39,1);(41,1);(38,1);(43,1);(38,1);(43,1);(38,1);(43,1);(38,1);(43,1);(38,1);(43,1);(38,1);(43,1);(38,1);(43,1);(38,1);(43,1);(38,1);(43,1);(39,1);(41,1);(38,1);(43,1);(38,1);(42,1);(38,1);(43,1);(38,1);(43,1);(38,1);(43,1);(38,1);(43,1);(38,1);(43,1);(38,1);(43,1);(38,2);(43,1);(38,1);(43,1);(38,1);(43,1);(35,1);(47,1);(44,2);(47,1);(44,1);(47,1);(44,2);(47,1);(44,3);(47,2);(44,4);(47,1);(44,2);(47,1);(44,3);(47,3);(44,2);(47,1);(44,1);(38,1);(43,1);(44,1);(47,1);(44,1);(47,1);(44,2);(47,1);(44,1);(47,2);(44,1);(47,1);(44,1);(38,1);(43,1);(44,3);(47,1);(44,1);(47,1);(44,2);(47,2);(48,1);(44,1);(47,3);(48,4);(49,1);(50,1);(35,1);(49,1);(50,1);(35,1);(49,1);(50,1);(35,1);(38,1);(42,1);(38,1);(42,1);(38,1);(42,1);(38,1);(42,1);(38,1);(42,1);(38,1);(42,1);(38,1);(42,1);(38,1);(42,1);(47,1);(38,1);(43,1);(38,1);(43,1);(38,1);(43,1);(44,1);(47,1);(38,1);(43,1);(38,1);(43,1);(38,1);(43,1);(38,1);(43,1);(38,1);(43,2);(49,1);(50,1);(35,1);(38,1);(43,1);(44,2);(38,1);(43,1);(38,1);(43,1);(38,1);(43,1);(38,1);(43,1);(38,1);(43,1);(38,1);(43,1);(38,1);(43,1);(38,1);(43,1);(38,1);(43,1);(38,1);(43,1);(38,1);(43,1);(38,1);(43,1);(38,1);(43,1);(38,1);(43,1);(38,1);(43,1);(38,1);(43,1);(38,1);(43,1);(38,1);(43,1);(44,1);(47,1);(38,1);(43,1);(44,1);(47,1);(44,1);(47,1);(44,1);(47,1);(38,1);(43,1);(38,1);(43,1);(38,1);(43,1);(38,1);(43,1);(38,1);(43,1);(38,1);(43,1);(38,1);(43,1);(47,6);(44,2);(47,1);(44,2);(47,2);(44,1);(47,1);(44,4);(47,1);(44,1);(47,1);(44,1);(47,1);(44,1);(47,1);(44,1);(47,2);(41,1);(47,15);(41,1);(47,50);(48,1);(47,27);(51,9);(52,2);(53,7);(54,2);(55,1);(54,1);(52,1);(56,1);(52,1);(56,3);(52,1);(56,1);(52,2);(57,1);(53,1);(54,6);(25,4);(58,1);(25,1);(54,1);(55,1);(51,5);(54,7);(52,1);(54,1);(53,1);(54,17);(59,5);(60,1);(59,7);(60,2);(59,1);(60,1);(59,1);(60,1);(59,2);(61,1);(62,4);(61,1);(63,1);(62,5);(64,2);(65,4);(66,2);(62,4);(65,2);(62,1);(65,2);(62,2);(67,4);(68,1);(62,4);(60,3);(69,2);(59,1);(69,2);(70,1);(60,1);(62,3);(60,3);(62,2);(71,1);(60,3);(62,4);(60,1);(61,1);(62,2);(60,1);(72,1);(73,2);(72,1);(73,2);(72,1);(60,13);(44,1);(47,1);(44,1);(47,1);(74,1);(54,1);(44,1);(47,1);(0,2);(51,1);(47,3);(75,1);(44,1);(0,4);(58,1);(76,1);(38,1);(75,1);(38,3);(0,1);(38,1);(0,1)].
(** code_points.cpp:1064 unicode_data2, items 500-999 *)
Definition unicode_data2_runs_1 : list (Z * Z) := [
(38,2);(43,1);(39,17);(0,1);(39,7);(38,2);(43,5);(41,17);(47,1);(41,7);(43,5);(44,1);(35,2);(49,1);(77,2);(35,2);(47,1);(44,1);(47,1);(44,1);(47,1);(44,1);(47,1);(44,1);(47,1);(44,1);(47,1);(44,1);(47,1);(44,1);(47,1);(44,1);(47,1);(44,1);(47,1);(44,1);(47,1);(44,1);(47,1);(44,1);(47,1);(35,3);(47,1);(49,1);(35,1);(78,1);(44,1);(47,1);(49,1);(44,1);(47,2);(44,3);(38,1);(79,1);(44,1);(38,1);(44,3);(38,1);(44,4);(38,3);(44,1);(39,9);(79,1);(39,22);(41,9);(42,1);(41,22);(43,1);(42,1);(47,1);(43,1);(47,3);(43,1);(47,4);(43,3);(47,1);(44,1);(47,1);(44,1);(47,1);(44,1);(47,1);(44,1);(47,1);(44,1);(47,1);(44,1);(47,1);(44,1);(47,1);(44,1);(47,1);(44,1);(47,1);(44,1);(47,1);(44,1);(47,1);(38,1);(43,1);(44,1);(47,1);(44,1);(47,1);(44,1);(47,1);(44,1);(47,1);(44,1);(47,1);(80,1);(81,5);(82,2);(44,1);(47,1);(44,1);(47,1);(44,1);(47,1);(44,1);(47,1);(44,1);(47,1);(44,1);(47,1);(44,1);(47,1);(44,1);(47,1);(44,1);(47,1);(44,1);(47,1);(44,1);(47,1);(44,1);(47,1);(44,1);(47,1);(44,1);(47,1);(44,1);(47,1);(44,1);(47,1);(44,1);(47,1);(44,1);(47,1);(44,1);(47,1);(44,1);(47,1);(44,1);(47,1);(44,1);(47,1);(44,1);(47,1);(44,1);(47,1);(44,1);(47,1);(44,1);(47,1);(44,1);(47,1);(44,1);(38,1);(43,1);(44,1);(47,1);(44,1);(47,1);(44,1);(47,1);(44,1);(47,1);(44,1);(47,1);(44,1);(47,2);(38,1);(43,1);(38,1);(43,1);(44,1);(47,1);(38,1);(43,1);(44,1);(47,1);(38,1);(43,1);(38,1);(43,1);(38,1);(43,1);(44,1);(47,1);(38,1);(43,1);(38,1);(43,1);(38,1);(43,1);(44,1);(47,1);(38,1);(43,1);(38,1);(43,1);(38,1);(43,1);(38,1);(43,1);(38,1);(43,1);(38,1);(43,1);(44,1);(47,1);(38,1);(43,1);(44,1);(47,1);(44,1);(47,1);(44,1);(47,1);(44,1);(47,1);(44,1);(47,1);(44,1);(47,1);(44,1);(47,1);(44,1);(47,1);(44,1);(47,1);(44,1);(47,1);(44,1);(47,1);(44,1);(47,1);(44,1);(47,1);(44,1);(47,1);(44,1);(47,1);(44,1);(47,1);(44,1);(47,1);(44,1);(47,1);(44,1);(47,1);(44,1);(47,1);(44,1);(47,1);(44,1);(47,1);(44,1);(47,1);(44,1);(47,1);(44,1);(47,1);(44,1);(47,1);(44,1);(47,1);(0,1);(44,38);(0,2);(53,1);(83,6);(47,39);(35,1);(47,1);(83,1);(84,1);(0,2);(26,2);(85,1);(0,1);(86,1);(81,4);(86,1);(81,3);(87,1);(86,1);(81,6);(86,6);(81,2);(86,1);(81,2);(87,1);(88,1);(81,1);(89,1);(90,1);(91,1);(92,1);(93,1);(94,1);(95,1);(96,1);(97,1);(98,2);(99,1);(100,1);(101,1);(102,1);(103,1);(104,1);(105,1);(106,1);(104,1);(81,1);(86,1);(104,1);(97,1);(0,8);(107,27);(0,4);(107,4);(104,2);(0,11);(108,6);(78,2);(109,1);(110,2);(111,1);(112,1);(113,1);(26,2);(81,8);(114,1);(115,1);(116,1);(113,1);(117,1);(0,1);(113,2);(118,2);(119,5);(118,25);(120,1);(118,10);(121,1);(122,1);(123,1);(114,1);(115,1);(116,1);(124,1);(125,1);(126,2);(127,1);(86,1);(81,5);(86,1);(81,2);(86,1);(128,10);(110,1);(129,2);(113,1);(118,2);(130,1);(118,4);(131,4);(118,71);(119,1);(118,1);(119,1);(118,16);(119,1);(113,1);(118,1);(81,7);(108,1);(26,1);(81,4);(86,1);(81,1);(120,2);(81,2);(26,1);(86,1);(81,2);(86,1);(118,2);(132,10);(118,3);(133,2);(118,1);(113,14);(0,1);(117,1);(118,1);(134,1);(118,30);(81,1);(86,1);(81,2);(86,1);(81,2);(86,3);(81,1);(86,2);(81,1);(86,1);(81,3);(86,1);(81,1);(86,1);(81,1);(86,1);(81,1);(86,1);(81,2);(0,2);(118,89);(135,11);(118,1);(0,14);(136,10);(107,33);(81,7);(86,1);(81,1);(137,2);(26,1);(138,3);(137,1);(0,2);(86,1);(139,2);(107,22);(81,4);(137,1);(81,9);(137,1);(81,3);(137,1);(81,5);(0,2);(104,15);(0,1);(107,25);(86,3);(0,2);(104,1);(0,1);(118,11);(0,53);(118,21);(0,1);(118,18);(0,11);(86,1);(81,14);(108,1);(86,1);(81,2);(86,1);(81,2);(86,1);(81,3);(86,3);(121,1);(122,1);(123,1);(81,3);(86,1);(81,2);(86,2);(81,5);(135,3);(140,1);(48,37);(141,1);(48,7);(141,1);(48,2);(141,1);(48,5);(135,1);(140,1);(142,1);(48,1);(140,3)].
(** code_points.cpp:1064 unicode_data2, items 1000-1499 *)
Definition unicode_data2_runs_2 : list (Z * Z) := [
(135,8);(140,4);(143,1);(140,2);(48,1);(81,1);(86,1);(81,2);(135,3);(144,8);(48,2);(135,2);(83,2);(145,10);(83,1);(53,1);(48,15);(135,1);(140,2);(0,1);(48,8);(0,2);(48,2);(0,2);(48,22);(0,1);(48,7);(0,1);(48,1);(0,3);(48,4);(0,2);(146,1);(48,1);(147,1);(140,2);(135,4);(0,2);(140,2);(0,2);(148,2);(143,1);(48,1);(0,8);(147,1);(0,4);(144,2);(0,1);(144,1);(48,2);(135,2);(0,2);(145,10);(48,2);(85,2);(149,6);(80,1);(85,1);(48,1);(83,1);(81,1);(0,2);(135,2);(140,1);(0,1);(48,6);(0,4);(48,2);(0,2);(48,22);(0,1);(48,7);(0,1);(48,1);(144,1);(0,1);(48,1);(144,1);(0,1);(48,2);(0,2);(146,1);(0,1);(140,3);(135,2);(0,4);(135,2);(0,2);(135,2);(143,1);(0,3);(135,1);(0,7);(144,3);(48,1);(0,1);(144,1);(0,7);(145,10);(135,2);(48,3);(135,1);(83,1);(0,10);(135,2);(140,1);(0,1);(48,9);(0,1);(48,3);(0,1);(48,22);(0,1);(48,7);(0,1);(48,2);(0,1);(48,5);(0,2);(146,1);(48,1);(140,3);(135,5);(0,1);(135,2);(140,1);(0,1);(140,2);(143,1);(0,2);(48,1);(0,15);(48,2);(135,2);(0,2);(145,10);(83,1);(85,1);(0,7);(48,1);(135,6);(0,1);(135,1);(140,2);(0,1);(48,8);(0,2);(48,2);(0,2);(48,22);(0,1);(48,7);(0,1);(48,2);(0,1);(48,5);(0,2);(146,1);(48,1);(147,1);(135,1);(140,1);(135,4);(0,2);(140,1);(148,1);(0,2);(148,2);(143,1);(0,7);(135,1);(150,1);(147,1);(0,4);(144,2);(0,1);(48,3);(135,2);(0,2);(145,10);(80,1);(48,1);(149,6);(0,10);(135,1);(48,1);(0,1);(48,6);(0,3);(48,3);(0,1);(48,2);(141,1);(48,1);(0,3);(48,2);(0,1);(48,1);(0,1);(48,2);(0,3);(48,2);(0,3);(48,3);(0,3);(48,12);(0,4);(147,1);(140,1);(135,1);(140,2);(0,3);(140,3);(0,1);(148,3);(143,1);(0,2);(48,1);(0,6);(147,1);(0,14);(145,10);(149,3);(26,6);(85,1);(26,1);(0,5);(135,1);(140,3);(135,1);(48,8);(0,1);(48,3);(0,1);(48,23);(0,1);(48,16);(0,3);(48,1);(135,3);(140,4);(0,1);(135,2);(151,1);(0,1);(135,3);(143,1);(0,7);(152,1);(153,1);(0,1);(48,3);(0,5);(48,2);(135,2);(0,2);(145,10);(0,7);(83,1);(154,7);(80,1);(48,1);(135,1);(140,2);(83,1);(48,8);(0,1);(48,3);(0,1);(48,23);(0,1);(48,10);(0,1);(48,5);(0,2);(146,1);(48,1);(140,1);(155,1);(148,1);(140,1);(147,1);(140,2);(0,1);(155,1);(148,2);(0,1);(148,2);(135,1);(143,1);(0,7);(147,2);(0,7);(48,1);(0,1);(48,2);(135,2);(0,2);(145,10);(0,1);(48,2);(0,13);(135,2);(140,2);(48,9);(0,1);(48,3);(0,1);(48,41);(143,2);(48,1);(147,1);(140,2);(135,4);(0,1);(140,3);(0,1);(148,3);(143,1);(48,1);(80,1);(0,4);(48,3);(147,1);(149,7);(48,3);(135,2);(0,2);(145,10);(149,9);(80,1);(48,6);(0,1);(135,1);(140,2);(0,1);(48,18);(0,3);(48,24);(0,1);(48,9);(0,1);(48,1);(0,2);(48,7);(0,3);(156,1);(0,4);(147,1);(140,2);(135,3);(0,1);(135,1);(0,1);(140,2);(148,1);(140,1);(148,3);(147,1);(0,6);(145,10);(0,2);(140,2);(83,1);(0,12);(48,48);(135,1);(48,1);(157,1);(135,4);(158,2);(143,1);(0,4);(85,1);(48,6);(53,1);(135,1);(159,4);(135,3);(83,1);(145,10);(83,2);(0,37);(48,2);(0,1);(48,1);(0,1);(48,5);(0,1);(48,24);(0,1);(48,1);(0,1);(48,10);(135,1);(48,1);(157,1);(135,4);(160,2);(143,1);(135,2);(48,1);(0,2);(48,5);(0,1);(53,1);(0,1);(161,4);(135,2);(0,2);(145,10);(0,2);(157,2);(48,2);(0,32);(48,1);(80,3);(83,8);(162,1);(83,6);(80,1);(83,1);(80,3);(86,2);(80,6);(145,10);(149,10);(80,1);(86,1);(80,1);(86,1);(80,1);(163,1);(164,1);(165,1);(164,1);(165,1);(140,2);(48,3);(144,1);(48,4);(0,1);(48,4);(144,1);(48,4);(144,1);(48,4);(144,1);(48,4);(144,1);(48,12);(144,1);(48,3);(0,4);(166,1);(167,1);(168,1);(169,1);(168,2);(170,1);(168,1);(170,1);(167,4);(135,1);(140,1);(167,1);(168,1);(81,2);(143,1);(83,1);(81,2);(48,5);(135,6);(168,1);(135,4);(0,1);(135,4);(168,1);(135,4);(168,1);(135,4);(168,1);(135,4);(168,1);(135,12);(168,1);(135,3);(0,1);(80,8);(86,1);(80,6);(0,1);(80,2);(83,5);(80,4);(83,2);(0,37);(48,38);(141,1);(48,4)].
(** code_points.cpp:1064 unicode_data2, items 1500-1999 *)
Definition unicode_data2_runs_3 : list (Z * Z) := [
(140,2);(135,1);(150,1);(135,2);(140,1);(135,5);(146,1);(140,1);(143,2);(140,2);(135,2);(48,1);(145,10);(83,6);(48,6);(140,2);(135,2);(48,4);(135,3);(48,1);(140,3);(48,2);(140,7);(48,3);(135,4);(48,13);(135,1);(140,2);(135,2);(140,6);(86,1);(48,1);(140,1);(145,10);(140,3);(135,1);(80,2);(44,38);(0,1);(44,1);(0,5);(44,1);(0,2);(47,43);(83,1);(51,1);(47,3);(171,96);(48,1);(172,21);(48,50);(172,27);(48,134);(0,1);(48,4);(0,2);(48,7);(0,1);(48,1);(0,1);(48,4);(0,2);(48,41);(0,1);(48,4);(0,2);(48,33);(0,1);(48,4);(0,2);(48,7);(0,1);(48,1);(0,1);(48,4);(0,2);(48,15);(0,1);(48,57);(0,1);(48,4);(0,2);(48,67);(0,2);(81,3);(83,9);(149,20);(0,3);(48,16);(26,10);(0,6);(44,86);(0,2);(47,6);(0,2);(84,1);(48,364);(80,1);(83,1);(48,17);(173,1);(48,26);(164,1);(165,1);(0,3);(48,75);(83,3);(174,3);(48,8);(0,7);(48,13);(0,1);(48,4);(135,2);(143,1);(0,11);(48,18);(135,2);(143,1);(83,2);(0,9);(48,18);(135,2);(0,12);(48,13);(0,1);(48,3);(0,1);(135,2);(0,12);(48,52);(135,2);(140,1);(135,7);(140,8);(135,1);(140,2);(135,9);(143,1);(135,1);(83,3);(53,1);(83,3);(85,1);(48,1);(81,1);(0,2);(145,10);(0,6);(154,10);(0,6);(138,6);(84,1);(138,4);(135,3);(175,1);(0,1);(145,10);(0,6);(48,35);(53,1);(48,53);(0,7);(48,5);(135,2);(48,34);(88,1);(48,1);(0,5);(48,70);(0,10);(48,31);(0,1);(135,3);(140,4);(135,2);(140,3);(0,4);(140,2);(135,1);(140,6);(87,1);(81,1);(86,1);(0,4);(26,1);(0,3);(138,2);(145,10);(48,30);(0,2);(48,5);(0,11);(48,44);(0,4);(48,26);(0,6);(145,10);(149,1);(0,3);(26,34);(48,23);(81,1);(86,1);(140,2);(135,1);(0,2);(83,2);(48,53);(140,1);(135,1);(140,1);(135,7);(0,1);(143,1);(140,1);(135,1);(140,2);(135,8);(140,6);(135,2);(81,8);(0,2);(86,1);(145,10);(0,6);(145,10);(0,6);(83,7);(53,1);(83,6);(0,2);(81,5);(86,6);(81,2);(86,1);(82,1);(86,2);(0,63);(135,4);(140,1);(48,1);(141,1);(48,1);(141,1);(48,1);(141,1);(48,1);(141,1);(48,1);(141,1);(48,3);(141,1);(48,33);(146,1);(147,1);(135,5);(148,1);(135,1);(148,1);(140,2);(148,2);(135,1);(148,1);(176,1);(48,7);(0,4);(145,10);(83,7);(80,10);(81,1);(86,1);(81,7);(80,9);(0,3);(135,2);(140,1);(48,30);(140,1);(135,4);(140,2);(135,2);(176,1);(143,1);(135,2);(48,2);(145,10);(48,44);(146,1);(140,1);(135,2);(140,3);(135,1);(140,1);(135,3);(176,2);(0,8);(83,4);(48,36);(140,8);(135,8);(140,2);(135,1);(146,1);(0,3);(83,5);(145,10);(0,3);(48,3);(145,10);(48,30);(53,6);(83,2);(47,9);(0,7);(44,43);(0,2);(44,3);(83,8);(0,8);(81,3);(83,1);(177,1);(86,5);(81,2);(86,4);(81,1);(140,1);(177,7);(48,4);(86,1);(48,6);(81,1);(48,2);(140,1);(81,2);(48,1);(0,5);(47,44);(51,3);(53,1);(51,11);(53,1);(51,18);(53,1);(51,28);(47,13);(51,1);(47,34);(51,37);(81,2);(86,1);(81,7);(86,1);(81,2);(178,1);(179,1);(86,1);(180,1);(81,37);(181,1);(88,2);(86,1);(0,1);(81,1);(182,1);(86,1);(81,1);(86,1);(38,1);(43,1);(38,1);(43,1);(38,1);(43,1);(38,1);(43,1);(38,1);(43,1);(38,1);(43,1);(38,1);(43,1);(38,1);(43,1);(38,1);(43,1);(38,1);(43,1);(38,1);(43,1);(38,1);(43,1);(38,1);(43,1);(38,1);(43,1);(38,1);(43,1);(38,1);(43,1);(38,1);(43,1);(38,1);(43,1);(38,1);(43,1);(38,1);(43,1);(38,1);(43,1);(38,1);(43,1);(38,1);(43,1);(38,1);(43,1);(38,1);(43,1);(38,1);(43,1);(38,1);(43,1);(38,1);(43,1);(38,1);(43,1);(38,1);(43,1);(38,1);(43,1);(38,1);(43,1);(38,1);(43,1);(38,1);(43,1);(38,1);(43,1);(38,1);(43,1);(38,1);(43,1);(38,1);(43,1);(38,1);(43,1);(38,1);(43,1);(38,1);(43,1);(38,1);(43,1);(38,1);(43,1);(38,1);(43,1);(38,1);(43,1);(38,1);(43,1);(38,1);(43,1);(38,1);(43,1);(38,1);(43,1);(38,1);(43,1);(38,1);(43,1);(38,1);(43,1);(38,1);(43,1);(38,1);(43,1);(38,1);(43,1);(38,1);(43,1);(38,1);(43,1);(38,1);(43,1);(38,1);(43,1);(38,1);(43,1);(38,1);(43,1);(38,1);(43,1);(38,1);(43,1);(38,1);(43,1);(38,1);(43,1);(38,1)].
(** code_points.cpp:1064 unicode_data2, items 2000-2499 *)
Definition unicode_data2_runs_4 : list (Z * Z) := [
(43,1);(38,1);(43,1);(38,1);(43,1);(38,1);(43,1);(38,1);(43,1);(38,1);(43,1);(38,1);(43,1);(38,1);(43,1);(38,1);(43,1);(38,1);(43,5);(35,1);(183,1);(47,2);(44,1);(47,1);(38,1);(43,1);(38,1);(43,1);(38,1);(43,1);(38,1);(43,1);(38,1);(43,1);(38,1);(43,1);(38,1);(43,1);(38,1);(43,1);(38,1);(43,1);(38,1);(43,1);(38,1);(43,1);(38,1);(43,1);(38,1);(43,1);(38,1);(43,1);(38,1);(43,1);(38,1);(43,1);(38,1);(43,1);(38,1);(43,1);(38,1);(43,1);(38,1);(43,1);(38,1);(43,1);(38,1);(43,1);(38,1);(43,1);(38,1);(43,1);(38,1);(43,1);(38,1);(43,1);(38,1);(43,1);(38,1);(43,1);(38,1);(43,1);(38,1);(43,1);(38,1);(43,1);(38,1);(43,1);(38,1);(43,1);(38,1);(43,1);(38,1);(43,1);(38,1);(43,1);(38,1);(43,1);(38,1);(43,1);(38,1);(43,1);(38,1);(43,1);(38,1);(43,1);(38,1);(43,1);(38,1);(43,1);(38,1);(43,1);(38,1);(43,1);(44,1);(47,1);(44,1);(47,1);(44,1);(47,1);(43,8);(38,8);(43,6);(0,2);(38,6);(0,2);(43,8);(38,8);(43,8);(38,8);(43,6);(0,2);(38,6);(0,2);(43,8);(0,1);(38,1);(0,1);(38,1);(0,1);(38,1);(0,1);(38,1);(43,8);(38,8);(43,1);(184,1);(43,1);(184,1);(43,1);(184,1);(43,1);(184,1);(43,1);(184,1);(43,1);(184,1);(43,1);(184,1);(0,2);(43,8);(185,8);(43,8);(185,8);(43,8);(185,8);(43,5);(0,1);(43,2);(38,3);(186,1);(185,1);(58,1);(184,1);(58,2);(76,1);(43,3);(0,1);(43,2);(38,1);(186,1);(38,1);(186,1);(185,1);(76,3);(43,3);(184,1);(0,2);(43,2);(38,3);(186,1);(0,1);(76,3);(43,3);(184,1);(43,4);(38,3);(186,1);(38,1);(76,1);(187,2);(0,2);(43,3);(0,1);(43,2);(38,1);(186,1);(38,1);(186,1);(185,1);(187,1);(58,1);(0,1);(188,2);(189,9);(175,3);(190,1);(191,1);(192,1);(193,1);(84,1);(192,3);(22,1);(194,1);(195,1);(196,1);(197,1);(198,1);(195,1);(196,1);(197,1);(198,1);(22,3);(138,1);(199,3);(22,1);(200,1);(201,1);(202,1);(203,1);(204,1);(205,1);(206,1);(21,1);(207,1);(110,1);(207,1);(208,1);(209,1);(22,1);(194,2);(138,1);(28,1);(36,1);(22,1);(194,1);(138,1);(199,1);(210,2);(138,3);(211,1);(164,1);(165,1);(194,3);(138,8);(78,1);(138,1);(210,1);(138,2);(194,1);(138,7);(189,1);(175,5);(0,1);(212,1);(213,1);(214,1);(215,1);(175,6);(216,1);(51,1);(0,2);(34,1);(216,5);(217,2);(218,1);(219,1);(220,1);(221,1);(216,1);(34,4);(216,5);(217,2);(218,1);(219,1);(220,1);(0,1);(51,13);(0,3);(85,8);(222,1);(223,1);(85,2);(23,1);(85,19);(0,16);(81,2);(177,2);(81,4);(177,3);(81,2);(82,4);(81,1);(82,3);(177,2);(81,1);(86,1);(81,1);(177,2);(86,4);(81,1);(0,15);(224,2);(49,1);(225,1);(26,1);(225,1);(224,1);(49,1);(26,1);(225,1);(35,1);(49,3);(35,2);(49,3);(46,1);(26,1);(49,1);(225,1);(26,1);(78,1);(49,5);(26,2);(224,1);(225,2);(26,1);(49,1);(26,1);(226,1);(26,1);(49,1);(26,1);(186,1);(226,1);(49,2);(227,1);(35,1);(49,2);(44,1);(49,1);(35,1);(157,4);(35,1);(26,1);(224,1);(35,2);(49,2);(228,1);(78,4);(49,1);(35,4);(26,1);(78,1);(26,2);(47,1);(80,1);(229,3);(37,2);(229,6);(37,4);(229,1);(230,12);(231,4);(230,10);(231,6);(174,3);(44,1);(47,1);(174,4);(37,1);(26,2);(0,4);(40,5);(30,5);(232,2);(26,4);(78,1);(26,2);(78,1);(26,2);(78,1);(26,7);(232,1);(26,9);(30,2);(26,19);(233,1);(232,2);(26,2);(40,1);(26,1);(40,1);(26,18);(30,1);(26,12);(78,12);(40,1);(234,1);(235,2);(236,1);(78,2);(40,1);(235,1);(236,1);(234,1);(235,1);(236,1);(234,1);(78,1);(40,1);(78,1);(235,1);(237,1);(238,1);(78,1);(235,1);(234,1);(78,3);(235,1);(234,2);(235,1);(40,1);(235,2);(234,2);(40,1);(236,1);(40,1);(236,1);(40,4);(235,1);(239,1);(228,1);(235,1);(228,2);(234,3);(40,4);(78,1);(234,1);(78,1);(234,1);(235,2);(234,3);(236,1);(234,2);(236,1);(234,2);(236,1);(235,1);(236,1);(234,2);(235,1);(78,5);(235,1);(234,3);(78,9);(234,1);(240,1);(40,1);(236,1);(78,1);(235,4);(234,2);(235,2);(78,1);(232,1);(240,2);(236,2);(234,2);(236,2);(234,2);(236,2);(234,6);(236,2);(235,2);(236,2);(235,2);(236,2);(234,3);(78,2);(234,4)].
(** code_points.cpp:1064 unicode_data2, items 2500-2999 *)
Definition unicode_data2_runs_5 : list (Z * Z) := [
(78,2);(40,1);(78,2);(234,1);(40,1);(78,8);(234,2);(78,1);(40,1);(234,6);(236,4);(234,9);(78,5);(234,1);(235,1);(78,9);(234,5);(78,2);(234,2);(78,4);(234,10);(236,4);(234,6);(236,4);(78,2);(234,16);(26,8);(164,1);(165,1);(164,1);(165,1);(26,6);(30,1);(26,7);(241,2);(26,4);(234,2);(26,7);(242,1);(243,1);(26,11);(80,69);(26,1);(78,1);(26,24);(80,1);(26,5);(78,25);(26,40);(78,6);(26,7);(241,4);(26,3);(241,1);(26,2);(241,1);(26,51);(0,25);(26,11);(0,21);(37,40);(34,20);(244,78);(229,1);(245,21);(30,76);(26,4);(30,36);(26,12);(30,16);(26,2);(30,4);(26,10);(30,2);(26,1);(30,7);(26,8);(30,2);(26,2);(30,1);(40,1);(26,4);(30,2);(26,2);(30,1);(40,1);(26,4);(30,3);(26,2);(30,1);(26,2);(30,4);(26,16);(30,4);(26,9);(30,1);(26,8);(78,5);(246,2);(78,1);(26,5);(30,2);(26,2);(30,1);(26,4);(30,2);(26,4);(241,2);(26,6);(30,1);(26,1);(30,1);(26,33);(30,1);(26,1);(30,1);(26,5);(241,12);(26,12);(30,2);(26,1);(30,3);(26,1);(30,4);(26,1);(30,2);(26,1);(40,1);(26,15);(241,1);(26,19);(241,1);(26,10);(30,2);(26,1);(241,1);(26,8);(241,2);(80,1);(26,16);(241,2);(30,1);(26,4);(241,2);(30,8);(241,1);(30,5);(241,1);(30,13);(26,1);(30,1);(26,4);(30,2);(241,1);(30,7);(241,2);(30,1);(241,1);(30,4);(241,1);(30,2);(241,1);(30,2);(26,5);(241,1);(26,4);(241,2);(26,28);(241,1);(26,20);(30,1);(26,14);(241,1);(26,1);(241,1);(26,4);(241,3);(26,1);(241,1);(26,16);(164,1);(165,1);(164,1);(165,1);(164,1);(165,1);(164,1);(165,1);(164,1);(165,1);(164,1);(165,1);(164,1);(165,1);(245,10);(154,20);(26,1);(241,3);(26,24);(241,1);(26,14);(241,1);(234,1);(78,2);(234,2);(164,1);(165,1);(78,1);(234,2);(78,1);(234,3);(78,5);(234,4);(78,5);(234,3);(78,3);(234,4);(9,1);(10,1);(9,1);(10,1);(9,1);(10,1);(9,1);(10,1);(164,1);(165,1);(78,16);(80,128);(78,131);(164,1);(165,1);(9,1);(10,1);(164,1);(165,1);(164,1);(165,1);(164,1);(165,1);(164,1);(165,1);(164,1);(165,1);(164,1);(165,1);(164,1);(165,1);(164,1);(165,1);(164,1);(165,1);(78,2);(234,6);(78,1);(234,14);(78,8);(234,1);(78,7);(234,6);(78,3);(234,1);(78,4);(234,5);(78,1);(234,2);(78,2);(164,1);(165,1);(164,1);(165,1);(234,1);(78,4);(234,1);(78,1);(234,3);(78,2);(234,2);(78,10);(234,6);(78,2);(164,1);(165,1);(78,12);(234,2);(228,1);(234,16);(78,1);(234,4);(78,2);(234,1);(78,1);(234,1);(78,2);(234,1);(78,1);(234,4);(78,5);(234,2);(78,6);(234,3);(78,24);(234,2);(78,11);(234,2);(78,4);(234,4);(78,1);(234,2);(78,2);(234,1);(228,1);(218,2);(78,2);(234,43);(78,2);(234,8);(78,1);(234,40);(78,5);(247,1);(78,1);(234,1);(78,3);(234,5);(78,5);(234,3);(78,4);(234,1);(78,3);(234,5);(78,1);(234,1);(78,2);(26,27);(241,2);(26,19);(78,21);(26,2);(78,6);(26,3);(241,1);(26,4);(241,1);(30,4);(26,26);(0,2);(26,32);(0,1);(26,103);(248,1);(26,1);(44,47);(0,1);(47,47);(0,1);(44,1);(47,1);(44,3);(47,2);(44,1);(47,1);(44,1);(47,1);(44,1);(47,1);(44,4);(47,1);(44,1);(47,2);(44,1);(47,6);(51,2);(44,3);(47,1);(44,1);(47,1);(44,1);(47,1);(44,1);(47,1);(44,1);(47,1);(44,1);(47,1);(44,1);(47,1);(44,1);(47,1);(44,1);(47,1);(44,1);(47,1);(44,1);(47,1);(44,1);(47,1);(44,1);(47,1);(44,1);(47,1);(44,1);(47,1);(44,1);(47,1);(44,1);(47,1);(44,1);(47,1);(44,1);(47,1);(44,1);(47,1);(44,1);(47,1);(44,1);(47,1);(44,1);(47,1);(44,1);(47,1);(44,1);(47,1);(44,1);(47,1);(44,1);(47,1);(44,1);(47,1);(44,1);(47,1);(44,1);(47,1);(44,1);(47,1);(44,1);(47,1);(44,1);(47,1);(44,1);(47,1);(44,1);(47,1);(44,1);(47,1);(44,1);(47,1);(44,1);(47,1);(44,1);(47,1);(44,1);(47,1);(44,1);(47,1);(44,1);(47,1);(44,1);(47,1);(44,1);(47,1);(44,1);(47,1);(44,1);(47,1);(44,1);(47,1);(44,1);(47,1);(44,1);(47,1);(44,1);(47,2);(26,6);(44,1);(47,1);(44,1);(47,1);(81,3);(44,1);(47,1);(0,5);(138,4);(154,1);(138,2);(47,38);(0,1);(47,1);(0,5);(47,1);(0,2);(48,56);(0,7);(51,1);(83,1);(0,14);(143,1);(48,23);(0,9);(48,7)].
(** code_points.cpp:1064 unicode_data2, items 3000-3499 *)
Definition unicode_data2_runs_6 : list (Z * Z) := [
(0,1);(48,7);(0,1);(48,7);(0,1);(48,7);(0,1);(48,7);(0,1);(48,7);(0,1);(48,7);(0,1);(48,7);(0,1);(81,32);(138,2);(28,1);(36,1);(28,1);(36,1);(138,3);(28,1);(36,1);(138,1);(28,1);(36,1);(138,9);(84,1);(138,2);(84,1);(138,1);(28,1);(36,1);(138,2);(28,1);(36,1);(164,1);(165,1);(164,1);(165,1);(164,1);(165,1);(164,1);(165,1);(138,5);(52,1);(138,10);(84,2);(138,4);(84,1);(138,1);(197,1);(138,13);(26,2);(138,1);(0,45);(241,26);(0,1);(241,4);(249,1);(241,83);(249,1);(0,12);(249,214);(0,26);(241,12);(0,4);(250,1);(251,3);(241,1);(252,1);(171,1);(253,1);(254,1);(255,1);(254,1);(255,1);(254,1);(255,1);(254,1);(255,1);(254,1);(255,1);(241,2);(254,1);(255,1);(254,1);(255,1);(254,1);(255,1);(254,1);(255,1);(256,1);(257,1);(258,2);(241,1);(253,9);(259,1);(260,1);(261,1);(262,1);(263,2);(256,1);(252,5);(249,1);(241,1);(264,3);(252,1);(171,1);(251,1);(241,1);(26,1);(0,1);(171,11);(265,1);(171,1);(265,1);(171,1);(265,1);(171,1);(265,1);(171,1);(265,1);(171,1);(265,1);(171,1);(265,1);(171,1);(265,1);(171,1);(265,1);(171,1);(265,1);(171,1);(265,1);(171,1);(265,1);(171,2);(265,1);(171,1);(265,1);(171,1);(265,1);(171,6);(265,2);(171,1);(265,2);(171,1);(265,2);(171,1);(265,2);(171,1);(265,2);(171,22);(265,1);(171,2);(0,2);(266,2);(267,2);(252,1);(268,1);(269,1);(256,1);(171,11);(265,1);(171,1);(265,1);(171,1);(265,1);(171,1);(265,1);(171,1);(265,1);(171,1);(265,1);(171,1);(265,1);(171,1);(265,1);(171,1);(265,1);(171,1);(265,1);(171,1);(265,1);(171,1);(265,1);(171,2);(265,1);(171,1);(265,1);(171,1);(265,1);(171,6);(265,2);(171,1);(265,2);(171,1);(265,2);(171,1);(265,2);(171,1);(265,2);(171,22);(265,1);(171,2);(265,4);(251,1);(252,2);(268,1);(269,1);(0,5);(171,43);(0,1);(269,94);(0,1);(270,2);(271,4);(272,10);(171,32);(241,36);(0,12);(171,16);(272,29);(249,2);(0,1);(271,10);(272,30);(273,8);(249,1);(274,15);(272,28);(249,3);(270,1);(271,10);(272,39);(274,15);(272,12);(249,4);(272,167);(249,4);(272,99);(249,2);(272,31);(249,1);(171,192);(26,64);(171,125);(0,3);(171,21);(252,1);(171,119);(0,3);(241,55);(0,9);(48,40);(53,6);(83,2);(48,12);(53,1);(138,3);(48,16);(145,10);(48,2);(0,20);(44,1);(47,1);(44,1);(47,1);(44,1);(47,1);(44,1);(47,1);(44,1);(47,1);(44,1);(47,1);(44,1);(47,1);(44,1);(47,1);(44,1);(47,1);(44,1);(47,1);(44,1);(47,1);(44,1);(47,1);(44,1);(47,1);(44,1);(47,1);(44,1);(47,1);(44,1);(47,1);(44,1);(47,1);(44,1);(47,1);(44,1);(47,1);(44,1);(47,1);(44,1);(47,1);(44,1);(47,1);(44,1);(47,1);(48,1);(81,1);(82,3);(138,1);(81,10);(138,1);(52,1);(44,1);(47,1);(44,1);(47,1);(44,1);(47,1);(44,1);(47,1);(44,1);(47,1);(44,1);(47,1);(44,1);(47,1);(44,1);(47,1);(44,1);(47,1);(44,1);(47,1);(44,1);(47,1);(44,1);(47,1);(44,1);(47,1);(44,1);(47,1);(51,2);(81,2);(48,70);(174,10);(81,2);(83,6);(0,8);(54,23);(52,9);(54,2);(44,1);(47,1);(44,1);(47,1);(44,1);(47,1);(44,1);(47,1);(44,1);(47,1);(44,1);(47,1);(44,1);(47,3);(44,1);(47,1);(44,1);(47,1);(44,1);(47,1);(44,1);(47,1);(44,1);(47,1);(44,1);(47,1);(44,1);(47,1);(44,1);(47,1);(44,1);(47,1);(44,1);(47,1);(44,1);(47,1);(44,1);(47,1);(44,1);(47,1);(44,1);(47,1);(44,1);(47,1);(44,1);(47,1);(44,1);(47,1);(44,1);(47,1);(44,1);(47,1);(44,1);(47,1);(44,1);(47,1);(44,1);(47,1);(44,1);(47,1);(44,1);(47,1);(44,1);(47,1);(44,1);(47,1);(44,1);(47,1);(44,1);(47,1);(44,1);(47,1);(44,1);(47,1);(44,1);(47,1);(51,1);(47,8);(44,1);(47,1);(44,1);(47,1);(44,2);(47,1);(44,1);(47,1);(44,1);(47,1);(44,1);(47,1);(44,1);(47,1);(52,1);(275,2);(44,1);(47,1);(44,1);(47,1);(48,1);(44,1);(47,1);(44,1);(47,3);(44,1);(47,1);(44,1);(47,1);(44,1);(47,1);(44,1);(47,1);(44,1);(47,1);(44,1);(47,1);(44,1);(47,1);(44,1);(47,1);(44,1);(47,1);(44,1);(47,1);(44,5);(47,1);(44,5);(47,1);(44,1);(47,1);(44,1);(47,1);(44,1);(47,1);(44,1);(47,1);(44,1);(47,1);(0,2);(44,1);(47,1);(44,4);(47,1);(44,1)].
(** code_points.cpp:1064 unicode_data2, items 3500-3999 *)
Definition unicode_data2_runs_7 : list (Z * Z) := [
(47,1);(0,42);(44,1);(47,1);(48,1);(51,2);(47,1);(48,7);(135,1);(48,3);(143,1);(48,4);(135,1);(48,23);(140,2);(135,2);(140,1);(26,4);(143,1);(0,3);(149,6);(80,2);(85,1);(227,1);(0,6);(48,52);(138,4);(0,8);(140,2);(48,50);(140,16);(143,1);(135,1);(0,8);(83,2);(145,10);(0,6);(81,18);(48,6);(83,3);(48,1);(83,1);(48,2);(135,1);(145,10);(48,28);(135,5);(86,3);(83,2);(48,23);(135,11);(140,1);(176,1);(0,11);(83,1);(171,29);(0,3);(135,3);(140,1);(48,47);(146,1);(140,2);(135,4);(140,2);(135,2);(140,2);(176,1);(83,13);(0,1);(53,1);(145,10);(0,4);(83,2);(48,5);(135,1);(53,1);(48,9);(145,10);(48,5);(0,1);(48,41);(135,6);(140,2);(135,2);(140,2);(135,2);(0,9);(48,3);(135,1);(48,8);(135,1);(140,1);(0,2);(145,10);(0,2);(83,4);(48,16);(53,1);(48,6);(80,3);(48,1);(140,1);(135,1);(140,1);(48,50);(81,1);(48,1);(81,2);(86,1);(48,2);(81,2);(48,5);(81,2);(48,1);(81,1);(48,1);(0,24);(48,2);(53,1);(83,2);(48,11);(140,1);(135,2);(140,2);(83,2);(48,1);(53,2);(140,1);(143,1);(0,10);(48,6);(0,2);(48,6);(0,2);(48,6);(0,9);(48,7);(0,1);(48,7);(0,1);(47,43);(275,1);(51,4);(47,9);(51,1);(54,2);(0,4);(47,80);(48,35);(140,2);(135,1);(140,2);(135,1);(140,2);(83,1);(140,1);(143,1);(0,2);(145,10);(0,6);(265,164);(0,12);(48,23);(0,4);(48,49);(0,4);(276,128);(277,128);(278,142);(171,2);(278,1);(171,1);(278,1);(171,2);(278,10);(171,1);(278,1);(171,1);(278,1);(171,2);(278,2);(171,3);(278,68);(0,2);(278,106);(0,38);(35,7);(0,12);(35,5);(0,5);(279,1);(280,1);(279,1);(281,9);(217,1);(279,13);(0,1);(279,5);(0,1);(279,1);(0,1);(279,2);(0,1);(279,2);(0,1);(279,9);(281,1);(131,98);(282,16);(0,17);(131,235);(283,1);(197,1);(0,16);(131,64);(0,2);(131,54);(0,40);(131,12);(284,1);(26,1);(0,2);(71,16);(285,7);(286,1);(287,1);(285,1);(0,6);(81,7);(86,7);(81,2);(285,1);(288,2);(289,2);(286,1);(287,1);(286,1);(287,1);(286,1);(287,1);(286,1);(287,1);(286,1);(287,1);(286,1);(287,1);(286,1);(287,1);(286,1);(287,1);(251,2);(286,1);(287,1);(285,4);(289,3);(290,1);(285,1);(290,1);(0,1);(285,1);(290,1);(285,2);(288,1);(291,1);(292,1);(291,1);(292,1);(291,1);(292,1);(293,1);(285,2);(294,1);(295,1);(296,2);(297,1);(0,1);(285,1);(298,1);(293,1);(285,1);(0,4);(131,3);(118,1);(131,1);(0,1);(131,135);(0,2);(175,1);(0,1);(299,2);(300,1);(301,1);(300,1);(299,2);(302,1);(303,1);(299,1);(304,1);(305,1);(306,1);(305,2);(307,10);(305,1);(299,1);(308,1);(309,1);(308,1);(299,2);(310,26);(302,1);(299,1);(303,1);(311,1);(312,1);(311,1);(313,26);(302,1);(309,1);(303,1);(309,1);(302,1);(303,1);(314,1);(315,1);(316,1);(314,2);(317,10);(318,1);(317,45);(318,2);(317,31);(0,3);(317,6);(0,2);(317,6);(0,2);(317,6);(0,2);(317,3);(0,3);(301,2);(309,1);(311,1);(319,1);(301,2);(0,1);(320,1);(321,4);(320,2);(0,10);(322,3);(26,1);(30,1);(0,2);(48,12);(0,1);(48,26);(0,1);(48,19);(0,1);(48,2);(0,1);(48,15);(0,2);(48,14);(0,34);(48,123);(0,5);(83,1);(138,1);(83,1);(0,4);(149,45);(0,3);(80,9);(323,53);(154,4);(26,17);(154,2);(26,1);(80,2);(0,1);(26,13);(0,3);(26,1);(0,47);(80,45);(86,1);(0,130);(48,29);(0,3);(48,49);(0,15);(86,1);(324,27);(0,4);(48,32);(149,4);(0,9);(48,20);(174,1);(48,8);(174,1);(0,5);(48,38);(81,5);(0,5);(48,30);(0,1);(83,1);(48,36);(0,4);(48,8);(83,1);(174,5);(0,42);(44,40);(47,40);(48,78);(0,2);(145,10);(0,6);(44,36);(0,4);(47,36);(0,4);(48,40);(0,8);(48,52);(0,11);(83,1);(0,16);(48,55);(0,9);(48,22);(0,10);(48,8);(0,24);(107,6);(0,2);(107,1);(0,1);(107,44);(0,1);(107,2);(0,3);(107,1);(0,2);(107,23);(0,1);(104,1);(325,8);(107,23);(326,2);(325,7);(107,31);(0,8);(325,9);(0,48);(107,19);(0,1);(107,2);(0,5);(325,5);(107,22);(325,6);(0,3);(138,1);(107,26);(0,5);(104,1);(0,64);(107,56);(0,4);(325,2);(107,2);(325,16);(0,2);(325,46);(107,1);(135,3);(0,1);(135,2);(0,5);(135,1);(86,1);(135,1);(81,1);(107,4);(0,1);(107,3);(0,1);(107,29);(0,2);(81,1);(177,1);(86,1);(0,4);(143,1);(325,9)].
(** code_points.cpp:1064 unicode_data2, items 4000-4499 *)
Definition unicode_data2_runs_8 : list (Z * Z) := [
(0,7);(104,9);(0,7);(107,29);(325,2);(104,1);(107,29);(325,3);(0,32);(107,8);(326,1);(107,28);(81,1);(86,1);(0,4);(325,5);(104,7);(0,9);(107,54);(0,3);(138,7);(107,22);(0,2);(325,8);(107,19);(0,5);(325,8);(107,18);(0,7);(104,4);(0,12);(325,7);(0,80);(107,73);(0,55);(327,51);(0,13);(328,51);(0,7);(325,6);(118,36);(81,4);(0,8);(128,10);(0,166);(329,31);(0,1);(107,42);(0,1);(81,2);(102,1);(0,2);(107,2);(0,78);(107,29);(325,10);(107,1);(0,8);(118,22);(86,2);(81,3);(86,1);(81,1);(86,4);(330,4);(113,5);(0,86);(107,21);(325,7);(0,20);(107,23);(0,9);(140,1);(135,1);(140,1);(48,53);(135,14);(143,1);(83,7);(0,4);(154,20);(145,10);(0,15);(143,1);(135,2);(140,1);(48,23);(141,1);(48,1);(141,1);(48,14);(141,1);(48,4);(140,3);(135,4);(140,2);(143,1);(142,1);(83,2);(190,1);(83,4);(0,11);(190,1);(0,2);(48,25);(0,7);(145,10);(0,6);(81,3);(48,36);(150,1);(135,4);(140,1);(135,1);(151,2);(135,3);(143,2);(0,1);(145,10);(83,4);(48,1);(140,2);(48,1);(0,8);(48,35);(146,1);(83,2);(48,1);(0,9);(135,2);(140,1);(48,48);(140,3);(135,9);(140,1);(176,1);(48,4);(83,4);(135,1);(146,1);(135,2);(83,1);(140,1);(135,1);(145,10);(48,1);(83,1);(48,1);(83,3);(0,1);(149,20);(0,11);(48,18);(0,1);(48,25);(140,3);(135,3);(140,2);(135,1);(176,1);(146,1);(135,1);(83,6);(135,1);(0,65);(48,7);(0,1);(48,1);(0,1);(48,4);(0,1);(48,15);(0,1);(48,10);(83,1);(0,6);(48,47);(135,1);(140,3);(135,6);(146,1);(143,1);(0,5);(145,10);(0,6);(135,2);(140,2);(0,1);(48,8);(0,2);(48,2);(0,2);(48,22);(0,1);(48,7);(0,1);(48,2);(0,1);(48,5);(0,1);(146,2);(48,1);(147,1);(140,1);(135,1);(140,4);(0,2);(140,2);(0,2);(148,2);(176,1);(0,2);(48,1);(0,6);(147,1);(0,5);(48,5);(140,2);(0,2);(81,7);(0,3);(81,5);(0,11);(48,53);(140,3);(135,8);(140,2);(143,1);(135,2);(140,1);(146,1);(48,4);(83,5);(145,10);(83,2);(0,1);(83,1);(81,1);(48,3);(0,30);(48,48);(147,1);(140,2);(135,6);(140,1);(150,1);(148,2);(147,1);(148,1);(135,2);(140,1);(143,1);(146,1);(48,2);(83,1);(48,1);(0,8);(145,10);(0,38);(48,47);(147,1);(140,2);(135,4);(0,2);(140,2);(148,2);(135,2);(140,1);(143,1);(146,1);(83,23);(48,4);(135,2);(0,34);(48,48);(140,3);(135,8);(140,2);(135,1);(140,1);(143,1);(135,1);(83,3);(48,1);(0,11);(145,10);(0,6);(138,13);(0,19);(48,43);(135,1);(140,1);(135,1);(140,2);(135,6);(176,1);(146,1);(48,1);(0,7);(145,10);(0,54);(48,27);(0,2);(135,3);(140,2);(135,4);(140,1);(135,4);(143,1);(0,4);(145,10);(149,2);(83,3);(80,1);(0,64);(48,44);(140,3);(135,9);(140,1);(143,1);(146,1);(83,1);(0,100);(44,32);(47,32);(145,10);(149,9);(0,12);(48,8);(0,2);(48,1);(0,2);(48,8);(0,1);(48,2);(0,1);(48,24);(147,1);(140,5);(0,1);(140,1);(148,1);(0,2);(135,2);(176,1);(143,1);(48,1);(140,1);(48,1);(140,1);(146,1);(83,3);(0,9);(145,10);(0,70);(48,8);(0,2);(48,39);(140,3);(135,4);(0,2);(135,2);(140,4);(143,1);(48,1);(83,1);(48,1);(140,1);(0,27);(48,1);(135,6);(155,2);(135,2);(48,40);(135,1);(143,1);(135,4);(140,1);(48,1);(135,4);(83,8);(143,1);(0,8);(48,1);(135,6);(140,2);(135,3);(48,46);(135,13);(140,1);(135,1);(143,1);(83,3);(48,1);(83,5);(0,29);(48,57);(0,7);(48,9);(0,1);(48,37);(140,1);(135,7);(0,1);(135,6);(140,1);(331,1);(48,1);(83,5);(0,10);(145,10);(149,19);(0,3);(83,2);(48,30);(0,2);(135,22);(0,1);(140,1);(135,7);(140,1);(135,2);(140,1);(135,2);(0,73);(48,7);(0,1);(48,2);(0,1);(48,38);(135,6);(0,3);(135,1);(0,1);(135,2);(0,1);(135,3);(146,1);(135,1);(143,2);(48,1);(135,1);(0,8);(145,10);(0,6);(48,6);(0,1);(48,2);(0,1);(48,32);(140,5);(0,1);(135,2);(0,1);(140,2);(135,1);(140,1);(143,1);(48,1);(0,7);(145,10);(0,182);(48,19);(135,2);(140,2);(83,2);(0,55);(48,1);(0,15);(149,21);(26,8);(85,4);(26,17);(0,13);(83,1);(48,26);(0,102);(174,111);(0,1);(83,5);(0,11);(48,68);(0,60);(48,47);(0,1);(190,9);(0,71);(48,71);(0,57);(48,57);(0,7);(48,31);(0,1);(145,10);(0,4);(83,2);(0,96);(48,30);(0,2);(177,5)].
(** code_points.cpp:1064 unicode_data2, items 4500-4989 *)
Definition unicode_data2_runs_9 : list (Z * Z) := [
(83,1);(0,10);(48,48);(81,7);(83,5);(80,4);(53,4);(83,1);(80,1);(0,10);(145,10);(0,1);(149,7);(0,1);(48,21);(0,5);(48,19);(0,176);(44,32);(47,32);(149,23);(83,4);(0,101);(48,75);(0,4);(135,1);(48,1);(140,55);(0,7);(135,4);(53,13);(0,64);(252,2);(251,1);(252,1);(332,1);(0,11);(333,2);(0,14);(171,120);(0,8);(171,86);(0,42);(171,9);(0,119);(171,31);(0,49);(171,3);(0,17);(171,4);(0,8);(171,140);(0,4);(48,107);(0,5);(48,13);(0,3);(48,9);(0,7);(48,10);(0,2);(80,1);(135,1);(177,1);(83,1);(175,4);(0,92);(80,118);(0,10);(80,39);(0,2);(80,53);(334,7);(335,2);(177,3);(80,3);(336,1);(335,5);(175,8);(86,8);(80,2);(81,5);(86,2);(80,30);(81,4);(80,13);(334,6);(80,40);(0,23);(26,66);(81,3);(26,1);(0,154);(149,20);(0,12);(26,87);(0,9);(149,25);(0,7);(49,26);(35,26);(49,26);(35,7);(0,1);(35,18);(49,26);(35,26);(49,1);(0,1);(49,2);(0,2);(49,1);(0,2);(49,2);(0,2);(49,4);(0,1);(49,8);(35,4);(0,1);(35,1);(0,1);(35,7);(0,1);(35,11);(49,26);(35,26);(49,2);(0,1);(49,4);(0,2);(49,8);(0,1);(49,7);(0,1);(35,26);(49,2);(0,1);(49,4);(0,1);(49,5);(0,1);(49,1);(0,3);(49,7);(0,1);(35,26);(49,26);(35,26);(49,26);(35,26);(49,26);(35,26);(49,26);(35,26);(49,26);(35,26);(49,26);(35,28);(0,2);(49,25);(337,1);(35,25);(228,1);(35,6);(49,25);(337,1);(35,25);(228,1);(35,6);(49,25);(337,1);(35,25);(228,1);(35,6);(49,25);(337,1);(35,25);(228,1);(35,6);(49,25);(337,1);(35,25);(228,1);(35,6);(49,1);(35,1);(0,2);(338,50);(135,55);(80,4);(135,50);(80,8);(135,1);(80,14);(135,1);(80,2);(83,5);(0,15);(135,5);(0,1);(135,15);(0,80);(81,7);(0,1);(81,17);(0,2);(81,7);(0,1);(81,2);(0,1);(81,5);(0,85);(48,45);(0,3);(81,7);(53,7);(0,2);(145,10);(0,4);(48,1);(80,1);(0,112);(48,44);(81,4);(145,10);(0,5);(85,1);(107,197);(0,2);(325,9);(86,7);(0,41);(327,34);(328,34);(81,6);(146,1);(137,1);(0,4);(136,10);(0,4);(104,2);(0,145);(330,59);(133,1);(330,3);(111,1);(330,4);(0,76);(330,45);(133,1);(330,15);(0,66);(131,4);(0,1);(131,27);(0,1);(131,2);(0,1);(131,1);(0,2);(131,1);(0,1);(131,10);(0,1);(131,4);(0,1);(131,1);(0,1);(131,1);(0,6);(131,1);(0,4);(131,1);(0,1);(131,1);(0,1);(131,1);(0,1);(131,3);(0,1);(131,2);(0,1);(131,1);(0,2);(131,1);(0,1);(131,1);(0,1);(131,1);(0,1);(131,1);(0,1);(131,1);(0,1);(131,2);(0,1);(131,1);(0,2);(131,4);(0,1);(131,7);(0,1);(131,4);(0,1);(131,4);(0,1);(131,1);(0,1);(131,10);(0,1);(131,17);(0,5);(131,3);(0,1);(131,5);(0,1);(131,17);(0,52);(78,2);(0,14);(26,4);(241,1);(26,39);(0,4);(26,100);(0,12);(26,15);(0,2);(26,15);(0,1);(26,14);(241,1);(0,1);(26,37);(0,10);(34,11);(154,2);(26,3);(244,30);(339,1);(26,1);(244,32);(340,26);(224,3);(26,3);(340,30);(270,1);(340,1);(244,1);(270,10);(340,18);(26,1);(0,56);(80,26);(272,3);(0,13);(272,44);(0,4);(272,9);(0,7);(272,2);(0,14);(241,6);(0,26);(241,33);(26,12);(241,9);(26,1);(241,70);(26,1);(241,22);(26,12);(241,43);(26,4);(241,5);(26,12);(241,17);(26,3);(241,1);(26,3);(241,3);(341,5);(241,63);(26,1);(241,1);(26,1);(241,187);(26,2);(241,63);(26,13);(241,4);(26,1);(241,24);(26,18);(241,1);(26,26);(241,2);(26,13);(241,1);(26,86);(241,85);(26,48);(241,70);(26,6);(241,1);(26,3);(241,3);(26,2);(241,3);(0,8);(26,11);(241,2);(0,3);(26,4);(241,9);(0,3);(26,116);(0,12);(26,89);(0,7);(241,12);(0,20);(26,12);(0,4);(26,56);(0,8);(26,10);(0,6);(26,40);(0,8);(26,30);(0,2);(26,2);(0,78);(26,12);(241,47);(26,1);(241,10);(26,1);(241,50);(0,1);(241,82);(0,1);(241,51);(26,84);(0,12);(26,14);(0,2);(241,5);(0,3);(241,3);(0,5);(241,7);(0,9);(241,25);(0,7);(241,7);(0,9);(241,3);(0,13);(241,7);(0,41);(26,147);(0,1);(26,55);(0,37);(338,10);(0,6);(171,94);(0,34);(171,53);(0,11);(171,94);(0,2);(171,130);(0,14);(171,177);(0,31);(278,30);(0,98);(171,75);(0,54);(175,1);(0,30);(175,96);(71,240);(0,16);(277,126);(0,2)].
(** code_points.cpp:1064 unicode_data2 *)
Definition unicode_data2_runs : list (Z * Z) := unicode_data2_runs_0 ++ unicode_data2_runs_1 ++ unicode_data2_runs_2 ++ unicode_data2_runs_3 ++ unicode_data2_runs_4 ++ unicode_data2_runs_5 ++ unicode_data2_runs_6 ++ unicode_data2_runs_7 ++ unicode_data2_runs_8 ++ unicode_data2_runs_9.
