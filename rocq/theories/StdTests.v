(** Results of the standard library of CPython 3.11 on random inputs (among them malformed ones), compared with the
    models of its functions: evidence that the codecs of the model are those of Python.  The list was written by a
    script that called the functions named in the comments. *)
From Coq Require Import String Ascii List NArith ZArith Bool.
From Verif Require Import Base Utf8 Base64 Json Url Webtools Crypto RefCrypto Jwk Http.
Import ListNotations.
Open Scope N_scope.

(** [base64.b64decode] *)
Example std_b64decode : map b64decode
  [[67;61];[47;68;47;65;49;48;68];[65;65;195;45;61];[61;43;48];[11;68;50;57;216;122;61];[66;47;121;43;61;121;47;65];[47;121;65;48;43;180;49];[65;61;61;122;66;43;122;211;43;65];[57;65;121;121;130;67;65;49];[121;67;49];[139;50;57;68;47;122;49;107];[65;47;121;61;48;230;65;57;45];[];[122;156;67;50];[49;66];[95;61;122;122;45;61;47;61;47];[122;69;122;68];[176;248;48;66;121;122];[61;43;68;61];[68;45];[120];[47;48];[49;50;68;49;66;65;65;68;66];[45;95;48];[68;47];[150;61;122;66;50;57;57;67];[233;122;61;49;122];[43;49;95;57];[50;121;50];[67;65;47];[67];[65];[43;120;57;121];[120;57];[61;50;122;66];[122;45;66;48;67];[220;95;232;57;61;45;9;43;120;49];[121;48;121;61;224;115];[61;211;49];[67;43;122;50;43;95;68;193;49;66];[43;121;66;67;68;67;71];[67;48;195;221;57;61;61;45;151];[65;224;65;48];[50;122;49;95];[61;68];[47;68;12];[65];[120;43;50;43;57;95;43;47];[61;47;65;101;236];[45;156;95;61;61;47;47;67;48];[148;45;120;47;121;65;49;45;155;49];[61;61;45;67;65;121;47];[50;122;57;67;61;95;66;49;48;47];[49;168];[48;65;206];[127;122;121;227;120];[235;120;95;47;122;50;48;61;95];[];[];[122;61;95;49;121;47;95;121;120];[47;49;68;40];[];[];[];[47;50;204;120;65;120;29];[120;50;18;61;66;60;122;120;122];[57;49;48;121;61;180;122;45;35;67];[68;122;22;67];[43;57;66;120;228;61;49;67];[47;49;120;47];[155];[48];[57;200;246;95;61;50;122;61];[43;67;57;57;57];[61;57;166;67;49;43;194;67];[120;61;49;57;43;95;57;121;49];[120;94;66;49;122;61;67;122;121;45];[];[61;50;122;48;43;122;67;49;65];[61;39;61;45;95;50;65;50];[161;144;61;50;120;120;121;65];[66;47;65;46;47;49];[61;47;68;120;65];[43;147];[61;45;45;61;61;205];[120;120;65;120;68;121];[];[66];[45;68;45;68;142;66;67;63];[61;47;61;47;122;49;50;109;57;52];[];[49;95;68;49;48;120;45;66;61;45];[50;122;61;121];[95;66;61;122;61;68;120;48;66];[68;122;50;65;50;48;48;57;61];[57;68;120;66;67;68];[49;43;120;190];[68;49;57;57;120;49;61;45;47;48];[120;61;48;45;65;49;134;47;43;43];[61;65;95;120;120;122;57;50];[47;47];[74];[65;65;67;68];[45;45;43;95;61;65;68];[61;49;43;48;122;43;59;57;43];[66;45;50;57];[48;61;57;61;61;62;11];[196;121;48;57;168;95;43];[122;47;61;64;47;65;121];[61;50;78;54;9;48;47];[];[45;91;48;121;65;45;66;97];[67;95;66;68;61;61;65;50];[45;120;162;95;213;47;122];[43;132;121;67;57;132;43];[95;120;115;122;48;95];[67;67;66;47;120;120];[67;195;122;47;121;120;50;50;95;68];[95;66;57;120;52;45;48;61;68];[47;61;49];[];[47];[48;121;61;45;215;61;120;65;66;47];[57;48;66;95;121;122;47;122];[67;66;121];[146;61];[202];[154];[43;66;61;50;57;49];[184];[61;68;61;57;43;66];[67;67;95;65;166;120;75;47;61;43];[188;67;48;49;47];[67;121;136;120;49;68;61;61];[122;67;57;68];[];[66;57;121;20;61;122;120];[49;66;95;43;65;61;49;20;67];[66;102;50;61;47;37;121;50];[61;61;68;45;57;45;61;61;230];[49;61;47;49;65;66;95;118;122];[74;45;68;65;66;65;50];[25;67;67;50;174;121;61;43;47];[236;67;208;21;48;47];[120;50;43;50;121;65];[57;250;68;50;49];[50;61;48;135;48;61];[120;66;34;66;65;65;57;65];[122;49;61;48;47;122;231;57;65];[67;122;50;50;57;74;95;66;43]]
  = [Err BinasciiError;Err BinasciiError;Err BinasciiError;Err BinasciiError;Ok [15;111;115];Err BinasciiError;Err BinasciiError;Err BinasciiError;Err BinasciiError;Err BinasciiError;Err BinasciiError;Ok [3;252];Ok [];Err BinasciiError;Err BinasciiError;Ok [207;63];Ok [204;76;195];Ok [208;28;179];Err BinasciiError;Err BinasciiError;Err BinasciiError;Err BinasciiError;Err BinasciiError;Err BinasciiError;Err BinasciiError;Err BinasciiError;Err BinasciiError;Err BinasciiError;Err BinasciiError;Err BinasciiError;Err BinasciiError;Err BinasciiError;Ok [251;31;114];Err BinasciiError;Err BinasciiError;Ok [204;29;2];Ok [247;236;117];Ok [203;76];Err BinasciiError;Ok [11;236;246;248;61;65];Err BinasciiError;Ok [11;79];Err BinasciiError;Err BinasciiError;Err BinasciiError;Err BinasciiError;Err BinasciiError;Err BinasciiError;Err BinasciiError;Ok [255;240;180];Err BinasciiError;Ok [8;12;191];Ok [219;63;66;7;93;63];Err BinasciiError;Err BinasciiError;Err BinasciiError;Err BinasciiError;Ok [];Ok [];Err BinasciiError;Err BinasciiError;Ok [];Ok [];Ok [];Err BinasciiError;Err BinasciiError;Err BinasciiError;Err BinasciiError;Err BinasciiError;Ok [255;92;127];Ok [];Err BinasciiError;Ok [247;108];Err BinasciiError;Err BinasciiError;Err BinasciiError;Err BinasciiError;Ok [];Ok [219;61;62;204;45;64];Err BinasciiError;Err BinasciiError;Err BinasciiError;Ok [252;60;64];Err BinasciiError;Ok [];Err BinasciiError;Ok [];Err BinasciiError;Ok [12;48;66];Ok [255;252;245;218;111;120];Ok [];Err BinasciiError;Err BinasciiError;Err BinasciiError;Ok [15;61;128;219;77;61];Err BinasciiError;Err BinasciiError;Ok [15;95;125;199;95;244];Err BinasciiError;Err BinasciiError;Err BinasciiError;Err BinasciiError;Ok [0;0;131];Err BinasciiError;Err BinasciiError;Err BinasciiError;Ok [211];Ok [203;79;126];Err BinasciiError;Err BinasciiError;Ok [];Err BinasciiError;Ok [8;16];Err BinasciiError;Err BinasciiError;Ok [198;204;244];Err BinasciiError;Ok [11;63;242;199;109;131];Err BinasciiError;Err BinasciiError;Ok [];Err BinasciiError;Ok [211];Err BinasciiError;Err BinasciiError;Ok [];Ok [];Ok [];Err BinasciiError;Ok [];Ok [15;223;129];Err BinasciiError;Ok [11;77;127];Err BinasciiError;Ok [204;47;67];Ok [];Ok [7;220];Err BinasciiError;Ok [5;253];Ok [15];Err BinasciiError;Err BinasciiError;Err BinasciiError;Err BinasciiError;Err BinasciiError;Ok [244;61;181];Ok [219;77];Err BinasciiError;Err BinasciiError;Ok [11;61;182;244;144;126]].
Proof. vm_compute. reflexivity. Qed.

(** [base64.urlsafe_b64decode] *)
Example std_urlsafe_b64decode : map urlsafe_b64decode
  [[67;61];[47;68;47;65;49;48;68];[65;65;195;45;61];[61;43;48];[11;68;50;57;216;122;61];[66;47;121;43;61;121;47;65];[47;121;65;48;43;180;49];[65;61;61;122;66;43;122;211;43;65];[57;65;121;121;130;67;65;49];[121;67;49];[139;50;57;68;47;122;49;107];[65;47;121;61;48;230;65;57;45];[];[122;156;67;50];[49;66];[95;61;122;122;45;61;47;61;47];[122;69;122;68];[176;248;48;66;121;122];[61;43;68;61];[68;45];[120];[47;48];[49;50;68;49;66;65;65;68;66];[45;95;48];[68;47];[150;61;122;66;50;57;57;67];[233;122;61;49;122];[43;49;95;57];[50;121;50];[67;65;47];[67];[65];[43;120;57;121];[120;57];[61;50;122;66];[122;45;66;48;67];[220;95;232;57;61;45;9;43;120;49];[121;48;121;61;224;115];[61;211;49];[67;43;122;50;43;95;68;193;49;66];[43;121;66;67;68;67;71];[67;48;195;221;57;61;61;45;151];[65;224;65;48];[50;122;49;95];[61;68];[47;68;12];[65];[120;43;50;43;57;95;43;47];[61;47;65;101;236];[45;156;95;61;61;47;47;67;48];[148;45;120;47;121;65;49;45;155;49];[61;61;45;67;65;121;47];[50;122;57;67;61;95;66;49;48;47];[49;168];[48;65;206];[127;122;121;227;120];[235;120;95;47;122;50;48;61;95];[];[];[122;61;95;49;121;47;95;121;120];[47;49;68;40];[];[];[];[47;50;204;120;65;120;29];[120;50;18;61;66;60;122;120;122];[57;49;48;121;61;180;122;45;35;67];[68;122;22;67];[43;57;66;120;228;61;49;67];[47;49;120;47];[155];[48];[57;200;246;95;61;50;122;61];[43;67;57;57;57];[61;57;166;67;49;43;194;67];[120;61;49;57;43;95;57;121;49];[120;94;66;49;122;61;67;122;121;45];[];[61;50;122;48;43;122;67;49;65];[61;39;61;45;95;50;65;50];[161;144;61;50;120;120;121;65];[66;47;65;46;47;49];[61;47;68;120;65];[43;147];[61;45;45;61;61;205];[120;120;65;120;68;121];[];[66];[45;68;45;68;142;66;67;63];[61;47;61;47;122;49;50;109;57;52];[];[49;95;68;49;48;120;45;66;61;45];[50;122;61;121];[95;66;61;122;61;68;120;48;66];[68;122;50;65;50;48;48;57;61];[57;68;120;66;67;68];[49;43;120;190];[68;49;57;57;120;49;61;45;47;48];[120;61;48;45;65;49;134;47;43;43];[61;65;95;120;120;122;57;50];[47;47];[74];[65;65;67;68];[45;45;43;95;61;65;68];[61;49;43;48;122;43;59;57;43];[66;45;50;57];[48;61;57;61;61;62;11];[196;121;48;57;168;95;43];[122;47;61;64;47;65;121];[61;50;78;54;9;48;47];[];[45;91;48;121;65;45;66;97];[67;95;66;68;61;61;65;50];[45;120;162;95;213;47;122];[43;132;121;67;57;132;43];[95;120;115;122;48;95];[67;67;66;47;120;120];[67;195;122;47;121;120;50;50;95;68];[95;66;57;120;52;45;48;61;68];[47;61;49];[];[47];[48;121;61;45;215;61;120;65;66;47];[57;48;66;95;121;122;47;122];[67;66;121];[146;61];[202];[154];[43;66;61;50;57;49];[184];[61;68;61;57;43;66];[67;67;95;65;166;120;75;47;61;43];[188;67;48;49;47];[67;121;136;120;49;68;61;61];[122;67;57;68];[];[66;57;121;20;61;122;120];[49;66;95;43;65;61;49;20;67];[66;102;50;61;47;37;121;50];[61;61;68;45;57;45;61;61;230];[49;61;47;49;65;66;95;118;122];[74;45;68;65;66;65;50];[25;67;67;50;174;121;61;43;47];[236;67;208;21;48;47];[120;50;43;50;121;65];[57;250;68;50;49];[50;61;48;135;48;61];[120;66;34;66;65;65;57;65];[122;49;61;48;47;122;231;57;65];[67;122;50;50;57;74;95;66;43]]
  = [Err BinasciiError;Err BinasciiError;Ok [0;15];Err BinasciiError;Ok [15;111;115];Err BinasciiError;Err BinasciiError;Err BinasciiError;Err BinasciiError;Err BinasciiError;Err BinasciiError;Ok [3;252];Ok [];Err BinasciiError;Err BinasciiError;Err BinasciiError;Ok [204;76;195];Ok [208;28;179];Err BinasciiError;Err BinasciiError;Err BinasciiError;Err BinasciiError;Err BinasciiError;Err BinasciiError;Err BinasciiError;Err BinasciiError;Err BinasciiError;Ok [251;95;253];Err BinasciiError;Err BinasciiError;Err BinasciiError;Err BinasciiError;Ok [251;31;114];Err BinasciiError;Err BinasciiError;Err BinasciiError;Err BinasciiError;Ok [203;76];Err BinasciiError;Err BinasciiError;Err BinasciiError;Ok [11;79];Err BinasciiError;Ok [219;61;127];Err BinasciiError;Err BinasciiError;Err BinasciiError;Ok [199;237;190;247;255;191];Err BinasciiError;Ok [251];Ok [251;31;242;3;95;181];Err BinasciiError;Err BinasciiError;Err BinasciiError;Err BinasciiError;Err BinasciiError;Err BinasciiError;Ok [];Ok [];Ok [207;253;114;255;252;177];Err BinasciiError;Ok [];Ok [];Ok [];Err BinasciiError;Err BinasciiError;Err BinasciiError;Err BinasciiError;Err BinasciiError;Ok [255;92;127];Ok [];Err BinasciiError;Ok [247;253;179];Err BinasciiError;Err BinasciiError;Ok [199;95;126;255;220;181];Ok [196;29;115;11;60;190];Ok [];Ok [219;61;62;204;45;64];Err BinasciiError;Err BinasciiError;Err BinasciiError;Ok [252;60;64];Err BinasciiError;Ok [251];Err BinasciiError;Ok [];Err BinasciiError;Err BinasciiError;Ok [255;252;245;218;111;120];Ok [];Err BinasciiError;Err BinasciiError;Ok [252;28];Ok [15;61;128;219;77;61];Err BinasciiError;Err BinasciiError;Err BinasciiError;Ok [199;79;128;215;255;190];Err BinasciiError;Err BinasciiError;Err BinasciiError;Ok [0;0;131];Err BinasciiError;Err BinasciiError;Ok [7;237;189];Ok [211];Err BinasciiError;Err BinasciiError;Err BinasciiError;Ok [];Err BinasciiError;Err BinasciiError;Err BinasciiError;Err BinasciiError;Err BinasciiError;Err BinasciiError;Err BinasciiError;Ok [252;31;113;227;237];Err BinasciiError;Ok [];Err BinasciiError;Ok [211;47];Ok [247;64;127;203;63;243];Err BinasciiError;Ok [];Ok [];Ok [];Err BinasciiError;Ok [];Ok [15;223;129];Ok [8;47;192;196;175];Ok [11;77;127];Err BinasciiError;Ok [204;47;67];Ok [];Ok [7;220];Err BinasciiError;Ok [5;253];Ok [15;239;126];Ok [215;253;64;7;251;243];Err BinasciiError;Err BinasciiError;Err BinasciiError;Err BinasciiError;Ok [244;61;181];Ok [219;77];Err BinasciiError;Err BinasciiError;Err BinasciiError].
Proof. vm_compute. reflexivity. Qed.

(** [base64.b64encode] *)
Example std_b64encode : map (b64encode false)
  [[];[226];[116;94;61];[];[27;59;44];[146;129;216];[16;128;99];[179;182;232;195;197];[218];[250;175;91];[122];[223];[155;171;189;209];[186;180;161;202;241;8;189];[154;86];[64;76;85;234];[69;82];[129];[182;161;87];[242;158;39;219];[180;230];[79];[35;95;245;17;23];[182;187;181];[191;175;61;94;192;16;138;107];[];[155;167;206];[184;25;118];[3;100;49;69];[188;136;72];[116;38];[221;224;243;93];[182;100;221;37;141;105;117;72];[106;10];[248;185];[25;184];[121];[44;225;100];[84;9;111;161;245];[18;26;187;255;178;69;249;34];[163;159;162;45;246;173;212;36];[32;165;9;92];[115;160;134;129;156];[212;6;150;83;148;24;59];[220;111;142;182;253;144];[88;165;73;180];[203];[98;202;230;76;246];[19;126;40];[19];[241;247;167;87;254;203;6;197];[230;84;191;26;188;180;224;121];[155;45;226;182;99;82;68;226];[];[172;88;251;244;4];[30;227;83];[106;204;238;63;161;134;70;86];[67;92;157;119;218];[234;159;86;158;105;144;79];[];[60;217;194;91;225];[226;186;105;27;43;54;49];[198;70;227;203;93;243;229;18];[230;250;199];[178;88;139;92];[];[31;33;117;228;163;226;171;52];[27;239;142;209;238;169];[49;84;205;218;244;76;163;74];[70;99;115;110;232];[52;52];[26;232;77;191;164;143];[7;198;249;228;154;155];[160;148;89;51;250;92];[78;234;54;63;163;161;253]]
  = [[];[52;103;61;61];[100;70;52;57];[];[71;122;115;115];[107;111;72;89];[69;73;66;106];[115;55;98;111;119;56;85;61];[50;103;61;61];[43;113;57;98];[101;103;61;61];[51;119;61;61];[109;54;117;57;48;81;61;61];[117;114;83;104;121;118;69;73;118;81;61;61];[109;108;89;61];[81;69;120;86;54;103;61;61];[82;86;73;61];[103;81;61;61];[116;113;70;88];[56;112;52;110;50;119;61;61];[116;79;89;61];[84;119;61;61];[73;49;47;49;69;82;99;61];[116;114;117;49];[118;54;56;57;88;115;65;81;105;109;115;61];[];[109;54;102;79];[117;66;108;50];[65;50;81;120;82;81;61;61];[118;73;104;73];[100;67;89;61];[51;101;68;122;88;81;61;61];[116;109;84;100;74;89;49;112;100;85;103;61];[97;103;111;61];[43;76;107;61];[71;98;103;61];[101;81;61;61];[76;79;70;107];[86;65;108;118;111;102;85;61];[69;104;113;55;47;55;74;70;43;83;73;61];[111;53;43;105;76;102;97;116;49;67;81;61];[73;75;85;74;88;65;61;61];[99;54;67;71;103;90;119;61];[49;65;97;87;85;53;81;89;79;119;61;61];[51;71;43;79;116;118;50;81];[87;75;86;74;116;65;61;61];[121;119;61;61];[89;115;114;109;84;80;89;61];[69;51;52;111];[69;119;61;61];[56;102;101;110;86;47;55;76;66;115;85;61];[53;108;83;47;71;114;121;48;52;72;107;61];[109;121;51;105;116;109;78;83;82;79;73;61];[];[114;70;106;55;57;65;81;61];[72;117;78;84];[97;115;122;117;80;54;71;71;82;108;89;61];[81;49;121;100;100;57;111;61];[54;112;57;87;110;109;109;81;84;119;61;61];[];[80;78;110;67;87;43;69;61];[52;114;112;112;71;121;115;50;77;81;61;61];[120;107;98;106;121;49;51;122;53;82;73;61];[53;118;114;72];[115;108;105;76;88;65;61;61];[];[72;121;70;49;53;75;80;105;113;122;81;61];[71;43;43;79;48;101;54;112];[77;86;84;78;50;118;82;77;111;48;111;61];[82;109;78;122;98;117;103;61];[78;68;81;61];[71;117;104;78;118;54;83;80];[66;56;98;53;53;74;113;98];[111;74;82;90;77;47;112;99];[84;117;111;50;80;54;79;104;47;81;61;61]].
Proof. vm_compute. reflexivity. Qed.

(** [base64.urlsafe_b64encode] *)
Example std_urlsafe_b64encode : map (b64encode true)
  [[];[226];[116;94;61];[];[27;59;44];[146;129;216];[16;128;99];[179;182;232;195;197];[218];[250;175;91];[122];[223];[155;171;189;209];[186;180;161;202;241;8;189];[154;86];[64;76;85;234];[69;82];[129];[182;161;87];[242;158;39;219];[180;230];[79];[35;95;245;17;23];[182;187;181];[191;175;61;94;192;16;138;107];[];[155;167;206];[184;25;118];[3;100;49;69];[188;136;72];[116;38];[221;224;243;93];[182;100;221;37;141;105;117;72];[106;10];[248;185];[25;184];[121];[44;225;100];[84;9;111;161;245];[18;26;187;255;178;69;249;34];[163;159;162;45;246;173;212;36];[32;165;9;92];[115;160;134;129;156];[212;6;150;83;148;24;59];[220;111;142;182;253;144];[88;165;73;180];[203];[98;202;230;76;246];[19;126;40];[19];[241;247;167;87;254;203;6;197];[230;84;191;26;188;180;224;121];[155;45;226;182;99;82;68;226];[];[172;88;251;244;4];[30;227;83];[106;204;238;63;161;134;70;86];[67;92;157;119;218];[234;159;86;158;105;144;79];[];[60;217;194;91;225];[226;186;105;27;43;54;49];[198;70;227;203;93;243;229;18];[230;250;199];[178;88;139;92];[];[31;33;117;228;163;226;171;52];[27;239;142;209;238;169];[49;84;205;218;244;76;163;74];[70;99;115;110;232];[52;52];[26;232;77;191;164;143];[7;198;249;228;154;155];[160;148;89;51;250;92];[78;234;54;63;163;161;253]]
  = [[];[52;103;61;61];[100;70;52;57];[];[71;122;115;115];[107;111;72;89];[69;73;66;106];[115;55;98;111;119;56;85;61];[50;103;61;61];[45;113;57;98];[101;103;61;61];[51;119;61;61];[109;54;117;57;48;81;61;61];[117;114;83;104;121;118;69;73;118;81;61;61];[109;108;89;61];[81;69;120;86;54;103;61;61];[82;86;73;61];[103;81;61;61];[116;113;70;88];[56;112;52;110;50;119;61;61];[116;79;89;61];[84;119;61;61];[73;49;95;49;69;82;99;61];[116;114;117;49];[118;54;56;57;88;115;65;81;105;109;115;61];[];[109;54;102;79];[117;66;108;50];[65;50;81;120;82;81;61;61];[118;73;104;73];[100;67;89;61];[51;101;68;122;88;81;61;61];[116;109;84;100;74;89;49;112;100;85;103;61];[97;103;111;61];[45;76;107;61];[71;98;103;61];[101;81;61;61];[76;79;70;107];[86;65;108;118;111;102;85;61];[69;104;113;55;95;55;74;70;45;83;73;61];[111;53;45;105;76;102;97;116;49;67;81;61];[73;75;85;74;88;65;61;61];[99;54;67;71;103;90;119;61];[49;65;97;87;85;53;81;89;79;119;61;61];[51;71;45;79;116;118;50;81];[87;75;86;74;116;65;61;61];[121;119;61;61];[89;115;114;109;84;80;89;61];[69;51;52;111];[69;119;61;61];[56;102;101;110;86;95;55;76;66;115;85;61];[53;108;83;95;71;114;121;48;52;72;107;61];[109;121;51;105;116;109;78;83;82;79;73;61];[];[114;70;106;55;57;65;81;61];[72;117;78;84];[97;115;122;117;80;54;71;71;82;108;89;61];[81;49;121;100;100;57;111;61];[54;112;57;87;110;109;109;81;84;119;61;61];[];[80;78;110;67;87;45;69;61];[52;114;112;112;71;121;115;50;77;81;61;61];[120;107;98;106;121;49;51;122;53;82;73;61];[53;118;114;72];[115;108;105;76;88;65;61;61];[];[72;121;70;49;53;75;80;105;113;122;81;61];[71;45;45;79;48;101;54;112];[77;86;84;78;50;118;82;77;111;48;111;61];[82;109;78;122;98;117;103;61];[78;68;81;61];[71;117;104;78;118;54;83;80];[66;56;98;53;53;74;113;98];[111;74;82;90;77;95;112;99];[84;117;111;50;80;54;79;104;95;81;61;61]].
Proof. vm_compute. reflexivity. Qed.

(** [bytes.decode("utf-8")] *)
Example std_utf8_decode : map utf8_decode
  [[224;240;237;143;245];[125;224;31];[65;225;239;223;160];[196;159;225;192;224;223];[225];[160];[159];[239;244;106;159;82];[255;239];[224;65];[192;241;128;45;241];[160;225];[65];[123;65;223;244;144;144;169];[255];[160;225;196;225;105;160;65];[240;240;128];[244;239];[192;225;175;128];[244;128;192;144;160;225;223];[];[241;255;241;244;245;237;245];[244;224;191;225;225;143];[255];[239];[241;255;223];[65;241;194;164;241;128];[240;255;224;237];[203;192;191;252;59;194];[245;70;160;19];[255;190;65;194;191;223;194];[];[224;255;229;241;255;22];[144;144;223];[160;143;225];[160;192;194;65;223;239];[191;128;219;212;225;160];[192;128];[240;143;160;244;241];[];[223;106;237;237;65;241;223];[224;192;144;225;239;239];[];[72;128;239;143;241;194];[160];[12;144;240;144];[191;237;255;245];[192;237;239;192;240;128];[191;128;225;245;225];[87;181;127;192;111];[156;224;255;241];[117;192;43;143];[245;37];[143;240;144;223;223];[191;192;240;245;159;245;65];[244;223;225];[65;225;191;223];[144];[160;65;65];[159;65;191];[];[255;245];[65;225;245;237];[159;255;143;244;224;224;239];[191;128;239;245;128;223;223];[];[244;159;143;128];[7;144;128;239;159;111];[144;207;32;244;244;239;255];[240;237;255];[144;225;239];[240;119;244;224;194;244;224];[239;240];[237;244;223];[191;244;192;191];[237;240];[144;255;128;194;223;241;224];[];[121;192;128;244;160;118;128];[240;244];[239;194];[128;237;244;240;65;239;239];[244;244];[239;223];[233;192;225;244;65];[237];[255;65];[144;144];[191;245;240;128;244;143];[144;224;199;192;240];[220;239;159;128;225];[255;224;159;144;241;119];[159;223;160;239;128];[192];[237;255];[224;174;128;245];[46;65;143;237;244;194;144];[191;224;65;237;223;65];[65;224;200;128;240;49;144];[];[];[225;128;223;239;159;241];[194;128;237;255];[165;237;245;64;191;237];[128;223;194;144];[61;144;160;192];[];[144;255;128];[225;237;114;255];[87;237;255;224;191;25;152];[65];[];[255;130;144;192];[160;65;240;239];[225;143];[72;65;241;160;224];[225;128;244;143;192;194];[];[160;241;194;144;160;240;143];[225;224];[255;65;241;8;159];[192;225;225];[65;173;239];[131;141;191;223;241];[65;244;87;192;245];[239;65;160;143;241;237;239];[252;223];[];[160;244;160;244];[128;255;223;223;224];[240;253];[196;255];[162;223;144];[65;225;192;128;240];[];[143;143];[159;241;245;144;239;25];[255;143;191];[237;91;192;241;214];[65;194;159;240;223;128];[194;160;237;255;65;224;159];[255;244;65];[9;244;159];[];[143;191;245;194;194;192];[160;194;194;192];[65;194;224];[128;237;143];[128;254;154;187];[225;223;135;160;225;128]]
  = [None;None;None;None;None;None;None;None;None;None;None;None;Some [65];None;None;None;None;None;None;None;Some [];None;None;None;None;None;None;None;None;None;None;Some [];None;None;None;None;None;None;None;Some [];None;None;Some [];None;None;None;None;None;None;None;None;None;None;None;None;None;None;None;None;None;Some [];None;None;None;None;Some [];None;None;None;None;None;None;None;None;None;None;None;Some [];None;None;None;None;None;None;None;None;None;None;None;None;None;None;None;None;None;None;None;None;None;Some [];Some [];None;None;None;None;None;Some [];None;None;None;Some [65];Some [];None;None;None;None;None;Some [];None;None;None;None;None;None;None;None;None;Some [];None;None;None;None;None;None;Some [];None;None;None;None;None;None;None;None;Some [];None;None;None;None;None;None].
Proof. vm_compute. reflexivity. Qed.

(** [bytes.decode("utf-8", "replace")] *)
Example std_utf8_replace : map utf8_replace
  [[224;240;237;143;245];[125;224;31];[65;225;239;223;160];[196;159;225;192;224;223];[225];[160];[159];[239;244;106;159;82];[255;239];[224;65];[192;241;128;45;241];[160;225];[65];[123;65;223;244;144;144;169];[255];[160;225;196;225;105;160;65];[240;240;128];[244;239];[192;225;175;128];[244;128;192;144;160;225;223];[];[241;255;241;244;245;237;245];[244;224;191;225;225;143];[255];[239];[241;255;223];[65;241;194;164;241;128];[240;255;224;237];[203;192;191;252;59;194];[245;70;160;19];[255;190;65;194;191;223;194];[];[224;255;229;241;255;22];[144;144;223];[160;143;225];[160;192;194;65;223;239];[191;128;219;212;225;160];[192;128];[240;143;160;244;241];[];[223;106;237;237;65;241;223];[224;192;144;225;239;239];[];[72;128;239;143;241;194];[160];[12;144;240;144];[191;237;255;245];[192;237;239;192;240;128];[191;128;225;245;225];[87;181;127;192;111];[156;224;255;241];[117;192;43;143];[245;37];[143;240;144;223;223];[191;192;240;245;159;245;65];[244;223;225];[65;225;191;223];[144];[160;65;65];[159;65;191];[];[255;245];[65;225;245;237];[159;255;143;244;224;224;239];[191;128;239;245;128;223;223];[];[244;159;143;128];[7;144;128;239;159;111];[144;207;32;244;244;239;255];[240;237;255];[144;225;239];[240;119;244;224;194;244;224];[239;240];[237;244;223];[191;244;192;191];[237;240];[144;255;128;194;223;241;224];[];[121;192;128;244;160;118;128];[240;244];[239;194];[128;237;244;240;65;239;239];[244;244];[239;223];[233;192;225;244;65];[237];[255;65];[144;144];[191;245;240;128;244;143];[144;224;199;192;240];[220;239;159;128;225];[255;224;159;144;241;119];[159;223;160;239;128];[192];[237;255];[224;174;128;245];[46;65;143;237;244;194;144];[191;224;65;237;223;65];[65;224;200;128;240;49;144];[];[];[225;128;223;239;159;241];[194;128;237;255];[165;237;245;64;191;237];[128;223;194;144];[61;144;160;192];[];[144;255;128];[225;237;114;255];[87;237;255;224;191;25;152];[65];[];[255;130;144;192];[160;65;240;239];[225;143];[72;65;241;160;224];[225;128;244;143;192;194];[];[160;241;194;144;160;240;143];[225;224];[255;65;241;8;159];[192;225;225];[65;173;239];[131;141;191;223;241];[65;244;87;192;245];[239;65;160;143;241;237;239];[252;223];[];[160;244;160;244];[128;255;223;223;224];[240;253];[196;255];[162;223;144];[65;225;192;128;240];[];[143;143];[159;241;245;144;239;25];[255;143;191];[237;91;192;241;214];[65;194;159;240;223;128];[194;160;237;255;65;224;159];[255;244;65];[9;244;159];[];[143;191;245;194;194;192];[160;194;194;192];[65;194;224];[128;237;143];[128;254;154;187];[225;223;135;160;225;128]]
  = [[65533;65533;65533;65533];[125;65533;31];[65;65533;65533;2016];[287;65533;65533;65533;65533];[65533];[65533];[65533];[65533;65533;106;65533;82];[65533;65533];[65533;65];[65533;65533;45;65533];[65533;65533];[65];[123;65;65533;65533;65533;65533;65533];[65533];[65533;65533;65533;65533;105;65533;65];[65533;65533;65533];[65533;65533];[65533;7104];[65533;65533;65533;65533;65533;65533];[];[65533;65533;65533;65533;65533;65533;65533];[65533;65533;65533;65533];[65533];[65533];[65533;65533;65533];[65;65533;164;65533];[65533;65533;65533;65533];[65533;65533;65533;65533;59;65533];[65533;70;65533;19];[65533;65533;65;191;65533;65533];[];[65533;65533;65533;65533;65533;22];[65533;65533;65533];[65533;65533;65533];[65533;65533;65533;65;65533;65533];[65533;65533;65533;65533;65533];[65533;65533];[65533;65533;65533;65533;65533];[];[65533;106;65533;65533;65;65533;65533];[65533;65533;65533;65533;65533;65533];[];[72;65533;65533;65533;65533];[65533];[12;65533;65533];[65533;65533;65533;65533];[65533;65533;65533;65533;65533;65533];[65533;65533;65533;65533;65533];[87;65533;127;65533;111];[65533;65533;65533;65533];[117;65533;43;65533];[65533;37];[65533;65533;65533;65533];[65533;65533;65533;65533;65533;65533;65];[65533;65533;65533];[65;65533;65533];[65533];[65533;65;65];[65533;65;65533];[];[65533;65533];[65;65533;65533;65533];[65533;65533;65533;65533;65533;65533;65533];[65533;65533;65533;65533;65533;65533;65533];[];[65533;65533;65533;65533];[7;65533;65533;65533;111];[65533;65533;32;65533;65533;65533;65533];[65533;65533;65533];[65533;65533;65533];[65533;119;65533;65533;65533;65533;65533];[65533;65533];[65533;65533;65533];[65533;65533;65533;65533];[65533;65533];[65533;65533;65533;65533;65533;65533;65533];[];[121;65533;65533;65533;65533;118;65533];[65533;65533];[65533;65533];[65533;65533;65533;65533;65;65533;65533];[65533;65533];[65533;65533];[65533;65533;65533;65533;65];[65533];[65533;65];[65533;65533];[65533;65533;65533;65533;65533];[65533;65533;65533;65533;65533];[65533;63424;65533];[65533;65533;65533;65533;65533;119];[65533;2016;65533];[65533];[65533;65533];[2944;65533];[46;65;65533;65533;65533;144];[65533;65533;65;65533;65533;65];[65;65533;512;65533;49;65533];[];[];[65533;65533;65533;65533];[128;65533;65533];[65533;65533;65533;64;65533;65533];[65533;65533;144];[61;65533;65533;65533];[];[65533;65533;65533];[65533;65533;114;65533];[87;65533;65533;65533;25;65533];[65];[];[65533;65533;65533;65533];[65533;65;65533;65533];[65533];[72;65;65533;65533];[65533;65533;65533;65533];[];[65533;65533;144;65533;65533;65533];[65533;65533];[65533;65;65533;8;65533];[65533;65533;65533];[65;65533;65533];[65533;65533;65533;65533;65533];[65;65533;87;65533;65533];[65533;65;65533;65533;65533;65533;65533];[65533;65533];[];[65533;65533;65533;65533];[65533;65533;65533;65533;65533];[65533;65533];[65533;65533];[65533;2000];[65;65533;65533;65533;65533];[];[65533;65533];[65533;65533;65533;65533;65533;25];[65533;65533;65533];[65533;91;65533;65533;65533];[65;159;65533;1984];[160;65533;65533;65;65533;65533];[65533;65533;65];[9;65533;65533];[];[65533;65533;65533;65533;65533;65533];[65533;65533;65533;65533];[65;65533;65533];[65533;65533];[65533;65533;65533;65533];[65533;1991;65533;65533]].
Proof. vm_compute. reflexivity. Qed.

(** [str.encode("utf-8")] *)
Example std_utf8_encode : map utf8_encode
  [[];[95;71];[];[32;46511];[87;30318;78;1084655];[1893];[44;125;75];[24;80];[];[358;1067391;119];[44];[88;12974];[1119;11;57];[9879];[92947;68];[71];[123];[17];[56];[571];[31;40;17958];[51];[55899];[40;846033;811014;11];[103;528435;312020;30588];[88;930;104];[38];[57193;124];[22;57;18];[109;45;7819;1861];[19;39;113];[];[1400;33];[63;473;24];[101705];[94;86;114;27];[82565;2;484404];[49;121];[50];[866629;1177];[];[];[26075;99;93];[57];[775589;739;558847;16010];[104;142437];[99;1062;26;1804];[123;735909;817784;56];[42;56794;59];[112;89;51789;121];[115];[1995];[37;34];[792];[];[36482;634959];[];[55344];[932300];[95;46];[1666;98];[65;51;1061588;2019];[799710];[];[584546;9;906522;120];[49;1537];[];[41103];[804670;50];[];[];[973221;761;930];[53413;69;56056];[61;236];[32;91;113]]
  = [Ok [];Ok [95;71];Ok [];Ok [32;235;150;175];Ok [87;231;153;174;78;244;136;179;175];Ok [221;165];Ok [44;125;75];Ok [24;80];Ok [];Ok [197;166;244;132;165;191;119];Ok [44];Ok [88;227;138;174];Ok [209;159;11;57];Ok [226;154;151];Ok [240;150;172;147;68];Ok [71];Ok [123];Ok [17];Ok [56];Ok [200;187];Ok [31;40;228;152;166];Ok [51];Err UnicodeEncodeError;Ok [40;243;142;163;145;243;134;128;134;11];Ok [103;242;129;128;179;241;140;139;148;231;157;188];Ok [88;206;162;104];Ok [38];Err UnicodeEncodeError;Ok [22;57;18];Ok [109;45;225;186;139;221;133];Ok [19;39;113];Ok [];Ok [213;184;33];Ok [63;199;153;24];Ok [240;152;181;137];Ok [94;86;114;27];Ok [240;148;138;133;2;241;182;144;180];Ok [49;121];Ok [50];Ok [243;147;165;133;210;153];Ok [];Ok [];Ok [230;151;155;99;93];Ok [57];Ok [242;189;150;165;203;163;242;136;155;191;227;186;138];Ok [104;240;162;177;165];Ok [99;208;166;26;220;140];Ok [123;242;179;170;165;243;135;169;184;56];Err UnicodeEncodeError;Ok [112;89;236;169;141;121];Ok [115];Ok [223;139];Ok [37;34];Ok [204;152];Ok [];Ok [232;186;130;242;155;129;143];Ok [];Err UnicodeEncodeError;Ok [243;163;167;140];Ok [95;46];Ok [218;130;98];Ok [65;51;244;131;139;148;223;163];Ok [243;131;143;158];Ok [];Ok [242;142;173;162;9;243;157;148;154;120];Ok [49;216;129];Ok [];Ok [234;130;143];Ok [243;132;156;190;50];Ok [];Ok [];Ok [243;173;166;165;203;185;206;162];Err UnicodeEncodeError;Ok [61;195;172];Ok [32;91;113]].
Proof. vm_compute. reflexivity. Qed.

(** [json.dumps(v, ensure_ascii=False)] *)
Example std_dumps : map dumps
  [(PInt (3));(PInt (6268812404298));(PList [PBool true;PDict [([97;97;98],PStr [15;969332;95]);([98;8],PList [PInt (8)])];PDict [([],PDict [([98;64],PStr [47;34;47])])]]);(PBool true);(PDict [([98;97],PList [PBool false;PBool true;PStr [59]])]);(PBool true);(PList [PDict [([98;98],PStr [34]);([97;97;98],PDict [([98;97],PNone)]);([68;97],PNone)];PStr [];PInt (0)]);(PInt (2));(PList []);(PDict [([97;97],PNone)]);(PStr [7604]);(PInt (527593669633287));(PNone);(PList [PDict [];PNone;PStr []]);(PStr [1392;71]);(PBool false);(PDict [([97;97;97],PNone);([98;98],PNone);([97;1088;97],PBool true)]);(PStr [47]);(PNone);(PList [PList [PStr [92;47;802074;98];PInt (-957104297245676285)]]);(PInt (-10161046));(PStr [10]);(PDict [([71;97;98],PNone)]);(PInt (331308));(PDict []);(PStr [92;49]);(PInt (6709967791092067021));(PBool false);(PBool false);(PDict [([98],PInt (8850874804592799520));([97;97],PList [])]);(PBool true);(PInt (5));(PDict [([],PBool false);([97],PDict [([97],PList []);([98;98;97],PDict [([117;98],PStr [91;92;47])])])]);(PList [PDict []]);(PList [PInt (-78870320204025637);PNone;PDict [([],PBool false)]]);(PBool true);(PDict [([98;98;97],PDict [([35;98;97],PStr [])])]);(PBool false);(PInt (260198235666535));(PStr [1920;55002;50893]);(PStr [377258;64]);(PStr []);(PNone);(PBool true);(PNone);(PDict [([],PBool true)]);(PInt (3));(PBool true);(PStr [98;34;10]);(PDict [([793;108],PInt (-113854016304))]);(PStr [57]);(PInt (8));(PBool true);(PStr [97;10;34]);(PList [PInt (6);PBool true]);(PDict [([98],PStr [62;57203]);([97;97],PDict []);([97],PDict [([97;97;98],PStr [511129;106])])]);(PDict [([98;98],PInt (6))]);(PDict []);(PInt (-2010570484));(PBool true);(PStr [92;64]);(PList []);(PInt (0));(PBool false);(PDict [([98;241418],PInt (5));([98],PStr [92;29;98;98])]);(PList [PList [];PBool false;PList [PStr [38;98;34]]]);(PStr [98;47]);(PList [PBool true]);(PInt (8));(PBool true);(PList [PBool true;PList [PDict [([],PStr [111;13]);([97],PBool true);([71;97;395304],PNone)];PDict [([17965;97;98],PBool false);([97],PStr [75;54]);([],PInt (-7417577530))]];PList []]);(PBool false);(PList [PInt (-507443348605809389);PDict [([],PList [PInt (-670301996615689182)])]]);(PList [PDict [([],PBool true)]]);(PInt (-590390678945))]
  = [[51];[54;50;54;56;56;49;50;52;48;52;50;57;56];[91;116;114;117;101;44;32;123;34;97;97;98;34;58;32;34;92;117;48;48;48;102;969332;95;34;44;32;34;98;92;98;34;58;32;91;56;93;125;44;32;123;34;34;58;32;123;34;98;64;34;58;32;34;47;92;34;47;34;125;125;93];[116;114;117;101];[123;34;98;97;34;58;32;91;102;97;108;115;101;44;32;116;114;117;101;44;32;34;59;34;93;125];[116;114;117;101];[91;123;34;98;98;34;58;32;34;92;34;34;44;32;34;97;97;98;34;58;32;123;34;98;97;34;58;32;110;117;108;108;125;44;32;34;68;97;34;58;32;110;117;108;108;125;44;32;34;34;44;32;48;93];[50];[91;93];[123;34;97;97;34;58;32;110;117;108;108;125];[34;7604;34];[53;50;55;53;57;51;54;54;57;54;51;51;50;56;55];[110;117;108;108];[91;123;125;44;32;110;117;108;108;44;32;34;34;93];[34;1392;71;34];[102;97;108;115;101];[123;34;97;97;97;34;58;32;110;117;108;108;44;32;34;98;98;34;58;32;110;117;108;108;44;32;34;97;1088;97;34;58;32;116;114;117;101;125];[34;47;34];[110;117;108;108];[91;91;34;92;92;47;802074;98;34;44;32;45;57;53;55;49;48;52;50;57;55;50;52;53;54;55;54;50;56;53;93;93];[45;49;48;49;54;49;48;52;54];[34;92;110;34];[123;34;71;97;98;34;58;32;110;117;108;108;125];[51;51;49;51;48;56];[123;125];[34;92;92;49;34];[54;55;48;57;57;54;55;55;57;49;48;57;50;48;54;55;48;50;49];[102;97;108;115;101];[102;97;108;115;101];[123;34;98;34;58;32;56;56;53;48;56;55;52;56;48;52;53;57;50;55;57;57;53;50;48;44;32;34;97;97;34;58;32;91;93;125];[116;114;117;101];[53];[123;34;34;58;32;102;97;108;115;101;44;32;34;97;34;58;32;123;34;97;34;58;32;91;93;44;32;34;98;98;97;34;58;32;123;34;117;98;34;58;32;34;91;92;92;47;34;125;125;125];[91;123;125;93];[91;45;55;56;56;55;48;51;50;48;50;48;52;48;50;53;54;51;55;44;32;110;117;108;108;44;32;123;34;34;58;32;102;97;108;115;101;125;93];[116;114;117;101];[123;34;98;98;97;34;58;32;123;34;35;98;97;34;58;32;34;34;125;125];[102;97;108;115;101];[50;54;48;49;57;56;50;51;53;54;54;54;53;51;53];[34;1920;55002;50893;34];[34;377258;64;34];[34;34];[110;117;108;108];[116;114;117;101];[110;117;108;108];[123;34;34;58;32;116;114;117;101;125];[51];[116;114;117;101];[34;98;92;34;92;110;34];[123;34;793;108;34;58;32;45;49;49;51;56;53;52;48;49;54;51;48;52;125];[34;57;34];[56];[116;114;117;101];[34;97;92;110;92;34;34];[91;54;44;32;116;114;117;101;93];[123;34;98;34;58;32;34;62;57203;34;44;32;34;97;97;34;58;32;123;125;44;32;34;97;34;58;32;123;34;97;97;98;34;58;32;34;511129;106;34;125;125];[123;34;98;98;34;58;32;54;125];[123;125];[45;50;48;49;48;53;55;48;52;56;52];[116;114;117;101];[34;92;92;64;34];[91;93];[48];[102;97;108;115;101];[123;34;98;241418;34;58;32;53;44;32;34;98;34;58;32;34;92;92;92;117;48;48;49;100;98;98;34;125];[91;91;93;44;32;102;97;108;115;101;44;32;91;34;38;98;92;34;34;93;93];[34;98;47;34];[91;116;114;117;101;93];[56];[116;114;117;101];[91;116;114;117;101;44;32;91;123;34;34;58;32;34;111;92;114;34;44;32;34;97;34;58;32;116;114;117;101;44;32;34;71;97;395304;34;58;32;110;117;108;108;125;44;32;123;34;17965;97;98;34;58;32;102;97;108;115;101;44;32;34;97;34;58;32;34;75;54;34;44;32;34;34;58;32;45;55;52;49;55;53;55;55;53;51;48;125;93;44;32;91;93;93];[102;97;108;115;101];[91;45;53;48;55;52;52;51;51;52;56;54;48;53;56;48;57;51;56;57;44;32;123;34;34;58;32;91;45;54;55;48;51;48;49;57;57;54;54;49;53;54;56;57;49;56;50;93;125;93];[91;123;34;34;58;32;116;114;117;101;125;93];[45;53;57;48;51;57;48;54;55;56;57;52;53]].
Proof. vm_compute. reflexivity. Qed.

(** [json.loads(s)] *)
Example std_loads : map loads
  [[91;125;44;34;44;49;101;53;93];[91;93;44;110;117;108;32;93];[45];[34;92;117;48;48;99;97;34];[34;92;117;100;56;51;100;92;117;100;101;48;48;34;102;97;108;115;101];[91;93];[91;34;1;34;44;34;44;93;44;93];[91;34;92;117;43;49;50;51;34;44;45;44;34;92;117;48;48;52;49;34;93];[58;34;92;117;100;56;51;100;92;117;100;101;48;48;34;116;114;117;101];[73;110;102;105;110;105;116;121];[110;117;45;108];[91;34;92;110;34;32;93];[45;57;53;53;57;48;54;54;55;51;56;49;56;49;55;54;56];[102;97;108;115;101;10];[54];[34;92;117;43;49;50;51;34];[91;34;93];[91;44;93];[110;11;108;108];[34;92;117;100;56;51;100;92;117;100;101;48;48;34];[49;48;53;48;56;51;51;50;50;49;53;53;56;49;53;110;117;108;108;50];[34];[32];[91;91;45;10;55;56;49;49;53;56;50;48;49;48;54;93;44;32;34;92;110;114;123;34;93];[91;45;57;54;52;50;49;55;56;52;53;53;53;56;52;50;56;50;44;32;123;34;76;98;1448;34;58;32;123;34;98;98;97;34;58;32;50;51;53;57;48;50;56;49;52;51;57;52;48;51;49;125;44;32;34;231655;98;34;58;32;91;110;117;108;108;44;32;110;117;108;108;44;32;57;55;48;55;50;56;48;50;48;57;93;125;44;32;123;34;97;34;58;32;34;97;115;34;125;93;48];[34;483;117;92;92;34];[91;49;69;43;50;32;44;78;97;78;44;102;97;108;115;101;44;93];[32;34;34;58;32;123;34;34;58;32;48;44;32;34;97;97;34;58;32;123;34;34;58;32;52;125;125;44;32;34;97;34;58;32;34;34;125];[91;125;32;93];[44];[91;123;34;97;97;34;58;32;116;114;117;101;125;93];[91;46;53;32;93];[53];[34;92;117;48;48;103;49;34;48;49;34;92;117;100;56;51;100;120;34];[91;34;92;117;48;48;103;49;34;44;93];[91;123;44;34;1;34;32;93];[45;53;48;54;57;53;48;52;53;50;53];[116;114;117;34;92;117;100;101;48;48;34];[34;110;92;117;49;100;100;51;44;34];[91;46;53;32;93];[123;125;34;34];[116;114;117;101];[49;46;101];[34;92;47;34];[91;45;49;44;93];[34;92;120;34];[91;93];[50;46;45;49;123];[91;73;110;102;105;110;105;116;121;32;44;73;110;102;105;110;105;116;121;93];[34;34;1;34;97;34];[34;97;34;32;49;46;53];[116;114;117;101;91];[32;34;92;117;48;48;103;49;34];[123;34;34;58;32;123;34;98;34;58;32;34;47;37;92;92;34;44;32;34;97;98;97;34;58;32;91;34;34;44;32;34;92;117;100;57;55;99;92;117;100;34;98;34;101;100;100;92;117;57;97;57;55;122;34;93;125;125];[73;110;102;105;110;105;116;121;102;97;108;115;101;34;92;117;48;48;52;49;34];[91;93];[91;44;93];[49;55;56;51;49;57;48;57;54;48;50;51;56;54];[46;53;34;92;117;100;56;51;100;120;34];[49;46;53];[48;49;34;34;93];[91;93];[91;49;46;53;44;93];[32;116;114;117;101];[34;372904;906322;57324;34];[34];[91;93];[46;53];[34;76;67;34];[45;51;48;45;48;56;55;52;55;50;50;56;57;54;53;52;51;56];[102;97;108;115;101];[34;97;34;34;92;117;43;49;50;51;34];[91;91;123;125;93;44;32;91;93;44;32;102;49;108;115;101;93];[91;34;92;117;100;56;51;100;92;117;48;48;52;49;34;32;44;34;92;117;100;56;51;100;34;93];[32];[91;34;92;110;34;44;49;46;101;32;93];[49;46;101;49];[49;69;43;50];[110;117;108;108;58];[91;93];[34;92;117;100;101;48;48;34];[91;49;46;53;32;93];[34;34;34;92;117;100;56;51;100;34];[91;48;44;93];[91;93];[123;34;98;98;39;34;58;32;45;53;78;97;78;57;54;53;56;55;49;55;55;52;48;53;48;54;53;44;32;34;98;34;58;32;123;125;44;32;34;34;58;32;91;123;34;98;97;34;58;32;34;92;110;34;125;93;125];[32;11;13];[91;34;97;34;32;44;44;44;49;101;53;93];[123;125;110;117;108];[91;93];[91;34;1;34;32;44;78;97;78;32;93];[123;34;97;98;120966;34;58;32;102;97;108;115;101;117;108;108;44;32;34;34;58;32;34;98;92;92;47;34;125];[91;49;69;43;50;93];[91;102;97;108;115;101;44;32;54;44;32;34;47;92;117;48;51;51;99;92;34;34;93];[34;32];[45;49;110;117;108];[49;101;53;32];[91;34;92;117;100;101;48;48;34;32;44;123;32;93];[91;123;34;66;34;58;32;102;97;108;115;101;125;44;32;123;125;93];[34;92;117;48;48;103;49;34];[91;34;34;93];[34;92;117;100;101;48;48;34;78;97;78];[123;34;98;98;34;58;32;123;34;34;58;32;123;125;125;44;32;34;97;98;92;117;48;50;57;57;34;58;32;54;49;52;55;48;50;56;48;52;51;54;57;55;125];[49;46;53];[49];[34;92;117;100;56;51;100;92;117;48;48;52;49;34];[91;93];[34;97;34];[91;123;34;97;34;58;32;51;49;51;49;49;56;50;53;53;55;55;57;49;56;56;51;125;78;97;78;32;102;97;108;115;101;93];[49;34;92;117;48;48;52;49;34;34;92;117;100;56;51;100;92;117;100;101;48;48;34];[91;49;101;53;32;44;45;48;32;44;110;117;108;44;93];[52];[91;116;114;117;101;32;44;34;98;34;44;34;97;34;44;93];[34;92;34;47;92;34;34];[32];[123;34;92;117;100;57;97;101;92;117;100;99;99;97;98;97;34;58;32;110;117;108;108;44;32;34;98;34;58;32;34;98;47;92;34;92;110;34;125];[34;92;117;100;101;48;48;34;58];[123;125];[123;48;49;125];[91;102;97;108;115;101;93];[91;93];[91;48;32;44;44;93];[91;123;32;44;34;92;117;100;56;51;100;120;34;32;44;34;34;93];[48];[91;92;32;44;93];[91;93];[10;34;32];[110;116;114;117;101;108;108];[91;34;92;47;34;44;93];[123;34;98;97;98;34;58;32;45;55;50;55;52;53;54;54;50;50;44;32;34;34;58;32;45;49;54;48;50;13;52;56;49;48;54;56;54;52;52;49;52;53;125];[45;51;53;53;55;54;56;51;51;52;53;57;49;56;57;49;56;52;51;56;50];[116;45;48;114;117;101];[116;114;117;101];[91;93];[11;125;49;46;101];[91;93];[102;97;108;115;101;46;53];[110;117;108;108;57];[123;34;34;58;32;123;34;97;34;58;32;91;34;92;92;34;44;32;102;97;108;115;101;44;32;116;114;117;101;93;44;32;34;34;58;32;91;116;114;117;101;44;32;102;97;108;115;101;44;32;45;52;48;54;56;54;54;53;48;55;53;51;57;55;93;125;125];[91;93;44;45;73;110;102;105;110;105;116;121;32;44;93];[13;11;34;92;47;34];[34];[34;92;120;34];[91;10;93];[34;102;92;117;100;56;52;101;92;117;100;101;54;51;92;34;92;117;100;101;48;48;34;100;98;99;56;92;117;100;102;98;57;34];[91;34;92;117;100;56;51;100;92;117;48;48;52;49;34;44;45;73;110;102;105;110;105;116;121;93];[91;49;69;43;50;44;93];[34;92;117;100;56;51;100;120;34;73;110;102;105;110;105;116;121;93];[34;92;117;100;57;48;57;92;117;48;48;49;48;50;34];[91;34;92;117;100;56;51;100;92;117;34;93];[48;34;97;34];[91;48;49;32;44;92;93];[45;73;110;102;105;110;105;116;121;34;92;110;97;92;92;34];[45;56;51;51;49;54;53;53;48;57;32;50];[10;110;117;108;108;32];[50;46];[116;114;117;101];[49;46;101];[91;110;117;108;108;44;32;123;34;98;34;58;32;123;125;44;32;34;98;98;34;58;32;45;51;52;51;51;57;56;55;55;56;48;52;56;56;125;44;32;56;50;51;48;52;48;53;55;53;53;54;55;52;50;55;53;49;56;57;93];[45;56;51;125;48;51;53;52;55;50;53;54;57;56;55;49;57;48];[34;97;34;34;34;78;97;78];[34;92;117;100;56;51;100;120;34;34;92;47;34];[116;114;117;101];[34;98;34;34;71;34];[91;55];[34;92;117;100;56;51;100;34];[116;34;34;114;117;101];[102;97;34;92;117;100;56;51;100;92;117;48;48;52;49;34;115;101];[91;49;69;43;50;44;45;48;93];[123;34;54;98;34;58;32;34;34;44;32;34;34;58;32;123;34;92;117;100;56;51;100;92;117;48;48;52;49;34;98;97;34;58;32;91;93;44;32;34;97;57;34;58;32;45;57;55;51;51;50;56;57;56;56;52;56;48;56;48;51;44;32;34;98;98;34;58;32;34;97;92;92;92;110;92;34;34;125;125];[91;34;92;47;34;32;44;110;117;108;108;93];[49;101;53;44;9];[91;34;92;117;48;48;103;49;34;44;34;32;93];[91;34;92;117;100;56;51;100;92;117;100;101;48;48;34;32;44;49;46;101;44;93];[123;34;56;97;34;58;32;45;54;55;53;49;57;54;50;57;48;51;57;50;57;52;44;32;34;80;34;58;32;91;91;93;44;32;116;114;117;101;93;125];[34;34;92;120;34;92;110;34];[91;93];[34;92;117;100;56;51;100;120;34;91];[123;34;34;58;32;45;54;48;49;53;54;56;56;57;56;50;51;53;49;51;52;44;32;34;98;34;58;32;91;51;50;49;48;54;49;56;56;54;56;50;48;51;53;56;49;54;44;32;102;97;108;115;101;93;44;32;34;97;97;34;58;32;123;34;98;34;58;32;123;34;92;116;97;34;58;32;34;123;28705;34;44;32;34;92;117;48;48;49;100;98;34;58;32;49;101;53;102;97;108;115;101;44;32;34;34;58;32;45;55;54;48;48;51;56;54;55;50;53;55;51;125;44;32;34;98;97;98;34;58;32;102;97;108;115;101;125;125];[102;97;108;115;101];[91;123;34;34;58;32;91;102;97;108;115;101;44;32;116;114;117;101;44;34;98;34;32;52;93;44;32;34;97;78;56;34;58;32;110;117;108;108;125;93];[102;97;108;115;101];[49;69;43;50;34;92;117;100;56;51;100;92;117;34];[91;13;44;123;44;116;114;117;101;93];[91;91;32;44;45;49;44;65279;32;93];[34;34;32];[91;44;93];[13;34;92;117;100;56;51;100;92;117;34];[49;46;101;34;92;117;48;48;52;49;34;45;48];[91;49;69;43;50;32;44;49;101;53;44;49;46;101;44;93];[49;53;51;51;55;49;49;50;52;49;56;50;49;56;49;56;53;50;57];[123;34;97;34;58;32;50;110;117;108];[110;117;108;108];[91;49;101;53;44;93];[34;98;34;34;98;34;34;92;117;100;56;51;100;34];[91;123;125;50;46;93];[123;34;98;98;98;34;58;32;116;114;117;101;44;32;34;97;34;58;32;123;34;98;34;58;32;91;116;114;117;101;93;44;32;34;98;97;97;34;58;32;116;114;117;101;44;32;34;97;97;34;58;32;123;125;125;44;32;34;97;98;34;58;32;123;34;92;117;100;98;102;53;92;117;100;102;98;57;97;34;58;32;110;117;108;108;44;34;92;117;43;49;50;51;34;32;34;97;97;34;58;32;56;125;125];[91;73;110;102;105;110;105;116;121;44;93];[34;1;34;123;125];[44;110;117;108;108];[91;34;34;44;49;32;44;32;32;93];[91;93];[34;34];[91;34;92;117;100;101;48;48;34;93];[116;34;1;34;114;117;101];[73;110;102;105;110;105;116;121;73;110;102;105;110;105;116;121;34;92;117;100;56;51;100;92;117;100;101;48;48;34];[91;123;34;98;98;63;34;58;32;49;55;54;53;55;44;32;34;97;34;58;32;116;114;91;101;125;93];[91;45;48;44;73;110;102;105;110;105;116;121;44;32;44;93];[91;34;92;117;100;56;51;100;120;34;32;44;34;97;34;32;44;13;32;93];[91;51;93];[91;10;93];[34;92;120;34];[91;49;101;53;44;93];[56];[91;93;78;97;78];[91;48;49;44;34;92;117;48;48;103;49;34;32;93];[91;93];[34;34];[49];[91;34;92;117;100;56;51;100;92;117;100;101;48;48;34;93];[91;34;92;117;100;56;51;100;92;117;48;48;52;49;34;93];[123;34;34;58;32;34;34;50;46];[34];[91;49;101;53;44;93];[46;53];[91;10;44;34;92;117;43;49;50;51;34;32;44;45;73;110;102;105;110;105;116;121;93];[91;93];[91;45;44;34;97;34;44;34;92;117;100;56;51;100;92;117;34;44;93];[91;102;97;108;115;101;93];[91;50;46;44;93];[49;69;43;50;49;101;53;34;92;117;48;48;103;49;34];[65279;45;48;65279];[123;34;715706;97;34;58;32;53;44;32;34;34;58;32;91;102;97;108;115;101;93;44;32;34;98;98;97;34;58;32;34;97;34;125];[123;97;108;115;101];[110;117;108;108;34;92;117;48;48;52;49;34];[91;91;34;34;44;32;123;34;98;98;21495;34;58;32;49;44;32;34;34;58;32;34;34;125;93;44;32;123;34;34;58;32;123;34;98;98;97;34;58;32;102;97;108;115;101;44;32;34;98;98;56459;34;58;32;34;34;125;125;44;32;116;114;117;101;93];[91;45;44;116;114;117;101;32;44;49;46;101;93];[91;91;123;34;92;117;48;53;102;49;98;34;58;32;116;114;117;101;125;44;32;110;117;108;108;93;44;32;34;97;92;92;92;92;34;44;32;102;97;108;115;101;93];[91;46;53;32;44;92;32;44;45;73;110;102;105;110;105;116;121;32;44;93];[34;34];[34;92;117;100;56;51;100;34;34;1;34];[116;114;117;49;101];[46;53;56];[34;92;110;34;34;92;117;100;56;51;100;92;117;100;101;48;48;34];[34;92;117;48;48;52;49;34;48;49];[123;34;97;34;58;32;123;34;98;34;58;32;55;51;49;55;49;53;54;48;49;56;53;53;50;50;57;53;57;49;50;49;44;34;92;47;34;32;34;97;34;58;32;50;54;57;57;50;55;56;57;49;56;48;50;56;54;56;57;125;125];[34;92;117;55;48;101;99;34];[91;110;117;108;108;44;32;110;34;117;108;108;93];[34;92;120;34;65279];[91;44;93];[91;32;44;49;44;73;110;102;105;110;105;116;121;93];[34;1;34;34;92;117;43;49;50;51;34;34;92;117;100;56;51;100;34];[91;34;92;117;100;56;51;100;92;117;34;32;44;13;44;48;44;93];[91;93];[116;114;117;101];[45;56;55;53;56;54];[91;93];[34;92;120;34];[93;34;92;117;100;56;51;100;34];[45;48;65279];[11;45;48];[91;93];[91;93];[34;55357;37;34];[34;92;117;100;101;48;48;34];[91;34;92;117;100;56;51;100;92;117;48;48;52;49;34;44;34;92;117;100;56;51;100;34;44;44;32;93];[91;34;1;34;44;49;46;101;93];[91;49;69;43;50;44;49;93];[91;78;97;78;32;44;123;32;44;116;114;117;101;93];[34;34];[50;34;92;117;100;56;51;100;34];[123];[116;114;117;101];[91;93;34;92;47;34];[91;34;92;117;100;56;51;100;92;117;100;101;48;48;34;93];[91;65279;44;34;92;117;43;49;50;51;34;44;78;97;78;32;44;93];[91;45;49;102;97;108;115;101];[123;34;34;58;32;51;57;50;57;54;54;53;44;32;34;98;97;34;58;32;52;125];[123;34;97;56;59;34;58;32;102;97;108;115;101;44;32;34;34;58;32;51;125];[34;92;117;100;101;48;48;34;58];[91;44;93];[91;93;44;34;97;34;44;10;32;93];[65279];[91;45;53;54;51;56;54;50;55;56;53;49;56;50;51;50;53;46;53;51;54;51;57;93];[45;34;34;58;32;123;34;98;98;34;58;32;91;93;125;125];[34;92;117;100;56;51;100;120;34;91;34;34];[34;98;34;50;46;32];[91;49;44;48;49;32;44;110;117;108;93];[91;32;44;32;32;44;93];[91;123;125;93];[91;46;53;32;44;45;32;93];[123];[91;34;98;34;44;34;92;117;100;56;51;100;92;117;100;101;48;48;34;32;93];[34;92;120;34;34;92;110;34];[91;93;125];[123;110;117;108];[123];[123;34;97;97;97;34;58;32;91;91;93;93;44;32;34;34;58;32;91;34;92;117;100;101;48;48;34;93;125];[53];[34;98;34]]
  = [Err JSONDecodeError;Err JSONDecodeError;Err JSONDecodeError;Ok (PStr [202]);Err JSONDecodeError;Ok (PList []);Err JSONDecodeError;Err JSONDecodeError;Err JSONDecodeError;Ok (PFloat [73;110;102;105;110;105;116;121]);Err JSONDecodeError;Ok (PList [PStr [10]]);Ok (PInt (-9559066738181768));Ok (PBool false);Ok (PInt (6));Err JSONDecodeError;Err JSONDecodeError;Err JSONDecodeError;Err JSONDecodeError;Ok (PStr [128512]);Err JSONDecodeError;Err JSONDecodeError;Err JSONDecodeError;Err JSONDecodeError;Err JSONDecodeError;Ok (PStr [483;117;92]);Err JSONDecodeError;Err JSONDecodeError;Err JSONDecodeError;Err JSONDecodeError;Ok (PList [PDict [([97;97],PBool true)]]);Err JSONDecodeError;Ok (PInt (5));Err JSONDecodeError;Err JSONDecodeError;Err JSONDecodeError;Ok (PInt (-5069504525));Err JSONDecodeError;Ok (PStr [110;7635;44]);Err JSONDecodeError;Err JSONDecodeError;Ok (PBool true);Err JSONDecodeError;Ok (PStr [47]);Err JSONDecodeError;Err JSONDecodeError;Ok (PList []);Err JSONDecodeError;Ok (PList [PFloat [73;110;102;105;110;105;116;121];PFloat [73;110;102;105;110;105;116;121]]);Err JSONDecodeError;Err JSONDecodeError;Err JSONDecodeError;Err JSONDecodeError;Err JSONDecodeError;Err JSONDecodeError;Ok (PList []);Err JSONDecodeError;Ok (PInt (17831909602386));Err JSONDecodeError;Ok (PFloat [49;46;53]);Err JSONDecodeError;Ok (PList []);Err JSONDecodeError;Ok (PBool true);Ok (PStr [372904;906322;57324]);Err JSONDecodeError;Ok (PList []);Err JSONDecodeError;Ok (PStr [76;67]);Err JSONDecodeError;Ok (PBool false);Err JSONDecodeError;Err JSONDecodeError;Ok (PList [PStr [55357;65];PStr [55357]]);Err JSONDecodeError;Err JSONDecodeError;Err JSONDecodeError;Ok (PFloat [49;69;43;50]);Err JSONDecodeError;Ok (PList []);Ok (PStr [56832]);Ok (PList [PFloat [49;46;53]]);Err JSONDecodeError;Err JSONDecodeError;Ok (PList []);Err JSONDecodeError;Err JSONDecodeError;Err JSONDecodeError;Err JSONDecodeError;Ok (PList []);Err JSONDecodeError;Err JSONDecodeError;Ok (PList [PFloat [49;69;43;50]]);Ok (PList [PBool false;PInt (6);PStr [47;828;34]]);Err JSONDecodeError;Err JSONDecodeError;Ok (PFloat [49;101;53]);Err JSONDecodeError;Ok (PList [PDict [([66],PBool false)];PDict []]);Err JSONDecodeError;Ok (PList [PStr []]);Err JSONDecodeError;Ok (PDict [([98;98],PDict [([],PDict [])]);([97;98;665],PInt (6147028043697))]);Ok (PFloat [49;46;53]);Ok (PInt (1));Ok (PStr [55357;65]);Ok (PList []);Ok (PStr [97]);Err JSONDecodeError;Err JSONDecodeError;Err JSONDecodeError;Ok (PInt (4));Err JSONDecodeError;Ok (PStr [34;47;34]);Err JSONDecodeError;Ok (PDict [([506058;98;97],PNone);([98],PStr [98;47;34;10])]);Err JSONDecodeError;Ok (PDict []);Err JSONDecodeError;Ok (PList [PBool false]);Ok (PList []);Err JSONDecodeError;Err JSONDecodeError;Ok (PInt (0));Err JSONDecodeError;Ok (PList []);Err JSONDecodeError;Err JSONDecodeError;Err JSONDecodeError;Err JSONDecodeError;Ok (PInt (-35576833459189184382));Err JSONDecodeError;Ok (PBool true);Ok (PList []);Err JSONDecodeError;Ok (PList []);Err JSONDecodeError;Err JSONDecodeError;Ok (PDict [([],PDict [([97],PList [PStr [92];PBool false;PBool true]);([],PList [PBool true;PBool false;PInt (-4068665075397)])])]);Err JSONDecodeError;Err JSONDecodeError;Err JSONDecodeError;Err JSONDecodeError;Ok (PList []);Err JSONDecodeError;Ok (PList [PStr [55357;65];PFloat [45;73;110;102;105;110;105;116;121]]);Err JSONDecodeError;Err JSONDecodeError;Ok (PStr [55561;16;50]);Err JSONDecodeError;Err JSONDecodeError;Err JSONDecodeError;Err JSONDecodeError;Err JSONDecodeError;Ok (PNone);Err JSONDecodeError;Ok (PBool true);Err JSONDecodeError;Ok (PList [PNone;PDict [([98],PDict []);([98;98],PInt (-3433987780488))];PInt (8230405755674275189)]);Err JSONDecodeError;Err JSONDecodeError;Err JSONDecodeError;Ok (PBool true);Err JSONDecodeError;Err JSONDecodeError;Ok (PStr [55357]);Err JSONDecodeError;Err JSONDecodeError;Ok (PList [PFloat [49;69;43;50];PInt (0)]);Err JSONDecodeError;Ok (PList [PStr [47];PNone]);Err JSONDecodeError;Err JSONDecodeError;Err JSONDecodeError;Ok (PDict [([56;97],PInt (-67519629039294));([80],PList [PList [];PBool true])]);Err JSONDecodeError;Ok (PList []);Err JSONDecodeError;Err JSONDecodeError;Ok (PBool false);Err JSONDecodeError;Ok (PBool false);Err JSONDecodeError;Err JSONDecodeError;Err JSONDecodeError;Ok (PStr []);Err JSONDecodeError;Err JSONDecodeError;Err JSONDecodeError;Err JSONDecodeError;Ok (PInt (1533711241821818529));Err JSONDecodeError;Ok (PNone);Err JSONDecodeError;Err JSONDecodeError;Err JSONDecodeError;Err JSONDecodeError;Err JSONDecodeError;Err JSONDecodeError;Err JSONDecodeError;Err JSONDecodeError;Ok (PList []);Ok (PStr []);Ok (PList [PStr [56832]]);Err JSONDecodeError;Err JSONDecodeError;Err JSONDecodeError;Err JSONDecodeError;Err JSONDecodeError;Ok (PList [PInt (3)]);Ok (PList []);Err JSONDecodeError;Err JSONDecodeError;Ok (PInt (8));Err JSONDecodeError;Err JSONDecodeError;Ok (PList []);Ok (PStr []);Ok (PInt (1));Ok (PList [PStr [128512]]);Ok (PList [PStr [55357;65]]);Err JSONDecodeError;Err JSONDecodeError;Err JSONDecodeError;Err JSONDecodeError;Err JSONDecodeError;Ok (PList []);Err JSONDecodeError;Ok (PList [PBool false]);Err JSONDecodeError;Err JSONDecodeError;Err JSONDecodeError;Ok (PDict [([715706;97],PInt (5));([],PList [PBool false]);([98;98;97],PStr [97])]);Err JSONDecodeError;Err JSONDecodeError;Ok (PList [PList [PStr [];PDict [([98;98;21495],PInt (1));([],PStr [])]];PDict [([],PDict [([98;98;97],PBool false);([98;98;56459],PStr [])])];PBool true]);Err JSONDecodeError;Ok (PList [PList [PDict [([1521;98],PBool true)];PNone];PStr [97;92;92];PBool false]);Err JSONDecodeError;Ok (PStr []);Err JSONDecodeError;Err JSONDecodeError;Err JSONDecodeError;Err JSONDecodeError;Err JSONDecodeError;Err JSONDecodeError;Ok (PStr [28908]);Err JSONDecodeError;Err JSONDecodeError;Err JSONDecodeError;Err JSONDecodeError;Err JSONDecodeError;Err JSONDecodeError;Ok (PList []);Ok (PBool true);Ok (PInt (-87586));Ok (PList []);Err JSONDecodeError;Err JSONDecodeError;Err JSONDecodeError;Err JSONDecodeError;Ok (PList []);Ok (PList []);Ok (PStr [55357;37]);Ok (PStr [56832]);Err JSONDecodeError;Err JSONDecodeError;Ok (PList [PFloat [49;69;43;50];PInt (1)]);Err JSONDecodeError;Ok (PStr []);Err JSONDecodeError;Err JSONDecodeError;Ok (PBool true);Err JSONDecodeError;Ok (PList [PStr [128512]]);Err JSONDecodeError;Err JSONDecodeError;Ok (PDict [([],PInt (3929665));([98;97],PInt (4))]);Ok (PDict [([97;56;59],PBool false);([],PInt (3))]);Err JSONDecodeError;Err JSONDecodeError;Err JSONDecodeError;Err JSONDecodeError;Ok (PList [PFloat [45;53;54;51;56;54;50;55;56;53;49;56;50;51;50;53;46;53;51;54;51;57]]);Err JSONDecodeError;Err JSONDecodeError;Err JSONDecodeError;Err JSONDecodeError;Err JSONDecodeError;Ok (PList [PDict []]);Err JSONDecodeError;Err JSONDecodeError;Ok (PList [PStr [98];PStr [128512]]);Err JSONDecodeError;Err JSONDecodeError;Err JSONDecodeError;Err JSONDecodeError;Ok (PDict [([97;97;97],PList [PList []]);([],PList [PStr [56832]])]);Ok (PInt (5));Ok (PStr [98])].
Proof. vm_compute. reflexivity. Qed.

(** [urllib.parse.parse_qsl] *)
Example std_parse_qsl : map parse_qsl
  [[97;69;49;51;99;50;32];[59;99;82;61;122;269;99];[122];[56;61;37;61;97;122;98;21];[97;97];[85;43;43;32;97;37];[117;50;37];[57;43;99];[32;98;37;32;37;51;38];[61];[43;364;1674;43;69;37;50;97;51;122];[43;38;69;52;52];[32;50;41;32;122;37;51;61;69];[98;56;98;50;97;70;69;32;59;94;61];[368580;97;56;49];[49;49;50;50;37;61;50;49;122;99;38;59];[];[32;69];[43;37;59;29853;97;49];[37;117;52;97;50;50;122;50;57;112;50;37];[97;37;1028064;37;49;37;69;43];[];[37;50;50];[97;59;69;98;1442;51;50;61];[37;939355;37;1313;37;43;59;61];[98;122;122;97;37;61;37;49;32;59];[50;99;97;61];[57;122];[27469;57;136300];[];[37;69];[122;56;37;97;59;98;99;97;38;484920];[56;37;122;37];[37;49;59;43;97;43;59;122;50];[37;49;43;56;122;43;177;107445;97;97];[59;79;32;37;98];[97];[56;37;61;51];[122;56;56;52;38;37;99;51;99;57];[50];[52;43;37;37;37;14;229;105;59;74;122];[32];[103;69;1094433;37;37;52];[38;37;43;37;37];[37;76;122;82];[50;59;612;52;50];[37;76;49;25;98];[37;786250;37;98;97;8552;37;98;37;98];[51;99;98;59;37];[98;56;97;56;37;26517;52;99;24;50];[8243;37;37;13;1599;37;57;39;38;43];[97;54;56;25772;37;109;50;37;56;635374;37;37];[57;37];[50;32;99;37;37;122;37011;37;69];[56;95;43;32;57;51;98;37;833709];[37;1195];[98;59;49;99];[38;122;43;99;38;37];[82;37;37;41;779;180788];[122;69;1089;37;101;37;37];[122;50;122;98;69;98;37;57];[];[37;43];[122;97;37;38;97;69;61;71;37;122;61];[69;98;50;37;97;38;37];[98;99];[122;122;37;57;98];[61;59;70;122;52;61;37;37;50;49;97];[53;37;120];[37;97];[122;661096;97;56;37;37];[49;56;37];[122;56];[37];[90;122;1100;70;51;1427;37];[43;37;50;59;1033;43;97;97];[50;43;37;41;50;32];[37;50;38;97;1266];[61;44;57;49;15;52;50];[];[38;50;99;66];[43;61;49;37;52;37;122;49];[69;38;116;97;37;37;122];[37];[];[56;97;59;122;97;69;56;97;43;50];[37;92];[32;37;37;606573;18];[43;66;76;43;41;52;69;51189;49;50;138573;37];[50;17;37;37;32;37;99;56;50;50];[311948;56;37;37;105;50;99;37];[49;37;122;59;56;13;37;37;20979];[50;99];[167893;61;32;107;122];[52;73;69];[];[57;56;56;37;98;97;59;83];[];[37;37;69;50;51;61];[38;26;81];[37;86;52;180;52;97];[51;32;37;59;122];[];[51;122;56;1090;57;6;51;52;97;57;50;57];[37;57;32;37;50;37;88;166;37;37;61;122];[97;50];[56;49;97;101;56;51;50;37;97;97];[37;37];[20;37;32;97;99;50;52;59;69;98;43];[37;50;37;119;37;32;22178;69;52;74];[];[52;50;59;57;38;37;97];[97;978725;37;37;97;1311];[50;59;37;122;43;50;97;38;69;37];[37;37;50;49;52;50;122;38];[37;344;91;37;37;61;51;45561];[871679;37;57;37];[52];[97];[];[];[];[];[37];[38];[5;43;57;56;69;37;90;37;61;37;133908;37];[122;57;97;59;52;32;37;37];[122;56;57;59;38;37;102];[99;37;81;50;37;97;50;50;69];[];[43;12502;37;32458;508081];[];[51;723765;51;97;114;50;122;1324;57];[684543;122;98];[52];[97;50;59;69;69;51;50;56;98;38;52;32];[77;122;37;31;122;97];[97];[57;49;51;99;37];[37;99;98;35292;50];[52;56;38;38;59;79;69;97;37;97];[97];[37;56;49;98];[97];[57;32;50];[59;122;51;443;49;615;5467;43;373676;43;37];[98;50;82;70;37;52;98;61;51];[49;122;36959;122;49;14;51];[49];[37]]
  = [[];[([59;99;82],[122;269;99])];[];[([56],[37;61;97;122;98;21])];[];[];[];[];[];[];[];[];[([32;50;41;32;122;37;51],[69])];[];[];[([49;49;50;50;37],[50;49;122;99])];[];[];[];[];[];[];[];[];[];[([98;122;122;97;37],[37;49;32;59])];[];[];[];[];[];[];[];[];[];[];[];[([56;37],[51])];[];[];[];[];[];[];[];[];[];[];[];[];[];[];[];[];[];[];[];[];[];[];[];[];[];[([97;69],[71;37;122;61])];[];[];[];[([],[59;70;122;52;61;37;33;97])];[];[];[];[];[];[];[];[];[];[];[([],[44;57;49;15;52;50])];[];[];[([32],[49;37;52;37;122;49])];[];[];[];[];[];[];[];[];[];[];[];[([167893],[32;107;122])];[];[];[];[];[];[];[];[];[];[];[([37;57;32;37;50;37;88;166;37;37],[122])];[];[];[];[];[];[];[];[];[];[];[([37;344;91;37;37],[51;45561])];[];[];[];[];[];[];[];[];[];[([5;32;57;56;69;37;90;37],[37;133908;37])];[];[];[];[];[];[];[];[];[];[];[];[];[];[];[];[];[];[];[];[];[([98;50;82;70;75],[51])];[];[];[]].
Proof. vm_compute. reflexivity. Qed.

(** [urllib.parse.unquote_plus] *)
Example std_unquote_plus : map unquote_plus
  [[43;120;233;51];[52;52;233;120];[73;99;54;49;43];[99;37;99;99;4;32];[];[66;52;21;49;322959];[52;49];[52];[37;55477;49;233];[56673;51;233;1019;43];[49;37;37;32];[3;120;99;907;43];[];[37;57];[49;56420;43;49;120;37];[37;52;51798];[97;70];[52;100;1682;32];[52;233;43;32;49];[37;233;49;233;99];[51];[51;76;43];[];[49;120;21383];[32;162300;32;99];[];[51;120;233];[120;120;87;32];[52;52;49];[120;99;113;52];[52;120;97;43;49];[];[70;43;233;52];[43;37;49;92;54];[120;95;104;45;97];[52];[37;37;3;43];[45384;52;49;97];[37;233];[52;37;18;52];[24116;109;37;37;51;120];[43];[99;97;80];[];[97];[];[37;120;538332;120];[37];[];[];[43;233;11815;97];[233;43;114];[32;37;37;37;37];[];[51];[37;106;97];[49679;233];[43;51;49;51;49;76];[27834;97];[52];[43;61;120];[];[890718;43];[];[51;99];[51;17];[43;32;1997;43];[43;43;51;120;99];[];[4;32;28;66;37];[32;52;233];[52;352022];[37;10892;97;90;32;233];[120];[1772;233;102;37];[56487;120;97];[51;233];[97;233];[32];[37;99];[];[51;51;32;97];[51;43;37;32;37;37];[52;233;91;37;37;49];[31866;120;593012;72];[37;42;99;4687];[99;92;37;120;37];[52;37;99;49;32;51];[43;52;43;43;49;99];[];[43];[51;120;97];[];[120;233;37;233];[52;97;52;49;233];[];[37;49;233;32];[37;166;37;32;301622];[49;43];[];[233;59;32;37];[233;11];[37;51;49;37];[233;32;52];[120;929;120;37];[99;120;51;52];[37];[37;1663];[113;26738;51401;32];[52;43;43;49;37;52];[51;1794;120;52;99];[43];[43;52;32;68];[37;233;97];[107;460710;233;32;37;52];[];[37;120;49;869;97];[32];[56646;56714;52;43];[97;120;542;37;99;37];[120;43;120];[];[1191];[233;52;49];[32];[50];[49;49;49;233;51];[52;49];[49;32;99;97];[97;99;49;120;120];[119;99;120];[49];[52;32;49;32;49];[49;52;37;97;52];[49;43;52;32;37];[57002;37;782172];[97];[37;99;16827;125];[52;99;32;32;114;32];[];[];[];[32;1252;99;233];[37;43;97];[37;120];[37;233];[49;37;52];[43;116;97;80];[32];[55991;1839;52;37]]
  = [[32;120;233;51];[52;52;233;120];[73;99;54;49;32];[99;65533;4;32];[];[66;52;21;49;322959];[52;49];[52];[37;55477;49;233];[56673;51;233;1019;32];[49;37;37;32];[3;120;99;907;32];[];[37;57];[49;56420;32;49;120;37];[37;52;51798];[97;70];[52;100;1682;32];[52;233;32;32;49];[37;233;49;233;99];[51];[51;76;32];[];[49;120;21383];[32;162300;32;99];[];[51;120;233];[120;120;87;32];[52;52;49];[120;99;113;52];[52;120;97;32;49];[];[70;32;233;52];[32;37;49;92;54];[120;95;104;45;97];[52];[37;37;3;32];[45384;52;49;97];[37;233];[52;37;18;52];[24116;109;37;37;51;120];[32];[99;97;80];[];[97];[];[37;120;538332;120];[37];[];[];[32;233;11815;97];[233;32;114];[32;37;37;37;37];[];[51];[37;106;97];[49679;233];[32;51;49;51;49;76];[27834;97];[52];[32;61;120];[];[890718;32];[];[51;99];[51;17];[32;32;1997;32];[32;32;51;120;99];[];[4;32;28;66;37];[32;52;233];[52;352022];[37;10892;97;90;32;233];[120];[1772;233;102;37];[56487;120;97];[51;233];[97;233];[32];[37;99];[];[51;51;32;97];[51;32;37;32;37;37];[52;233;91;37;37;49];[31866;120;593012;72];[37;42;99;4687];[99;92;37;120;37];[52;65533;32;51];[32;52;32;32;49;99];[];[32];[51;120;97];[];[120;233;37;233];[52;97;52;49;233];[];[37;49;233;32];[37;166;37;32;301622];[49;32];[];[233;59;32;37];[233;11];[49;37];[233;32;52];[120;929;120;37];[99;120;51;52];[37];[37;1663];[113;26738;51401;32];[52;32;32;49;37;52];[51;1794;120;52;99];[32];[32;52;32;68];[37;233;97];[107;460710;233;32;37;52];[];[37;120;49;869;97];[32];[56646;56714;52;32];[97;120;542;37;99;37];[120;32;120];[];[1191];[233;52;49];[32];[50];[49;49;49;233;51];[52;49];[49;32;99;97];[97;99;49;120;120];[119;99;120];[49];[52;32;49;32;49];[49;52;65533];[49;32;52;32;37];[57002;37;782172];[97];[37;99;16827;125];[52;99;32;32;114;32];[];[];[];[32;1252;99;233];[37;32;97];[37;120];[37;233];[49;37;52];[32;116;97;80];[32];[55991;1839;52;37]].
Proof. vm_compute. reflexivity. Qed.

(** [urllib.parse.quote_plus with the safe characters of models/http.py 194] *)
Example std_location : map location
  [[58;64;91];[63];[1029;64];[64;37;63;36];[61;91];[38;35;63];[36;35;93;48;121];[38;37;43574;61];[];[88;36;97];[58;1530];[47;64;38;64];[37;63;93;37;1893;37];[58;58;35;15];[32;35;93;93;63];[38];[91;93;38;47;37];[56831];[];[33];[927446;33;64;64];[61];[37];[91;58];[47;37;33;91;36];[32;91;61;91;32;63];[36;38];[36;114;31;47;35];[37];[];[63;36;58];[101;58;37;63];[36;35;36;90;19567];[33;61];[38];[32;91;65;38;93;36];[35;47;32;60;88];[32;91];[37;114;33;36];[93;58;63];[];[36;1757;37];[32;37;36];[108;36;63];[38;32;38;37;32;63];[124;58;61;64;71];[32;36;47;362];[37;78471;93;1951;93];[91];[];[93;37];[47;24079;16896];[64;63;55747;20];[63;108];[25;32;36;33;55388];[47;63;63];[35];[86;44750;58;61;33];[61;33;37];[47;37];[93;63;38;93;37];[35;1395];[1338;58];[37];[];[35];[63];[1210;36;35];[35;37;32;47;37];[36;19511;58;35;36];[38;64;33;33;50;64];[47;231;37;32;74;33];[63;17];[47;37];[61]]
  = [Ok [58;64;91];Ok [63];Ok [37;68;48;37;56;53;64];Ok [64;37;63;36];Ok [61;91];Ok [38;35;63];Ok [36;35;93;48;121];Ok [38;37;37;69;65;37;65;56;37;66;54;61];Ok [];Ok [88;36;97];Ok [58;37;68;55;37;66;65];Ok [47;64;38;64];Ok [37;63;93;37;37;68;68;37;65;53;37];Ok [58;58;35;37;48;70];Ok [43;35;93;93;63];Ok [38];Ok [91;93;38;47;37];Err UnicodeEncodeError;Ok [];Ok [33];Ok [37;70;51;37;65;50;37;57;66;37;57;54;33;64;64];Ok [61];Ok [37];Ok [91;58];Ok [47;37;33;91;36];Ok [43;91;61;91;43;63];Ok [36;38];Ok [36;114;37;49;70;47;35];Ok [37];Ok [];Ok [63;36;58];Ok [101;58;37;63];Ok [36;35;36;90;37;69;52;37;66;49;37;65;70];Ok [33;61];Ok [38];Ok [43;91;65;38;93;36];Ok [35;47;43;37;51;67;88];Ok [43;91];Ok [37;114;33;36];Ok [93;58;63];Ok [];Ok [36;37;68;66;37;57;68;37];Ok [43;37;36];Ok [108;36;63];Ok [38;43;38;37;43;63];Ok [37;55;67;58;61;64;71];Ok [43;36;47;37;67;53;37;65;65];Ok [37;37;70;48;37;57;51;37;56;65;37;56;55;93;37;68;69;37;57;70;93];Ok [91];Ok [];Ok [93;37];Ok [47;37;69;53;37;66;56;37;56;70;37;69;52;37;56;56;37;56;48];Err UnicodeEncodeError;Ok [63;108];Err UnicodeEncodeError;Ok [47;63;63];Ok [35];Ok [86;37;69;65;37;66;66;37;56;69;58;61;33];Ok [61;33;37];Ok [47;37];Ok [93;63;38;93;37];Ok [35;37;68;53;37;66;51];Ok [37;68;52;37;66;65;58];Ok [37];Ok [];Ok [35];Ok [63];Ok [37;68;50;37;66;65;36;35];Ok [35;37;43;47;37];Ok [36;37;69;52;37;66;48;37;66;55;58;35;36];Ok [38;64;33;33;50;64];Ok [47;37;67;51;37;65;55;37;43;74;33];Ok [63;37;49;49];Ok [47;37];Ok [61]].
Proof. vm_compute. reflexivity. Qed.

(** [urllib.parse.urlencode] *)
Example std_urlencode : map urlencode_
  [[];[([61;32],[])];[([38;97;97;97],[97;61])];[([97],[])];[([38;97],[97;97;17]);([97],[38;32;61])];[([],[61;97;61;45228]);([61;38;32],[]);([32;61],[])];[([61;38;32],[32;61])];[([],[32;61;61]);([61;10448;37090;32],[97])];[([],[38;501616;21])];[([97;97;97;61],[]);([61;32;38;32],[]);([97],[38;20842;61;38])];[([38;97;32],[126])];[([61;38;544986;38],[97])];[([61;38;97],[97;32;97;32]);([38],[]);([38;10],[38;97;38;61])];[([97;32;38],[32]);([32;61],[61;539;38])];[([32;32],[38;21;50]);([],[38;97;32;61])];[];[([32;97;61],[]);([32;97;61;61],[38;1629;23;32])];[([97;61],[61;38]);([61],[97])];[([38],[38]);([],[97]);([38],[38;61;97;823663])];[([38;32;97],[32]);([32],[32])];[];[([32;32;97;97],[38;97;97;38])];[([32;97;97;61],[38;32;40])];[([38],[]);([38],[]);([],[32])];[];[([38;124],[61;50]);([],[61;32;38;32])];[([32],[38;61;32;37500]);([32;61;58],[61]);([32;38;32;38],[97])];[];[([32;38],[97;38;61;61]);([97;97],[32;32]);([61],[97;552;61;97])];[([61;61;38],[80;97;97]);([32;61;84],[97])];[];[([],[97;32]);([61],[61;38;80;1153]);([],[])];[([61;38],[97;137480;48402;61]);([61;32],[37;38]);([38;97;106],[32;97;179346;61])];[([104;32;97;38],[38;97]);([],[38;32;32]);([30816],[])];[([97;61;32],[61;48;30;89]);([],[97;61;97])];[([97;61],[38;32]);([],[])];[];[([32;34;24317;82],[38;32]);([38;32;61],[38;32;38;38]);([],[97;61])];[];[([38;97;38],[38;1075849;32])];[([32;97;32;97],[32;38])];[];[([32],[])];[([32;32;97],[]);([32],[97])];[([38;61;61],[38;32;32;679897])];[([32;61;97],[])];[([38;32;139389],[61;61;91;1318]);([32],[97;38;97;32]);([61;61;38],[61])];[([],[38]);([],[])];[([38;32],[32;38;61;61]);([32;1294;32;32],[]);([32;88;14],[61;32])];[([],[61;32]);([97;38;38;97],[])];[];[];[([97;38;1738;10],[])];[([],[97;97;1125;377673]);([],[])];[([67],[37;97;68]);([61],[32;36;8672]);([32;38;97],[61])];[([1129;38],[5;38;32])];[([72;32;5044],[38;38]);([],[61;32])];[([32;38;32;97],[97;97]);([97;32],[2045;97;38]);([32],[61;61])];[];[([38;97],[61;32;100]);([],[5;38;97])];[([38;97;97],[38;97])];[([38;38],[38]);([32],[61])];[];[([97;196],[32;97;38]);([61;97;89;61],[32]);([38],[38;38;38])];[([32;6],[38;464;61]);([],[32]);([97;38],[32;61;32;32])];[([],[61;103;32;38])];[];[([],[61])];[([32;38;32;38],[610;97;38]);([38],[61]);([61;32],[78;38;61])];[([38],[32;32;61]);([],[32;97;61;61]);([],[97;61])];[];[([42;61],[97;97]);([97],[84]);([],[61;38;125])];[([91;32;38],[38;73]);([61],[61;38;38]);([],[102])];[];[([38;32],[])]]
  = [Ok [];Ok [37;51;68;43;61];Ok [37;50;54;97;97;97;61;97;37;51;68];Ok [97;61];Ok [37;50;54;97;61;97;97;37;49;49;38;97;61;37;50;54;43;37;51;68];Ok [61;37;51;68;97;37;51;68;37;69;66;37;56;50;37;65;67;38;37;51;68;37;50;54;43;61;38;43;37;51;68;61];Ok [37;51;68;37;50;54;43;61;43;37;51;68];Ok [61;43;37;51;68;37;51;68;38;37;51;68;37;69;50;37;65;51;37;57;48;37;69;57;37;56;51;37;65;50;43;61;97];Ok [61;37;50;54;37;70;49;37;66;65;37;57;68;37;66;48;37;49;53];Ok [97;97;97;37;51;68;61;38;37;51;68;43;37;50;54;43;61;38;97;61;37;50;54;37;69;53;37;56;53;37;65;65;37;51;68;37;50;54];Ok [37;50;54;97;43;61;126];Ok [37;51;68;37;50;54;37;70;50;37;56;53;37;56;51;37;57;65;37;50;54;61;97];Ok [37;51;68;37;50;54;97;61;97;43;97;43;38;37;50;54;61;38;37;50;54;37;48;65;61;37;50;54;97;37;50;54;37;51;68];Ok [97;43;37;50;54;61;43;38;43;37;51;68;61;37;51;68;37;67;56;37;57;66;37;50;54];Ok [43;43;61;37;50;54;37;49;53;50;38;61;37;50;54;97;43;37;51;68];Ok [];Ok [43;97;37;51;68;61;38;43;97;37;51;68;37;51;68;61;37;50;54;37;68;57;37;57;68;37;49;55;43];Ok [97;37;51;68;61;37;51;68;37;50;54;38;37;51;68;61;97];Ok [37;50;54;61;37;50;54;38;61;97;38;37;50;54;61;37;50;54;37;51;68;97;37;70;51;37;56;57;37;56;53;37;65;70];Ok [37;50;54;43;97;61;43;38;43;61;43];Ok [];Ok [43;43;97;97;61;37;50;54;97;97;37;50;54];Ok [43;97;97;37;51;68;61;37;50;54;43;37;50;56];Ok [37;50;54;61;38;37;50;54;61;38;61;43];Ok [];Ok [37;50;54;37;55;67;61;37;51;68;50;38;61;37;51;68;43;37;50;54;43];Ok [43;61;37;50;54;37;51;68;43;37;69;57;37;56;57;37;66;67;38;43;37;51;68;37;51;65;61;37;51;68;38;43;37;50;54;43;37;50;54;61;97];Ok [];Ok [43;37;50;54;61;97;37;50;54;37;51;68;37;51;68;38;97;97;61;43;43;38;37;51;68;61;97;37;67;56;37;65;56;37;51;68;97];Ok [37;51;68;37;51;68;37;50;54;61;80;97;97;38;43;37;51;68;84;61;97];Ok [];Ok [61;97;43;38;37;51;68;61;37;51;68;37;50;54;80;37;68;50;37;56;49;38;61];Ok [37;51;68;37;50;54;61;97;37;70;48;37;65;49;37;65;52;37;56;56;37;69;66;37;66;52;37;57;50;37;51;68;38;37;51;68;43;61;37;50;53;37;50;54;38;37;50;54;97;106;61;43;97;37;70;48;37;65;66;37;66;50;37;57;50;37;51;68];Ok [104;43;97;37;50;54;61;37;50;54;97;38;61;37;50;54;43;43;38;37;69;55;37;65;49;37;65;48;61];Ok [97;37;51;68;43;61;37;51;68;48;37;49;69;89;38;61;97;37;51;68;97];Ok [97;37;51;68;61;37;50;54;43;38;61];Ok [];Ok [43;37;50;50;37;69;53;37;66;66;37;66;68;82;61;37;50;54;43;38;37;50;54;43;37;51;68;61;37;50;54;43;37;50;54;37;50;54;38;61;97;37;51;68];Ok [];Ok [37;50;54;97;37;50;54;61;37;50;54;37;70;52;37;56;54;37;65;65;37;56;57;43];Ok [43;97;43;97;61;43;37;50;54];Ok [];Ok [43;61];Ok [43;43;97;61;38;43;61;97];Ok [37;50;54;37;51;68;37;51;68;61;37;50;54;43;43;37;70;50;37;65;53;37;66;70;37;57;57];Ok [43;37;51;68;97;61];Ok [37;50;54;43;37;70;48;37;65;50;37;56;49;37;66;68;61;37;51;68;37;51;68;37;53;66;37;68;52;37;65;54;38;43;61;97;37;50;54;97;43;38;37;51;68;37;51;68;37;50;54;61;37;51;68];Ok [61;37;50;54;38;61];Ok [37;50;54;43;61;43;37;50;54;37;51;68;37;51;68;38;43;37;68;52;37;56;69;43;43;61;38;43;88;37;48;69;61;37;51;68;43];Ok [61;37;51;68;43;38;97;37;50;54;37;50;54;97;61];Ok [];Ok [];Ok [97;37;50;54;37;68;66;37;56;65;37;48;65;61];Ok [61;97;97;37;68;49;37;65;53;37;70;49;37;57;67;37;56;68;37;56;57;38;61];Ok [67;61;37;50;53;97;68;38;37;51;68;61;43;37;50;52;37;69;50;37;56;55;37;65;48;38;43;37;50;54;97;61;37;51;68];Ok [37;68;49;37;65;57;37;50;54;61;37;48;53;37;50;54;43];Ok [72;43;37;69;49;37;56;69;37;66;52;61;37;50;54;37;50;54;38;61;37;51;68;43];Ok [43;37;50;54;43;97;61;97;97;38;97;43;61;37;68;70;37;66;68;97;37;50;54;38;43;61;37;51;68;37;51;68];Ok [];Ok [37;50;54;97;61;37;51;68;43;100;38;61;37;48;53;37;50;54;97];Ok [37;50;54;97;97;61;37;50;54;97];Ok [37;50;54;37;50;54;61;37;50;54;38;43;61;37;51;68];Ok [];Ok [97;37;67;51;37;56;52;61;43;97;37;50;54;38;37;51;68;97;89;37;51;68;61;43;38;37;50;54;61;37;50;54;37;50;54;37;50;54];Ok [43;37;48;54;61;37;50;54;37;67;55;37;57;48;37;51;68;38;61;43;38;97;37;50;54;61;43;37;51;68;43;43];Ok [61;37;51;68;103;43;37;50;54];Ok [];Ok [61;37;51;68];Ok [43;37;50;54;43;37;50;54;61;37;67;57;37;65;50;97;37;50;54;38;37;50;54;61;37;51;68;38;37;51;68;43;61;78;37;50;54;37;51;68];Ok [37;50;54;61;43;43;37;51;68;38;61;43;97;37;51;68;37;51;68;38;61;97;37;51;68];Ok [];Ok [37;50;65;37;51;68;61;97;97;38;97;61;84;38;61;37;51;68;37;50;54;37;55;68];Ok [37;53;66;43;37;50;54;61;37;50;54;73;38;37;51;68;61;37;51;68;37;50;54;37;50;54;38;61;102];Ok [];Ok [37;50;54;43;61]].
Proof. vm_compute. reflexivity. Qed.

(** [the query of urllib.parse.urlsplit, None for ValueError] *)
Example std_urlsplit : map (fun x => if bad_netloc (clean_url x) then None else Some (url_query (clean_url x)))
  [[104;116;116;112;58;47;47;93;47;47];[104;116;116;112;58;47;47;58;104;47;38;104;93;58];[93;61;47];[104;116;45;49;58;47;58];[49;104;58;61;93;97;47;93;58;93;61;97];[38;104;116;38;91];[58;38;35;61;97];[104;116;116;112;58;47;47;104;47;47;93;35;116;104];[58;47];[61;116;35;91;58;97];[47;47;63;104;91;91;63;104];[49;104;58;58;61;47;104;47;47;35;104];[104;116;45;49;58];[47;47;35;38;97;97;58];[9;104;116;116;112;58;47;47;47;97;47;63];[9;104;116;116;112;58;47;47;47;35;47;47;104;35;104;35];[47;47;91;63;61;47];[104;116;45;49;58;116;47;97;47;47;47];[9;104;116;116;112;58;47;47];[58;116;58;93;104;47];[104;116;45;49;58;47;47;104;47];[104;116;45;49;58;47;47;91;63];[104;116;45;49;58;93;61;38;58;97;104;61;97;38];[];[47;47;38;97;91;61;47];[];[104;116;45;49;58;47;116;58;47;91;104;58;97;61];[47;47;58;97;91];[104;116;116;112;58;47;47;38;63;97;97;93;63;97];[38];[104;116;116;112;58];[104;116;45;49;58;47;97;63;63];[32;104;116;116;112;58;47;47;63;58;47];[9;104;116;116;112;58;47;47;61;61;93;63;97;93];[104;116;116;112;58;47;47;116;97;47;61];[58;35;38;47];[47];[104;116;116;112;58;58;63;104;38;104;63;35;91];[104;116;116;112;58;35;38;97;35;35;38];[9;104;116;116;112;58;47;47;116;104];[104;116;116;112;58;47;47;35];[104;116;116;112;58;47;47;47];[32;104;116;116;112;58;47;47];[47];[116];[104;116;116;112;58;47;47;91];[49;104;58;93];[93;97];[58;58;58;63;47;91;97;47];[9;104;116;116;112;58;47;47;58;47;38;116];[9;104;116;116;112;58;47;47;38;47];[32;104;116;116;112;58;47;47;47;47;93;58;38;97;47;47;61];[35;35;47];[9;104;116;116;112;58;47;47;97;63];[32;104;116;116;112;58;47;47;97;97];[32;104;116;116;112;58;47;47];[104;116;116;112;58;47;47;35;97;47;97];[104;116;116;112;58;116;93;97;93;116;63];[9;104;116;116;112;58;47;47;63;61;93;38;97];[9;104;116;116;112;58;47;47;58;38;38;91;97;47;116];[58];[91;97];[47;91;38];[9;104;116;116;112;58;47;47;61;47];[58;47;47];[58;91;58;61;61;47;38;104;116;47];[104;47;47;104;47;47;97;93;116];[35;61;97;35;63];[58;58;58;93;104;47;35;35;47;38];[58;47;97;35;104;93];[104;116;116;112;58;47;47;47;35];[104;116;116;112;58;47;47;58;47;47;47;61];[58;104];[97;63;47];[];[38;35;63;47;61;97;58];[9;104;116;116;112;58;47;47;61];[93;47;58;63;61;97;61;97];[49;104;58;35;97;116;91;47;104;97;38];[91;91;38;47;91;47;97;47];[47;47;47;63;93];[47;47;47;47;93;116;58;35];[97;38;97;63;91;63;116];[104;116;116;112;58;91;47;91;63;47;47;104;35];[49;104;58;35;58;47;63;38];[97;47;47;35;116;47;35;35;38];[104;116;116;112;58;47;97;93;61];[58;63;116;63;35];[58;97;38;47;91];[47;47;47;97;58];[58;47;97];[104;116;116;112;58;47;47;104];[32;104;116;116;112;58;47;47;58;104;38;61;93;63;93];[47;47];[9;104;116;116;112;58;47;47;47;116;63];[104;116;116;112;58;47;47;35;91];[47;47;104;97;97;38;91;97;47];[63];[];[104;116;45;49;58;38;104;91;63;91;91;97;91;91];[35;116;38;91;35;104];[49;104;58;35;61];[61;63;116;116;47];[47;58;97;116;104];[104;116;45;49;58;104];[47;47;47;35;58;58];[104;116;116;112;58;47;47;63;97];[47;47;47;47;93;35;93;35;35;104];[116;63];[35;63;47;61;91;63;91;38;104];[47;47;63;63;35;63;47;97;93];[58;116;47];[91;38];[58;47;61;61;116;91;97;47;35];[104;116;116;112;58;97;47;61;63];[104;116;116;112;58;47;47;58;38;38];[49;104;58;116;63;104;47;58;91;61;104;63];[104;116;45;49;58;47;93;58;35];[9;104;116;116;112;58;47;47;38;91;116;47];[49;104;58;61;58;38;63;47;63];[91];[104;116;116;112;58;47;47;35;63;116;47;91;35;47;58;58];[104;116;116;112;58;47;47;35;63;61;93];[47;47;61;104;91;104];[47;47;47];[63;47;58;47;58;61;63;93;61];[35;91;63;47];[58;58;47;97;35;104;47;35;47;58];[47;47;116;116;104;47];[35;61];[35;91;91;47;97;35;47];[104;116;116;112;58;58;61;61;58;47;93];[104;116;116;112;58;63;47;47];[97;47;93;38;38;116;61;47;47];[9;104;116;116;112;58;47;47];[47;47];[32;104;116;116;112;58;47;47;47;91;47;58;35;116;63;91];[104;116;45;49;58;97;35;61;47;47;38;97;38];[9;104;116;116;112;58;47;47;93;63;47;104;61];[58;35;116];[];[9;104;116;116;112;58;47;47;63];[58;61;47;47;47;93;61;93;58];[38;91;47;104];[49;104;58;63;104;38;47;47;116;116];[35];[91];[49;104;58;47];[104;116;45;49;58;104;47;35;58;97;38];[9;104;116;116;112;58;47;47;91;35;47;63]]
  = [None;Some [];Some [];Some [];Some [];Some [];Some [];Some [];Some [];Some [];Some [104;91;91;63;104];Some [];Some [];Some [];Some [];Some [];None;Some [];Some [];Some [];Some [];None;Some [];Some [];None;Some [];Some [];None;Some [97;97;93;63;97];Some [];Some [];Some [63];Some [58;47];None;Some [];Some [];Some [];Some [104;38;104;63];Some [];Some [];Some [];Some [];Some [];Some [];Some [];None;Some [];Some [];Some [47;91;97;47];Some [];Some [];Some [];Some [];Some [];Some [];Some [];Some [];Some [];Some [61;93;38;97];None;Some [];Some [];Some [];Some [];Some [];Some [];Some [];Some [];Some [];Some [];Some [];Some [];Some [];Some [47];Some [];Some [];Some [];Some [61;97;61;97];Some [];Some [];Some [93];Some [];Some [91;63;116];Some [47;47;104];Some [];Some [];Some [];Some [116;63];Some [];Some [];Some [];Some [];None;Some [];Some [];Some [];None;Some [];Some [];Some [91;91;97;91;91];Some [];Some [];Some [116;116;47];Some [];Some [];Some [];Some [97];Some [];Some [];Some [];Some [63];Some [];Some [];Some [];Some [];Some [];Some [104;47;58;91;61;104;63];Some [];None;Some [47;63];Some [];Some [];Some [];None;Some [];Some [47;58;47;58;61;63;93;61];Some [];Some [];Some [];Some [];Some [];Some [];Some [47;47];Some [];Some [];Some [];Some [];Some [];None;Some [];Some [];Some [];Some [];Some [];Some [104;38;47;47;116;116];Some [];Some [];Some [];Some [];None].
Proof. vm_compute. reflexivity. Qed.

(** [str.split(None, 1)] *)
Example std_split : map split_none1
  [[97;133;160;12288;99;10;9];[10;32;8203];[];[];[8203;160;98;11;160;98];[8195;9;97;160;28;8195];[11;133;10;160;99;98;11];[99;8195;9;97;133;10;10];[98];[10;28;8203;98;28;8195;8203];[98;32;8195;98;8203];[133;11;32;97;133;8203;97];[133];[97;99;10;98;99];[99];[];[];[99];[133;8203;32;8195];[97;10;133;160;160];[32;133;10];[160;97;160];[];[8203;12288;12288];[99;28;32;11;10;8195;133];[11;8195;8203;12288;12288;97];[32;10;8203];[10;133;8203;11;8203;10;97];[28;8203;9;9;8203];[8203;32];[28;8195];[10;12288;160;98];[97;11;12288;10;10;99];[133;11;98;32;28];[98];[10;10;9;32;12288];[98;32];[8195];[32;9;10;11;8195;8195];[12288;9;11;160;8203;9];[133];[28;160;133;32];[];[99];[32;32;9];[9;8203;8203;32;160;99;97];[160;9];[99;98;12288;11;9;8203;9];[28;99;98];[28;133;99];[];[11;8195];[160;133;98;99;28;12288];[8195];[28;97];[8195;97;8203;97];[];[10;133];[133;160];[12288;32;160;133;133;11;32];[10;133;133;99;9;28;32];[8195;9;10;9];[8203;11;11;99;8203;28;32];[160;32;32];[8195;28;8203;10;99;99;97];[8195;28;8203;9];[11;98];[133];[10;9;32];[];[];[9;32];[133];[9];[99;8195;8203];[32];[32;8195;28];[10;133;160];[12288];[8195;9;99];[9;11;99];[99];[8203;28];[11;11];[11;97;160;97;9;8203;99];[97;9];[9;9;10;12288];[97];[97];[];[8195;98;160;160;133];[98;98;8203;12288;12288];[8195;32;9;12288;11];[99;28;160;8203];[10;99];[133];[32;9;99;97];[9;11;12288;99];[8195;8195;99;8195;99;32];[97;133];[32;8203;99;98];[9;99;8203;9;12288;99];[32;98;133;99;99];[10;8203;12288];[160;12288;11;28;98];[99;8203;97;8203;160;98];[];[8195;9;12288;9];[133;10;8203;8203];[99;98;28;9;28;98];[133;11;160;28;11;97;8195];[8195;11;28;11;99];[8195];[];[9;9;8195;99;97;28];[99;8203;160;160;8195];[8203;12288;8203;32;8195];[133;28;9;99;10;11];[28;8203;160;12288];[10];[98;28;11;99;8203;98];[160];[8195];[32;9;11;97;8195;8195];[12288;133;11;8195;99];[160;9;11;11];[99];[8203];[160;10;28;9;8203;8203;32];[28];[8195;97;97;97;8203;8195];[133;32;32];[8195;97;8203;28;160;133];[98;133;10];[99;11;98];[9;97;8195;98;133;11;32];[12288;160;11;98];[11;12288;99;10;28;160;11];[9;32;8195;8195;8195;99;97];[99;9;97;133;133;97];[28;28;8195;97];[99];[9;8195;32;133];[99;99;97;28;8195;8195;11];[160];[28];[97;98;10;9;12288];[133;28;28];[11;97;8203;32;11;133;8203];[]]
  = [[[97];[99;10;9]];[[8203]];[];[];[[8203];[98;11;160;98]];[[97]];[[99;98]];[[99];[97;133;10;10]];[[98]];[[8203;98];[8203]];[[98];[98;8203]];[[97];[8203;97]];[];[[97;99];[98;99]];[[99]];[];[];[[99]];[[8203]];[[97]];[];[[97]];[];[[8203]];[[99]];[[8203];[97]];[[8203]];[[8203];[8203;10;97]];[[8203];[8203]];[[8203]];[];[[98]];[[97];[99]];[[98]];[[98]];[];[[98]];[];[];[[8203]];[];[];[];[[99]];[];[[8203;8203];[99;97]];[];[[99;98];[8203;9]];[[99;98]];[[99]];[];[];[[98;99]];[];[[97]];[[97;8203;97]];[];[];[];[];[[99]];[];[[8203];[99;8203;28;32]];[];[[8203];[99;99;97]];[[8203]];[[98]];[];[];[];[];[];[];[];[[99];[8203]];[];[];[];[];[[99]];[[99]];[[99]];[[8203]];[];[[97];[97;9;8203;99]];[[97]];[];[[97]];[[97]];[];[[98]];[[98;98;8203]];[];[[99];[8203]];[[99]];[];[[99;97]];[[99]];[[99];[99;32]];[[97]];[[8203;99;98]];[[99;8203];[99]];[[98];[99;99]];[[8203]];[[98]];[[99;8203;97;8203];[98]];[];[];[[8203;8203]];[[99;98];[98]];[[97]];[[99]];[];[];[[99;97]];[[99;8203]];[[8203];[8203;32;8195]];[[99]];[[8203]];[];[[98];[99;8203;98]];[];[];[[97]];[[99]];[];[[99]];[[8203]];[[8203;8203]];[];[[97;97;97;8203]];[];[[97;8203]];[[98]];[[99];[98]];[[97];[98;133;11;32]];[[98]];[[99]];[[99;97]];[[99];[97;133;133;97]];[[97]];[[99]];[];[[99;99;97]];[];[];[[97;98]];[];[[97;8203];[8203]];[]].
Proof. vm_compute. reflexivity. Qed.

(** [str(n)] *)
Example std_decimal : map dec_N
  [214861875433718480395049285;85069959;9879326682798;7863151565993032693078;839155831847245370369902;1;19081440614916410;1387610190654862996;4384159340312330446;35814;3083233791057215;876939561552096;6549358220;23072611352299970433989708481;63898;91339880344;53540;477;30269602307816897049;57084000441;947;11;65699547556;208598;321715723722;277064185954;3728890151816953;57791021850638;28865799307;764884878283031006;41299424808164599485;5716144668;868881207916710929;198604405783;526642572091580084;1;16072329948422404111]
  = [[50;49;52;56;54;49;56;55;53;52;51;51;55;49;56;52;56;48;51;57;53;48;52;57;50;56;53];[56;53;48;54;57;57;53;57];[57;56;55;57;51;50;54;54;56;50;55;57;56];[55;56;54;51;49;53;49;53;54;53;57;57;51;48;51;50;54;57;51;48;55;56];[56;51;57;49;53;53;56;51;49;56;52;55;50;52;53;51;55;48;51;54;57;57;48;50];[49];[49;57;48;56;49;52;52;48;54;49;52;57;49;54;52;49;48];[49;51;56;55;54;49;48;49;57;48;54;53;52;56;54;50;57;57;54];[52;51;56;52;49;53;57;51;52;48;51;49;50;51;51;48;52;52;54];[51;53;56;49;52];[51;48;56;51;50;51;51;55;57;49;48;53;55;50;49;53];[56;55;54;57;51;57;53;54;49;53;53;50;48;57;54];[54;53;52;57;51;53;56;50;50;48];[50;51;48;55;50;54;49;49;51;53;50;50;57;57;57;55;48;52;51;51;57;56;57;55;48;56;52;56;49];[54;51;56;57;56];[57;49;51;51;57;56;56;48;51;52;52];[53;51;53;52;48];[52;55;55];[51;48;50;54;57;54;48;50;51;48;55;56;49;54;56;57;55;48;52;57];[53;55;48;56;52;48;48;48;52;52;49];[57;52;55];[49;49];[54;53;54;57;57;53;52;55;53;53;54];[50;48;56;53;57;56];[51;50;49;55;49;53;55;50;51;55;50;50];[50;55;55;48;54;52;49;56;53;57;53;52];[51;55;50;56;56;57;48;49;53;49;56;49;54;57;53;51];[53;55;55;57;49;48;50;49;56;53;48;54;51;56];[50;56;56;54;53;55;57;57;51;48;55];[55;54;52;56;56;52;56;55;56;50;56;51;48;51;49;48;48;54];[52;49;50;57;57;52;50;52;56;48;56;49;54;52;53;57;57;52;56;53];[53;55;49;54;49;52;52;54;54;56];[56;54;56;56;56;49;50;48;55;57;49;54;55;49;48;57;50;57];[49;57;56;54;48;52;52;48;53;55;56;51];[53;50;54;54;52;50;53;55;50;48;57;49;53;56;48;48;56;52];[49];[49;54;48;55;50;51;50;57;57;52;56;52;50;50;52;48;52;49;49;49]].
Proof. vm_compute. reflexivity. Qed.

(** [n.to_bytes((n.bit_length() + 7) // 8, "big")] *)
Example std_be_bytes : map (fun n => be_bytes (byte_len n) n)
  [214861875433718480395049285;85069959;9879326682798;7863151565993032693078;839155831847245370369902;1;19081440614916410;1387610190654862996;4384159340312330446;35814;3083233791057215;876939561552096;6549358220;23072611352299970433989708481;63898;91339880344;53540;477;30269602307816897049;57084000441;947;11;65699547556;208598;321715723722;277064185954;3728890151816953;57791021850638;28865799307;764884878283031006;41299424808164599485;5716144668;868881207916710929;198604405783;526642572091580084;1;16072329948422404111]
  = [[177;186;197;155;66;25;216;109;100;25;69];[5;18;16;135];[8;252;53;193;238;174];[1;170;67;38;32;130;23;58;53;86];[177;178;186;146;114;236;135;156;39;110];[1];[67;202;120;25;167;161;58];[19;65;200;29;212;177;246;148];[60;215;169;177;22;7;0;206];[139;230];[10;244;47;78;224;29;63];[3;29;146;103;14;72;224];[1;134;95;70;140];[74;141;55;127;167;99;212;27;218;115;138;193];[249;154];[21;68;71;247;152];[209;36];[1;221];[1;164;19;58;236;121;197;58;25];[13;74;120;184;185];[3;179];[11];[15;75;255;137;164];[3;46;214];[74;231;192;93;202];[64;130;79;248;98];[13;63;103;228;231;206;249];[52;143;133;84;32;14];[6;184;137;36;139];[10;157;106;190;136;32;193;222];[2;61;37;8;12;158;155;38;189];[1;84;181;114;28];[12;14;226;218;229;227;76;17];[46;61;190;188;23];[7;79;2;161;9;29;222;180];[1];[223;12;98;238;232;150;248;15]].
Proof. vm_compute. reflexivity. Qed.

(** [bool(v)] *)
Example std_truthy : map truthy
  [(PInt (0));(PInt (1));(PList []);(PInt (0));(PStr []);(PInt (1));(PDict []);(PStr []);(PNone);(PNone);(PBool false);(PNone);(PDict []);(PInt (1));(PBool false);(PBool false);(PBool false);(PStr []);(PDict []);(PDict []);(PNone);(PInt (8));(PBool true);(PBool false);(PDict []);(PList []);(PInt (1));(PList []);(PStr []);(PList []);(PDict []);(PBool true);(PInt (0));(PInt (1));(PList []);(PStr []);(PStr []);(PDict []);(PDict []);(PList []);(PStr []);(PBool true);(PBool true);(PNone);(PStr []);(PBool false);(PDict []);(PDict []);(PStr []);(PList [PBool false;PStr [516005;34];PNone]);(PStr []);(PInt (0));(PDict [([98;97;98],PInt (1822125729777276455));([97],PInt (-105386621739));([8;97;98],PInt (-23153238551164595549))]);(PInt (0));(PList []);(PBool false);(PInt (1));(PInt (1));(PBool true);(PInt (0));(PList [PInt (4);PStr [34;98;97;117];PInt (2)]);(PList [PBool true;PInt (9);PInt (3)]);(PStr []);(PBool true);(PDict []);(PInt (1));(PInt (0));(PList []);(PBool true);(PDict []);(PInt (0));(PList [PList [PInt (1)]]);(PNone);(PStr []);(PInt (0))]
  = [false;true;false;false;false;true;false;false;false;false;false;false;false;true;false;false;false;false;false;false;false;true;true;false;false;false;true;false;false;false;false;true;false;true;false;false;false;false;false;false;false;true;true;false;false;false;false;false;false;true;false;false;true;false;false;false;true;true;true;false;true;true;false;true;false;true;false;false;true;false;false;true;false;false;false].
Proof. vm_compute. reflexivity. Qed.

(** [a == b] *)
Example std_eq : map (fun p => py_eq (fst p) (snd p))
  [(PDict [],PDict []);(PList [PBool false;PDict [([97],PBool true)]],PList [PInt (0);PDict [([97],PInt (1))]]);(PList [PInt (1);PBool true],PList [PInt (1);PBool true]);(PDict [([97],PInt (1));([98],PList [PInt (0)])],PDict [([98],PList [PBool false]);([97],PBool true)]);(PDict [([97],PInt (1));([98],PList [PInt (0)])],PDict [([98],PList [PBool false]);([97],PInt (1))]);(PDict [([97],PInt (1));([98],PList [PInt (0)])],PDict [([98],PList [PInt (0)]);([97],PInt (2))]);(PList [PBool false;PDict [([97],PBool true)]],PList [PInt (0);PDict [([97],PInt (1))]]);(PDict [([97],PInt (1));([98],PList [PInt (0)])],PDict [([97],PBool true);([98],PList [PInt (0)])]);(PList [PInt (1);PBool true],PList [PInt (1);PBool true]);(PList [PBool false;PDict [([97],PBool true)]],PList [PInt (0);PDict [([97],PBool true)]]);(PList [PBool false;PDict [([97],PBool true)]],PList [PBool false;PDict [([97],PBool true)]]);(PBool true,PInt (1));(PDict [([97],PInt (1));([98],PList [PInt (0)])],PDict [([98],PList [PBool false]);([97],PInt (1))]);(PDict [([97],PInt (1));([98],PList [PInt (0)])],PDict [([97],PInt (1));([98],PList [PInt (0)])]);(PList [PBool false;PDict [([97],PBool true)]],PList [PBool false;PDict [([97],PInt (1))]]);(PStr [92;10;56756],PStr [92;10;56756]);(PInt (0),PInt (0));(PList [PInt (1);PBool true],PList [PInt (1);PBool true]);(PDict [([97],PInt (1));([98],PList [PInt (0)])],PDict [([97],PInt (1));([98],PList [PInt (0)])]);(PDict [([97],PInt (1));([98],PList [PInt (0)])],PDict [([98],PList [PInt (0)]);([97],PInt (1))]);(PBool false,PBool false);(PList [PBool true],PList [PBool true]);(PBool true,PBool true);(PList [PBool false;PDict [([97],PBool true)]],PList [PInt (0);PDict [([97],PBool true)]]);(PBool false,PInt (0));(PList [PInt (6870855215)],PList [PInt (6870855215)]);(PStr [],PStr []);(PDict [([97],PInt (1));([98],PList [PInt (0)])],PDict [([98],PList [PInt (0)]);([97],PInt (1))]);(PBool false,PBool false);(PList [PInt (1);PBool true],PList [PBool true;PInt (1)]);(PDict [([97],PInt (1));([98],PList [PInt (0)])],PDict [([97],PInt (1));([98],PList [PInt (0)])]);(PDict [([97],PInt (1));([98],PList [PInt (0)])],PDict [([97],PInt (1));([98],PList [PInt (0)])]);(PList [PList [PBool false]],PList [PList [PBool false]]);(PList [PList []],PList [PList []]);(PStr [],PStr []);(PList [PStr [48546;1075;97];PList [PBool true]],PList [PStr [48546;1075;97];PList [PBool true]]);(PNone,PNone);(PList [PInt (1);PBool true],PList [PInt (1);PInt (1)]);(PBool false,PInt (0));(PList [PInt (1);PBool true],PList [PBool true]);(PStr [57316;470145],PStr [57316;470145]);(PBool true,PInt (1));(PDict [([97],PInt (1));([98],PList [PInt (0)])],PDict [([97],PInt (1));([98],PList [PInt (0)])]);(PDict [([97],PInt (1));([98],PList [PInt (0)])],PDict [([97],PInt (1));([98],PList [PInt (0)])]);(PDict [([98;97;98],PDict [([909],PNone);([],PInt (-67830015283077170400))])],PDict [([98;97;98],PDict [([909],PNone);([],PInt (-67830015283077170400))])]);(PList [PBool false;PDict [([97],PBool true)]],PList [PBool false;PDict [([97],PBool true)]]);(PInt (-6421659768689564),PInt (-6421659768689564));(PInt (5),PInt (5));(PDict [([26;97],PBool false);([],PStr [])],PDict [([26;97],PBool false);([],PStr [])]);(PList [PInt (1);PBool true],PList [PBool true;PInt (1)]);(PList [PBool false;PDict [([97],PBool true)]],PList [PInt (0);PDict [([97],PInt (1))]]);(PList [],PList []);(PList [PBool false;PDict [([97],PBool true)]],PList [PInt (0);PDict [([97],PBool true)]]);(PInt (6),PInt (6));(PDict [([97],PInt (1));([98],PList [PInt (0)])],PDict [([97],PInt (2));([98],PList [PInt (0)])]);(PList [PBool false;PDict [([97],PBool true)]],PList [PBool false;PDict [([97],PInt (1))]]);(PDict [([97],PInt (1));([98],PList [PInt (0)])],PDict [([97],PInt (1));([98],PList [PInt (0)])]);(PDict [([],PDict [([],PDict [([97],PNone)])])],PDict [([],PDict [([],PDict [([97],PNone)])])]);(PBool true,PInt (1));(PList [PStr [10;47;47]],PList [PStr [10;47;47]]);(PList [PInt (1);PBool true],PList [PInt (1);PBool true]);(PDict [([97],PInt (1));([98],PList [PInt (0)])],PDict [([97],PInt (1));([98],PList [PInt (0)])]);(PList [PDict [([],PBool false);([95],PNone)]],PList [PDict [([95],PNone);([],PInt (0))]]);(PList [PInt (1);PBool true],PList [PInt (1);PInt (1)]);(PBool true,PInt (1));(PList [PInt (1);PBool true],PList [PInt (1);PBool true]);(PList [PBool false;PDict [([97],PBool true)]],PList [PBool false;PDict [([97],PBool true)]]);(PNone,PNone);(PDict [([97],PInt (1));([98],PList [PInt (0)])],PDict [([97],PInt (1));([98],PList [PInt (0)])]);(PBool false,PInt (0));(PList [PBool false;PDict [([97],PBool true)]],PList [PBool false]);(PList [PInt (1);PBool true],PList [PBool true;PBool true]);(PDict [([97],PInt (1));([98],PList [PInt (0)])],PDict [([97],PInt (2));([98],PList [PBool false])]);(PStr [],PStr []);(PList [PInt (1);PBool true],PList [PBool true;PBool true])]
  = [true;true;true;true;true;false;true;true;true;true;true;true;true;true;true;true;true;true;true;true;true;true;true;true;true;true;true;true;true;true;true;true;true;true;true;true;true;true;true;false;true;true;true;true;true;true;true;true;true;true;true;true;true;true;false;true;true;true;true;true;true;true;true;true;true;true;true;true;true;true;false;true;false;true;true].
Proof. vm_compute. reflexivity. Qed.

(** [hashlib.sha256(data).digest()] *)
Example std_sha256 : map (sha SHA256)
  [[97;159;168;208;73;36;172;176;83;190;178;17;240;8;225;162;161;125;199;62;135;226;107;55;118;25;8;186;5;179;22;151;122;17;191;234;127;36;56;39;229;72;38;148;75;102;106;110;225;163;251;188;37;164;238;52;103;31;40;227;33;44;216;216;171;215;31;46;100;155;96;148;121;44;28;132;245;168;62;26;7;7;10;6;176;251;191;120;207;219;230;78;181;224;201;103;9;220;46;208;157;91;183;32;39;8;3;124;39;150;177;86;170;27;72;112;169;173;2;23;168];[167;171;47;65;247;39;234;85;20;45;43;103;76;116;127;151;151;173;79;77;128;161;10;28;227;75;25;204;15;140;245;60;48;79;175;141;132;51;24;175;47;59;177;216;69;188;0;232;221;73;135;31;241;86;32;143;74;108;76;0;74;232;195;93;204;186;86;48;252;19;10;205;150;60;92;138;45;3;37;164;205;27;143;130;78;192;45;242;153;255;73;109;100;165;105;179;214;59;235;242;106;116;70;188;230;116;255;23;181;28;143];[156;252;185;78;78;144;242;171;91;189;99;16;182;71;57;240;106;2;58;155;175;70;134;16;233;163;59;98;31;111;130;133;134;98;46;171;245;200;46;199;81;172;110;187;45;172;92;203;232;1;169;125;134;205;38;84;198;180;46;11;254;116;33;12;215;1;43;218;219;253;194;173;192;207;126;137;11;159;43;163;167;142;94;26;54;11;140]]
  = [[173;109;173;4;119;184;97;37;8;0;108;144;124;90;35;113;53;91;20;145;22;66;149;110;53;176;218;61;2;73;38;123];[143;72;11;3;38;234;77;34;11;253;176;239;216;63;243;168;113;39;33;82;203;206;75;26;216;211;206;149;40;191;154;80];[197;18;11;88;133;252;238;211;230;74;16;191;85;36;182;172;55;37;79;166;98;35;199;42;143;102;198;134;206;59;131;131]].
Proof. vm_compute. reflexivity. Qed.

(** [hmac.digest(key, data, "sha256")] *)
Example std_hmac_sha256 : map (fun p => hmac SHA256 (fst p) (snd p))
  [([116;160;56;240;113;190;64;253;174;64;252;158;220;241;195;21;239;205;245;57;248;220;22;138;235;232;1;241;212;201;220;20;90;153;79;56;3;71;149;159;223;247;17;25;84;74;46;239;117;89;88;61;126;179;245;188;168;200;175;14;199;223;222;222;119;219;121;95;55;170;5;202;9;164;207;128;219;7;176;0;8;232;151;193;91;110;22;149;41;95;77;88;172;168],[97;159;168;208;73;36;172;176;83;190;178;17;240;8;225;162;161;125;199;62;135;226;107;55;118;25;8;186;5;179;22;151;122;17;191;234;127;36;56;39;229;72;38;148;75;102;106;110;225;163;251;188;37;164;238;52;103;31;40;227;33;44;216;216;171;215;31;46;100;155;96;148;121;44;28;132;245;168;62;26;7;7;10;6;176;251;191;120;207;219;230;78;181;224;201;103;9;220;46;208;157;91;183;32;39;8;3;124;39;150;177;86;170;27;72;112;169;173;2;23;168]);([200;94;6;83;26;172;196;56;113;85;134;18;236;59;125;126;92;14;12;154;189;151;20;122;33;16;133;155;222;219;22;108;117;210;110;153;67;95;76;40;11;77;222;249;232;72;49;164;5;202;55;67;112;104;201;129;29;193;191;117;254;204;214;221;169;108;230;194;128;64;22;250;0;200;183;39;81;110;1;1;194;232],[167;171;47;65;247;39;234;85;20;45;43;103;76;116;127;151;151;173;79;77;128;161;10;28;227;75;25;204;15;140;245;60;48;79;175;141;132;51;24;175;47;59;177;216;69;188;0;232;221;73;135;31;241;86;32;143;74;108;76;0;74;232;195;93;204;186;86;48;252;19;10;205;150;60;92;138;45;3;37;164;205;27;143;130;78;192;45;242;153;255;73;109;100;165;105;179;214;59;235;242;106;116;70;188;230;116;255;23;181;28;143]);([34;78;169;206;21;232;40;99;63;224;186;142;36;47;104;28;238;121;55;68;145;153;87;10;69;229;219;194;49;31;195;222;46;42;24;223;126;147;13;127;182;242;125],[156;252;185;78;78;144;242;171;91;189;99;16;182;71;57;240;106;2;58;155;175;70;134;16;233;163;59;98;31;111;130;133;134;98;46;171;245;200;46;199;81;172;110;187;45;172;92;203;232;1;169;125;134;205;38;84;198;180;46;11;254;116;33;12;215;1;43;218;219;253;194;173;192;207;126;137;11;159;43;163;167;142;94;26;54;11;140])]
  = [[100;231;137;45;160;202;37;115;69;208;131;151;67;226;135;121;61;44;76;32;222;245;39;81;119;239;44;101;185;61;252;52];[187;152;214;34;230;124;6;119;9;99;67;247;112;10;109;114;70;45;44;186;116;31;237;29;17;27;154;30;194;149;137;95];[111;94;243;145;3;59;15;208;74;25;17;30;55;129;59;93;108;249;153;38;86;129;133;103;252;139;68;228;131;230;81;253]].
Proof. vm_compute. reflexivity. Qed.

(** [hashlib.sha384(data).digest()] *)
Example std_sha384 : map (sha SHA384)
  [[97;159;168;208;73;36;172;176;83;190;178;17;240;8;225;162;161;125;199;62;135;226;107;55;118;25;8;186;5;179;22;151;122;17;191;234;127;36;56;39;229;72;38;148;75;102;106;110;225;163;251;188;37;164;238;52;103;31;40;227;33;44;216;216;171;215;31;46;100;155;96;148;121;44;28;132;245;168;62;26;7;7;10;6;176;251;191;120;207;219;230;78;181;224;201;103;9;220;46;208;157;91;183;32;39;8;3;124;39;150;177;86;170;27;72;112;169;173;2;23;168];[167;171;47;65;247;39;234;85;20;45;43;103;76;116;127;151;151;173;79;77;128;161;10;28;227;75;25;204;15;140;245;60;48;79;175;141;132;51;24;175;47;59;177;216;69;188;0;232;221;73;135;31;241;86;32;143;74;108;76;0;74;232;195;93;204;186;86;48;252;19;10;205;150;60;92;138;45;3;37;164;205;27;143;130;78;192;45;242;153;255;73;109;100;165;105;179;214;59;235;242;106;116;70;188;230;116;255;23;181;28;143];[156;252;185;78;78;144;242;171;91;189;99;16;182;71;57;240;106;2;58;155;175;70;134;16;233;163;59;98;31;111;130;133;134;98;46;171;245;200;46;199;81;172;110;187;45;172;92;203;232;1;169;125;134;205;38;84;198;180;46;11;254;116;33;12;215;1;43;218;219;253;194;173;192;207;126;137;11;159;43;163;167;142;94;26;54;11;140]]
  = [[177;48;213;192;127;189;156;240;215;3;251;132;190;103;17;60;25;199;224;131;227;159;105;94;157;109;129;193;74;104;123;68;2;88;91;139;219;68;252;85;137;29;170;199;228;56;133;185];[79;169;186;31;100;182;13;133;212;193;99;101;162;86;198;64;114;236;182;79;255;129;130;120;128;66;107;204;112;168;143;159;55;144;42;30;43;173;188;36;225;181;40;126;199;238;31;155];[37;13;77;52;249;109;119;114;71;52;250;40;161;31;103;252;89;162;78;10;116;243;102;59;54;26;32;225;2;52;216;21;171;132;126;72;145;84;191;43;128;56;115;134;193;203;236;235]].
Proof. vm_compute. reflexivity. Qed.

(** [hmac.digest(key, data, "sha384")] *)
Example std_hmac_sha384 : map (fun p => hmac SHA384 (fst p) (snd p))
  [([148;21;94;33;63;223;37;173;35;99;128;97;183;159;222;158;98;206;69;247;191;241;245;232;210;169;166;151;54;62;149;93;8;173;152;147;236;6;137;13;181;159;47;60;60;11;147;72;76;21;9;135;34;114;198;43;236;161;131;25;20;50;97;89;222;60;57;247;39;251;93;48;13;217;160;90;81;90;128;150;32;27;65;77;192;181;51;234;51;99;178;245;236;29;195;241;223;191;150;91],[97;159;168;208;73;36;172;176;83;190;178;17;240;8;225;162;161;125;199;62;135;226;107;55;118;25;8;186;5;179;22;151;122;17;191;234;127;36;56;39;229;72;38;148;75;102;106;110;225;163;251;188;37;164;238;52;103;31;40;227;33;44;216;216;171;215;31;46;100;155;96;148;121;44;28;132;245;168;62;26;7;7;10;6;176;251;191;120;207;219;230;78;181;224;201;103;9;220;46;208;157;91;183;32;39;8;3;124;39;150;177;86;170;27;72;112;169;173;2;23;168]);([77;215;248;171;132;45;149;38;246;40;91;205;37;252;167;182;25;218;237;197;180;202;199;94;181;158;197;242;92;250;232;97;159;151;235;247;65;224;111;205;168;154;88;16;232;164;156;178;111;237;143;11;179;109;245;227;79;73;50;167;53;178;174;56;128;165;69;185;82;181;77;110;172;31;152;184;14;182;179;186;125;98;243;142;65;3;121;102;101;100;200;35;3;113;42;218;28;247;109;34;200;158;177;37;110;17;76;185;216;52;232;60;71;82;7;214;195],[167;171;47;65;247;39;234;85;20;45;43;103;76;116;127;151;151;173;79;77;128;161;10;28;227;75;25;204;15;140;245;60;48;79;175;141;132;51;24;175;47;59;177;216;69;188;0;232;221;73;135;31;241;86;32;143;74;108;76;0;74;232;195;93;204;186;86;48;252;19;10;205;150;60;92;138;45;3;37;164;205;27;143;130;78;192;45;242;153;255;73;109;100;165;105;179;214;59;235;242;106;116;70;188;230;116;255;23;181;28;143]);([77;233;51;175;117;56;17;134;48;217;248;76;25;146;243;109;224;13;128;27;64;4;147;210;86;71;28;100;44;86;92;78;168;249;181;236;236;114;160;254;198;133;74;227;140;190;128;179;221;73;22;154;229;21;229;38;67;92;65;202;127;198;120;150;118;90;77;208;17;207;2;98;247;138;58;183;80;142;83;84;146;251;151;155;106;189;251;135;128;82;95;238;92;100;83;72;106;16;70;248;228;41;207;21;3;232;236;54;233;217;228;164;161;16;48;43;133;191;17;151;135;126],[156;252;185;78;78;144;242;171;91;189;99;16;182;71;57;240;106;2;58;155;175;70;134;16;233;163;59;98;31;111;130;133;134;98;46;171;245;200;46;199;81;172;110;187;45;172;92;203;232;1;169;125;134;205;38;84;198;180;46;11;254;116;33;12;215;1;43;218;219;253;194;173;192;207;126;137;11;159;43;163;167;142;94;26;54;11;140])]
  = [[206;96;44;11;246;96;226;244;180;188;201;75;51;133;83;248;193;16;105;244;106;245;184;131;67;115;180;168;241;18;166;33;90;209;32;117;190;124;185;168;195;141;143;22;68;144;68;127];[136;198;159;206;183;162;126;90;4;221;228;138;87;77;178;4;66;94;148;48;64;248;75;248;66;186;111;239;218;10;235;236;104;164;46;8;228;18;181;11;24;2;225;146;136;94;202;114];[7;6;177;23;187;144;48;57;193;236;146;3;222;75;18;154;121;188;148;24;223;27;251;66;60;178;6;42;34;76;95;110;250;108;13;24;21;174;9;239;70;94;120;72;77;127;213;251]].
Proof. vm_compute. reflexivity. Qed.

(** [hashlib.sha512(data).digest()] *)
Example std_sha512 : map (sha SHA512)
  [[97;159;168;208;73;36;172;176;83;190;178;17;240;8;225;162;161;125;199;62;135;226;107;55;118;25;8;186;5;179;22;151;122;17;191;234;127;36;56;39;229;72;38;148;75;102;106;110;225;163;251;188;37;164;238;52;103;31;40;227;33;44;216;216;171;215;31;46;100;155;96;148;121;44;28;132;245;168;62;26;7;7;10;6;176;251;191;120;207;219;230;78;181;224;201;103;9;220;46;208;157;91;183;32;39;8;3;124;39;150;177;86;170;27;72;112;169;173;2;23;168];[167;171;47;65;247;39;234;85;20;45;43;103;76;116;127;151;151;173;79;77;128;161;10;28;227;75;25;204;15;140;245;60;48;79;175;141;132;51;24;175;47;59;177;216;69;188;0;232;221;73;135;31;241;86;32;143;74;108;76;0;74;232;195;93;204;186;86;48;252;19;10;205;150;60;92;138;45;3;37;164;205;27;143;130;78;192;45;242;153;255;73;109;100;165;105;179;214;59;235;242;106;116;70;188;230;116;255;23;181;28;143];[156;252;185;78;78;144;242;171;91;189;99;16;182;71;57;240;106;2;58;155;175;70;134;16;233;163;59;98;31;111;130;133;134;98;46;171;245;200;46;199;81;172;110;187;45;172;92;203;232;1;169;125;134;205;38;84;198;180;46;11;254;116;33;12;215;1;43;218;219;253;194;173;192;207;126;137;11;159;43;163;167;142;94;26;54;11;140]]
  = [[18;69;186;217;139;37;142;74;121;85;85;221;194;181;205;206;77;87;177;218;126;80;177;239;88;16;211;129;192;30;152;209;53;53;152;93;65;150;229;243;99;26;191;250;214;49;251;47;4;222;136;42;63;97;113;128;9;180;85;46;242;143;212;67];[186;41;86;160;161;193;216;11;67;190;58;200;73;173;183;37;60;147;15;127;225;92;101;117;175;139;46;215;14;27;19;239;68;199;99;179;151;89;224;103;250;161;76;174;107;173;24;67;220;222;0;39;251;84;221;198;63;102;183;1;64;248;4;77];[20;102;143;240;155;193;133;176;103;42;10;238;229;167;195;32;87;140;200;27;213;191;45;165;6;52;149;173;251;58;35;165;47;106;156;212;216;184;156;12;136;57;57;30;54;61;148;67;255;154;31;229;109;121;22;209;254;48;66;82;113;190;37;100]].
Proof. vm_compute. reflexivity. Qed.

(** [hmac.digest(key, data, "sha512")] *)
Example std_hmac_sha512 : map (fun p => hmac SHA512 (fst p) (snd p))
  [([118;204;108;84;50;24;226;91;8;70;13;240;5;23;224;127;123;132;161;214;118;11;164;235;150;223;125;150;99;197;81;96;5;57;32;154;219;92;218;223;111;87;219;217;155;183;37;104;198;229;107;33;169;110;180;16;237;175;43;25;241;153;167;23;56;179;218;185;122;153;208;106;118;147;205;68;164;150;174;83;141;148;220;94;35;47;54;13;26;238;169;142;68],[97;159;168;208;73;36;172;176;83;190;178;17;240;8;225;162;161;125;199;62;135;226;107;55;118;25;8;186;5;179;22;151;122;17;191;234;127;36;56;39;229;72;38;148;75;102;106;110;225;163;251;188;37;164;238;52;103;31;40;227;33;44;216;216;171;215;31;46;100;155;96;148;121;44;28;132;245;168;62;26;7;7;10;6;176;251;191;120;207;219;230;78;181;224;201;103;9;220;46;208;157;91;183;32;39;8;3;124;39;150;177;86;170;27;72;112;169;173;2;23;168]);([41;248;66;129;19;63;46;171;128;242;220;53;21;169;64;233;161;191;237;0;167;191;134;253;97;135;82;152;241;17;152;58;107;232;245;21;35;96;142;211;137;113;30;250;102;60;37;229;208;159;45;47;228;181;6;180;118;162;175;206;53;114;145],[167;171;47;65;247;39;234;85;20;45;43;103;76;116;127;151;151;173;79;77;128;161;10;28;227;75;25;204;15;140;245;60;48;79;175;141;132;51;24;175;47;59;177;216;69;188;0;232;221;73;135;31;241;86;32;143;74;108;76;0;74;232;195;93;204;186;86;48;252;19;10;205;150;60;92;138;45;3;37;164;205;27;143;130;78;192;45;242;153;255;73;109;100;165;105;179;214;59;235;242;106;116;70;188;230;116;255;23;181;28;143]);([60;11;83;246;70;177;232;82;171;245;240;239;213;224;155;90;213;94;222;160;178;73;173;70;8;48;216;165;9;249;239;139;96;104;15;96;166;241;121;29;137;135;192;11;66;182;250;211;67;211;2;106;146;179;230;140;15;91;173;77;85;173;126;136;162;144;195;155;131;13;234;180;118;142;86;222;164;174;203;92;193;140;143;129;177;146;69;247],[156;252;185;78;78;144;242;171;91;189;99;16;182;71;57;240;106;2;58;155;175;70;134;16;233;163;59;98;31;111;130;133;134;98;46;171;245;200;46;199;81;172;110;187;45;172;92;203;232;1;169;125;134;205;38;84;198;180;46;11;254;116;33;12;215;1;43;218;219;253;194;173;192;207;126;137;11;159;43;163;167;142;94;26;54;11;140])]
  = [[124;230;109;208;235;129;141;79;10;158;138;251;150;243;94;228;145;63;104;145;193;170;250;17;150;69;96;160;39;136;210;125;151;49;188;79;146;191;118;72;158;108;111;102;21;228;110;65;58;31;250;5;75;223;215;18;251;12;229;68;133;161;10;50];[161;28;218;165;214;237;172;17;204;135;122;252;191;145;41;63;152;31;213;65;222;46;173;22;180;213;208;206;195;123;187;193;111;200;131;94;84;149;170;37;192;222;130;221;96;147;53;51;41;137;0;45;207;159;196;234;195;219;24;50;249;70;98;205];[237;230;116;187;18;214;53;212;204;65;195;116;195;246;54;157;13;103;227;182;72;0;197;60;252;181;204;14;107;67;251;230;221;248;192;62;45;82;79;212;11;216;198;196;44;174;167;55;65;238;157;109;63;76;184;106;236;36;240;131;170;174;129;173]].
Proof. vm_compute. reflexivity. Qed.

