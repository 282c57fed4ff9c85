(** * Samples: the packets of /repo/test/egts_packages.csv (recorded traffic, the
    file that tools/send_egts.py replays), as a check that the model reads what
    real devices send.  All of them are accepted; the receiver saves one record
    for each and answers each with one confirmation. *)
From Coq Require Import List.
From Verif Require Import GoBase Float64 SubRecords Records Package Storage Server Vectors.
Import ListNotations.
Local Open Scope N_scope.

Definition samples : list (list N) := [
 [1;0;0;11;0;117;3;195;5;1;170;166;0;239;12;129;44;130;63;2;2;2;16;26;0;75;95;229;16;0;181;124;158;0;88;63;53;147;35;128;87;130;16;0;1;0;172;0;0;0;0;17;6;0;14;80;0;0;0;12;18;28;0;1;15;255;1;117;53;0;0;0;0;0;0;0;0;0;0;0;0;0;0;0;0;0;0;0;0;0;0;20;5;0;2;134;0;41;4;27;7;0;0;255;0;0;0;0;0;27;7;0;2;0;0;0;0;0;0;27;7;0;3;1;0;0;0;0;0;27;7;0;4;2;0;0;0;0;0;25;4;0;100;229;243;0;25;4;0;101;0;0;0;25;4;0;102;1;0;0;25;4;0;103;229;243;0;25;4;0;104;229;243;0;25;4;0;105;75;154;34;25;4;0;110;229;243;0;166;0;240;12;129;44;130;63;2;2;2;16;26;0;74;95;229;16;0;181;124;158;192;87;63;53;155;35;128;68;130;16;0;1;0;172;0;0;0;0;17;6;0;14;80;0;0;0;12;18;28;0;1;15;255;1;197;52;0;0;0;0;0;0;0;0;0;0;0;0;0;0;0;0;0;0;0;0;0;0;20;5;0;2;133;0;41;4;27;7;0;0;255;0;0;0;0;0;27;7;0;2;0;0;0;0;0;0;27;7;0;3;1;0;0;0;0;0;27;7;0;4;2;0;0;0;0;0;25;4;0;100;228;243;0;25;4;0;101;1;0;0;25;4;0;102;1;0;0;25;4;0;103;229;243;0;25;4;0;104;228;243;0;25;4;0;105;74;154;34;25;4;0;110;228;243;0;166;0;241;12;129;44;130;63;2;2;2;16;26;0;65;95;229;16;0;183;124;158;128;88;63;53;155;24;0;125;130;16;0;1;0;172;0;0;0;0;17;6;0;14;110;0;0;0;12;18;28;0;1;15;255;1;231;51;0;0;0;0;0;0;0;0;0;0;0;0;0;0;0;0;0;0;0;0;0;0;20;5;0;2;128;0;41;4;27;7;0;0;255;0;0;0;0;0;27;7;0;2;0;0;0;0;0;0;27;7;0;3;1;0;0;0;0;0;27;7;0;4;2;0;0;0;0;0;25;4;0;100;222;243;0;25;4;0;101;7;0;0;25;4;0;102;1;0;0;25;4;0;103;229;243;0;25;4;0;104;222;243;0;25;4;0;105;65;154;34;25;4;0;110;222;243;0;166;0;242;12;129;44;130;63;2;2;2;16;26;0;64;95;229;16;0;184;124;158;192;87;63;53;155;12;0;0;130;16;0;1;0;172;0;0;0;0;17;6;0;14;110;0;0;0;12;18;28;0;1;15;255;1;113;51;0;0;0;0;0;0;0;0;0;0;0;0;0;0;0;0;0;0;0;0;0;0;20;5;0;2;129;0;41;4;27;7;0;0;255;0;0;0;0;0;27;7;0;2;0;0;0;0;0;0;27;7;0;3;1;0;0;0;0;0;27;7;0;4;2;0;0;0;0;0;25;4;0;100;221;243;0;25;4;0;101;8;0;0;25;4;0;102;1;0;0;25;4;0;103;229;243;0;25;4;0;104;221;243;0;25;4;0;105;64;154;34;25;4;0;110;221;243;0;166;0;243;12;129;44;130;63;2;2;2;16;26;0;62;95;229;16;0;186;124;158;64;87;63;53;155;16;0;24;130;16;0;1;0;173;0;0;0;0;17;6;0;14;110;0;0;0;12;18;28;0;1;15;255;1;104;51;0;0;0;0;0;0;0;0;0;0;0;0;0;0;0;0;0;0;0;0;0;0;20;5;0;2;132;0;41;4;27;7;0;0;255;0;0;0;0;0;27;7;0;2;0;0;0;0;0;0;27;7;0;3;1;0;0;0;0;0;27;7;0;4;2;0;0;0;0;0;25;4;0;100;220;243;0;25;4;0;101;9;0;0;25;4;0;102;1;0;0;25;4;0;103;229;243;0;25;4;0;104;220;243;0;25;4;0;105;62;154;34;25;4;0;110;220;243;0;3;64];
 [1;0;0;11;0;177;0;232;4;1;78;166;0;161;10;129;52;246;233;1;2;2;16;26;0;79;95;229;16;0;190;205;158;128;127;139;53;147;155;128;47;249;128;2;1;0;146;0;0;0;0;17;6;0;14;70;0;0;0;12;18;28;0;1;15;255;1;68;109;0;184;0;0;11;1;0;0;0;0;0;0;0;0;0;0;0;0;0;0;0;0;20;5;0;2;255;0;41;4;27;7;0;0;255;0;0;0;0;0;27;7;0;2;0;0;0;0;0;0;27;7;0;3;1;0;90;8;0;0;27;7;0;4;2;0;0;0;0;0;25;4;0;100;119;42;4;25;4;0;101;0;0;0;25;4;0;102;1;0;0;25;4;0;103;119;42;4;25;4;0;104;119;42;4;25;4;0;105;79;154;34;25;4;0;110;119;42;4;65;246];
 [1;0;0;11;0;175;0;87;195;1;57;164;0;3;51;129;6;152;247;1;2;2;16;26;0;82;95;229;16;26;110;39;158;151;64;134;53;131;0;0;0;182;208;10;1;0;175;0;0;0;0;17;4;0;10;6;0;12;18;28;0;1;15;255;1;105;100;0;0;0;0;0;0;0;0;0;0;0;0;0;0;0;0;0;0;0;0;0;0;20;5;0;2;255;0;41;4;27;7;0;0;255;0;0;0;0;0;27;7;0;2;0;0;0;0;0;0;27;7;0;3;1;0;0;0;0;0;27;7;0;4;2;0;0;0;0;0;25;4;0;100;27;149;55;25;4;0;101;0;0;0;25;4;0;102;91;0;0;25;4;0;103;27;149;55;25;4;0;104;27;149;55;25;4;0;105;82;154;34;25;4;0;110;27;149;55;193;3];
 [1;0;0;11;0;177;0;79;5;1;245;166;0;254;11;129;69;150;233;1;2;2;16;26;0;79;95;229;16;0;17;124;158;64;104;138;53;131;0;0;45;209;61;4;1;0;138;0;0;0;0;17;6;0;14;50;0;0;0;12;18;28;0;1;15;255;1;44;54;0;0;0;0;0;0;0;0;0;0;0;0;0;0;0;0;0;0;0;0;0;0;20;5;0;2;132;0;41;4;27;7;0;0;255;0;0;0;0;0;27;7;0;2;0;0;0;0;0;0;27;7;0;3;1;0;123;3;0;0;27;7;0;4;2;0;0;0;0;0;25;4;0;100;46;88;8;25;4;0;101;0;0;0;25;4;0;102;1;0;0;25;4;0;103;46;88;8;25;4;0;104;46;88;8;25;4;0;105;79;154;34;25;4;0;110;46;88;8;252;82];
 [1;0;0;11;0;177;0;186;8;1;32;166;0;182;18;129;172;179;63;2;2;2;16;26;0;79;95;229;16;0;51;199;158;128;50;189;53;147;77;0;177;73;59;0;1;0;153;0;0;0;0;17;6;0;14;70;0;0;0;12;18;28;0;1;15;255;1;16;110;0;4;0;0;0;0;0;0;0;0;1;0;0;0;0;0;0;0;0;0;0;0;20;5;0;2;255;0;41;4;27;7;0;0;255;0;0;0;0;0;27;7;0;2;0;0;0;0;0;0;27;7;0;3;1;0;130;1;0;0;27;7;0;4;2;0;0;0;0;0;25;4;0;100;57;168;0;25;4;0;101;0;0;0;25;4;0;102;1;0;0;25;4;0;103;57;168;0;25;4;0;104;57;168;0;25;4;0;105;79;154;34;25;4;0;110;57;168;0;221;250];
 [1;0;0;11;0;204;0;22;0;1;119;193;0;60;0;129;17;8;209;1;2;2;16;26;0;78;95;229;16;0;190;197;158;64;47;160;53;147;85;128;79;146;60;0;1;0;167;0;0;0;0;17;6;0;14;100;0;0;0;12;18;28;0;1;15;255;1;38;52;0;0;0;0;0;0;0;0;0;0;0;0;0;0;0;0;0;0;0;0;0;0;20;5;0;2;135;0;41;4;27;7;0;0;255;0;0;0;0;0;27;7;0;2;0;0;0;0;0;0;27;7;0;3;1;0;52;3;0;0;27;7;0;4;2;0;0;0;0;0;25;4;0;100;108;98;1;25;4;0;101;0;0;0;25;4;0;102;1;0;0;25;4;0;103;108;98;1;25;4;0;104;108;98;1;25;4;0;105;78;154;34;25;4;0;110;108;98;1;15;24;0;8;236;196;5;21;78;154;34;92;37;0;0;0;0;130;1;2;8;1;138;1;2;8;1;118;166];
 [1;0;0;11;0;177;0;81;0;1;209;166;0;179;0;129;199;192;208;1;2;2;16;26;0;79;95;229;16;0;85;116;158;192;81;216;53;147;140;128;62;176;37;4;1;0;142;0;0;0;0;17;6;0;14;60;0;0;0;12;18;28;0;1;15;255;1;77;101;0;0;0;0;0;0;0;0;0;0;0;0;0;0;0;0;0;0;0;0;0;0;20;5;0;2;255;0;40;4;27;7;0;0;255;0;0;0;0;0;27;7;0;2;0;0;0;0;0;0;27;7;0;3;1;0;54;1;0;0;27;7;0;4;2;0;0;0;0;0;25;4;0;100;245;17;6;25;4;0;101;0;0;0;25;4;0;102;1;0;0;25;4;0;103;245;17;6;25;4;0;104;245;17;6;25;4;0;105;79;154;34;25;4;0;110;245;17;6;245;93];
 [1;0;0;11;0;177;0;92;77;1;37;166;0;2;0;129;254;189;211;1;2;2;16;26;0;73;95;229;16;106;164;213;158;41;13;58;53;131;0;0;144;215;117;3;1;0;141;0;0;0;0;17;6;0;14;60;0;0;0;15;18;28;0;1;15;255;1;237;48;0;0;0;0;0;0;0;0;0;0;0;0;0;0;0;0;0;0;0;0;0;0;20;5;0;2;124;0;41;4;27;7;0;0;255;0;0;0;0;0;27;7;0;2;0;0;0;0;0;0;27;7;0;3;1;0;0;0;0;0;27;7;0;4;2;0;0;0;0;0;25;4;0;100;223;209;8;25;4;0;101;0;0;0;25;4;0;102;76;65;1;25;4;0;103;223;209;8;25;4;0;104;223;209;8;25;4;0;105;73;154;34;25;4;0;110;223;209;8;146;117];
 [1;0;0;11;0;177;0;35;132;1;210;166;0;82;0;129;18;179;38;2;2;2;16;26;0;75;95;229;16;18;226;152;158;34;119;132;53;147;88;128;61;197;73;0;1;0;168;0;0;0;0;17;6;0;14;100;0;0;0;12;18;28;0;1;15;255;1;51;51;0;0;0;0;0;0;0;0;0;0;0;0;0;0;0;0;0;0;0;0;0;0;20;5;0;2;137;0;41;4;27;7;0;0;255;0;0;0;0;0;27;7;0;2;0;0;0;0;0;0;27;7;0;3;1;0;0;3;0;0;27;7;0;4;2;0;0;0;0;0;25;4;0;100;164;62;2;25;4;0;101;0;0;0;25;4;0;102;134;21;0;25;4;0;103;164;62;2;25;4;0;104;164;62;2;25;4;0;105;75;154;34;25;4;0;110;164;62;2;73;99];
 [1;0;0;11;0;177;0;78;3;1;233;166;0;72;7;129;3;122;233;1;2;2;16;26;0;78;95;229;16;0;230;165;158;192;9;129;53;147;50;128;85;47;252;0;1;0;156;0;0;0;0;17;6;0;14;70;0;0;0;12;18;28;0;1;15;255;1;145;54;0;0;0;0;0;0;0;0;0;0;0;0;0;0;0;0;0;0;0;0;0;0;20;5;0;2;134;0;41;4;27;7;0;0;255;0;0;0;0;0;27;7;0;2;0;0;0;0;0;0;27;7;0;3;1;0;218;2;0;0;27;7;0;4;2;0;42;2;0;0;25;4;0;100;152;227;3;25;4;0;101;0;0;0;25;4;0;102;1;0;0;25;4;0;103;152;227;3;25;4;0;104;152;227;3;25;4;0;105;78;154;34;25;4;0;110;152;227;3;9;186];
 [1;0;0;11;0;177;0;37;5;1;160;166;0;97;13;129;46;165;64;2;2;2;16;26;0;79;95;229;16;0;167;131;158;128;4;148;53;147;18;0;92;47;13;0;1;0;149;0;0;0;0;17;6;0;14;110;0;0;0;12;18;28;0;1;15;255;1;118;53;0;0;0;0;0;0;0;0;0;0;0;0;0;0;0;0;0;0;0;0;0;0;20;5;0;2;139;0;41;4;27;7;0;0;255;0;0;0;0;0;27;7;0;2;0;0;0;0;0;0;27;7;0;3;1;0;0;0;0;0;27;7;0;4;2;0;0;0;0;0;25;4;0;100;205;234;0;25;4;0;101;0;0;0;25;4;0;102;1;0;0;25;4;0;103;205;234;0;25;4;0;104;205;234;0;25;4;0;105;79;154;34;25;4;0;110;205;234;0;207;234];
 [1;0;0;11;0;175;0;8;139;1;96;164;0;156;51;129;39;96;211;1;2;2;16;26;0;77;95;229;16;218;67;134;158;138;192;143;53;147;27;0;205;37;103;2;1;0;138;0;0;0;0;17;4;0;10;7;0;12;18;28;0;1;15;255;1;173;45;0;0;0;0;0;0;0;0;0;0;0;0;0;0;0;0;0;0;0;0;0;0;20;5;0;2;118;0;41;4;27;7;0;0;255;0;0;0;0;0;27;7;0;2;0;0;0;0;0;0;27;7;0;3;1;0;0;0;0;0;27;7;0;4;2;0;0;0;0;0;25;4;0;100;254;57;10;25;4;0;101;0;0;0;25;4;0;102;21;10;0;25;4;0;103;254;57;10;25;4;0;104;254;57;10;25;4;0;105;77;154;34;25;4;0;110;254;57;10;33;153];
 [1;0;0;11;0;177;0;67;13;1;185;166;0;20;28;129;7;129;64;2;2;2;16;26;0;79;95;229;16;0;226;244;158;64;149;114;53;147;40;0;63;40;53;0;1;0;173;0;0;0;0;17;6;0;14;90;0;0;0;12;18;28;0;1;15;255;1;216;97;0;0;0;0;0;0;0;0;0;0;0;0;0;0;0;0;0;0;0;0;0;0;20;5;0;2;250;0;41;4;27;7;0;0;255;0;0;0;0;0;27;7;0;2;0;0;0;0;0;0;27;7;0;3;1;0;0;0;0;0;27;7;0;4;2;0;0;0;0;0;25;4;0;100;7;80;1;25;4;0;101;0;0;0;25;4;0;102;1;0;0;25;4;0;103;7;80;1;25;4;0;104;7;80;1;25;4;0;105;79;154;34;25;4;0;110;7;80;1;192;18];
 [1;0;0;11;0;177;0;189;2;1;45;166;0;22;6;129;134;247;216;2;2;2;16;26;0;80;95;229;16;0;91;77;158;64;94;121;53;147;207;0;54;169;8;0;1;0;192;0;0;0;0;17;6;0;14;60;0;0;0;12;18;28;0;1;15;255;1;79;108;0;0;0;0;0;0;0;0;0;0;0;0;0;0;0;0;0;0;0;0;0;0;20;5;0;2;255;0;41;4;27;7;0;0;255;0;0;0;0;0;27;7;0;2;0;0;0;0;0;0;27;7;0;3;1;0;239;1;0;0;27;7;0;4;2;0;0;0;0;0;25;4;0;100;146;93;0;25;4;0;101;0;0;0;25;4;0;102;1;0;0;25;4;0;103;146;93;0;25;4;0;104;146;93;0;25;4;0;105;80;154;34;25;4;0;110;146;93;0;108;36];
 [1;0;0;11;0;177;0;228;5;1;193;166;0;195;13;129;96;123;63;2;2;2;16;26;0;79;95;229;16;0;96;46;158;0;2;32;53;131;0;0;222;193;69;0;0;0;188;0;0;0;0;17;6;0;14;50;0;0;0;12;18;28;0;1;15;255;0;0;0;0;0;0;0;0;0;0;0;0;0;0;0;0;0;0;0;0;0;0;0;0;0;20;5;0;2;252;0;41;4;27;7;0;0;255;0;0;0;0;0;27;7;0;2;0;0;0;0;0;0;27;7;0;3;1;0;214;2;0;0;27;7;0;4;2;0;0;0;0;0;25;4;0;100;221;65;0;25;4;0;101;0;0;0;25;4;0;102;1;0;0;25;4;0;103;221;65;0;25;4;0;104;221;65;0;25;4;0;105;79;154;34;25;4;0;110;221;65;0;161;78];
 [1;0;0;11;0;107;3;161;242;1;209;164;0;7;0;129;14;4;0;3;2;2;16;26;0;16;95;229;16;115;37;124;158;208;177;119;53;131;0;0;145;248;70;8;0;0;163;0;0;0;0;17;4;0;10;6;0;15;18;28;0;1;15;255;0;0;0;0;0;0;0;0;0;0;0;0;0;0;0;0;0;0;0;0;0;0;0;0;0;20;5;0;2;126;0;42;4;27;7;0;0;255;0;0;0;0;0;27;7;0;2;0;0;0;0;0;0;27;7;0;3;1;0;170;2;0;0;27;7;0;4;2;0;0;0;0;0;25;4;0;100;115;63;10;25;4;0;101;0;0;0;25;4;0;102;128;4;0;25;4;0;103;115;63;10;25;4;0;104;115;63;10;25;4;0;105;16;154;34;25;4;0;110;115;63;10;164;0;8;0;129;14;4;0;3;2;2;16;26;0;213;90;229;16;115;37;124;158;208;177;119;53;139;0;0;145;248;70;8;0;0;163;0;0;0;0;17;4;0;10;6;0;15;18;28;0;1;15;255;0;0;0;0;0;0;0;0;0;0;0;0;0;0;0;0;0;0;0;0;0;0;0;0;0;20;5;0;2;127;0;42;4;27;7;0;0;255;0;0;0;0;0;27;7;0;2;0;0;0;0;0;0;27;7;0;3;1;0;171;2;0;0;27;7;0;4;2;0;0;0;0;0;25;4;0;100;114;63;10;25;4;0;101;1;0;0;25;4;0;102;128;4;0;25;4;0;103;115;63;10;25;4;0;104;115;63;10;25;4;0;105;213;149;34;25;4;0;110;114;63;10;164;0;9;0;129;14;4;0;3;2;2;16;26;0;126;90;229;16;115;37;124;158;208;177;119;53;139;0;0;145;248;70;8;0;0;163;0;0;0;0;17;4;0;10;6;0;15;18;28;0;1;15;255;0;128;3;0;0;0;0;0;0;0;0;0;0;0;0;0;0;0;0;0;0;0;0;0;0;20;5;0;2;129;0;42;4;27;7;0;0;255;0;0;0;0;0;27;7;0;2;0;0;0;0;0;0;27;7;0;3;1;0;171;2;0;0;27;7;0;4;2;0;0;0;0;0;25;4;0;100;113;63;10;25;4;0;101;2;0;0;25;4;0;102;128;4;0;25;4;0;103;115;63;10;25;4;0;104;115;63;10;25;4;0;105;126;149;34;25;4;0;110;113;63;10;164;0;10;0;129;14;4;0;3;2;2;16;26;0;96;90;229;16;115;37;124;158;208;177;119;53;139;0;0;145;248;70;8;1;0;163;0;0;0;0;17;4;0;10;6;0;15;18;28;0;1;15;255;1;36;51;0;0;0;0;0;0;0;0;0;0;0;0;0;0;0;0;0;0;0;0;0;0;20;5;0;2;128;0;42;4;27;7;0;0;255;0;0;0;0;0;27;7;0;2;0;0;0;0;0;0;27;7;0;3;1;0;171;2;0;0;27;7;0;4;2;0;0;0;0;0;25;4;0;100;112;63;10;25;4;0;101;3;0;0;25;4;0;102;128;4;0;25;4;0;103;115;63;10;25;4;0;104;115;63;10;25;4;0;105;96;149;34;25;4;0;110;112;63;10;164;0;11;0;129;14;4;0;3;2;2;16;26;0;169;89;229;16;115;37;124;158;208;177;119;53;139;0;0;145;248;70;8;1;0;163;0;0;0;0;17;4;0;10;6;0;15;18;28;0;1;15;255;1;8;51;0;0;0;0;0;0;0;0;0;0;0;0;0;0;0;0;0;0;0;0;0;0;20;5;0;2;129;0;42;4;27;7;0;0;255;0;0;0;0;0;27;7;0;2;0;0;0;0;0;0;27;7;0;3;1;0;172;2;0;0;27;7;0;4;2;0;0;0;0;0;25;4;0;100;111;63;10;25;4;0;101;4;0;0;25;4;0;102;128;4;0;25;4;0;103;115;63;10;25;4;0;104;115;63;10;25;4;0;105;169;148;34;25;4;0;110;111;63;10;77;15];
 [1;0;0;11;0;204;0;55;98;1;196;193;0;83;31;129;8;123;6;2;2;2;16;26;0;77;95;229;16;204;37;231;158;97;252;88;53;147;26;0;40;219;3;6;1;0;170;0;0;0;0;17;4;0;10;9;0;12;18;28;0;1;15;255;1;173;110;0;0;0;0;0;0;0;0;0;0;0;0;0;0;0;0;0;0;0;0;0;0;20;5;0;2;255;0;41;4;27;7;0;0;255;0;0;0;0;0;27;7;0;2;0;0;0;0;0;0;27;7;0;3;1;0;138;1;0;0;27;7;0;4;2;0;0;0;0;0;25;4;0;100;168;81;6;25;4;0;101;0;0;0;25;4;0;102;241;123;4;25;4;0;103;168;81;6;25;4;0;104;168;81;6;25;4;0;105;77;154;34;25;4;0;110;168;81;6;15;26;0;8;168;163;25;21;77;154;34;92;37;0;0;0;0;130;1;4;8;1;48;79;138;1;23;8;1;243;154];
 [1;0;0;11;0;177;0;254;60;1;202;166;0;5;46;129;249;142;38;2;2;2;16;26;0;79;95;229;16;130;151;152;158;149;123;129;53;131;0;0;138;223;96;4;0;0;174;0;0;0;0;17;6;0;14;90;0;0;0;12;18;28;0;1;15;255;0;156;2;0;0;0;0;0;0;0;0;0;0;0;0;0;0;0;0;0;0;0;0;0;0;20;5;0;2;135;0;41;4;27;7;0;0;255;0;0;0;0;0;27;7;0;2;0;0;0;0;0;0;27;7;0;3;1;0;73;1;0;0;27;7;0;4;2;0;0;0;0;0;25;4;0;100;254;98;5;25;4;0;101;0;0;0;25;4;0;102;69;28;0;25;4;0;103;254;98;5;25;4;0;104;254;98;5;25;4;0;105;79;154;34;25;4;0;110;254;98;5;200;89];
 [1;0;0;11;0;94;1;121;20;1;99;164;0;2;0;129;127;114;6;2;2;2;16;26;0;51;95;229;16;8;169;42;158;125;127;136;53;131;0;0;47;104;51;6;0;0;173;0;0;0;0;17;4;0;10;5;0;12;18;28;0;1;15;255;0;0;0;0;0;0;0;0;0;0;0;0;0;0;0;0;0;0;0;0;0;0;0;0;0;20;5;0;2;255;0;41;4;27;7;0;0;255;0;0;0;0;0;27;7;0;2;0;0;0;0;0;0;27;7;0;3;1;0;59;2;0;0;27;7;0;4;2;0;0;0;0;0;25;4;0;100;250;151;21;25;4;0;101;0;0;0;25;4;0;102;68;133;1;25;4;0;103;250;151;21;25;4;0;104;250;151;21;25;4;0;105;51;154;34;25;4;0;110;250;151;21;164;0;3;0;129;127;114;6;2;2;2;16;26;0;21;95;229;16;8;169;42;158;125;127;136;53;139;0;0;47;104;51;6;0;0;173;0;0;0;0;17;4;0;10;5;0;12;18;28;0;1;15;255;0;0;0;0;0;0;0;0;0;0;0;0;0;0;0;0;0;0;0;0;0;0;0;0;0;20;5;0;2;255;0;41;4;27;7;0;0;255;0;0;0;0;0;27;7;0;2;0;0;0;0;0;0;27;7;0;3;1;0;59;2;0;0;27;7;0;4;2;0;0;0;0;0;25;4;0;100;249;151;21;25;4;0;101;1;0;0;25;4;0;102;68;133;1;25;4;0;103;250;151;21;25;4;0;104;250;151;21;25;4;0;105;21;154;34;25;4;0;110;249;151;21;232;110];
 [1;0;0;11;0;177;0;164;6;1;30;166;0;123;14;129;254;188;224;1;2;2;16;26;0;78;95;229;16;0;209;46;158;64;93;254;52;147;175;0;52;6;143;1;1;0;193;0;0;0;0;17;6;0;14;60;0;0;0;12;18;28;0;1;15;255;1;88;110;0;0;0;0;0;0;0;0;0;0;0;0;0;0;0;0;0;0;0;0;0;0;20;5;0;2;255;0;41;4;27;7;0;0;255;0;0;0;0;0;27;7;0;2;0;0;0;0;0;0;27;7;0;3;1;0;200;0;0;0;27;7;0;4;2;0;0;0;0;0;25;4;0;100;190;25;2;25;4;0;101;0;0;0;25;4;0;102;1;0;0;25;4;0;103;190;25;2;25;4;0;104;190;25;2;25;4;0;105;78;154;34;25;4;0;110;190;25;2;104;230];
 [1;0;0;11;0;72;0;192;173;1;66;57;0;20;52;133;134;5;0;0;79;95;229;16;2;2;16;21;0;15;94;229;16;32;24;27;158;180;223;218;52;25;32;130;95;0;0;0;0;1;17;10;0;31;7;0;6;0;0;0;19;3;0;27;7;0;1;8;0;195;6;0;0;27;7;0;2;9;0;3;0;0;0;216;42];
 [1;0;0;11;0;177;0;16;0;1;101;166;0;37;0;129;104;0;64;2;2;2;16;26;0;80;95;229;16;0;173;132;158;64;119;124;53;147;44;128;64;49;165;1;2;0;133;0;0;0;0;17;6;0;14;100;0;0;0;12;18;28;0;1;15;255;2;0;0;0;91;53;0;0;0;0;0;0;0;0;0;0;0;0;0;0;0;0;0;0;0;20;5;0;2;136;0;41;4;27;7;0;0;255;0;0;0;0;0;27;7;0;2;0;0;0;0;0;0;27;7;0;3;1;0;30;1;0;0;27;7;0;4;2;0;0;0;0;0;25;4;0;100;213;27;4;25;4;0;101;0;0;0;25;4;0;102;1;0;0;25;4;0;103;213;27;4;25;4;0;104;213;27;4;25;4;0;105;80;154;34;25;4;0;110;213;27;4;205;162];
 [1;0;0;11;0;177;0;199;7;1;171;166;0;163;16;129;31;140;64;2;2;2;16;26;0;76;95;229;16;0;225;81;158;192;71;169;53;147;62;128;58;213;139;0;1;0;163;0;0;0;0;17;6;0;14;100;0;0;0;12;18;28;0;1;15;255;1;233;109;0;0;0;0;0;0;0;0;0;0;0;0;0;0;0;0;0;0;0;0;0;0;20;5;0;2;255;0;41;4;27;7;0;0;255;0;0;0;0;0;27;7;0;2;0;0;0;0;0;0;27;7;0;3;1;0;155;2;0;0;27;7;0;4;2;0;0;0;0;0;25;4;0;100;169;232;0;25;4;0;101;0;0;0;25;4;0;102;1;0;0;25;4;0;103;169;232;0;25;4;0;104;169;232;0;25;4;0;105;76;154;34;25;4;0;110;169;232;0;175;92];
 [1;0;0;11;0;135;0;219;146;1;66;120;0;101;194;133;0;13;0;0;79;95;229;16;2;2;16;21;0;78;95;229;16;230;95;107;158;119;48;178;53;25;237;128;5;0;0;0;0;1;25;4;0;110;138;6;103;25;4;0;111;0;0;0;25;4;0;100;146;7;103;25;4;0;101;0;0;0;25;4;0;102;68;92;0;25;4;0;103;138;6;103;25;4;0;104;157;23;101;25;4;0;105;29;69;21;25;4;0;106;29;69;21;17;10;0;31;8;0;7;0;0;0;15;3;0;27;7;0;1;8;0;11;6;0;0;27;7;0;2;9;0;3;0;0;0;178;26];
 [1;0;0;11;0;175;0;162;253;1;115;164;0;26;0;129;135;241;6;2;2;2;16;26;0;78;95;229;16;187;55;110;158;215;58;51;53;131;0;0;189;169;180;13;1;0;161;0;0;0;0;17;4;0;10;5;0;12;18;28;0;1;15;255;1;211;49;0;0;0;0;0;0;0;0;0;0;0;0;0;0;0;0;0;0;0;0;0;0;20;5;0;2;125;0;41;4;27;7;0;0;255;0;0;0;0;0;27;7;0;2;0;0;0;0;0;0;27;7;0;3;1;0;0;0;0;0;27;7;0;4;2;0;0;0;0;0;25;4;0;100;47;204;24;25;4;0;101;0;0;0;25;4;0;102;171;60;1;25;4;0;103;47;204;24;25;4;0;104;47;204;24;25;4;0;105;78;154;34;25;4;0;110;47;204;24;212;228];
 [1;0;0;11;0;117;3;195;5;1;170;166;0;239;12;129;44;130;63;2;2;2;16;26;0;75;95;229;16;0;181;124;158;0;88;63;53;147;35;128;87;130;16;0;1;0;172;0;0;0;0;17;6;0;14;80;0;0;0;12;18;28;0;1;15;255;1;117;53;0;0;0;0;0;0;0;0;0;0;0;0;0;0;0;0;0;0;0;0;0;0;20;5;0;2;134;0;41;4;27;7;0;0;255;0;0;0;0;0;27;7;0;2;0;0;0;0;0;0;27;7;0;3;1;0;0;0;0;0;27;7;0;4;2;0;0;0;0;0;25;4;0;100;229;243;0;25;4;0;101;0;0;0;25;4;0;102;1;0;0;25;4;0;103;229;243;0;25;4;0;104;229;243;0;25;4;0;105;75;154;34;25;4;0;110;229;243;0;166;0;240;12;129;44;130;63;2;2;2;16;26;0;74;95;229;16;0;181;124;158;192;87;63;53;155;35;128;68;130;16;0;1;0;172;0;0;0;0;17;6;0;14;80;0;0;0;12;18;28;0;1;15;255;1;197;52;0;0;0;0;0;0;0;0;0;0;0;0;0;0;0;0;0;0;0;0;0;0;20;5;0;2;133;0;41;4;27;7;0;0;255;0;0;0;0;0;27;7;0;2;0;0;0;0;0;0;27;7;0;3;1;0;0;0;0;0;27;7;0;4;2;0;0;0;0;0;25;4;0;100;228;243;0;25;4;0;101;1;0;0;25;4;0;102;1;0;0;25;4;0;103;229;243;0;25;4;0;104;228;243;0;25;4;0;105;74;154;34;25;4;0;110;228;243;0;166;0;241;12;129;44;130;63;2;2;2;16;26;0;65;95;229;16;0;183;124;158;128;88;63;53;155;24;0;125;130;16;0;1;0;172;0;0;0;0;17;6;0;14;110;0;0;0;12;18;28;0;1;15;255;1;231;51;0;0;0;0;0;0;0;0;0;0;0;0;0;0;0;0;0;0;0;0;0;0;20;5;0;2;128;0;41;4;27;7;0;0;255;0;0;0;0;0;27;7;0;2;0;0;0;0;0;0;27;7;0;3;1;0;0;0;0;0;27;7;0;4;2;0;0;0;0;0;25;4;0;100;222;243;0;25;4;0;101;7;0;0;25;4;0;102;1;0;0;25;4;0;103;229;243;0;25;4;0;104;222;243;0;25;4;0;105;65;154;34;25;4;0;110;222;243;0;166;0;242;12;129;44;130;63;2;2;2;16;26;0;64;95;229;16;0;184;124;158;192;87;63;53;155;12;0;0;130;16;0;1;0;172;0;0;0;0;17;6;0;14;110;0;0;0;12;18;28;0;1;15;255;1;113;51;0;0;0;0;0;0;0;0;0;0;0;0;0;0;0;0;0;0;0;0;0;0;20;5;0;2;129;0;41;4;27;7;0;0;255;0;0;0;0;0;27;7;0;2;0;0;0;0;0;0;27;7;0;3;1;0;0;0;0;0;27;7;0;4;2;0;0;0;0;0;25;4;0;100;221;243;0;25;4;0;101;8;0;0;25;4;0;102;1;0;0;25;4;0;103;229;243;0;25;4;0;104;221;243;0;25;4;0;105;64;154;34;25;4;0;110;221;243;0;166;0;243;12;129;44;130;63;2;2;2;16;26;0;62;95;229;16;0;186;124;158;64;87;63;53;155;16;0;24;130;16;0;1;0;173;0;0;0;0;17;6;0;14;110;0;0;0;12;18;28;0;1;15;255;1;104;51;0;0;0;0;0;0;0;0;0;0;0;0;0;0;0;0;0;0;0;0;0;0;20;5;0;2;132;0;41;4;27;7;0;0;255;0;0;0;0;0;27;7;0;2;0;0;0;0;0;0;27;7;0;3;1;0;0;0;0;0;27;7;0;4;2;0;0;0;0;0;25;4;0;100;220;243;0;25;4;0;101;9;0;0;25;4;0;102;1;0;0;25;4;0;103;229;243;0;25;4;0;104;220;243;0;25;4;0;105;62;154;34;25;4;0;110;220;243;0;3;64];
 [1;0;0;11;0;201;0;147;139;1;56;110;0;141;245;133;98;3;0;0;81;95;229;16;2;2;16;21;0;240;94;229;16;21;119;170;158;68;8;123;53;9;1;0;0;0;0;0;0;1;25;4;0;110;243;175;22;25;4;0;111;0;0;0;25;4;0;100;166;215;0;25;4;0;101;0;0;0;25;4;0;102;193;1;0;25;4;0;103;244;175;22;25;4;0;104;133;182;20;25;4;0;105;68;247;214;25;4;0;106;68;247;214;17;10;0;31;10;0;7;0;0;0;15;3;0;27;7;0;1;1;0;0;128;0;0;61;0;142;245;133;98;3;0;0;81;95;229;16;2;2;16;21;0;250;94;229;16;21;119;170;158;68;8;123;53;9;1;0;0;0;0;0;1;1;25;4;0;110;244;175;22;25;4;0;111;0;0;0;17;10;0;31;9;0;7;0;0;0;15;3;0;27;7;0;1;1;0;0;128;0;0;215;7];
 [1;0;0;11;0;166;1;228;0;1;10;200;0;224;1;129;29;153;66;2;2;2;16;26;0;77;95;229;16;0;113;57;158;64;93;120;53;155;142;128;0;78;101;3;1;0;187;0;0;0;0;17;6;0;14;80;0;0;0;12;18;28;0;1;15;255;1;80;109;0;0;0;0;0;0;0;0;0;0;0;0;0;0;0;0;0;0;0;0;0;0;20;5;0;2;255;0;41;4;27;7;0;0;255;0;0;0;0;0;27;7;0;2;0;0;0;0;0;0;27;7;0;3;1;0;104;1;0;0;27;7;0;4;2;0;0;0;0;0;25;4;0;100;237;34;10;25;4;0;101;1;0;0;25;4;0;102;1;0;0;25;4;0;103;238;34;10;25;4;0;104;237;34;10;25;4;0;105;77;154;34;25;4;0;110;237;34;10;15;31;0;8;237;197;40;21;77;154;34;92;37;0;0;0;0;130;1;9;8;1;32;231;251;6;64;176;3;138;1;2;8;1;200;0;225;1;129;29;153;66;2;2;2;16;26;0;79;95;229;16;0;106;57;158;64;83;120;53;147;138;0;236;78;101;3;1;0;188;0;0;0;0;17;6;0;14;80;0;0;0;12;18;28;0;1;15;255;1;108;109;0;0;0;0;0;0;0;0;0;0;0;0;0;0;0;0;0;0;0;0;0;0;20;5;0;2;255;0;41;4;27;7;0;0;255;0;0;0;0;0;27;7;0;2;0;0;0;0;0;0;27;7;0;3;1;0;104;1;0;0;27;7;0;4;2;0;0;0;0;0;25;4;0;100;238;34;10;25;4;0;101;0;0;0;25;4;0;102;1;0;0;25;4;0;103;238;34;10;25;4;0;104;238;34;10;25;4;0;105;79;154;34;25;4;0;110;238;34;10;15;31;0;8;238;197;40;21;79;154;34;92;37;0;0;0;0;130;1;9;8;1;32;231;251;6;64;176;3;138;1;2;8;1;86;104];
 [1;0;0;11;0;177;0;96;1;1;190;166;0;245;2;129;251;124;63;2;2;2;16;26;0;79;95;229;16;0;15;171;158;64;176;112;53;147;40;128;55;57;112;1;1;0;165;0;0;0;0;17;6;0;14;110;0;0;0;12;18;28;0;1;15;255;1;250;115;0;0;0;0;0;0;0;0;0;0;0;0;0;0;0;0;0;0;0;0;0;0;20;5;0;2;255;0;41;4;27;7;0;0;255;0;0;0;0;0;27;7;0;2;0;0;0;0;0;0;27;7;0;3;1;0;229;3;0;0;27;7;0;4;2;0;0;0;0;0;25;4;0;100;112;148;1;25;4;0;101;0;0;0;25;4;0;102;1;0;0;25;4;0;103;112;148;1;25;4;0;104;112;148;1;25;4;0;105;79;154;34;25;4;0;110;112;148;1;33;91];
 [1;0;0;11;0;177;0;121;0;1;250;166;0;253;0;129;110;57;233;1;2;2;16;26;0;78;95;229;16;0;10;29;158;192;241;131;53;147;64;128;15;45;103;0;1;0;179;0;0;0;0;17;6;0;14;80;0;0;0;12;18;28;0;1;15;255;1;38;106;0;0;0;0;0;0;0;0;0;0;0;0;0;0;0;0;0;0;0;0;0;0;20;5;0;2;255;0;41;4;27;7;0;0;255;0;0;0;0;0;27;7;0;2;0;0;0;0;0;0;27;7;0;3;1;0;0;0;0;0;27;7;0;4;2;0;0;0;0;0;25;4;0;100;222;212;2;25;4;0;101;0;0;0;25;4;0;102;1;0;0;25;4;0;103;222;212;2;25;4;0;104;222;212;2;25;4;0;105;78;154;34;25;4;0;110;222;212;2;161;63];
 [1;0;0;11;0;210;0;175;3;1;140;199;0;77;8;129;229;142;233;1;2;2;16;26;0;80;95;229;16;0;136;141;158;128;218;141;53;147;55;0;103;172;131;3;1;0;155;0;0;0;0;17;6;0;14;70;0;0;0;12;18;28;0;1;15;255;1;23;103;0;0;0;0;0;0;0;0;0;0;0;0;0;0;0;0;0;0;0;0;0;0;20;5;0;2;255;0;41;4;27;7;0;0;255;0;0;0;0;0;27;7;0;2;0;0;0;0;0;0;27;7;0;3;1;0;0;0;0;0;27;7;0;4;2;0;0;0;0;0;25;4;0;100;46;21;13;25;4;0;101;0;0;0;25;4;0;102;1;0;0;25;4;0;103;46;21;13;25;4;0;104;46;21;13;25;4;0;105;80;154;34;25;4;0;110;46;21;13;15;30;0;8;174;170;52;21;80;154;34;92;37;0;0;0;0;130;1;8;8;1;32;139;155;8;64;40;138;1;2;8;1;177;140];
 [1;0;0;11;0;145;0;121;85;1;146;134;0;251;146;129;231;91;244;1;2;2;16;26;0;76;95;229;16;201;197;158;158;165;218;112;53;147;62;0;78;73;0;6;1;0;145;0;0;0;0;17;4;0;10;8;0;12;18;28;0;1;15;255;1;142;106;0;0;0;0;0;0;0;0;0;0;0;0;0;0;0;0;0;0;0;0;0;0;20;5;0;2;255;0;41;4;27;7;0;0;255;0;0;0;0;0;25;4;0;100;254;126;16;25;4;0;101;0;0;0;25;4;0;102;5;0;0;25;4;0;103;254;126;16;25;4;0;104;254;126;16;25;4;0;105;76;154;34;25;4;0;110;254;126;16;38;154];
 [1;0;0;11;0;135;0;107;142;1;144;120;0;43;175;133;194;11;0;0;82;95;229;16;2;2;16;21;0;47;95;229;16;162;229;164;158;143;112;91;53;9;1;0;0;0;0;0;0;1;25;4;0;110;5;76;15;25;4;0;111;0;0;0;25;4;0;100;63;172;0;25;4;0;101;0;0;0;25;4;0;102;96;1;0;25;4;0;103;5;76;15;25;4;0;104;27;250;12;25;4;0;105;82;222;156;25;4;0;106;82;222;156;17;10;0;31;19;0;15;0;0;0;8;3;0;27;7;0;1;1;0;81;2;0;0;27;7;0;2;2;0;0;128;0;0;135;93];
 [1;0;0;11;0;177;0;54;0;1;185;166;0;115;0;129;204;140;4;2;2;2;16;26;0;78;95;229;16;0;85;178;158;192;4;118;53;147;129;0;214;82;38;0;1;0;182;0;0;0;0;17;6;0;14;80;0;0;0;11;18;28;0;1;15;255;1;16;112;0;0;0;0;0;0;0;0;0;0;0;0;0;0;0;0;0;0;0;0;0;0;20;5;0;2;255;0;41;4;27;7;0;0;255;0;0;0;0;0;27;7;0;2;0;0;0;0;0;0;27;7;0;3;1;0;146;2;0;0;27;7;0;4;2;0;0;0;0;0;25;4;0;100;19;110;0;25;4;0;101;0;0;0;25;4;0;102;1;0;0;25;4;0;103;19;110;0;25;4;0;104;19;110;0;25;4;0;105;78;154;34;25;4;0;110;19;110;0;165;248];
 [1;0;0;11;0;76;3;114;6;1;160;200;0;45;32;129;239;200;208;1;2;2;16;26;0;76;95;229;16;0;177;45;158;0;13;142;53;131;0;0;98;206;24;0;0;0;170;0;0;0;0;17;6;0;14;50;0;0;0;12;18;28;0;1;15;255;0;0;0;0;0;0;0;0;0;0;0;0;0;0;0;0;0;0;0;0;0;0;0;0;0;20;5;0;2;100;0;40;4;27;7;0;0;255;0;0;0;0;0;27;7;0;2;0;0;0;0;0;0;27;7;0;3;1;0;0;0;0;0;27;7;0;4;2;0;0;0;0;0;25;4;0;100;50;186;53;25;4;0;101;0;0;0;25;4;0;102;1;0;0;25;4;0;103;50;186;53;25;4;0;104;50;186;53;25;4;0;105;76;154;34;25;4;0;110;50;186;53;15;31;0;8;178;244;214;1;21;76;154;34;92;37;0;0;0;0;130;1;8;8;1;32;226;90;64;212;2;138;1;2;8;1;200;0;46;32;129;239;200;208;1;2;2;16;26;0;75;95;229;16;0;177;45;158;0;13;142;53;139;0;0;98;206;24;0;0;0;170;0;0;0;0;17;6;0;14;50;0;0;0;12;18;28;0;1;15;255;0;0;0;0;0;0;0;0;0;0;0;0;0;0;0;0;0;0;0;0;0;0;0;0;0;20;5;0;2;100;0;40;4;27;7;0;0;255;0;0;0;0;0;27;7;0;2;0;0;0;0;0;0;27;7;0;3;1;0;0;0;0;0;27;7;0;4;2;0;0;0;0;0;25;4;0;100;49;186;53;25;4;0;101;1;0;0;25;4;0;102;1;0;0;25;4;0;103;50;186;53;25;4;0;104;49;186;53;25;4;0;105;75;154;34;25;4;0;110;49;186;53;15;31;0;8;177;244;214;1;21;75;154;34;92;37;0;0;0;0;130;1;8;8;1;32;226;90;64;212;2;138;1;2;8;1;200;0;47;32;129;239;200;208;1;2;2;16;26;0;74;95;229;16;0;177;45;158;0;13;142;53;139;0;0;98;206;24;0;0;0;170;0;0;0;0;17;6;0;14;50;0;0;0;12;18;28;0;1;15;255;0;0;0;0;0;0;0;0;0;0;0;0;0;0;0;0;0;0;0;0;0;0;0;0;0;20;5;0;2;100;0;40;4;27;7;0;0;255;0;0;0;0;0;27;7;0;2;0;0;0;0;0;0;27;7;0;3;1;0;0;0;0;0;27;7;0;4;2;0;0;0;0;0;25;4;0;100;48;186;53;25;4;0;101;2;0;0;25;4;0;102;1;0;0;25;4;0;103;50;186;53;25;4;0;104;48;186;53;25;4;0;105;74;154;34;25;4;0;110;48;186;53;15;31;0;8;176;244;214;1;21;74;154;34;92;37;0;0;0;0;130;1;8;8;1;32;226;90;64;212;2;138;1;2;8;1;200;0;48;32;129;239;200;208;1;2;2;16;26;0;100;32;229;16;0;177;45;158;0;13;142;53;139;0;0;98;206;24;0;0;0;170;0;0;0;0;17;6;0;14;50;0;0;0;12;18;28;0;1;15;255;0;0;0;0;0;0;0;0;0;0;0;0;0;0;0;0;0;0;0;0;0;0;0;0;0;20;5;0;2;100;0;40;4;27;7;0;0;255;0;0;0;0;0;27;7;0;2;0;0;0;0;0;0;27;7;0;3;1;0;0;0;0;0;27;7;0;4;2;0;0;0;0;0;25;4;0;100;155;125;53;25;4;0;101;151;60;0;25;4;0;102;1;0;0;25;4;0;103;50;186;53;25;4;0;104;155;125;53;25;4;0;105;100;91;34;25;4;0;110;155;125;53;15;31;0;8;155;251;213;1;21;100;91;34;92;37;0;0;0;0;130;1;8;8;1;32;226;90;64;212;2;138;1;2;8;1;168;45];
 [1;0;0;11;0;117;3;195;5;1;170;166;0;239;12;129;44;130;63;2;2;2;16;26;0;75;95;229;16;0;181;124;158;0;88;63;53;147;35;128;87;130;16;0;1;0;172;0;0;0;0;17;6;0;14;80;0;0;0;12;18;28;0;1;15;255;1;117;53;0;0;0;0;0;0;0;0;0;0;0;0;0;0;0;0;0;0;0;0;0;0;20;5;0;2;134;0;41;4;27;7;0;0;255;0;0;0;0;0;27;7;0;2;0;0;0;0;0;0;27;7;0;3;1;0;0;0;0;0;27;7;0;4;2;0;0;0;0;0;25;4;0;100;229;243;0;25;4;0;101;0;0;0;25;4;0;102;1;0;0;25;4;0;103;229;243;0;25;4;0;104;229;243;0;25;4;0;105;75;154;34;25;4;0;110;229;243;0;166;0;240;12;129;44;130;63;2;2;2;16;26;0;74;95;229;16;0;181;124;158;192;87;63;53;155;35;128;68;130;16;0;1;0;172;0;0;0;0;17;6;0;14;80;0;0;0;12;18;28;0;1;15;255;1;197;52;0;0;0;0;0;0;0;0;0;0;0;0;0;0;0;0;0;0;0;0;0;0;20;5;0;2;133;0;41;4;27;7;0;0;255;0;0;0;0;0;27;7;0;2;0;0;0;0;0;0;27;7;0;3;1;0;0;0;0;0;27;7;0;4;2;0;0;0;0;0;25;4;0;100;228;243;0;25;4;0;101;1;0;0;25;4;0;102;1;0;0;25;4;0;103;229;243;0;25;4;0;104;228;243;0;25;4;0;105;74;154;34;25;4;0;110;228;243;0;166;0;241;12;129;44;130;63;2;2;2;16;26;0;65;95;229;16;0;183;124;158;128;88;63;53;155;24;0;125;130;16;0;1;0;172;0;0;0;0;17;6;0;14;110;0;0;0;12;18;28;0;1;15;255;1;231;51;0;0;0;0;0;0;0;0;0;0;0;0;0;0;0;0;0;0;0;0;0;0;20;5;0;2;128;0;41;4;27;7;0;0;255;0;0;0;0;0;27;7;0;2;0;0;0;0;0;0;27;7;0;3;1;0;0;0;0;0;27;7;0;4;2;0;0;0;0;0;25;4;0;100;222;243;0;25;4;0;101;7;0;0;25;4;0;102;1;0;0;25;4;0;103;229;243;0;25;4;0;104;222;243;0;25;4;0;105;65;154;34;25;4;0;110;222;243;0;166;0;242;12;129;44;130;63;2;2;2;16;26;0;64;95;229;16;0;184;124;158;192;87;63;53;155;12;0;0;130;16;0;1;0;172;0;0;0;0;17;6;0;14;110;0;0;0;12;18;28;0;1;15;255;1;113;51;0;0;0;0;0;0;0;0;0;0;0;0;0;0;0;0;0;0;0;0;0;0;20;5;0;2;129;0;41;4;27;7;0;0;255;0;0;0;0;0;27;7;0;2;0;0;0;0;0;0;27;7;0;3;1;0;0;0;0;0;27;7;0;4;2;0;0;0;0;0;25;4;0;100;221;243;0;25;4;0;101;8;0;0;25;4;0;102;1;0;0;25;4;0;103;229;243;0;25;4;0;104;221;243;0;25;4;0;105;64;154;34;25;4;0;110;221;243;0;166;0;243;12;129;44;130;63;2;2;2;16;26;0;62;95;229;16;0;186;124;158;64;87;63;53;155;16;0;24;130;16;0;1;0;173;0;0;0;0;17;6;0;14;110;0;0;0;12;18;28;0;1;15;255;1;104;51;0;0;0;0;0;0;0;0;0;0;0;0;0;0;0;0;0;0;0;0;0;0;20;5;0;2;132;0;41;4;27;7;0;0;255;0;0;0;0;0;27;7;0;2;0;0;0;0;0;0;27;7;0;3;1;0;0;0;0;0;27;7;0;4;2;0;0;0;0;0;25;4;0;100;220;243;0;25;4;0;101;9;0;0;25;4;0;102;1;0;0;25;4;0;103;229;243;0;25;4;0;104;220;243;0;25;4;0;105;62;154;34;25;4;0;110;220;243;0;3;64];
 [1;0;0;11;0;208;0;100;5;1;254;197;0;34;11;129;132;128;233;1;2;2;16;26;0;79;95;229;16;0;227;74;158;0;103;105;53;131;0;0;103;27;180;0;0;0;215;0;0;0;0;17;6;0;14;50;0;0;0;12;18;28;0;1;15;255;0;0;0;0;0;0;0;0;0;0;0;0;0;0;0;0;0;0;0;0;0;0;0;0;0;20;5;0;2;127;0;41;4;27;7;0;0;255;0;0;0;0;0;27;7;0;2;0;0;0;0;0;0;27;7;0;3;1;0;0;0;0;0;27;7;0;4;2;0;0;0;0;0;25;4;0;100;45;8;4;25;4;0;101;0;0;0;25;4;0;102;1;0;0;25;4;0;103;45;8;4;25;4;0;104;45;8;4;25;4;0;105;79;154;34;25;4;0;110;45;8;4;15;28;0;8;173;144;16;21;79;154;34;92;37;0;0;0;0;130;1;6;8;1;32;180;215;3;138;1;2;8;1;50;190];
 [1;0;0;11;0;98;1;217;1;1;115;166;0;233;3;129;178;17;122;2;2;2;16;26;0;78;95;229;16;0;175;152;158;192;227;147;53;147;12;128;84;148;0;0;1;0;133;0;0;0;0;17;6;0;14;70;0;0;0;12;18;28;0;1;15;255;1;110;97;0;0;0;0;0;0;0;0;0;0;0;0;0;0;0;0;0;0;0;0;0;0;20;5;0;2;252;0;41;4;27;7;0;0;255;0;0;0;0;0;27;7;0;2;0;0;0;0;0;0;27;7;0;3;1;0;213;0;0;0;27;7;0;4;2;0;0;0;0;0;25;4;0;100;81;3;0;25;4;0;101;0;0;0;25;4;0;102;1;0;0;25;4;0;103;81;3;0;25;4;0;104;81;3;0;25;4;0;105;78;154;34;25;4;0;110;81;3;0;166;0;234;3;129;178;17;122;2;2;2;16;26;0;77;95;229;16;0;175;152;158;192;227;147;53;155;11;0;0;148;0;0;1;0;133;0;0;0;0;17;6;0;14;80;0;0;0;12;18;28;0;1;15;255;1;48;96;0;0;0;0;0;0;0;0;0;0;0;0;0;0;0;0;0;0;0;0;0;0;20;5;0;2;252;0;41;4;27;7;0;0;255;0;0;0;0;0;27;7;0;2;0;0;0;0;0;0;27;7;0;3;1;0;213;0;0;0;27;7;0;4;2;0;0;0;0;0;25;4;0;100;80;3;0;25;4;0;101;1;0;0;25;4;0;102;1;0;0;25;4;0;103;81;3;0;25;4;0;104;80;3;0;25;4;0;105;77;154;34;25;4;0;110;80;3;0;104;96];
 [1;0;0;11;0;206;0;12;169;1;166;195;0;31;0;129;29;123;210;1;2;2;16;26;0;78;95;229;16;61;243;217;158;136;146;108;53;131;0;128;51;162;116;0;0;0;154;0;0;0;0;17;6;0;14;50;0;0;0;12;18;28;0;1;15;255;0;0;0;0;0;0;0;0;0;0;0;0;0;0;0;0;0;0;0;0;0;0;0;0;0;20;5;0;2;126;0;40;4;27;7;0;0;255;0;0;0;0;0;27;7;0;2;0;0;0;0;0;0;27;7;0;3;1;0;5;3;0;0;27;7;0;4;2;0;0;0;0;0;25;4;0;100;186;225;12;25;4;0;101;0;0;0;25;4;0;102;165;8;0;25;4;0;103;186;225;12;25;4;0;104;186;225;12;25;4;0;105;78;154;34;25;4;0;110;186;225;12;15;26;0;8;186;195;51;21;78;154;34;92;37;0;0;0;0;130;1;4;8;1;48;79;138;1;2;8;1;221;32];
 [1;0;0;11;0;175;0;237;241;1;132;164;0;13;0;129;157;218;6;2;2;2;16;26;0;78;95;229;16;39;219;94;158;106;208;249;53;131;0;0;16;48;65;0;0;0;130;0;0;0;0;17;4;0;10;5;0;12;18;28;0;1;15;255;0;0;0;0;0;0;0;0;0;0;0;0;0;0;0;0;0;0;0;0;0;0;0;0;0;20;5;0;2;253;0;41;4;27;7;0;0;255;0;0;0;0;0;27;7;0;2;0;0;0;0;0;0;27;7;0;3;1;0;248;0;0;0;27;7;0;4;2;0;0;0;0;0;25;4;0;100;34;18;19;25;4;0;101;0;0;0;25;4;0;102;26;49;0;25;4;0;103;34;18;19;25;4;0;104;34;18;19;25;4;0;105;78;154;34;25;4;0;110;34;18;19;219;123];
 [1;0;0;11;0;13;2;69;213;1;254;164;0;2;0;129;253;172;6;2;2;2;16;26;0;67;95;229;16;200;1;108;158;70;178;162;53;131;0;128;81;212;82;1;0;0;122;0;0;0;0;17;4;0;10;4;0;12;18;28;0;1;15;255;0;0;0;0;0;0;0;0;0;0;0;0;0;0;0;0;0;0;0;0;0;0;0;0;0;20;5;0;2;124;0;41;4;27;7;0;0;255;0;0;0;0;0;27;7;0;2;0;0;0;0;0;0;27;7;0;3;1;0;0;0;0;0;27;7;0;4;2;0;0;0;0;0;25;4;0;100;91;71;20;25;4;0;101;0;0;0;25;4;0;102;247;3;0;25;4;0;103;91;71;20;25;4;0;104;91;71;20;25;4;0;105;67;154;34;25;4;0;110;91;71;20;164;0;3;0;129;253;172;6;2;2;2;16;26;0;37;95;229;16;200;1;108;158;70;178;162;53;139;0;128;81;212;82;1;0;0;122;0;0;0;0;17;4;0;10;4;0;12;18;28;0;1;15;255;0;0;0;0;0;0;0;0;0;0;0;0;0;0;0;0;0;0;0;0;0;0;0;0;0;20;5;0;2;124;0;41;4;27;7;0;0;255;0;0;0;0;0;27;7;0;2;0;0;0;0;0;0;27;7;0;3;1;0;0;0;0;0;27;7;0;4;2;0;0;0;0;0;25;4;0;100;90;71;20;25;4;0;101;1;0;0;25;4;0;102;247;3;0;25;4;0;103;91;71;20;25;4;0;104;91;71;20;25;4;0;105;37;154;34;25;4;0;110;90;71;20;164;0;4;0;129;253;172;6;2;2;2;16;26;0;7;95;229;16;200;1;108;158;70;178;162;53;139;0;128;81;212;82;1;0;0;122;0;0;0;0;17;4;0;10;4;0;12;18;28;0;1;15;255;0;0;0;0;0;0;0;0;0;0;0;0;0;0;0;0;0;0;0;0;0;0;0;0;0;20;5;0;2;124;0;41;4;27;7;0;0;255;0;0;0;0;0;27;7;0;2;0;0;0;0;0;0;27;7;0;3;1;0;0;0;0;0;27;7;0;4;2;0;0;0;0;0;25;4;0;100;89;71;20;25;4;0;101;2;0;0;25;4;0;102;247;3;0;25;4;0;103;91;71;20;25;4;0;104;91;71;20;25;4;0;105;7;154;34;25;4;0;110;89;71;20;103;201];
 [1;0;0;11;0;177;0;112;3;1;195;166;0;103;7;129;139;39;121;2;2;2;16;26;0;74;95;229;16;0;226;178;158;0;66;116;53;147;246;0;91;101;94;0;1;0;168;0;0;0;0;17;6;0;14;90;0;0;0;12;18;28;0;1;15;255;1;51;114;0;174;2;0;122;2;0;0;0;0;0;0;0;0;0;0;0;0;0;0;0;0;20;5;0;2;255;0;41;4;27;7;0;0;255;0;0;0;0;0;27;7;0;2;0;0;0;0;0;0;27;7;0;3;1;0;97;2;0;0;27;7;0;4;2;0;0;0;0;0;25;4;0;100;172;123;0;25;4;0;101;0;0;0;25;4;0;102;1;0;0;25;4;0;103;172;123;0;25;4;0;104;172;123;0;25;4;0;105;74;154;34;25;4;0;110;172;123;0;110;119];
 [1;0;0;11;0;177;0;246;2;1;71;166;0;119;6;129;225;249;121;2;2;2;16;26;0;79;95;229;16;0;237;138;158;192;165;144;53;147;29;0;0;185;16;0;1;0;184;0;0;0;0;17;6;0;14;130;0;0;0;12;18;28;0;1;15;255;1;20;109;0;0;0;0;0;0;0;0;0;0;0;0;0;0;0;0;0;0;0;0;0;0;20;5;0;2;255;0;41;4;27;7;0;0;255;0;0;0;0;0;27;7;0;2;0;0;0;0;0;0;27;7;0;3;1;0;0;0;0;0;27;7;0;4;2;0;0;0;0;0;25;4;0;100;55;114;0;25;4;0;101;0;0;0;25;4;0;102;1;0;0;25;4;0;103;55;114;0;25;4;0;104;55;114;0;25;4;0;105;79;154;34;25;4;0;110;55;114;0;239;44];
 [1;0;0;11;0;177;0;238;0;1;104;166;0;96;2;129;29;246;4;2;2;2;16;26;0;78;95;229;16;0;132;145;158;0;185;123;53;147;44;0;165;193;73;1;1;0;133;0;0;0;0;17;6;0;14;100;0;0;0;12;18;28;0;1;15;255;1;98;53;0;0;0;0;0;0;0;0;0;0;0;0;0;0;0;0;0;0;0;0;0;0;20;5;0;2;136;0;41;4;27;7;0;0;255;0;0;0;0;0;27;7;0;2;0;0;0;0;0;0;27;7;0;3;1;0;0;0;0;0;27;7;0;4;2;0;0;0;0;0;25;4;0;100;124;166;6;25;4;0;101;0;0;0;25;4;0;102;1;0;0;25;4;0;103;124;166;6;25;4;0;104;124;166;6;25;4;0;105;78;154;34;25;4;0;110;124;166;6;147;83];
 [1;0;0;11;0;13;2;69;213;1;254;164;0;2;0;129;253;172;6;2;2;2;16;26;0;67;95;229;16;200;1;108;158;70;178;162;53;131;0;128;81;212;82;1;0;0;122;0;0;0;0;17;4;0;10;4;0;12;18;28;0;1;15;255;0;0;0;0;0;0;0;0;0;0;0;0;0;0;0;0;0;0;0;0;0;0;0;0;0;20;5;0;2;124;0;41;4;27;7;0;0;255;0;0;0;0;0;27;7;0;2;0;0;0;0;0;0;27;7;0;3;1;0;0;0;0;0;27;7;0;4;2;0;0;0;0;0;25;4;0;100;91;71;20;25;4;0;101;0;0;0;25;4;0;102;247;3;0;25;4;0;103;91;71;20;25;4;0;104;91;71;20;25;4;0;105;67;154;34;25;4;0;110;91;71;20;164;0;3;0;129;253;172;6;2;2;2;16;26;0;37;95;229;16;200;1;108;158;70;178;162;53;139;0;128;81;212;82;1;0;0;122;0;0;0;0;17;4;0;10;4;0;12;18;28;0;1;15;255;0;0;0;0;0;0;0;0;0;0;0;0;0;0;0;0;0;0;0;0;0;0;0;0;0;20;5;0;2;124;0;41;4;27;7;0;0;255;0;0;0;0;0;27;7;0;2;0;0;0;0;0;0;27;7;0;3;1;0;0;0;0;0;27;7;0;4;2;0;0;0;0;0;25;4;0;100;90;71;20;25;4;0;101;1;0;0;25;4;0;102;247;3;0;25;4;0;103;91;71;20;25;4;0;104;91;71;20;25;4;0;105;37;154;34;25;4;0;110;90;71;20;164;0;4;0;129;253;172;6;2;2;2;16;26;0;7;95;229;16;200;1;108;158;70;178;162;53;139;0;128;81;212;82;1;0;0;122;0;0;0;0;17;4;0;10;4;0;12;18;28;0;1;15;255;0;0;0;0;0;0;0;0;0;0;0;0;0;0;0;0;0;0;0;0;0;0;0;0;0;20;5;0;2;124;0;41;4;27;7;0;0;255;0;0;0;0;0;27;7;0;2;0;0;0;0;0;0;27;7;0;3;1;0;0;0;0;0;27;7;0;4;2;0;0;0;0;0;25;4;0;100;89;71;20;25;4;0;101;2;0;0;25;4;0;102;247;3;0;25;4;0;103;91;71;20;25;4;0;104;91;71;20;25;4;0;105;7;154;34;25;4;0;110;89;71;20;103;201];
 [1;0;0;11;0;177;0;181;11;1;188;166;0;100;24;129;212;71;233;1;2;2;16;26;0;79;95;229;16;0;27;120;158;0;238;151;53;147;29;0;239;226;145;1;1;0;144;0;0;0;0;17;6;0;14;60;0;0;0;12;18;28;0;1;15;255;1;50;47;0;0;0;0;0;0;0;0;0;0;0;0;0;0;0;0;0;0;0;0;0;0;20;5;0;2;115;0;41;4;27;7;0;0;255;0;0;0;0;0;27;7;0;2;0;0;0;0;0;0;27;7;0;3;1;0;211;2;0;0;27;7;0;4;2;0;78;3;0;0;25;4;0;100;105;57;8;25;4;0;101;0;0;0;25;4;0;102;1;0;0;25;4;0;103;105;57;8;25;4;0;104;105;57;8;25;4;0;105;79;154;34;25;4;0;110;105;57;8;204;23];
 [1;0;0;11;0;206;0;225;2;1;32;195;0;24;6;129;233;128;63;2;2;2;16;26;0;78;95;229;16;0;182;31;158;128;110;67;53;147;212;128;58;75;63;0;1;0;208;0;0;0;0;17;6;0;14;70;0;0;0;12;18;28;0;1;15;255;1;18;53;0;0;0;0;0;0;0;0;0;0;0;0;0;0;0;0;0;0;0;0;0;0;20;5;0;2;132;0;38;4;27;7;0;0;255;0;0;0;0;0;27;7;0;2;0;0;0;0;0;0;27;7;0;3;1;0;0;0;0;0;27;7;0;4;2;0;0;0;0;0;25;4;0;100;44;86;0;25;4;0;101;0;0;0;25;4;0;102;1;0;0;25;4;0;103;44;86;0;25;4;0;104;44;86;0;25;4;0;105;78;154;34;25;4;0;110;44;86;0;15;26;0;8;172;172;1;21;78;154;34;92;37;0;0;0;0;130;1;4;8;1;48;79;138;1;2;8;1;17;99];
 [1;0;0;11;0;177;0;113;53;1;109;166;0;2;0;129;103;141;38;2;2;2;16;26;0;76;95;229;16;177;27;242;158;7;109;64;53;131;0;0;222;31;2;0;0;0;176;0;0;0;0;17;6;0;14;40;0;0;0;12;18;28;0;1;15;255;0;0;0;0;0;0;0;0;0;0;0;0;0;0;0;0;0;0;0;0;0;0;0;0;0;20;5;0;2;248;0;41;5;27;7;0;0;255;0;0;0;0;0;27;7;0;2;0;0;0;0;0;0;27;7;0;3;1;0;87;1;0;0;27;7;0;4;2;0;0;0;0;0;25;4;0;100;240;8;0;25;4;0;101;0;0;0;25;4;0;102;229;54;0;25;4;0;103;240;8;0;25;4;0;104;240;8;0;25;4;0;105;76;154;34;25;4;0;110;240;8;0;139;80];
 [1;0;0;11;0;177;0;28;0;1;30;166;0;53;0;129;157;120;121;2;2;2;16;26;0;79;95;229;16;0;231;163;158;192;188;201;53;147;33;0;254;183;51;0;1;0;152;0;0;0;0;17;6;0;14;90;0;0;0;12;18;28;0;1;15;255;1;241;106;0;0;0;0;0;0;0;0;0;0;0;0;0;0;0;0;0;0;0;0;0;0;20;5;0;2;255;0;41;4;27;7;0;0;255;0;0;0;0;0;27;7;0;2;0;0;0;0;0;0;27;7;0;3;1;0;51;2;0;0;27;7;0;4;2;0;0;0;0;0;25;4;0;100;79;71;0;25;4;0;101;0;0;0;25;4;0;102;1;0;0;25;4;0;103;79;71;0;25;4;0;104;79;71;0;25;4;0;105;79;154;34;25;4;0;110;79;71;0;23;65];
 [1;0;0;11;0;177;0;127;0;1;95;166;0;34;1;129;53;74;159;2;2;2;16;26;0;78;95;229;16;0;149;175;158;64;208;186;53;147;61;0;144;229;67;0;3;0;155;0;0;0;0;17;6;0;14;70;0;0;0;12;18;28;0;1;15;255;3;155;107;0;74;107;0;0;0;0;0;0;0;0;0;0;0;0;0;0;0;0;0;0;0;20;5;0;2;255;0;41;4;27;7;0;0;255;0;0;0;0;0;27;7;0;2;0;0;0;0;0;0;27;7;0;3;1;0;36;2;0;0;27;7;0;4;2;0;0;0;0;0;25;4;0;100;239;194;0;25;4;0;101;0;0;0;25;4;0;102;1;0;0;25;4;0;103;239;194;0;25;4;0;104;239;194;0;25;4;0;105;78;154;34;25;4;0;110;239;194;0;124;13];
 [1;0;0;11;0;208;0;98;20;1;193;197;0;21;45;129;107;130;233;1;2;2;16;26;0;79;95;229;16;0;13;144;158;0;166;129;53;131;0;0;41;66;68;0;0;0;129;0;0;0;0;17;6;0;14;60;0;0;0;12;18;28;0;1;15;255;0;0;0;0;0;0;0;0;0;0;0;0;0;0;0;0;0;0;0;0;0;0;0;0;0;20;5;0;2;246;0;41;4;27;7;0;0;255;0;0;0;0;0;27;7;0;2;0;0;0;0;0;0;27;7;0;3;1;0;0;0;0;0;27;7;0;4;2;0;0;0;0;0;25;4;0;100;62;151;1;25;4;0;101;0;0;0;25;4;0;102;1;0;0;25;4;0;103;62;151;1;25;4;0;104;62;151;1;25;4;0;105;79;154;34;25;4;0;110;62;151;1;15;28;0;8;190;174;6;21;79;154;34;92;37;0;0;0;0;130;1;6;8;1;40;5;48;79;138;1;2;8;1;53;34];
 [1;0;0;11;0;94;1;26;216;1;60;164;0;6;0;129;173;88;244;1;2;2;16;26;0;57;95;229;16;59;32;124;158;188;217;60;53;147;206;0;99;128;133;6;1;0;156;0;0;0;0;17;4;0;10;11;0;12;18;28;0;1;15;255;1;175;51;0;0;0;0;0;0;0;0;0;0;0;0;0;0;0;0;0;0;0;0;0;0;20;5;0;2;134;0;41;4;27;7;0;0;255;0;0;0;0;0;27;7;0;2;0;0;0;0;0;0;27;7;0;3;1;0;0;0;0;0;27;7;0;4;2;0;0;0;0;0;25;4;0;100;180;108;14;25;4;0;101;0;0;0;25;4;0;102;246;56;0;25;4;0;103;180;108;14;25;4;0;104;180;108;14;25;4;0;105;57;154;34;25;4;0;110;180;108;14;164;0;7;0;129;173;88;244;1;2;2;16;26;0;44;95;229;16;54;35;124;158;18;117;60;53;155;153;0;87;127;133;6;1;0;167;0;0;0;0;17;4;0;10;11;0;12;18;28;0;1;15;255;1;30;52;0;0;0;0;0;0;0;0;0;0;0;0;0;0;0;0;0;0;0;0;0;0;20;5;0;2;134;0;41;4;27;7;0;0;255;0;0;0;0;0;27;7;0;2;0;0;0;0;0;0;27;7;0;3;1;0;0;0;0;0;27;7;0;4;2;0;0;0;0;0;25;4;0;100;179;108;14;25;4;0;101;1;0;0;25;4;0;102;246;56;0;25;4;0;103;180;108;14;25;4;0;104;180;108;14;25;4;0;105;44;154;34;25;4;0;110;179;108;14;22;212];
 [1;0;0;11;0;13;2;69;213;1;254;164;0;2;0;129;253;172;6;2;2;2;16;26;0;67;95;229;16;200;1;108;158;70;178;162;53;131;0;128;81;212;82;1;0;0;122;0;0;0;0;17;4;0;10;4;0;12;18;28;0;1;15;255;0;0;0;0;0;0;0;0;0;0;0;0;0;0;0;0;0;0;0;0;0;0;0;0;0;20;5;0;2;124;0;41;4;27;7;0;0;255;0;0;0;0;0;27;7;0;2;0;0;0;0;0;0;27;7;0;3;1;0;0;0;0;0;27;7;0;4;2;0;0;0;0;0;25;4;0;100;91;71;20;25;4;0;101;0;0;0;25;4;0;102;247;3;0;25;4;0;103;91;71;20;25;4;0;104;91;71;20;25;4;0;105;67;154;34;25;4;0;110;91;71;20;164;0;3;0;129;253;172;6;2;2;2;16;26;0;37;95;229;16;200;1;108;158;70;178;162;53;139;0;128;81;212;82;1;0;0;122;0;0;0;0;17;4;0;10;4;0;12;18;28;0;1;15;255;0;0;0;0;0;0;0;0;0;0;0;0;0;0;0;0;0;0;0;0;0;0;0;0;0;20;5;0;2;124;0;41;4;27;7;0;0;255;0;0;0;0;0;27;7;0;2;0;0;0;0;0;0;27;7;0;3;1;0;0;0;0;0;27;7;0;4;2;0;0;0;0;0;25;4;0;100;90;71;20;25;4;0;101;1;0;0;25;4;0;102;247;3;0;25;4;0;103;91;71;20;25;4;0;104;91;71;20;25;4;0;105;37;154;34;25;4;0;110;90;71;20;164;0;4;0;129;253;172;6;2;2;2;16;26;0;7;95;229;16;200;1;108;158;70;178;162;53;139;0;128;81;212;82;1;0;0;122;0;0;0;0;17;4;0;10;4;0;12;18;28;0;1;15;255;0;0;0;0;0;0;0;0;0;0;0;0;0;0;0;0;0;0;0;0;0;0;0;0;0;20;5;0;2;124;0;41;4;27;7;0;0;255;0;0;0;0;0;27;7;0;2;0;0;0;0;0;0;27;7;0;3;1;0;0;0;0;0;27;7;0;4;2;0;0;0;0;0;25;4;0;100;89;71;20;25;4;0;101;2;0;0;25;4;0;102;247;3;0;25;4;0;103;91;71;20;25;4;0;104;91;71;20;25;4;0;105;7;154;34;25;4;0;110;89;71;20;103;201];
 [1;0;0;11;0;177;0;13;8;1;203;166;0;208;16;129;28;24;234;1;2;2;16;26;0;79;95;229;16;0;88;212;158;192;27;134;53;147;137;128;21;236;124;0;1;0;140;0;0;0;0;17;6;0;14;60;0;0;0;12;18;28;0;1;15;255;1;211;107;0;0;0;0;0;0;0;0;0;0;0;0;0;0;0;0;0;0;0;0;0;0;20;5;0;2;255;0;41;4;27;7;0;0;255;0;0;0;0;0;27;7;0;2;0;0;0;0;0;0;27;7;0;3;1;0;0;0;0;0;27;7;0;4;2;0;0;0;0;0;25;4;0;100;252;42;2;25;4;0;101;0;0;0;25;4;0;102;1;0;0;25;4;0;103;252;42;2;25;4;0;104;252;42;2;25;4;0;105;79;154;34;25;4;0;110;252;42;2;244;139];
 [1;0;0;11;0;177;0;21;4;1;137;166;0;175;8;129;205;102;233;1;2;2;16;26;0;74;95;229;16;0;211;74;158;0;180;108;53;147;153;128;36;190;33;2;1;0;229;0;0;0;0;17;6;0;14;90;0;0;0;12;18;28;0;1;15;255;1;147;107;0;0;0;0;3;0;0;0;0;0;0;0;0;0;0;0;0;0;0;0;0;0;20;5;0;2;255;0;41;4;27;7;0;0;255;0;0;0;0;0;27;7;0;2;0;0;0;0;0;0;27;7;0;3;1;0;0;0;0;0;27;7;0;4;2;0;0;0;0;0;25;4;0;100;103;54;3;25;4;0;101;0;0;0;25;4;0;102;1;0;0;25;4;0;103;103;54;3;25;4;0;104;103;54;3;25;4;0;105;74;154;34;25;4;0;110;103;54;3;123;30];
 [1;0;0;11;0;177;0;99;6;1;218;166;0;8;13;129;167;187;233;1;2;2;16;26;0;79;95;229;16;0;237;96;158;128;38;180;53;147;194;0;11;136;79;2;1;0;136;0;0;0;0;17;6;0;14;90;0;0;0;12;18;28;0;1;15;255;1;66;53;0;0;0;0;0;0;0;0;0;0;0;0;0;0;0;0;0;0;0;0;0;0;20;5;0;2;139;0;41;4;27;7;0;0;255;0;0;0;0;0;27;7;0;2;0;0;0;0;0;0;27;7;0;3;1;0;0;0;0;0;27;7;0;4;2;0;0;0;0;0;25;4;0;100;158;186;19;25;4;0;101;0;0;0;25;4;0;102;1;0;0;25;4;0;103;158;186;19;25;4;0;104;158;186;19;25;4;0;105;79;154;34;25;4;0;110;158;186;19;136;55];
 [1;0;0;11;0;177;0;24;1;1;195;166;0;94;2;129;50;158;4;2;2;2;16;26;0;79;95;229;16;0;24;60;158;192;53;133;53;147;42;128;27;220;63;0;1;0;179;0;0;0;0;17;6;0;14;100;0;0;0;12;18;28;0;1;15;255;1;176;49;0;0;0;0;0;0;0;0;0;0;0;0;0;0;0;0;0;0;0;0;0;0;20;5;0;2;128;0;41;4;27;7;0;0;255;0;0;0;0;0;27;7;0;2;0;0;0;0;0;0;27;7;0;3;1;0;0;0;0;0;27;7;0;4;2;0;0;0;0;0;25;4;0;100;33;92;1;25;4;0;101;0;0;0;25;4;0;102;1;0;0;25;4;0;103;33;92;1;25;4;0;104;33;92;1;25;4;0;105;79;154;34;25;4;0;110;33;92;1;164;197];
 [1;0;0;11;0;177;0;152;2;1;59;166;0;147;5;129;77;89;233;1;2;2;16;26;0;77;95;229;16;0;163;205;158;64;159;139;53;147;105;128;38;1;146;2;7;0;138;0;0;0;0;17;6;0;14;70;0;0;0;12;18;28;0;1;15;255;7;107;109;0;109;108;0;165;107;0;0;0;0;0;0;0;0;0;0;0;0;0;0;0;0;20;5;0;2;255;0;41;4;27;7;0;0;255;0;0;0;0;0;27;7;0;2;0;0;0;0;0;0;27;7;0;3;1;0;234;5;0;0;27;7;0;4;2;0;0;0;0;0;25;4;0;100;234;88;4;25;4;0;101;0;0;0;25;4;0;102;1;0;0;25;4;0;103;234;88;4;25;4;0;104;234;88;4;25;4;0;105;77;154;34;25;4;0;110;234;88;4;99;130];
 [1;0;0;11;0;98;1;28;103;1;52;166;0;205;14;129;168;202;38;2;2;2;16;26;0;79;95;229;16;180;131;194;158;83;39;208;53;147;238;128;38;37;218;4;10;0;171;0;0;0;0;17;6;0;14;60;0;0;0;12;18;28;0;1;15;255;10;0;0;0;74;107;0;42;0;0;107;105;0;0;0;0;0;0;0;0;0;0;0;0;0;20;5;0;2;255;0;41;4;27;7;0;0;255;0;0;0;0;0;27;7;0;2;0;0;0;0;0;0;27;7;0;3;1;0;204;2;0;0;27;7;0;4;2;0;0;0;0;0;25;4;0;100;33;225;5;25;4;0;101;0;0;0;25;4;0;102;201;146;0;25;4;0;103;33;225;5;25;4;0;104;33;225;5;25;4;0;105;79;154;34;25;4;0;110;33;225;5;166;0;206;14;129;168;202;38;2;2;2;16;26;0;77;95;229;16;254;124;194;158;152;57;208;53;155;233;128;21;37;218;4;10;0;171;0;0;0;0;17;6;0;14;60;0;0;0;12;18;28;0;1;15;255;10;0;0;0;81;107;0;56;0;0;198;105;0;0;0;0;0;0;0;0;0;0;0;0;0;20;5;0;2;255;0;41;4;27;7;0;0;255;0;0;0;0;0;27;7;0;2;0;0;0;0;0;0;27;7;0;3;1;0;204;2;0;0;27;7;0;4;2;0;0;0;0;0;25;4;0;100;32;225;5;25;4;0;101;1;0;0;25;4;0;102;201;146;0;25;4;0;103;33;225;5;25;4;0;104;32;225;5;25;4;0;105;77;154;34;25;4;0;110;32;225;5;19;156];
 [1;0;0;11;0;177;0;11;9;1;154;166;0;13;21;129;89;41;233;1;2;2;16;26;0;79;95;229;16;0;128;113;158;128;206;142;53;147;157;0;203;208;251;2;1;0;134;0;0;0;0;17;6;0;14;70;0;0;0;12;18;28;0;1;15;255;1;85;106;0;83;0;0;84;0;0;0;0;0;0;0;0;0;0;0;0;0;0;0;0;0;20;5;0;2;255;0;41;4;27;7;0;0;255;0;0;0;0;0;27;7;0;2;0;0;0;0;0;0;27;7;0;3;1;0;157;1;0;0;27;7;0;4;2;0;0;0;0;0;25;4;0;100;147;40;7;25;4;0;101;0;0;0;25;4;0;102;1;0;0;25;4;0;103;147;40;7;25;4;0;104;147;40;7;25;4;0;105;79;154;34;25;4;0;110;147;40;7;82;241];
 [1;0;0;11;0;177;0;73;7;1;137;166;0;211;15;129;189;134;64;2;2;2;16;26;0;79;95;229;16;0;34;192;158;64;143;137;53;131;0;128;86;132;166;3;0;0;155;0;0;0;0;17;6;0;14;70;0;0;0;12;18;28;0;1;15;255;0;0;0;0;0;0;0;0;0;0;0;0;0;0;0;0;0;0;0;0;0;0;0;0;0;20;5;0;2;126;0;41;4;27;7;0;0;255;0;0;0;0;0;27;7;0;2;0;0;0;0;0;0;27;7;0;3;1;0;56;0;0;0;27;7;0;4;2;0;0;0;0;0;25;4;0;100;90;41;6;25;4;0;101;0;0;0;25;4;0;102;1;0;0;25;4;0;103;90;41;6;25;4;0;104;90;41;6;25;4;0;105;79;154;34;25;4;0;110;90;41;6;195;95];
 [1;0;0;11;0;177;0;81;5;1;166;166;0;77;11;129;86;223;53;2;2;2;16;26;0;76;95;229;16;0;28;168;158;128;60;114;53;147;162;0;23;51;171;0;1;0;174;0;0;0;0;17;6;0;14;110;0;0;0;12;18;28;0;1;15;255;1;88;108;0;0;0;0;0;0;0;0;0;0;0;0;0;0;0;0;0;0;0;0;0;0;20;5;0;2;255;0;40;4;27;7;0;0;255;0;0;0;0;0;27;7;0;2;0;0;0;0;0;0;27;7;0;3;1;0;254;2;0;0;27;7;0;4;2;0;0;0;0;0;25;4;0;100;39;79;4;25;4;0;101;0;0;0;25;4;0;102;1;0;0;25;4;0;103;39;79;4;25;4;0;104;39;79;4;25;4;0;105;76;154;34;25;4;0;110;39;79;4;178;189];
 [1;0;0;11;0;188;2;90;241;1;80;164;0;59;0;129;174;244;211;1;2;2;16;26;0;45;95;229;16;150;182;122;158;34;215;108;53;147;210;0;173;96;221;21;1;0;128;0;0;0;0;17;4;0;10;7;0;12;18;28;0;1;15;255;1;48;53;0;0;0;0;0;0;0;0;0;0;0;0;0;0;0;0;0;0;0;0;0;0;20;5;0;2;136;0;41;4;27;7;0;0;255;0;0;0;0;0;27;7;0;2;0;0;0;0;0;0;27;7;0;3;1;0;0;0;0;0;27;7;0;4;2;0;0;0;0;0;25;4;0;100;10;233;34;25;4;0;101;0;0;0;25;4;0;102;86;135;0;25;4;0;103;10;233;34;25;4;0;104;10;233;34;25;4;0;105;45;154;34;25;4;0;110;10;233;34;164;0;60;0;129;174;244;211;1;2;2;16;26;0;44;95;229;16;72;192;122;158;99;214;108;53;155;181;0;189;96;221;21;1;0;128;0;0;0;0;17;4;0;10;7;0;12;18;28;0;1;15;255;1;176;53;0;0;0;0;0;0;0;0;0;0;0;0;0;0;0;0;0;0;0;0;0;0;20;5;0;2;136;0;41;4;27;7;0;0;255;0;0;0;0;0;27;7;0;2;0;0;0;0;0;0;27;7;0;3;1;0;0;0;0;0;27;7;0;4;2;0;0;0;0;0;25;4;0;100;9;233;34;25;4;0;101;1;0;0;25;4;0;102;86;135;0;25;4;0;103;10;233;34;25;4;0;104;10;233;34;25;4;0;105;44;154;34;25;4;0;110;9;233;34;164;0;61;0;129;174;244;211;1;2;2;16;26;0;43;95;229;16;189;199;122;158;129;215;108;53;155;147;0;199;96;221;21;1;0;128;0;0;0;0;17;4;0;10;7;0;12;18;28;0;1;15;255;1;220;53;0;0;0;0;0;0;0;0;0;0;0;0;0;0;0;0;0;0;0;0;0;0;20;5;0;2;136;0;41;4;27;7;0;0;255;0;0;0;0;0;27;7;0;2;0;0;0;0;0;0;27;7;0;3;1;0;0;0;0;0;27;7;0;4;2;0;0;0;0;0;25;4;0;100;8;233;34;25;4;0;101;2;0;0;25;4;0;102;86;135;0;25;4;0;103;10;233;34;25;4;0;104;10;233;34;25;4;0;105;43;154;34;25;4;0;110;8;233;34;164;0;62;0;129;174;244;211;1;2;2;16;26;0;41;95;229;16;110;209;122;158;125;218;108;53;155;93;0;211;96;221;21;1;0;128;0;0;0;0;17;4;0;10;7;0;12;18;28;0;1;15;255;1;141;52;0;0;0;0;0;0;0;0;0;0;0;0;0;0;0;0;0;0;0;0;0;0;20;5;0;2;135;0;41;4;27;7;0;0;255;0;0;0;0;0;27;7;0;2;0;0;0;0;0;0;27;7;0;3;1;0;0;0;0;0;27;7;0;4;2;0;0;0;0;0;25;4;0;100;7;233;34;25;4;0;101;3;0;0;25;4;0;102;86;135;0;25;4;0;103;10;233;34;25;4;0;104;10;233;34;25;4;0;105;41;154;34;25;4;0;110;7;233;34;155;96];
 [1;0;0;11;0;156;1;56;1;1;43;195;0;129;2;129;222;134;224;1;2;2;16;26;0;78;95;229;16;0;91;113;158;64;201;142;53;131;0;0;25;36;122;0;1;0;137;0;0;0;0;17;6;0;14;70;0;0;0;12;18;28;0;1;15;255;1;181;48;0;0;0;0;0;0;0;0;0;0;0;0;0;0;0;0;0;0;0;0;0;0;20;5;0;2;123;0;41;4;27;7;0;0;255;0;0;0;0;0;27;7;0;2;0;0;0;0;0;0;27;7;0;3;1;0;0;0;0;0;27;7;0;4;2;0;0;0;0;0;25;4;0;100;68;83;2;25;4;0;101;0;0;0;25;4;0;102;1;0;0;25;4;0;103;68;83;2;25;4;0;104;68;83;2;25;4;0;105;78;154;34;25;4;0;110;68;83;2;15;26;0;8;196;166;9;21;78;154;34;92;37;0;0;0;0;130;1;4;8;1;48;79;138;1;2;8;1;195;0;130;2;129;222;134;224;1;2;2;16;26;0;77;95;229;16;0;91;113;158;64;201;142;53;139;0;0;25;36;122;0;1;0;137;0;0;0;0;17;6;0;14;70;0;0;0;12;18;28;0;1;15;255;1;49;44;0;0;0;0;0;0;0;0;0;0;0;0;0;0;0;0;0;0;0;0;0;0;20;5;0;2;106;0;41;4;27;7;0;0;255;0;0;0;0;0;27;7;0;2;0;0;0;0;0;0;27;7;0;3;1;0;0;0;0;0;27;7;0;4;2;0;0;0;0;0;25;4;0;100;67;83;2;25;4;0;101;1;0;0;25;4;0;102;1;0;0;25;4;0;103;68;83;2;25;4;0;104;67;83;2;25;4;0;105;77;154;34;25;4;0;110;67;83;2;15;26;0;8;195;166;9;21;77;154;34;92;37;0;0;0;0;130;1;4;8;1;48;79;138;1;2;8;1;106;171];
 [1;0;0;11;0;156;1;56;1;1;43;195;0;129;2;129;222;134;224;1;2;2;16;26;0;78;95;229;16;0;91;113;158;64;201;142;53;131;0;0;25;36;122;0;1;0;137;0;0;0;0;17;6;0;14;70;0;0;0;12;18;28;0;1;15;255;1;181;48;0;0;0;0;0;0;0;0;0;0;0;0;0;0;0;0;0;0;0;0;0;0;20;5;0;2;123;0;41;4;27;7;0;0;255;0;0;0;0;0;27;7;0;2;0;0;0;0;0;0;27;7;0;3;1;0;0;0;0;0;27;7;0;4;2;0;0;0;0;0;25;4;0;100;68;83;2;25;4;0;101;0;0;0;25;4;0;102;1;0;0;25;4;0;103;68;83;2;25;4;0;104;68;83;2;25;4;0;105;78;154;34;25;4;0;110;68;83;2;15;26;0;8;196;166;9;21;78;154;34;92;37;0;0;0;0;130;1;4;8;1;48;79;138;1;2;8;1;195;0;130;2;129;222;134;224;1;2;2;16;26;0;77;95;229;16;0;91;113;158;64;201;142;53;139;0;0;25;36;122;0;1;0;137;0;0;0;0;17;6;0;14;70;0;0;0;12;18;28;0;1;15;255;1;49;44;0;0;0;0;0;0;0;0;0;0;0;0;0;0;0;0;0;0;0;0;0;0;20;5;0;2;106;0;41;4;27;7;0;0;255;0;0;0;0;0;27;7;0;2;0;0;0;0;0;0;27;7;0;3;1;0;0;0;0;0;27;7;0;4;2;0;0;0;0;0;25;4;0;100;67;83;2;25;4;0;101;1;0;0;25;4;0;102;1;0;0;25;4;0;103;68;83;2;25;4;0;104;67;83;2;25;4;0;105;77;154;34;25;4;0;110;67;83;2;15;26;0;8;195;166;9;21;77;154;34;92;37;0;0;0;0;130;1;4;8;1;48;79;138;1;2;8;1;106;171];
 [1;0;0;11;0;177;0;85;16;1;150;166;0;180;33;129;187;225;63;2;2;2;16;26;0;79;95;229;16;0;37;198;158;0;2;187;53;147;42;0;67;163;165;0;1;0;148;0;0;0;0;17;6;0;14;60;0;0;0;12;18;28;0;1;15;255;1;251;105;0;0;0;0;0;0;0;0;0;0;0;0;0;0;0;0;0;0;0;0;0;0;20;5;0;2;255;0;41;4;27;7;0;0;255;0;0;0;0;0;27;7;0;2;0;0;0;0;0;0;27;7;0;3;1;0;0;0;0;0;27;7;0;4;2;0;0;0;0;0;25;4;0;100;250;236;2;25;4;0;101;0;0;0;25;4;0;102;1;0;0;25;4;0;103;250;236;2;25;4;0;104;250;236;2;25;4;0;105;79;154;34;25;4;0;110;250;236;2;86;22];
 [1;0;0;11;0;177;0;31;9;1;23;166;0;200;18;129;131;233;4;2;2;2;16;26;0;79;95;229;16;0;163;147;158;192;203;115;53;131;0;0;251;88;2;0;1;0;138;0;0;0;0;17;6;0;14;90;0;0;0;12;18;28;0;1;15;255;1;80;55;0;0;0;0;0;0;0;0;0;0;0;0;0;0;0;0;0;0;0;0;0;0;20;5;0;2;142;0;41;4;27;7;0;0;255;0;0;0;0;0;27;7;0;2;0;0;0;0;0;0;27;7;0;3;1;0;0;0;0;0;27;7;0;4;2;0;0;0;0;0;25;4;0;100;240;16;0;25;4;0;101;0;0;0;25;4;0;102;1;0;0;25;4;0;103;240;16;0;25;4;0;104;240;16;0;25;4;0;105;79;154;34;25;4;0;110;240;16;0;239;48];
 [1;0;0;11;0;177;0;107;5;1;165;166;0;76;11;129;11;210;232;1;2;2;16;26;0;77;95;229;16;0;150;73;157;128;193;239;52;131;0;0;240;131;247;0;0;0;208;0;0;0;0;17;6;0;14;40;0;0;0;12;18;28;0;1;15;255;0;2;0;0;0;0;0;0;0;0;0;0;0;0;0;0;0;0;0;0;0;0;0;0;0;20;5;0;2;118;0;41;4;27;7;0;0;255;0;0;0;0;0;27;7;0;2;0;0;0;0;0;0;27;7;0;3;1;0;252;1;0;0;27;7;0;4;2;0;143;3;0;0;25;4;0;100;47;84;1;25;4;0;101;0;0;0;25;4;0;102;1;0;0;25;4;0;103;47;84;1;25;4;0;104;47;84;1;25;4;0;105;77;154;34;25;4;0;110;47;84;1;242;252];
 [1;0;0;11;0;115;0;75;143;1;244;100;0;94;70;133;62;35;0;0;78;95;229;16;2;2;16;21;0;27;95;229;16;210;80;164;158;213;172;91;53;9;0;0;0;230;124;0;0;1;25;4;0;110;42;5;2;25;4;0;111;0;0;0;25;4;0;100;80;64;1;25;4;0;101;0;0;0;25;4;0;102;141;0;0;25;4;0;103;42;5;2;25;4;0;104;2;0;0;25;4;0;105;138;150;220;25;4;0;106;138;150;220;17;10;0;31;9;0;7;0;0;0;16;3;0;127;45];
 [1;0;0;11;0;177;0;76;0;1;72;166;0;165;0;129;26;210;232;1;2;2;16;26;0;78;95;229;16;0;202;173;158;192;223;157;53;147;182;129;98;112;31;1;1;0;131;0;0;0;0;17;6;0;14;90;0;0;0;12;18;28;0;1;15;255;1;98;107;0;0;0;0;0;0;0;0;0;0;0;0;0;0;0;0;0;0;0;0;0;0;20;5;0;2;255;0;41;4;27;7;0;0;255;0;0;0;0;0;27;7;0;2;0;0;0;0;0;0;27;7;0;3;1;0;14;2;0;0;27;7;0;4;2;0;0;0;0;0;25;4;0;100;195;65;2;25;4;0;101;0;0;0;25;4;0;102;1;0;0;25;4;0;103;195;65;2;25;4;0;104;195;65;2;25;4;0;105;78;154;34;25;4;0;110;195;65;2;84;45];
 [1;0;0;11;0;98;1;28;103;1;52;166;0;205;14;129;168;202;38;2;2;2;16;26;0;79;95;229;16;180;131;194;158;83;39;208;53;147;238;128;38;37;218;4;10;0;171;0;0;0;0;17;6;0;14;60;0;0;0;12;18;28;0;1;15;255;10;0;0;0;74;107;0;42;0;0;107;105;0;0;0;0;0;0;0;0;0;0;0;0;0;20;5;0;2;255;0;41;4;27;7;0;0;255;0;0;0;0;0;27;7;0;2;0;0;0;0;0;0;27;7;0;3;1;0;204;2;0;0;27;7;0;4;2;0;0;0;0;0;25;4;0;100;33;225;5;25;4;0;101;0;0;0;25;4;0;102;201;146;0;25;4;0;103;33;225;5;25;4;0;104;33;225;5;25;4;0;105;79;154;34;25;4;0;110;33;225;5;166;0;206;14;129;168;202;38;2;2;2;16;26;0;77;95;229;16;254;124;194;158;152;57;208;53;155;233;128;21;37;218;4;10;0;171;0;0;0;0;17;6;0;14;60;0;0;0;12;18;28;0;1;15;255;10;0;0;0;81;107;0;56;0;0;198;105;0;0;0;0;0;0;0;0;0;0;0;0;0;20;5;0;2;255;0;41;4;27;7;0;0;255;0;0;0;0;0;27;7;0;2;0;0;0;0;0;0;27;7;0;3;1;0;204;2;0;0;27;7;0;4;2;0;0;0;0;0;25;4;0;100;32;225;5;25;4;0;101;1;0;0;25;4;0;102;201;146;0;25;4;0;103;33;225;5;25;4;0;104;32;225;5;25;4;0;105;77;154;34;25;4;0;110;32;225;5;19;156];
 [1;0;0;11;0;177;0;201;9;1;49;166;0;50;21;129;72;97;64;2;2;2;16;26;0;77;95;229;16;0;202;123;158;192;234;105;53;147;70;128;92;60;53;1;1;0;131;0;0;0;0;17;6;0;14;70;0;0;0;12;18;28;0;1;15;255;1;22;55;0;0;0;0;0;0;0;0;0;0;0;0;0;0;0;0;0;0;0;0;0;0;20;5;0;2;137;0;41;4;27;7;0;0;255;0;0;0;0;0;27;7;0;2;0;0;0;0;0;0;27;7;0;3;1;0;0;0;0;0;27;7;0;4;2;0;0;0;0;0;25;4;0;100;253;104;6;25;4;0;101;0;0;0;25;4;0;102;1;0;0;25;4;0;103;253;104;6;25;4;0;104;253;104;6;25;4;0;105;77;154;34;25;4;0;110;253;104;6;108;178];
 [1;0;0;11;0;188;2;90;241;1;80;164;0;59;0;129;174;244;211;1;2;2;16;26;0;45;95;229;16;150;182;122;158;34;215;108;53;147;210;0;173;96;221;21;1;0;128;0;0;0;0;17;4;0;10;7;0;12;18;28;0;1;15;255;1;48;53;0;0;0;0;0;0;0;0;0;0;0;0;0;0;0;0;0;0;0;0;0;0;20;5;0;2;136;0;41;4;27;7;0;0;255;0;0;0;0;0;27;7;0;2;0;0;0;0;0;0;27;7;0;3;1;0;0;0;0;0;27;7;0;4;2;0;0;0;0;0;25;4;0;100;10;233;34;25;4;0;101;0;0;0;25;4;0;102;86;135;0;25;4;0;103;10;233;34;25;4;0;104;10;233;34;25;4;0;105;45;154;34;25;4;0;110;10;233;34;164;0;60;0;129;174;244;211;1;2;2;16;26;0;44;95;229;16;72;192;122;158;99;214;108;53;155;181;0;189;96;221;21;1;0;128;0;0;0;0;17;4;0;10;7;0;12;18;28;0;1;15;255;1;176;53;0;0;0;0;0;0;0;0;0;0;0;0;0;0;0;0;0;0;0;0;0;0;20;5;0;2;136;0;41;4;27;7;0;0;255;0;0;0;0;0;27;7;0;2;0;0;0;0;0;0;27;7;0;3;1;0;0;0;0;0;27;7;0;4;2;0;0;0;0;0;25;4;0;100;9;233;34;25;4;0;101;1;0;0;25;4;0;102;86;135;0;25;4;0;103;10;233;34;25;4;0;104;10;233;34;25;4;0;105;44;154;34;25;4;0;110;9;233;34;164;0;61;0;129;174;244;211;1;2;2;16;26;0;43;95;229;16;189;199;122;158;129;215;108;53;155;147;0;199;96;221;21;1;0;128;0;0;0;0;17;4;0;10;7;0;12;18;28;0;1;15;255;1;220;53;0;0;0;0;0;0;0;0;0;0;0;0;0;0;0;0;0;0;0;0;0;0;20;5;0;2;136;0;41;4;27;7;0;0;255;0;0;0;0;0;27;7;0;2;0;0;0;0;0;0;27;7;0;3;1;0;0;0;0;0;27;7;0;4;2;0;0;0;0;0;25;4;0;100;8;233;34;25;4;0;101;2;0;0;25;4;0;102;86;135;0;25;4;0;103;10;233;34;25;4;0;104;10;233;34;25;4;0;105;43;154;34;25;4;0;110;8;233;34;164;0;62;0;129;174;244;211;1;2;2;16;26;0;41;95;229;16;110;209;122;158;125;218;108;53;155;93;0;211;96;221;21;1;0;128;0;0;0;0;17;4;0;10;7;0;12;18;28;0;1;15;255;1;141;52;0;0;0;0;0;0;0;0;0;0;0;0;0;0;0;0;0;0;0;0;0;0;20;5;0;2;135;0;41;4;27;7;0;0;255;0;0;0;0;0;27;7;0;2;0;0;0;0;0;0;27;7;0;3;1;0;0;0;0;0;27;7;0;4;2;0;0;0;0;0;25;4;0;100;7;233;34;25;4;0;101;3;0;0;25;4;0;102;86;135;0;25;4;0;103;10;233;34;25;4;0;104;10;233;34;25;4;0;105;41;154;34;25;4;0;110;7;233;34;155;96];
 [1;0;0;11;0;76;3;114;6;1;160;200;0;45;32;129;239;200;208;1;2;2;16;26;0;76;95;229;16;0;177;45;158;0;13;142;53;131;0;0;98;206;24;0;0;0;170;0;0;0;0;17;6;0;14;50;0;0;0;12;18;28;0;1;15;255;0;0;0;0;0;0;0;0;0;0;0;0;0;0;0;0;0;0;0;0;0;0;0;0;0;20;5;0;2;100;0;40;4;27;7;0;0;255;0;0;0;0;0;27;7;0;2;0;0;0;0;0;0;27;7;0;3;1;0;0;0;0;0;27;7;0;4;2;0;0;0;0;0;25;4;0;100;50;186;53;25;4;0;101;0;0;0;25;4;0;102;1;0;0;25;4;0;103;50;186;53;25;4;0;104;50;186;53;25;4;0;105;76;154;34;25;4;0;110;50;186;53;15;31;0;8;178;244;214;1;21;76;154;34;92;37;0;0;0;0;130;1;8;8;1;32;226;90;64;212;2;138;1;2;8;1;200;0;46;32;129;239;200;208;1;2;2;16;26;0;75;95;229;16;0;177;45;158;0;13;142;53;139;0;0;98;206;24;0;0;0;170;0;0;0;0;17;6;0;14;50;0;0;0;12;18;28;0;1;15;255;0;0;0;0;0;0;0;0;0;0;0;0;0;0;0;0;0;0;0;0;0;0;0;0;0;20;5;0;2;100;0;40;4;27;7;0;0;255;0;0;0;0;0;27;7;0;2;0;0;0;0;0;0;27;7;0;3;1;0;0;0;0;0;27;7;0;4;2;0;0;0;0;0;25;4;0;100;49;186;53;25;4;0;101;1;0;0;25;4;0;102;1;0;0;25;4;0;103;50;186;53;25;4;0;104;49;186;53;25;4;0;105;75;154;34;25;4;0;110;49;186;53;15;31;0;8;177;244;214;1;21;75;154;34;92;37;0;0;0;0;130;1;8;8;1;32;226;90;64;212;2;138;1;2;8;1;200;0;47;32;129;239;200;208;1;2;2;16;26;0;74;95;229;16;0;177;45;158;0;13;142;53;139;0;0;98;206;24;0;0;0;170;0;0;0;0;17;6;0;14;50;0;0;0;12;18;28;0;1;15;255;0;0;0;0;0;0;0;0;0;0;0;0;0;0;0;0;0;0;0;0;0;0;0;0;0;20;5;0;2;100;0;40;4;27;7;0;0;255;0;0;0;0;0;27;7;0;2;0;0;0;0;0;0;27;7;0;3;1;0;0;0;0;0;27;7;0;4;2;0;0;0;0;0;25;4;0;100;48;186;53;25;4;0;101;2;0;0;25;4;0;102;1;0;0;25;4;0;103;50;186;53;25;4;0;104;48;186;53;25;4;0;105;74;154;34;25;4;0;110;48;186;53;15;31;0;8;176;244;214;1;21;74;154;34;92;37;0;0;0;0;130;1;8;8;1;32;226;90;64;212;2;138;1;2;8;1;200;0;48;32;129;239;200;208;1;2;2;16;26;0;100;32;229;16;0;177;45;158;0;13;142;53;139;0;0;98;206;24;0;0;0;170;0;0;0;0;17;6;0;14;50;0;0;0;12;18;28;0;1;15;255;0;0;0;0;0;0;0;0;0;0;0;0;0;0;0;0;0;0;0;0;0;0;0;0;0;20;5;0;2;100;0;40;4;27;7;0;0;255;0;0;0;0;0;27;7;0;2;0;0;0;0;0;0;27;7;0;3;1;0;0;0;0;0;27;7;0;4;2;0;0;0;0;0;25;4;0;100;155;125;53;25;4;0;101;151;60;0;25;4;0;102;1;0;0;25;4;0;103;50;186;53;25;4;0;104;155;125;53;25;4;0;105;100;91;34;25;4;0;110;155;125;53;15;31;0;8;155;251;213;1;21;100;91;34;92;37;0;0;0;0;130;1;8;8;1;32;226;90;64;212;2;138;1;2;8;1;168;45];
 [1;0;0;11;0;177;0;46;0;1;79;166;0;97;0;129;234;199;63;2;2;2;16;26;0;79;95;229;16;0;115;170;158;64;132;174;53;147;46;0;138;253;91;0;1;0;148;0;0;0;0;17;6;0;14;80;0;0;0;12;18;28;0;1;15;255;1;41;111;0;0;0;0;0;0;0;0;0;0;0;0;0;0;0;0;0;0;0;0;0;0;20;5;0;2;255;0;41;4;27;7;0;0;255;0;0;0;0;0;27;7;0;2;0;0;0;0;0;0;27;7;0;3;1;0;0;0;0;0;27;7;0;4;2;0;0;0;0;0;25;4;0;100;141;54;2;25;4;0;101;0;0;0;25;4;0;102;1;0;0;25;4;0;103;141;54;2;25;4;0;104;141;54;2;25;4;0;105;79;154;34;25;4;0;110;141;54;2;73;52];
 [1;0;0;11;0;177;0;155;9;1;235;166;0;238;19;129;233;164;66;2;2;2;16;26;0;78;95;229;16;0;49;232;158;128;16;148;53;147;79;0;99;147;97;0;1;0;153;0;0;0;0;17;6;0;14;100;0;0;0;12;18;28;0;1;15;255;1;126;48;0;0;0;0;0;0;0;0;0;0;0;0;0;0;0;0;0;0;0;0;0;0;20;5;0;2;123;0;41;4;27;7;0;0;255;0;0;0;0;0;27;7;0;2;0;0;0;0;0;0;27;7;0;3;1;0;0;0;0;0;27;7;0;4;2;0;0;0;0;0;25;4;0;100;149;158;2;25;4;0;101;0;0;0;25;4;0;102;1;0;0;25;4;0;103;149;158;2;25;4;0;104;149;158;2;25;4;0;105;78;154;34;25;4;0;110;149;158;2;222;74];
 [1;0;0;11;0;107;3;161;242;1;209;164;0;7;0;129;14;4;0;3;2;2;16;26;0;16;95;229;16;115;37;124;158;208;177;119;53;131;0;0;145;248;70;8;0;0;163;0;0;0;0;17;4;0;10;6;0;15;18;28;0;1;15;255;0;0;0;0;0;0;0;0;0;0;0;0;0;0;0;0;0;0;0;0;0;0;0;0;0;20;5;0;2;126;0;42;4;27;7;0;0;255;0;0;0;0;0;27;7;0;2;0;0;0;0;0;0;27;7;0;3;1;0;170;2;0;0;27;7;0;4;2;0;0;0;0;0;25;4;0;100;115;63;10;25;4;0;101;0;0;0;25;4;0;102;128;4;0;25;4;0;103;115;63;10;25;4;0;104;115;63;10;25;4;0;105;16;154;34;25;4;0;110;115;63;10;164;0;8;0;129;14;4;0;3;2;2;16;26;0;213;90;229;16;115;37;124;158;208;177;119;53;139;0;0;145;248;70;8;0;0;163;0;0;0;0;17;4;0;10;6;0;15;18;28;0;1;15;255;0;0;0;0;0;0;0;0;0;0;0;0;0;0;0;0;0;0;0;0;0;0;0;0;0;20;5;0;2;127;0;42;4;27;7;0;0;255;0;0;0;0;0;27;7;0;2;0;0;0;0;0;0;27;7;0;3;1;0;171;2;0;0;27;7;0;4;2;0;0;0;0;0;25;4;0;100;114;63;10;25;4;0;101;1;0;0;25;4;0;102;128;4;0;25;4;0;103;115;63;10;25;4;0;104;115;63;10;25;4;0;105;213;149;34;25;4;0;110;114;63;10;164;0;9;0;129;14;4;0;3;2;2;16;26;0;126;90;229;16;115;37;124;158;208;177;119;53;139;0;0;145;248;70;8;0;0;163;0;0;0;0;17;4;0;10;6;0;15;18;28;0;1;15;255;0;128;3;0;0;0;0;0;0;0;0;0;0;0;0;0;0;0;0;0;0;0;0;0;0;20;5;0;2;129;0;42;4;27;7;0;0;255;0;0;0;0;0;27;7;0;2;0;0;0;0;0;0;27;7;0;3;1;0;171;2;0;0;27;7;0;4;2;0;0;0;0;0;25;4;0;100;113;63;10;25;4;0;101;2;0;0;25;4;0;102;128;4;0;25;4;0;103;115;63;10;25;4;0;104;115;63;10;25;4;0;105;126;149;34;25;4;0;110;113;63;10;164;0;10;0;129;14;4;0;3;2;2;16;26;0;96;90;229;16;115;37;124;158;208;177;119;53;139;0;0;145;248;70;8;1;0;163;0;0;0;0;17;4;0;10;6;0;15;18;28;0;1;15;255;1;36;51;0;0;0;0;0;0;0;0;0;0;0;0;0;0;0;0;0;0;0;0;0;0;20;5;0;2;128;0;42;4;27;7;0;0;255;0;0;0;0;0;27;7;0;2;0;0;0;0;0;0;27;7;0;3;1;0;171;2;0;0;27;7;0;4;2;0;0;0;0;0;25;4;0;100;112;63;10;25;4;0;101;3;0;0;25;4;0;102;128;4;0;25;4;0;103;115;63;10;25;4;0;104;115;63;10;25;4;0;105;96;149;34;25;4;0;110;112;63;10;164;0;11;0;129;14;4;0;3;2;2;16;26;0;169;89;229;16;115;37;124;158;208;177;119;53;139;0;0;145;248;70;8;1;0;163;0;0;0;0;17;4;0;10;6;0;15;18;28;0;1;15;255;1;8;51;0;0;0;0;0;0;0;0;0;0;0;0;0;0;0;0;0;0;0;0;0;0;20;5;0;2;129;0;42;4;27;7;0;0;255;0;0;0;0;0;27;7;0;2;0;0;0;0;0;0;27;7;0;3;1;0;172;2;0;0;27;7;0;4;2;0;0;0;0;0;25;4;0;100;111;63;10;25;4;0;101;4;0;0;25;4;0;102;128;4;0;25;4;0;103;115;63;10;25;4;0;104;115;63;10;25;4;0;105;169;148;34;25;4;0;110;111;63;10;77;15];
 [1;0;0;11;0;219;0;6;1;1;0;208;0;51;2;129;114;136;64;2;2;2;16;26;0;77;95;229;16;0;249;59;158;192;135;133;53;147;42;0;252;47;190;1;1;0;176;0;0;0;0;17;6;0;14;90;0;0;0;12;18;28;0;1;15;255;1;219;49;0;0;0;0;0;0;0;0;0;0;0;0;0;0;0;0;0;0;0;0;0;0;20;5;0;2;129;0;40;4;27;7;0;0;255;0;0;0;0;0;27;7;0;2;0;0;0;0;0;0;27;7;0;3;1;0;234;0;0;0;27;7;0;4;2;0;0;0;0;0;25;4;0;100;241;13;8;25;4;0;101;0;0;0;25;4;0;102;1;0;0;25;4;0;103;241;13;8;25;4;0;104;241;13;8;25;4;0;105;77;154;34;25;4;0;110;241;13;8;15;39;0;8;241;155;32;21;77;154;34;92;37;0;0;0;0;130;1;15;8;1;32;240;223;8;40;233;11;48;1;64;88;80;5;138;1;4;8;1;24;1;134;230];
 [1;0;0;11;0;177;0;6;2;1;189;166;0;126;4;129;117;199;158;2;2;2;16;26;0;79;95;229;16;0;104;158;158;192;112;104;53;147;35;128;27;45;18;0;1;0;161;0;0;0;0;17;6;0;14;110;0;0;0;12;18;28;0;1;15;255;1;136;111;0;0;0;0;0;0;0;0;0;0;0;0;0;0;0;0;0;0;0;0;0;0;20;5;0;2;255;0;41;4;27;7;0;0;255;0;0;0;0;0;27;7;0;2;0;0;0;0;0;0;27;7;0;3;1;0;196;3;0;0;27;7;0;4;2;0;0;0;0;0;25;4;0;100;76;176;0;25;4;0;101;0;0;0;25;4;0;102;1;0;0;25;4;0;103;76;176;0;25;4;0;104;76;176;0;25;4;0;105;79;154;34;25;4;0;110;76;176;0;84;164];
 [1;0;0;11;0;125;0;37;141;1;231;110;0;173;0;133;62;86;0;0;79;95;229;16;2;2;16;21;0;65;95;229;16;36;159;247;158;225;52;87;53;25;158;129;65;0;0;0;0;1;25;4;0;110;93;67;32;25;4;0;111;0;0;0;25;4;0;100;217;115;5;25;4;0;101;0;0;0;25;4;0;102;70;28;0;25;4;0;103;96;67;32;25;4;0;104;115;84;30;25;4;0;105;156;177;5;25;4;0;106;156;177;5;17;10;0;31;8;0;7;0;0;0;17;3;0;27;7;0;1;6;0;146;3;0;0;38;33];
 [1;0;0;11;0;107;3;161;242;1;209;164;0;7;0;129;14;4;0;3;2;2;16;26;0;16;95;229;16;115;37;124;158;208;177;119;53;131;0;0;145;248;70;8;0;0;163;0;0;0;0;17;4;0;10;6;0;15;18;28;0;1;15;255;0;0;0;0;0;0;0;0;0;0;0;0;0;0;0;0;0;0;0;0;0;0;0;0;0;20;5;0;2;126;0;42;4;27;7;0;0;255;0;0;0;0;0;27;7;0;2;0;0;0;0;0;0;27;7;0;3;1;0;170;2;0;0;27;7;0;4;2;0;0;0;0;0;25;4;0;100;115;63;10;25;4;0;101;0;0;0;25;4;0;102;128;4;0;25;4;0;103;115;63;10;25;4;0;104;115;63;10;25;4;0;105;16;154;34;25;4;0;110;115;63;10;164;0;8;0;129;14;4;0;3;2;2;16;26;0;213;90;229;16;115;37;124;158;208;177;119;53;139;0;0;145;248;70;8;0;0;163;0;0;0;0;17;4;0;10;6;0;15;18;28;0;1;15;255;0;0;0;0;0;0;0;0;0;0;0;0;0;0;0;0;0;0;0;0;0;0;0;0;0;20;5;0;2;127;0;42;4;27;7;0;0;255;0;0;0;0;0;27;7;0;2;0;0;0;0;0;0;27;7;0;3;1;0;171;2;0;0;27;7;0;4;2;0;0;0;0;0;25;4;0;100;114;63;10;25;4;0;101;1;0;0;25;4;0;102;128;4;0;25;4;0;103;115;63;10;25;4;0;104;115;63;10;25;4;0;105;213;149;34;25;4;0;110;114;63;10;164;0;9;0;129;14;4;0;3;2;2;16;26;0;126;90;229;16;115;37;124;158;208;177;119;53;139;0;0;145;248;70;8;0;0;163;0;0;0;0;17;4;0;10;6;0;15;18;28;0;1;15;255;0;128;3;0;0;0;0;0;0;0;0;0;0;0;0;0;0;0;0;0;0;0;0;0;0;20;5;0;2;129;0;42;4;27;7;0;0;255;0;0;0;0;0;27;7;0;2;0;0;0;0;0;0;27;7;0;3;1;0;171;2;0;0;27;7;0;4;2;0;0;0;0;0;25;4;0;100;113;63;10;25;4;0;101;2;0;0;25;4;0;102;128;4;0;25;4;0;103;115;63;10;25;4;0;104;115;63;10;25;4;0;105;126;149;34;25;4;0;110;113;63;10;164;0;10;0;129;14;4;0;3;2;2;16;26;0;96;90;229;16;115;37;124;158;208;177;119;53;139;0;0;145;248;70;8;1;0;163;0;0;0;0;17;4;0;10;6;0;15;18;28;0;1;15;255;1;36;51;0;0;0;0;0;0;0;0;0;0;0;0;0;0;0;0;0;0;0;0;0;0;20;5;0;2;128;0;42;4;27;7;0;0;255;0;0;0;0;0;27;7;0;2;0;0;0;0;0;0;27;7;0;3;1;0;171;2;0;0;27;7;0;4;2;0;0;0;0;0;25;4;0;100;112;63;10;25;4;0;101;3;0;0;25;4;0;102;128;4;0;25;4;0;103;115;63;10;25;4;0;104;115;63;10;25;4;0;105;96;149;34;25;4;0;110;112;63;10;164;0;11;0;129;14;4;0;3;2;2;16;26;0;169;89;229;16;115;37;124;158;208;177;119;53;139;0;0;145;248;70;8;1;0;163;0;0;0;0;17;4;0;10;6;0;15;18;28;0;1;15;255;1;8;51;0;0;0;0;0;0;0;0;0;0;0;0;0;0;0;0;0;0;0;0;0;0;20;5;0;2;129;0;42;4;27;7;0;0;255;0;0;0;0;0;27;7;0;2;0;0;0;0;0;0;27;7;0;3;1;0;172;2;0;0;27;7;0;4;2;0;0;0;0;0;25;4;0;100;111;63;10;25;4;0;101;4;0;0;25;4;0;102;128;4;0;25;4;0;103;115;63;10;25;4;0;104;115;63;10;25;4;0;105;169;148;34;25;4;0;110;111;63;10;77;15];
 [1;0;0;11;0;125;0;133;146;1;188;110;0;113;6;133;17;2;0;0;79;95;229;16;2;2;16;21;0;10;95;229;16;37;228;33;159;161;147;106;53;9;0;0;0;217;36;0;0;1;25;4;0;110;173;250;0;25;4;0;111;0;0;0;25;4;0;100;175;250;0;25;4;0;101;0;0;0;25;4;0;102;167;5;0;25;4;0;103;173;250;0;25;4;0;104;2;0;0;25;4;0;105;245;160;220;25;4;0;106;245;160;220;17;10;0;31;17;0;11;0;0;0;12;3;0;27;7;0;1;6;0;249;2;0;0;225;22];
 [1;0;0;11;0;76;3;114;6;1;160;200;0;45;32;129;239;200;208;1;2;2;16;26;0;76;95;229;16;0;177;45;158;0;13;142;53;131;0;0;98;206;24;0;0;0;170;0;0;0;0;17;6;0;14;50;0;0;0;12;18;28;0;1;15;255;0;0;0;0;0;0;0;0;0;0;0;0;0;0;0;0;0;0;0;0;0;0;0;0;0;20;5;0;2;100;0;40;4;27;7;0;0;255;0;0;0;0;0;27;7;0;2;0;0;0;0;0;0;27;7;0;3;1;0;0;0;0;0;27;7;0;4;2;0;0;0;0;0;25;4;0;100;50;186;53;25;4;0;101;0;0;0;25;4;0;102;1;0;0;25;4;0;103;50;186;53;25;4;0;104;50;186;53;25;4;0;105;76;154;34;25;4;0;110;50;186;53;15;31;0;8;178;244;214;1;21;76;154;34;92;37;0;0;0;0;130;1;8;8;1;32;226;90;64;212;2;138;1;2;8;1;200;0;46;32;129;239;200;208;1;2;2;16;26;0;75;95;229;16;0;177;45;158;0;13;142;53;139;0;0;98;206;24;0;0;0;170;0;0;0;0;17;6;0;14;50;0;0;0;12;18;28;0;1;15;255;0;0;0;0;0;0;0;0;0;0;0;0;0;0;0;0;0;0;0;0;0;0;0;0;0;20;5;0;2;100;0;40;4;27;7;0;0;255;0;0;0;0;0;27;7;0;2;0;0;0;0;0;0;27;7;0;3;1;0;0;0;0;0;27;7;0;4;2;0;0;0;0;0;25;4;0;100;49;186;53;25;4;0;101;1;0;0;25;4;0;102;1;0;0;25;4;0;103;50;186;53;25;4;0;104;49;186;53;25;4;0;105;75;154;34;25;4;0;110;49;186;53;15;31;0;8;177;244;214;1;21;75;154;34;92;37;0;0;0;0;130;1;8;8;1;32;226;90;64;212;2;138;1;2;8;1;200;0;47;32;129;239;200;208;1;2;2;16;26;0;74;95;229;16;0;177;45;158;0;13;142;53;139;0;0;98;206;24;0;0;0;170;0;0;0;0;17;6;0;14;50;0;0;0;12;18;28;0;1;15;255;0;0;0;0;0;0;0;0;0;0;0;0;0;0;0;0;0;0;0;0;0;0;0;0;0;20;5;0;2;100;0;40;4;27;7;0;0;255;0;0;0;0;0;27;7;0;2;0;0;0;0;0;0;27;7;0;3;1;0;0;0;0;0;27;7;0;4;2;0;0;0;0;0;25;4;0;100;48;186;53;25;4;0;101;2;0;0;25;4;0;102;1;0;0;25;4;0;103;50;186;53;25;4;0;104;48;186;53;25;4;0;105;74;154;34;25;4;0;110;48;186;53;15;31;0;8;176;244;214;1;21;74;154;34;92;37;0;0;0;0;130;1;8;8;1;32;226;90;64;212;2;138;1;2;8;1;200;0;48;32;129;239;200;208;1;2;2;16;26;0;100;32;229;16;0;177;45;158;0;13;142;53;139;0;0;98;206;24;0;0;0;170;0;0;0;0;17;6;0;14;50;0;0;0;12;18;28;0;1;15;255;0;0;0;0;0;0;0;0;0;0;0;0;0;0;0;0;0;0;0;0;0;0;0;0;0;20;5;0;2;100;0;40;4;27;7;0;0;255;0;0;0;0;0;27;7;0;2;0;0;0;0;0;0;27;7;0;3;1;0;0;0;0;0;27;7;0;4;2;0;0;0;0;0;25;4;0;100;155;125;53;25;4;0;101;151;60;0;25;4;0;102;1;0;0;25;4;0;103;50;186;53;25;4;0;104;155;125;53;25;4;0;105;100;91;34;25;4;0;110;155;125;53;15;31;0;8;155;251;213;1;21;100;91;34;92;37;0;0;0;0;130;1;8;8;1;32;226;90;64;212;2;138;1;2;8;1;168;45];
 [1;0;0;11;0;156;1;13;5;1;26;195;0;186;10;129;15;188;224;1;2;2;16;26;0;76;95;229;16;0;15;60;158;0;53;133;53;147;125;0;105;54;251;0;5;0;180;0;0;0;0;17;6;0;14;70;0;0;0;12;18;28;0;1;15;255;5;120;109;0;23;15;0;217;106;0;0;0;0;0;0;0;0;0;0;0;0;0;0;0;0;20;5;0;2;255;0;41;4;27;7;0;0;255;0;0;0;0;0;27;7;0;2;0;0;0;0;0;0;27;7;0;3;1;0;0;0;0;0;27;7;0;4;2;0;0;0;0;0;25;4;0;100;250;244;1;25;4;0;101;0;0;0;25;4;0;102;1;0;0;25;4;0;103;250;244;1;25;4;0;104;250;244;1;25;4;0;105;76;154;34;25;4;0;110;250;244;1;15;26;0;8;250;233;7;21;76;154;34;92;37;0;0;0;0;130;1;4;8;1;48;79;138;1;2;8;1;195;0;187;10;129;15;188;224;1;2;2;16;26;0;75;95;229;16;0;16;60;158;0;48;133;53;155;118;0;109;53;251;0;1;0;180;0;0;0;0;17;6;0;14;70;0;0;0;12;18;28;0;1;15;255;1;71;109;0;33;9;0;46;9;0;0;0;0;0;0;0;0;0;0;0;0;0;0;0;0;20;5;0;2;255;0;41;4;27;7;0;0;255;0;0;0;0;0;27;7;0;2;0;0;0;0;0;0;27;7;0;3;1;0;0;0;0;0;27;7;0;4;2;0;0;0;0;0;25;4;0;100;249;244;1;25;4;0;101;1;0;0;25;4;0;102;1;0;0;25;4;0;103;250;244;1;25;4;0;104;249;244;1;25;4;0;105;75;154;34;25;4;0;110;249;244;1;15;26;0;8;249;233;7;21;75;154;34;92;37;0;0;0;0;130;1;4;8;1;48;79;138;1;2;8;1;112;61];
 [1;0;0;11;0;117;3;195;5;1;170;166;0;239;12;129;44;130;63;2;2;2;16;26;0;75;95;229;16;0;181;124;158;0;88;63;53;147;35;128;87;130;16;0;1;0;172;0;0;0;0;17;6;0;14;80;0;0;0;12;18;28;0;1;15;255;1;117;53;0;0;0;0;0;0;0;0;0;0;0;0;0;0;0;0;0;0;0;0;0;0;20;5;0;2;134;0;41;4;27;7;0;0;255;0;0;0;0;0;27;7;0;2;0;0;0;0;0;0;27;7;0;3;1;0;0;0;0;0;27;7;0;4;2;0;0;0;0;0;25;4;0;100;229;243;0;25;4;0;101;0;0;0;25;4;0;102;1;0;0;25;4;0;103;229;243;0;25;4;0;104;229;243;0;25;4;0;105;75;154;34;25;4;0;110;229;243;0;166;0;240;12;129;44;130;63;2;2;2;16;26;0;74;95;229;16;0;181;124;158;192;87;63;53;155;35;128;68;130;16;0;1;0;172;0;0;0;0;17;6;0;14;80;0;0;0;12;18;28;0;1;15;255;1;197;52;0;0;0;0;0;0;0;0;0;0;0;0;0;0;0;0;0;0;0;0;0;0;20;5;0;2;133;0;41;4;27;7;0;0;255;0;0;0;0;0;27;7;0;2;0;0;0;0;0;0;27;7;0;3;1;0;0;0;0;0;27;7;0;4;2;0;0;0;0;0;25;4;0;100;228;243;0;25;4;0;101;1;0;0;25;4;0;102;1;0;0;25;4;0;103;229;243;0;25;4;0;104;228;243;0;25;4;0;105;74;154;34;25;4;0;110;228;243;0;166;0;241;12;129;44;130;63;2;2;2;16;26;0;65;95;229;16;0;183;124;158;128;88;63;53;155;24;0;125;130;16;0;1;0;172;0;0;0;0;17;6;0;14;110;0;0;0;12;18;28;0;1;15;255;1;231;51;0;0;0;0;0;0;0;0;0;0;0;0;0;0;0;0;0;0;0;0;0;0;20;5;0;2;128;0;41;4;27;7;0;0;255;0;0;0;0;0;27;7;0;2;0;0;0;0;0;0;27;7;0;3;1;0;0;0;0;0;27;7;0;4;2;0;0;0;0;0;25;4;0;100;222;243;0;25;4;0;101;7;0;0;25;4;0;102;1;0;0;25;4;0;103;229;243;0;25;4;0;104;222;243;0;25;4;0;105;65;154;34;25;4;0;110;222;243;0;166;0;242;12;129;44;130;63;2;2;2;16;26;0;64;95;229;16;0;184;124;158;192;87;63;53;155;12;0;0;130;16;0;1;0;172;0;0;0;0;17;6;0;14;110;0;0;0;12;18;28;0;1;15;255;1;113;51;0;0;0;0;0;0;0;0;0;0;0;0;0;0;0;0;0;0;0;0;0;0;20;5;0;2;129;0;41;4;27;7;0;0;255;0;0;0;0;0;27;7;0;2;0;0;0;0;0;0;27;7;0;3;1;0;0;0;0;0;27;7;0;4;2;0;0;0;0;0;25;4;0;100;221;243;0;25;4;0;101;8;0;0;25;4;0;102;1;0;0;25;4;0;103;229;243;0;25;4;0;104;221;243;0;25;4;0;105;64;154;34;25;4;0;110;221;243;0;166;0;243;12;129;44;130;63;2;2;2;16;26;0;62;95;229;16;0;186;124;158;64;87;63;53;155;16;0;24;130;16;0;1;0;173;0;0;0;0;17;6;0;14;110;0;0;0;12;18;28;0;1;15;255;1;104;51;0;0;0;0;0;0;0;0;0;0;0;0;0;0;0;0;0;0;0;0;0;0;20;5;0;2;132;0;41;4;27;7;0;0;255;0;0;0;0;0;27;7;0;2;0;0;0;0;0;0;27;7;0;3;1;0;0;0;0;0;27;7;0;4;2;0;0;0;0;0;25;4;0;100;220;243;0;25;4;0;101;9;0;0;25;4;0;102;1;0;0;25;4;0;103;229;243;0;25;4;0;104;220;243;0;25;4;0;105;62;154;34;25;4;0;110;220;243;0;3;64];
 [1;0;0;11;0;211;0;85;4;1;213;200;0;76;9;129;126;63;234;1;2;2;16;26;0;79;95;229;16;0;176;116;158;128;231;110;53;147;233;0;78;192;56;2;1;0;164;0;0;0;0;17;6;0;14;90;0;0;0;12;18;28;0;1;15;255;1;23;108;0;0;0;0;0;0;0;0;0;0;0;0;0;0;0;0;0;0;0;0;0;0;20;5;0;2;255;0;41;4;27;7;0;0;255;0;0;0;0;0;27;7;0;2;0;0;0;0;0;0;27;7;0;3;1;0;49;2;0;0;27;7;0;4;2;0;214;0;0;0;25;4;0;100;229;206;4;25;4;0;101;0;0;0;25;4;0;102;1;0;0;25;4;0;103;229;206;4;25;4;0;104;229;206;4;25;4;0;105;79;154;34;25;4;0;110;229;206;4;15;31;0;8;229;157;19;21;79;154;34;92;37;0;0;0;0;130;1;9;8;1;32;232;204;6;64;196;1;138;1;2;8;1;124;26];
 [1;0;0;11;0;177;0;119;0;1;13;166;0;251;0;129;152;219;4;2;2;2;16;26;0;78;95;229;16;0;175;149;158;64;220;191;53;147;75;0;253;25;52;0;1;0;167;0;0;0;0;17;6;0;14;70;0;0;0;12;18;28;0;1;15;255;1;235;104;0;0;0;0;0;0;0;0;0;0;0;0;0;0;0;0;0;0;0;0;0;0;20;5;0;2;255;0;41;4;27;7;0;0;255;0;0;0;0;0;27;7;0;2;0;0;0;0;0;0;27;7;0;3;1;0;0;0;0;0;27;7;0;4;2;0;0;0;0;0;25;4;0;100;94;142;1;25;4;0;101;0;0;0;25;4;0;102;1;0;0;25;4;0;103;94;142;1;25;4;0;104;94;142;1;25;4;0;105;78;154;34;25;4;0;110;94;142;1;53;223];
 [1;0;0;11;0;152;0;251;64;1;63;141;0;61;63;129;42;53;16;0;2;2;16;24;0;57;95;229;16;220;87;60;159;106;188;222;52;128;0;0;245;173;6;0;0;0;205;0;0;17;6;0;28;99;0;0;3;0;18;9;0;0;0;3;0;0;0;0;0;0;19;7;0;3;0;0;0;0;0;0;20;5;0;2;0;0;38;5;27;7;0;64;0;0;0;0;0;0;15;62;0;8;194;209;65;21;57;154;34;92;24;12;37;0;32;0;0;98;4;8;1;16;0;98;4;8;2;16;0;178;1;16;8;1;16;186;199;57;24;132;188;43;32;0;40;234;207;3;178;1;12;8;2;16;0;24;0;32;0;40;227;211;3;181;92];
 [1;0;0;11;0;177;0;12;54;1;82;166;0;220;6;129;92;62;16;2;2;2;16;26;0;80;95;229;16;116;190;111;158;127;63;27;53;147;31;0;172;78;143;1;1;0;192;0;0;0;0;17;6;0;14;80;0;0;0;12;18;28;0;1;15;255;1;75;54;0;0;0;0;0;0;0;0;0;0;0;0;0;0;0;0;0;0;0;0;0;0;20;5;0;2;135;0;40;4;27;7;0;0;255;0;0;0;0;0;27;7;0;2;0;0;0;0;0;0;27;7;0;3;1;0;43;2;0;0;27;7;0;4;2;0;207;1;0;0;25;4;0;100;123;215;2;25;4;0;101;0;0;0;25;4;0;102;40;53;4;25;4;0;103;123;215;2;25;4;0;104;123;215;2;25;4;0;105;80;154;34;25;4;0;110;123;215;2;223;172];
 [1;0;0;11;0;177;0;160;0;1;109;166;0;122;1;129;247;219;120;2;2;2;16;26;0;79;95;229;16;0;86;225;158;192;101;76;53;147;50;0;117;236;19;0;1;0;167;0;0;0;0;17;6;0;14;100;0;0;0;12;18;28;0;1;15;255;1;86;108;0;0;0;0;0;0;0;0;0;0;0;0;0;0;0;0;0;0;0;0;0;0;20;5;0;2;255;0;41;4;27;7;0;0;255;0;0;0;0;0;27;7;0;2;0;0;0;0;0;0;27;7;0;3;1;0;87;0;0;0;27;7;0;4;2;0;0;0;0;0;25;4;0;100;53;60;0;25;4;0;101;0;0;0;25;4;0;102;1;0;0;25;4;0;103;53;60;0;25;4;0;104;53;60;0;25;4;0;105;79;154;34;25;4;0;110;53;60;0;225;212];
 [1;0;0;11;0;107;3;161;242;1;209;164;0;7;0;129;14;4;0;3;2;2;16;26;0;16;95;229;16;115;37;124;158;208;177;119;53;131;0;0;145;248;70;8;0;0;163;0;0;0;0;17;4;0;10;6;0;15;18;28;0;1;15;255;0;0;0;0;0;0;0;0;0;0;0;0;0;0;0;0;0;0;0;0;0;0;0;0;0;20;5;0;2;126;0;42;4;27;7;0;0;255;0;0;0;0;0;27;7;0;2;0;0;0;0;0;0;27;7;0;3;1;0;170;2;0;0;27;7;0;4;2;0;0;0;0;0;25;4;0;100;115;63;10;25;4;0;101;0;0;0;25;4;0;102;128;4;0;25;4;0;103;115;63;10;25;4;0;104;115;63;10;25;4;0;105;16;154;34;25;4;0;110;115;63;10;164;0;8;0;129;14;4;0;3;2;2;16;26;0;213;90;229;16;115;37;124;158;208;177;119;53;139;0;0;145;248;70;8;0;0;163;0;0;0;0;17;4;0;10;6;0;15;18;28;0;1;15;255;0;0;0;0;0;0;0;0;0;0;0;0;0;0;0;0;0;0;0;0;0;0;0;0;0;20;5;0;2;127;0;42;4;27;7;0;0;255;0;0;0;0;0;27;7;0;2;0;0;0;0;0;0;27;7;0;3;1;0;171;2;0;0;27;7;0;4;2;0;0;0;0;0;25;4;0;100;114;63;10;25;4;0;101;1;0;0;25;4;0;102;128;4;0;25;4;0;103;115;63;10;25;4;0;104;115;63;10;25;4;0;105;213;149;34;25;4;0;110;114;63;10;164;0;9;0;129;14;4;0;3;2;2;16;26;0;126;90;229;16;115;37;124;158;208;177;119;53;139;0;0;145;248;70;8;0;0;163;0;0;0;0;17;4;0;10;6;0;15;18;28;0;1;15;255;0;128;3;0;0;0;0;0;0;0;0;0;0;0;0;0;0;0;0;0;0;0;0;0;0;20;5;0;2;129;0;42;4;27;7;0;0;255;0;0;0;0;0;27;7;0;2;0;0;0;0;0;0;27;7;0;3;1;0;171;2;0;0;27;7;0;4;2;0;0;0;0;0;25;4;0;100;113;63;10;25;4;0;101;2;0;0;25;4;0;102;128;4;0;25;4;0;103;115;63;10;25;4;0;104;115;63;10;25;4;0;105;126;149;34;25;4;0;110;113;63;10;164;0;10;0;129;14;4;0;3;2;2;16;26;0;96;90;229;16;115;37;124;158;208;177;119;53;139;0;0;145;248;70;8;1;0;163;0;0;0;0;17;4;0;10;6;0;15;18;28;0;1;15;255;1;36;51;0;0;0;0;0;0;0;0;0;0;0;0;0;0;0;0;0;0;0;0;0;0;20;5;0;2;128;0;42;4;27;7;0;0;255;0;0;0;0;0;27;7;0;2;0;0;0;0;0;0;27;7;0;3;1;0;171;2;0;0;27;7;0;4;2;0;0;0;0;0;25;4;0;100;112;63;10;25;4;0;101;3;0;0;25;4;0;102;128;4;0;25;4;0;103;115;63;10;25;4;0;104;115;63;10;25;4;0;105;96;149;34;25;4;0;110;112;63;10;164;0;11;0;129;14;4;0;3;2;2;16;26;0;169;89;229;16;115;37;124;158;208;177;119;53;139;0;0;145;248;70;8;1;0;163;0;0;0;0;17;4;0;10;6;0;15;18;28;0;1;15;255;1;8;51;0;0;0;0;0;0;0;0;0;0;0;0;0;0;0;0;0;0;0;0;0;0;20;5;0;2;129;0;42;4;27;7;0;0;255;0;0;0;0;0;27;7;0;2;0;0;0;0;0;0;27;7;0;3;1;0;172;2;0;0;27;7;0;4;2;0;0;0;0;0;25;4;0;100;111;63;10;25;4;0;101;4;0;0;25;4;0;102;128;4;0;25;4;0;103;115;63;10;25;4;0;104;115;63;10;25;4;0;105;169;148;34;25;4;0;110;111;63;10;77;15];
 [1;0;0;11;0;175;0;5;12;1;208;164;0;196;6;129;151;165;210;1;2;2;16;26;0;79;95;229;16;150;155;39;158;102;204;134;53;131;0;0;0;31;97;5;0;0;198;0;0;0;0;17;4;0;10;14;0;6;18;28;0;1;15;255;0;0;0;0;0;0;0;0;0;0;0;0;0;0;0;0;0;0;0;0;0;0;0;0;0;20;5;0;2;252;0;41;4;27;7;0;0;255;0;0;0;0;0;27;7;0;2;0;0;0;0;0;0;27;7;0;3;1;0;1;0;0;0;27;7;0;4;2;0;0;0;0;0;25;4;0;100;229;107;18;25;4;0;101;0;0;0;25;4;0;102;2;0;0;25;4;0;103;229;107;18;25;4;0;104;229;107;18;25;4;0;105;79;154;34;25;4;0;110;229;107;18;72;117];
 [1;0;0;11;0;177;0;157;3;1;160;166;0;85;8;129;212;189;158;2;2;2;16;26;0;77;95;229;16;0;83;170;158;128;247;105;53;147;27;0;20;51;26;0;1;0;164;0;0;0;0;17;6;0;14;110;0;0;0;12;18;28;0;1;15;255;1;200;53;0;0;0;0;0;0;0;0;0;0;0;0;0;0;0;0;0;0;0;0;0;0;20;5;0;2;140;0;41;4;27;7;0;0;255;0;0;0;0;0;27;7;0;2;0;0;0;0;0;0;27;7;0;3;1;0;0;0;0;0;27;7;0;4;2;0;0;0;0;0;25;4;0;100;133;69;2;25;4;0;101;0;0;0;25;4;0;102;1;0;0;25;4;0;103;133;69;2;25;4;0;104;133;69;2;25;4;0;105;77;154;34;25;4;0;110;133;69;2;48;237];
 [1;0;0;11;0;210;0;163;5;1;173;199;0;154;12;129;19;167;66;2;2;2;16;26;0;78;95;229;16;0;228;161;158;0;156;140;53;147;50;0;254;163;95;1;1;0;174;0;0;0;0;17;6;0;14;140;0;0;0;12;18;28;0;1;15;255;1;221;54;0;0;0;0;0;0;0;0;0;0;0;0;0;0;0;0;0;0;0;0;0;0;20;5;0;2;139;0;41;4;27;7;0;0;255;0;0;0;0;0;27;7;0;2;0;0;0;0;0;0;27;7;0;3;1;0;0;0;0;0;27;7;0;4;2;0;0;0;0;0;25;4;0;100;133;163;9;25;4;0;101;0;0;0;25;4;0;102;1;0;0;25;4;0;103;133;163;9;25;4;0;104;133;163;9;25;4;0;105;78;154;34;25;4;0;110;133;163;9;15;30;0;8;133;199;38;21;78;154;34;92;37;0;0;0;0;130;1;6;8;1;32;253;145;10;138;1;4;8;1;24;5;69;182];
 [1;0;0;11;0;156;1;13;5;1;26;195;0;186;10;129;15;188;224;1;2;2;16;26;0;76;95;229;16;0;15;60;158;0;53;133;53;147;125;0;105;54;251;0;5;0;180;0;0;0;0;17;6;0;14;70;0;0;0;12;18;28;0;1;15;255;5;120;109;0;23;15;0;217;106;0;0;0;0;0;0;0;0;0;0;0;0;0;0;0;0;20;5;0;2;255;0;41;4;27;7;0;0;255;0;0;0;0;0;27;7;0;2;0;0;0;0;0;0;27;7;0;3;1;0;0;0;0;0;27;7;0;4;2;0;0;0;0;0;25;4;0;100;250;244;1;25;4;0;101;0;0;0;25;4;0;102;1;0;0;25;4;0;103;250;244;1;25;4;0;104;250;244;1;25;4;0;105;76;154;34;25;4;0;110;250;244;1;15;26;0;8;250;233;7;21;76;154;34;92;37;0;0;0;0;130;1;4;8;1;48;79;138;1;2;8;1;195;0;187;10;129;15;188;224;1;2;2;16;26;0;75;95;229;16;0;16;60;158;0;48;133;53;155;118;0;109;53;251;0;1;0;180;0;0;0;0;17;6;0;14;70;0;0;0;12;18;28;0;1;15;255;1;71;109;0;33;9;0;46;9;0;0;0;0;0;0;0;0;0;0;0;0;0;0;0;0;20;5;0;2;255;0;41;4;27;7;0;0;255;0;0;0;0;0;27;7;0;2;0;0;0;0;0;0;27;7;0;3;1;0;0;0;0;0;27;7;0;4;2;0;0;0;0;0;25;4;0;100;249;244;1;25;4;0;101;1;0;0;25;4;0;102;1;0;0;25;4;0;103;250;244;1;25;4;0;104;249;244;1;25;4;0;105;75;154;34;25;4;0;110;249;244;1;15;26;0;8;249;233;7;21;75;154;34;92;37;0;0;0;0;130;1;4;8;1;48;79;138;1;2;8;1;112;61];
 [1;0;0;11;0;177;0;149;4;1;92;166;0;54;9;129;69;196;158;2;2;2;16;26;0;79;95;229;16;0;56;206;158;0;28;140;53;131;0;0;208;10;97;0;1;0;146;0;0;0;0;17;6;0;14;50;0;0;0;12;18;28;0;1;15;255;1;226;108;0;0;0;0;0;0;0;0;0;0;0;0;0;0;0;0;0;0;0;0;0;0;20;5;0;2;255;0;41;4;27;7;0;0;255;0;0;0;0;0;27;7;0;2;0;0;0;0;0;0;27;7;0;3;1;0;51;1;0;0;27;7;0;4;2;0;0;0;0;0;25;4;0;100;137;150;1;25;4;0;101;0;0;0;25;4;0;102;1;0;0;25;4;0;103;137;150;1;25;4;0;104;137;150;1;25;4;0;105;79;154;34;25;4;0;110;137;150;1;148;167];
 [1;0;0;11;0;177;0;68;5;1;109;166;0;130;11;129;182;200;4;2;2;2;16;26;0;79;95;229;16;0;237;68;158;0;35;39;53;147;179;1;182;226;39;1;1;0;172;0;0;0;0;17;6;0;14;70;0;0;0;12;18;28;0;1;15;255;1;165;111;0;0;0;0;0;0;0;0;0;0;0;0;0;0;0;0;0;0;0;0;0;0;20;5;0;2;255;0;41;4;27;7;0;0;255;0;0;0;0;0;27;7;0;2;0;0;0;0;0;0;27;7;0;3;1;0;145;1;0;0;27;7;0;4;2;0;0;0;0;0;25;4;0;100;195;176;2;25;4;0;101;0;0;0;25;4;0;102;1;0;0;25;4;0;103;195;176;2;25;4;0;104;195;176;2;25;4;0;105;79;154;34;25;4;0;110;195;176;2;43;167];
 [1;0;0;11;0;177;0;123;10;1;152;166;0;167;26;129;29;145;233;1;2;2;16;26;0;78;95;229;16;0;212;126;158;128;139;105;53;147;148;0;119;13;236;2;1;0;129;0;0;0;0;17;6;0;14;60;0;0;0;12;18;28;0;1;15;255;1;223;108;0;0;0;0;0;0;0;0;0;0;0;0;0;0;0;0;0;0;0;0;0;0;20;5;0;2;255;0;41;4;27;7;0;0;255;0;0;0;0;0;27;7;0;2;0;0;0;0;0;0;27;7;0;3;1;0;0;0;0;0;27;7;0;4;2;0;0;0;0;0;25;4;0;100;67;65;10;25;4;0;101;0;0;0;25;4;0;102;1;0;0;25;4;0;103;67;65;10;25;4;0;104;67;65;10;25;4;0;105;78;154;34;25;4;0;110;67;65;10;236;235];
 [1;0;0;11;0;104;0;70;253;1;45;93;0;46;214;129;85;141;15;0;2;2;16;24;0;77;95;229;16;125;172;147;158;46;178;172;53;145;144;1;122;39;108;0;4;0;158;0;0;17;6;0;28;1;0;17;3;0;18;13;0;1;0;7;4;180;0;0;150;0;0;201;106;0;19;10;0;7;0;0;0;0;0;0;0;0;0;20;5;0;2;255;0;44;4;27;7;0;0;0;0;11;2;0;0;27;7;0;65;0;0;0;0;0;0;89;71];
 [1;0;0;11;0;177;0;241;0;1;125;166;0;26;2;129;244;111;233;1;2;2;16;26;0;78;95;229;16;0;147;70;158;64;194;117;53;147;50;0;152;132;187;1;1;0;179;0;0;0;0;17;6;0;14;70;0;0;0;12;18;28;0;1;15;255;1;140;108;0;0;0;0;0;0;0;0;0;0;0;0;0;0;0;0;0;0;0;0;0;0;20;5;0;2;255;0;41;4;27;7;0;0;255;0;0;0;0;0;27;7;0;2;0;0;0;0;0;0;27;7;0;3;1;0;8;2;0;0;27;7;0;4;2;0;0;0;0;0;25;4;0;100;156;123;1;25;4;0;101;0;0;0;25;4;0;102;1;0;0;25;4;0;103;156;123;1;25;4;0;104;156;123;1;25;4;0;105;78;154;34;25;4;0;110;156;123;1;89;22];
 [1;0;0;11;0;177;0;2;7;1;227;166;0;236;14;129;91;40;121;2;2;2;16;26;0;79;95;229;16;0;2;151;158;128;112;183;53;147;35;128;11;227;14;0;1;0;153;0;0;0;0;17;6;0;14;80;0;0;0;12;18;28;0;1;15;255;1;102;53;0;0;0;0;0;0;0;0;0;0;0;0;0;0;0;0;0;0;0;0;0;0;20;5;0;2;129;0;41;4;27;7;0;0;255;0;0;0;0;0;27;7;0;2;0;0;0;0;0;0;27;7;0;3;1;0;34;2;0;0;27;7;0;4;2;0;165;1;0;0;25;4;0;100;221;83;0;25;4;0;101;0;0;0;25;4;0;102;1;0;0;25;4;0;103;221;83;0;25;4;0;104;221;83;0;25;4;0;105;79;154;34;25;4;0;110;221;83;0;47;52];
 [1;0;0;11;0;175;0;26;194;1;2;164;0;2;0;129;234;13;245;1;2;2;16;26;0;79;95;229;16;157;127;211;158;88;186;82;53;131;0;128;26;64;243;9;0;0;165;0;0;0;0;17;4;0;10;5;0;12;18;28;0;1;15;255;0;0;0;0;0;0;0;0;0;0;0;0;0;0;0;0;0;0;0;0;0;0;0;0;0;20;5;0;2;251;0;41;4;27;7;0;0;255;0;0;0;0;0;27;7;0;2;0;0;0;0;0;0;27;7;0;3;1;0;61;3;0;0;27;7;0;4;2;0;0;0;0;0;25;4;0;100;36;235;8;25;4;0;101;0;0;0;25;4;0;102;209;120;5;25;4;0;103;36;235;8;25;4;0;104;36;235;8;25;4;0;105;79;154;34;25;4;0;110;36;235;8;198;195];
 [1;0;0;11;0;155;0;244;152;1;57;140;0;234;120;133;129;13;0;0;79;95;229;16;2;2;16;21;0;78;95;229;16;140;64;32;158;53;122;132;53;25;40;128;103;0;0;0;0;1;25;4;0;110;243;101;3;25;4;0;111;0;0;0;25;4;0;100;254;101;3;25;4;0;101;0;0;0;25;4;0;102;58;2;0;25;4;0;103;244;101;3;25;4;0;104;8;64;1;25;4;0;105;179;134;245;25;4;0;106;179;134;245;17;10;0;31;8;0;7;0;0;0;17;3;0;27;7;0;1;1;0;0;128;0;0;27;7;0;2;2;0;0;128;0;0;27;7;0;2;7;0;0;0;0;0;27;7;0;1;8;0;5;0;0;0;204;200];
 [1;0;0;11;0;155;0;211;143;1;99;140;0;37;255;133;38;102;0;0;77;95;229;16;2;2;16;21;0;69;95;229;16;202;237;36;159;239;160;99;53;25;134;1;177;0;0;0;0;1;25;4;0;110;233;21;6;25;4;0;111;0;0;0;25;4;0;100;183;238;0;25;4;0;101;0;0;0;25;4;0;102;212;1;0;25;4;0;103;237;21;6;25;4;0;104;1;240;3;25;4;0;105;172;184;5;25;4;0;106;172;184;5;17;10;0;31;11;0;9;0;0;0;17;3;0;27;7;0;1;1;0;0;128;0;0;27;7;0;2;2;0;0;128;0;0;27;7;0;2;7;0;0;0;0;0;27;7;0;1;8;0;3;0;0;0;127;85];
 [1;0;0;11;0;94;1;121;20;1;99;164;0;2;0;129;127;114;6;2;2;2;16;26;0;51;95;229;16;8;169;42;158;125;127;136;53;131;0;0;47;104;51;6;0;0;173;0;0;0;0;17;4;0;10;5;0;12;18;28;0;1;15;255;0;0;0;0;0;0;0;0;0;0;0;0;0;0;0;0;0;0;0;0;0;0;0;0;0;20;5;0;2;255;0;41;4;27;7;0;0;255;0;0;0;0;0;27;7;0;2;0;0;0;0;0;0;27;7;0;3;1;0;59;2;0;0;27;7;0;4;2;0;0;0;0;0;25;4;0;100;250;151;21;25;4;0;101;0;0;0;25;4;0;102;68;133;1;25;4;0;103;250;151;21;25;4;0;104;250;151;21;25;4;0;105;51;154;34;25;4;0;110;250;151;21;164;0;3;0;129;127;114;6;2;2;2;16;26;0;21;95;229;16;8;169;42;158;125;127;136;53;139;0;0;47;104;51;6;0;0;173;0;0;0;0;17;4;0;10;5;0;12;18;28;0;1;15;255;0;0;0;0;0;0;0;0;0;0;0;0;0;0;0;0;0;0;0;0;0;0;0;0;0;20;5;0;2;255;0;41;4;27;7;0;0;255;0;0;0;0;0;27;7;0;2;0;0;0;0;0;0;27;7;0;3;1;0;59;2;0;0;27;7;0;4;2;0;0;0;0;0;25;4;0;100;249;151;21;25;4;0;101;1;0;0;25;4;0;102;68;133;1;25;4;0;103;250;151;21;25;4;0;104;250;151;21;25;4;0;105;21;154;34;25;4;0;110;249;151;21;232;110];
 [1;0;0;11;0;175;0;55;144;1;120;164;0;117;18;129;166;174;211;1;2;2;16;26;0;79;95;229;16;124;221;39;159;160;127;27;53;147;38;0;127;70;181;0;1;0;195;0;0;0;0;17;4;0;10;6;0;12;18;28;0;1;15;255;1;126;108;0;0;0;0;0;0;0;0;0;0;0;0;0;0;0;0;0;0;0;0;0;0;20;5;0;2;255;0;40;4;27;7;0;0;255;0;0;0;0;0;27;7;0;2;0;0;0;0;0;0;27;7;0;3;1;0;0;0;0;0;27;7;0;4;2;0;0;0;0;0;25;4;0;100;224;19;19;25;4;0;101;0;0;0;25;4;0;102;2;0;0;25;4;0;103;224;19;19;25;4;0;104;224;19;19;25;4;0;105;79;154;34;25;4;0;110;224;19;19;139;22];
 [1;0;0;11;0;206;0;135;8;1;224;195;0;117;18;129;249;213;232;1;2;2;16;26;0;78;95;229;16;0;49;136;158;128;219;183;53;147;46;0;35;204;122;1;1;0;128;0;0;0;0;17;6;0;14;60;0;0;0;12;18;28;0;1;15;255;1;157;113;0;0;0;0;0;0;0;0;0;0;0;0;0;0;0;0;0;0;0;0;0;0;20;5;0;2;255;0;41;4;27;7;0;0;255;0;0;0;0;0;27;7;0;2;0;0;0;0;0;0;27;7;0;3;1;0;90;1;0;0;27;7;0;4;2;0;0;0;0;0;25;4;0;100;53;95;2;25;4;0;101;0;0;0;25;4;0;102;1;0;0;25;4;0;103;53;95;2;25;4;0;104;53;95;2;25;4;0;105;78;154;34;25;4;0;110;53;95;2;15;26;0;8;181;190;9;21;78;154;34;92;37;0;0;0;0;130;1;4;8;1;48;79;138;1;2;8;1;163;106];
 [1;0;0;11;0;177;0;92;2;1;53;166;0;206;4;129;20;174;224;1;2;2;16;26;0;79;95;229;16;0;48;190;158;192;52;81;53;131;0;0;5;67;53;1;0;0;158;0;0;0;0;17;6;0;14;40;0;0;0;12;18;28;0;1;15;255;0;0;0;0;0;0;0;0;0;0;0;0;0;0;0;0;0;0;0;0;0;0;0;0;0;20;5;0;2;125;0;41;4;27;7;0;0;255;0;0;0;0;0;27;7;0;2;0;0;0;0;0;0;27;7;0;3;1;0;172;2;0;0;27;7;0;4;2;0;226;2;0;0;25;4;0;100;100;16;24;25;4;0;101;0;0;0;25;4;0;102;1;0;0;25;4;0;103;100;16;24;25;4;0;104;100;16;24;25;4;0;105;79;154;34;25;4;0;110;100;16;24;235;49];
 [1;0;0;11;0;175;0;103;206;1;164;164;0;83;3;129;124;211;244;1;2;2;16;26;0;81;95;229;16;17;163;42;158;65;103;136;53;131;0;0;90;196;12;11;0;0;170;0;0;0;0;17;4;0;10;6;0;12;18;28;0;1;15;255;0;0;0;0;0;0;0;0;0;0;0;0;0;0;0;0;0;0;0;0;0;0;0;0;0;20;5;0;2;255;0;41;4;27;7;0;0;255;0;0;0;0;0;27;7;0;2;0;0;0;0;0;0;27;7;0;3;1;0;109;2;0;0;27;7;0;4;2;0;0;0;0;0;25;4;0;100;100;42;10;25;4;0;101;0;0;0;25;4;0;102;130;7;3;25;4;0;103;100;42;10;25;4;0;104;100;42;10;25;4;0;105;81;154;34;25;4;0;110;100;42;10;164;158];
 [1;0;0;11;0;177;0;40;2;1;51;166;0;209;4;129;175;137;63;2;2;2;16;26;0;77;95;229;16;0;186;170;158;0;81;115;53;147;25;0;106;72;43;0;1;0;189;0;0;0;0;17;6;0;14;140;0;0;0;12;18;28;0;1;15;255;1;20;56;0;0;0;0;0;0;0;0;0;0;0;0;0;0;0;0;0;0;0;0;0;0;20;5;0;2;142;0;41;4;27;7;0;0;255;0;0;0;0;0;27;7;0;2;0;0;0;0;0;0;27;7;0;3;1;0;0;0;0;0;27;7;0;4;2;0;0;0;0;0;25;4;0;100;130;238;2;25;4;0;101;0;0;0;25;4;0;102;1;0;0;25;4;0;103;130;238;2;25;4;0;104;130;238;2;25;4;0;105;77;154;34;25;4;0;110;130;238;2;19;106];
 [1;0;0;11;0;177;0;221;1;1;139;166;0;31;4;129;115;124;64;2;2;2;16;26;0;79;95;229;16;0;202;206;158;192;225;140;53;131;0;0;54;118;102;0;1;0;137;0;0;0;0;17;6;0;14;60;0;0;0;12;18;28;0;1;15;255;1;63;89;0;47;0;0;0;0;0;0;0;0;0;0;0;0;0;0;0;0;0;0;0;0;20;5;0;2;243;0;41;4;27;7;0;0;255;0;0;0;0;0;27;7;0;2;0;0;0;0;0;0;27;7;0;3;1;0;121;0;0;0;27;7;0;4;2;0;0;0;0;0;25;4;0;100;85;94;1;25;4;0;101;0;0;0;25;4;0;102;1;0;0;25;4;0;103;85;94;1;25;4;0;104;85;94;1;25;4;0;105;79;154;34;25;4;0;110;85;94;1;100;202];
 [1;0;0;11;0;177;0;193;3;1;141;166;0;18;8;129;4;185;4;2;2;2;16;26;0;79;95;229;16;0;233;96;158;192;106;187;53;147;48;128;36;222;113;2;1;0;145;0;0;0;0;17;6;0;14;60;0;0;0;12;18;28;0;1;15;255;1;221;112;0;0;0;0;0;0;0;0;0;0;0;0;0;0;0;0;0;0;0;0;0;0;20;5;0;2;255;0;41;4;27;7;0;0;255;0;0;0;0;0;27;7;0;2;0;0;0;0;0;0;27;7;0;3;1;0;37;2;0;0;27;7;0;4;2;0;0;0;0;0;25;4;0;100;128;51;4;25;4;0;101;0;0;0;25;4;0;102;1;0;0;25;4;0;103;128;51;4;25;4;0;104;128;51;4;25;4;0;105;79;154;34;25;4;0;110;128;51;4;133;191];
 [1;0;0;11;0;177;0;115;1;1;208;166;0;47;3;129;217;183;120;2;2;2;16;26;0;78;95;229;16;0;12;55;158;128;142;126;53;147;107;0;102;156;73;0;5;0;167;0;0;0;0;17;6;0;14;90;0;0;0;12;18;28;0;1;15;255;5;143;108;0;0;0;0;197;109;0;0;0;0;0;0;0;0;0;0;0;0;0;0;0;0;20;5;0;2;255;0;41;4;27;7;0;0;255;0;0;0;0;0;27;7;0;2;0;0;0;0;0;0;27;7;0;3;1;0;141;2;0;0;27;7;0;4;2;0;0;0;0;0;25;4;0;100;110;199;0;25;4;0;101;0;0;0;25;4;0;102;1;0;0;25;4;0;103;110;199;0;25;4;0;104;110;199;0;25;4;0;105;78;154;34;25;4;0;110;110;199;0;235;161];
 [1;0;0;11;0;211;0;115;6;1;208;200;0;94;14;129;75;59;233;1;2;2;16;26;0;79;95;229;16;0;122;115;158;128;60;91;53;147;151;0;119;147;175;1;0;0;186;0;0;0;0;17;6;0;14;100;0;0;0;12;18;28;0;1;15;255;0;0;0;0;0;0;0;0;0;0;0;0;0;0;0;0;0;0;0;0;0;0;0;0;0;20;5;0;2;255;0;41;4;27;7;0;0;255;0;0;0;0;0;27;7;0;2;0;0;0;0;0;0;27;7;0;3;1;0;0;0;0;0;27;7;0;4;2;0;103;1;0;0;25;4;0;100;126;155;4;25;4;0;101;0;0;0;25;4;0;102;1;0;0;25;4;0;103;126;155;4;25;4;0;104;126;155;4;25;4;0;105;79;154;34;25;4;0;110;126;155;4;15;31;0;8;254;182;18;21;79;154;34;92;37;0;0;0;0;130;1;9;8;1;32;210;211;2;64;148;1;138;1;2;8;1;240;2];
 [1;0;0;11;0;175;0;77;172;1;143;164;0;149;3;129;190;186;6;2;2;2;16;26;0;78;95;229;16;249;108;211;158;7;112;98;53;147;21;0;108;142;52;5;1;0;179;0;0;0;0;17;4;0;10;13;0;12;18;28;0;1;15;255;1;57;110;0;0;0;0;0;0;0;0;0;0;0;0;0;0;0;0;0;0;0;0;0;0;20;5;0;2;255;0;41;4;27;7;0;0;255;0;0;0;0;0;27;7;0;2;0;0;0;0;0;0;27;7;0;3;1;0;200;0;0;0;27;7;0;4;2;0;0;0;0;0;25;4;0;100;209;100;5;25;4;0;101;0;0;0;25;4;0;102;133;3;0;25;4;0;103;209;100;5;25;4;0;104;209;100;5;25;4;0;105;78;154;34;25;4;0;110;209;100;5;246;110];
 [1;0;0;11;0;177;0;93;1;1;94;166;0;200;2;129;145;112;233;1;2;2;16;26;0;78;95;229;16;0;79;108;158;64;47;48;53;131;0;0;0;124;14;0;0;0;174;0;0;0;0;17;6;0;14;60;0;0;0;12;18;28;0;1;15;255;0;181;0;0;0;0;0;0;0;0;0;0;0;0;0;0;0;0;0;0;0;0;0;0;0;20;5;0;2;154;0;41;4;27;7;0;0;255;0;0;0;0;0;27;7;0;2;0;0;0;0;0;0;27;7;0;3;1;0;156;1;0;0;27;7;0;4;2;0;0;0;0;0;25;4;0;100;59;185;8;25;4;0;101;0;0;0;25;4;0;102;1;0;0;25;4;0;103;59;185;8;25;4;0;104;59;185;8;25;4;0;105;78;154;34;25;4;0;110;59;185;8;26;172];
 [1;0;0;11;0;98;1;122;8;1;214;166;0;180;18;129;175;125;233;1;2;2;16;26;0;77;95;229;16;0;169;204;158;192;169;137;53;147;179;0;33;83;144;2;1;0;147;0;0;0;0;17;6;0;14;60;0;0;0;12;18;28;0;1;15;255;1;205;105;0;0;0;0;0;0;0;0;0;0;0;0;0;0;0;0;0;0;0;0;0;0;20;5;0;2;255;0;41;4;27;7;0;0;255;0;0;0;0;0;27;7;0;2;0;0;0;0;0;0;27;7;0;3;1;0;0;0;0;0;27;7;0;4;2;0;0;0;0;0;25;4;0;100;188;153;4;25;4;0;101;0;0;0;25;4;0;102;1;0;0;25;4;0;103;188;153;4;25;4;0;104;188;153;4;25;4;0;105;77;154;34;25;4;0;110;188;153;4;166;0;181;18;129;175;125;233;1;2;2;16;26;0;76;95;229;16;0;162;204;158;0;166;137;53;155;172;0;12;83;144;2;1;0;147;0;0;0;0;17;6;0;14;60;0;0;0;12;18;28;0;1;15;255;1;208;105;0;0;0;0;1;0;0;0;0;0;0;0;0;0;0;0;0;0;0;0;0;0;20;5;0;2;255;0;41;4;27;7;0;0;255;0;0;0;0;0;27;7;0;2;0;0;0;0;0;0;27;7;0;3;1;0;0;0;0;0;27;7;0;4;2;0;0;0;0;0;25;4;0;100;187;153;4;25;4;0;101;1;0;0;25;4;0;102;1;0;0;25;4;0;103;188;153;4;25;4;0;104;187;153;4;25;4;0;105;76;154;34;25;4;0;110;187;153;4;251;240];
 [1;0;0;11;0;206;0;64;6;1;73;195;0;158;13;129;91;165;233;1;2;2;16;26;0;74;95;229;16;0;118;163;158;64;190;125;53;147;74;128;73;172;43;0;1;0;154;0;0;0;0;17;6;0;14;130;0;0;0;12;18;28;0;1;15;255;1;237;54;0;0;0;0;0;0;0;0;0;0;0;0;0;0;0;0;0;0;0;0;0;0;20;5;0;2;135;0;40;4;27;7;0;0;255;0;0;0;0;0;27;7;0;2;0;0;0;0;0;0;27;7;0;3;1;0;142;3;0;0;27;7;0;4;2;0;0;0;0;0;25;4;0;100;149;189;0;25;4;0;101;0;0;0;25;4;0;102;1;0;0;25;4;0;103;149;189;0;25;4;0;104;149;189;0;25;4;0;105;74;154;34;25;4;0;110;149;189;0;15;26;0;8;149;251;2;21;74;154;34;92;37;0;0;0;0;130;1;4;8;1;48;79;138;1;2;8;1;17;57];
 [1;0;0;11;0;177;0;246;4;1;29;166;0;94;10;129;69;89;233;1;2;2;16;26;0;78;95;229;16;0;62;185;158;192;209;175;53;147;181;0;185;12;73;2;1;0;157;0;0;0;0;17;6;0;14;60;0;0;0;12;18;28;0;1;15;255;1;29;55;0;0;0;0;0;0;0;0;0;0;0;0;0;0;0;0;0;0;0;0;0;0;20;5;0;2;141;0;41;4;27;7;0;0;255;0;0;0;0;0;27;7;0;2;0;0;0;0;0;0;27;7;0;3;1;0;184;2;0;0;27;7;0;4;2;0;209;1;0;0;25;4;0;100;171;220;5;25;4;0;101;0;0;0;25;4;0;102;1;0;0;25;4;0;103;171;220;5;25;4;0;104;171;220;5;25;4;0;105;78;154;34;25;4;0;110;171;220;5;88;62];
 [1;0;0;11;0;177;0;149;6;1;133;166;0;122;14;129;247;122;64;2;2;2;16;26;0;79;95;229;16;0;36;77;158;192;104;38;53;147;116;0;249;17;241;0;1;0;171;0;0;0;0;17;6;0;14;60;0;0;0;12;18;28;0;1;15;255;1;221;102;0;0;0;0;0;0;0;0;0;0;0;0;0;0;0;0;0;0;0;0;0;0;20;5;0;2;254;0;41;4;27;7;0;0;255;0;0;0;0;0;27;7;0;2;0;0;0;0;0;0;27;7;0;3;1;0;50;1;0;0;27;7;0;4;2;0;0;0;0;0;25;4;0;100;157;218;1;25;4;0;101;0;0;0;25;4;0;102;1;0;0;25;4;0;103;157;218;1;25;4;0;104;157;218;1;25;4;0;105;79;154;34;25;4;0;110;157;218;1;157;249];
 [1;0;0;11;0;210;0;186;4;1;233;199;0;65;11;129;177;207;233;1;2;2;16;26;0;78;95;229;16;0;23;127;158;0;37;105;53;147;138;0;101;133;67;4;0;0;132;0;0;0;0;17;6;0;14;60;0;0;0;12;18;28;0;1;15;255;0;0;0;0;0;0;0;0;0;0;0;0;0;0;0;0;0;0;0;0;0;0;0;0;0;20;5;0;2;255;0;41;4;27;7;0;0;255;0;0;0;0;0;27;7;0;2;0;0;0;0;0;0;27;7;0;3;1;0;0;0;0;0;27;7;0;4;2;0;0;0;0;0;25;4;0;100;70;153;15;25;4;0;101;0;0;0;25;4;0;102;1;0;0;25;4;0;103;70;153;15;25;4;0;104;70;153;15;25;4;0;105;78;154;34;25;4;0;110;70;153;15;15;30;0;8;198;178;62;21;78;154;34;92;37;0;0;0;0;130;1;8;8;1;32;161;206;5;64;88;138;1;2;8;1;119;175];
 [1;0;0;11;0;177;0;97;7;1;162;166;0;167;15;129;90;140;63;2;2;2;16;26;0;79;95;229;16;0;185;119;158;128;26;250;53;147;190;128;21;225;2;0;1;0;139;0;0;0;0;17;6;0;14;60;0;0;0;12;18;28;0;1;15;255;1;178;107;0;0;0;0;0;0;0;0;0;0;0;0;0;0;0;0;0;0;0;0;0;0;20;5;0;2;255;0;41;4;27;7;0;0;255;0;0;0;0;0;27;7;0;2;0;0;0;0;0;0;27;7;0;3;1;0;197;2;0;0;27;7;0;4;2;0;0;0;0;0;25;4;0;100;78;8;0;25;4;0;101;0;0;0;25;4;0;102;1;0;0;25;4;0;103;78;8;0;25;4;0;104;78;8;0;25;4;0;105;79;154;34;25;4;0;110;78;8;0;144;208];
 [1;0;0;11;0;94;1;26;216;1;60;164;0;6;0;129;173;88;244;1;2;2;16;26;0;57;95;229;16;59;32;124;158;188;217;60;53;147;206;0;99;128;133;6;1;0;156;0;0;0;0;17;4;0;10;11;0;12;18;28;0;1;15;255;1;175;51;0;0;0;0;0;0;0;0;0;0;0;0;0;0;0;0;0;0;0;0;0;0;20;5;0;2;134;0;41;4;27;7;0;0;255;0;0;0;0;0;27;7;0;2;0;0;0;0;0;0;27;7;0;3;1;0;0;0;0;0;27;7;0;4;2;0;0;0;0;0;25;4;0;100;180;108;14;25;4;0;101;0;0;0;25;4;0;102;246;56;0;25;4;0;103;180;108;14;25;4;0;104;180;108;14;25;4;0;105;57;154;34;25;4;0;110;180;108;14;164;0;7;0;129;173;88;244;1;2;2;16;26;0;44;95;229;16;54;35;124;158;18;117;60;53;155;153;0;87;127;133;6;1;0;167;0;0;0;0;17;4;0;10;11;0;12;18;28;0;1;15;255;1;30;52;0;0;0;0;0;0;0;0;0;0;0;0;0;0;0;0;0;0;0;0;0;0;20;5;0;2;134;0;41;4;27;7;0;0;255;0;0;0;0;0;27;7;0;2;0;0;0;0;0;0;27;7;0;3;1;0;0;0;0;0;27;7;0;4;2;0;0;0;0;0;25;4;0;100;179;108;14;25;4;0;101;1;0;0;25;4;0;102;246;56;0;25;4;0;103;180;108;14;25;4;0;104;180;108;14;25;4;0;105;44;154;34;25;4;0;110;179;108;14;22;212];
 [1;0;0;11;0;19;2;118;0;1;144;166;0;9;1;129;48;72;234;1;2;2;16;26;0;75;95;229;16;0;164;193;158;64;219;207;53;147;129;0;207;92;50;1;1;0;161;0;0;0;0;17;6;0;14;80;0;0;0;12;18;28;0;1;15;255;1;220;50;0;0;0;0;0;0;0;0;0;0;0;0;0;0;0;0;0;0;0;0;0;0;20;5;0;2;128;0;41;4;27;7;0;0;255;0;0;0;0;0;27;7;0;2;0;0;0;0;0;0;27;7;0;3;1;0;0;0;0;0;27;7;0;4;2;0;0;0;0;0;25;4;0;100;190;215;4;25;4;0;101;0;0;0;25;4;0;102;1;0;0;25;4;0;103;190;215;4;25;4;0;104;190;215;4;25;4;0;105;75;154;34;25;4;0;110;190;215;4;166;0;10;1;129;48;72;234;1;2;2;16;26;0;74;95;229;16;0;170;193;158;64;221;207;53;155;131;0;190;92;50;1;1;0;162;0;0;0;0;17;6;0;14;60;0;0;0;12;18;28;0;1;15;255;1;89;51;0;0;0;0;0;0;0;0;0;0;0;0;0;0;0;0;0;0;0;0;0;0;20;5;0;2;128;0;41;4;27;7;0;0;255;0;0;0;0;0;27;7;0;2;0;0;0;0;0;0;27;7;0;3;1;0;0;0;0;0;27;7;0;4;2;0;0;0;0;0;25;4;0;100;189;215;4;25;4;0;101;1;0;0;25;4;0;102;1;0;0;25;4;0;103;190;215;4;25;4;0;104;189;215;4;25;4;0;105;74;154;34;25;4;0;110;189;215;4;166;0;11;1;129;48;72;234;1;2;2;16;26;0;73;95;229;16;0;176;193;158;128;221;207;53;155;135;0;172;92;50;1;1;0;162;0;0;0;0;17;6;0;14;60;0;0;0;12;18;28;0;1;15;255;1;211;50;0;0;0;0;0;0;0;0;0;0;0;0;0;0;0;0;0;0;0;0;0;0;20;5;0;2;127;0;41;4;27;7;0;0;255;0;0;0;0;0;27;7;0;2;0;0;0;0;0;0;27;7;0;3;1;0;0;0;0;0;27;7;0;4;2;0;0;0;0;0;25;4;0;100;188;215;4;25;4;0;101;2;0;0;25;4;0;102;1;0;0;25;4;0;103;190;215;4;25;4;0;104;188;215;4;25;4;0;105;73;154;34;25;4;0;110;188;215;4;169;245];
 [1;0;0;11;0;148;2;241;130;1;180;209;0;163;165;129;28;194;205;1;2;2;16;26;0;78;95;229;16;245;108;146;158;62;92;126;53;147;66;0;251;129;199;0;1;0;124;0;0;0;0;17;6;0;14;80;0;0;0;12;18;28;0;1;15;255;1;123;52;0;0;0;0;0;0;0;0;0;0;0;0;0;0;0;0;0;0;0;0;0;0;20;5;0;2;134;0;41;5;27;7;0;0;255;0;0;0;0;0;27;7;0;2;0;0;0;0;0;0;27;7;0;3;1;0;52;1;0;0;27;7;0;4;2;0;0;0;0;0;25;4;0;100;125;104;3;25;4;0;101;0;0;0;25;4;0;102;1;21;0;25;4;0;103;125;104;3;25;4;0;104;125;104;3;25;4;0;105;78;154;34;25;4;0;110;125;104;3;15;40;0;8;253;208;13;21;78;154;34;92;37;0;0;0;0;130;1;16;8;1;32;170;135;4;40;131;14;48;146;1;64;20;80;7;138;1;4;8;1;24;1;209;0;164;165;129;28;194;205;1;2;2;16;26;0;77;95;229;16;115;110;146;158;122;94;126;53;155;65;128;12;129;199;0;1;0;125;0;0;0;0;17;6;0;14;80;0;0;0;12;18;28;0;1;15;255;1;17;53;0;0;0;0;0;0;0;0;0;0;0;0;0;0;0;0;0;0;0;0;0;0;20;5;0;2;135;0;41;5;27;7;0;0;255;0;0;0;0;0;27;7;0;2;0;0;0;0;0;0;27;7;0;3;1;0;52;1;0;0;27;7;0;4;2;0;0;0;0;0;25;4;0;100;124;104;3;25;4;0;101;1;0;0;25;4;0;102;1;21;0;25;4;0;103;125;104;3;25;4;0;104;124;104;3;25;4;0;105;77;154;34;25;4;0;110;124;104;3;15;40;0;8;252;208;13;21;77;154;34;92;37;0;0;0;0;130;1;16;8;1;32;170;135;4;40;141;15;48;146;1;64;20;80;7;138;1;4;8;1;24;1;209;0;165;165;129;28;194;205;1;2;2;16;26;0;76;95;229;16;240;111;146;158;183;96;126;53;155;66;128;31;129;199;0;1;0;126;0;0;0;0;17;6;0;14;80;0;0;0;12;18;28;0;1;15;255;1;41;53;0;0;0;0;0;0;0;0;0;0;0;0;0;0;0;0;0;0;0;0;0;0;20;5;0;2;135;0;41;5;27;7;0;0;255;0;0;0;0;0;27;7;0;2;0;0;0;0;0;0;27;7;0;3;1;0;52;1;0;0;27;7;0;4;2;0;0;0;0;0;25;4;0;100;123;104;3;25;4;0;101;2;0;0;25;4;0;102;1;21;0;25;4;0;103;125;104;3;25;4;0;104;123;104;3;25;4;0;105;76;154;34;25;4;0;110;123;104;3;15;40;0;8;251;208;13;21;76;154;34;92;37;0;0;0;0;130;1;16;8;1;32;170;135;4;40;141;15;48;146;1;64;20;80;7;138;1;4;8;1;24;1;215;64];
 [1;0;0;11;0;206;0;96;4;1;233;195;0;144;9;129;152;87;233;1;2;2;16;26;0;78;95;229;16;0;58;160;158;0;167;167;53;147;66;0;236;182;101;0;3;0;145;0;0;0;0;17;6;0;14;80;0;0;0;12;18;28;0;1;15;255;3;221;106;0;17;107;0;0;0;0;0;0;0;0;0;0;0;0;0;0;0;0;0;0;0;20;5;0;2;255;0;41;4;27;7;0;0;255;0;0;0;0;0;27;7;0;2;0;0;0;0;0;0;27;7;0;3;1;0;108;1;0;0;27;7;0;4;2;0;0;0;0;0;25;4;0;100;117;64;1;25;4;0;101;0;0;0;25;4;0;102;1;0;0;25;4;0;103;117;64;1;25;4;0;104;117;64;1;25;4;0;105;78;154;34;25;4;0;110;117;64;1;15;26;0;8;245;128;5;21;78;154;34;92;37;0;0;0;0;130;1;4;8;1;48;79;138;1;2;8;1;40;129]].

Definition accepted (b : bytes) : bool := match snd (pkg_decode pkg0 (mkSlice b [])) with DRet c e => (c =? 0) && negb e | _ => false end.
Definition saved_and_answered (b : bytes) : bool :=
  match process (mkSlice b []) with PActs [ASave _; AWrite _] => true | _ => false end.
(** test/egts_packages.csv:1-126 *)
Example samples_accepted : length samples = 126%nat /\ forallb accepted samples = true.
Proof. split; vm_compute; reflexivity. Qed.

Definition positions_saved (b : bytes) : nat :=
  match process (mkSlice b []) with PActs (ASave n :: _) => length (nrLocs n) | _ => 0%nat end.
(** 197 is the number of type 16 subrecords in the file, counted by a script
    that follows the lengths in the bytes and shares nothing with the model. *)
Example samples_saved : forallb saved_and_answered samples = true /\
  fold_right Nat.add 0%nat (map positions_saved samples) = 197%nat.
Proof. split; vm_compute; reflexivity. Qed.
