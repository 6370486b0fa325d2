(** Kernel computation: the ethash cache table (also used by kawpow and firopow).  [..._certs] lists, per epoch, a divisor of each
    row count skipped by the search (a certificate, checked by [check_table]). *)
From Coq Require Import NArith ZArith List Bool Lia ZifyBool ZifyN ZifyNat.
From Verif Require Import Base BaseFacts DagModel DagSpec Trial DagSize LookupTables.
Import ListNotations.
Open Scope N_scope.

Definition ethash_cacheSizes_certs : list (list N) := [
  [3;11];
  [61;3;7;5;3;67];
  [];
  [3;5];
  [5;3;83];
  [];
  [3;37;29;3];
  [7;3;5;83;3;19];
  [223;5;3;19;67;3;5;41;3;7;23;3];
  [3;19;37;3;7;5;3];
  [11;3;409];
  [23;7;3;5;41;3];
  [3;163;5;3];
  [];
  [5;41;3;43;11;3];
  [3;61;7;3;5;11;3];
  [];
  [13;149;3;23;19;3;7;5;3];
  [3;5;19;3];
  [5;3];
  [47;101;3];
  [3;13];
  [97;3;5;277;3];
  [17;5;3];
  [3];
  [];
  [139];
  [3];
  [7;3];
  [5;67;3;13;47;3;29;17;3;7;5;3;43];
  [3];
  [];
  [11;7;3];
  [3;5];
  [5;3;11];
  [7];
  [3;17;7;3;11;53;3];
  [];
  [19;5;3;73];
  [3;7;127;3;71;5;3;11;7;3;5];
  [17;3;97;7;3];
  [];
  [3;53;5;3;23];
  [11;3;7;61;3;47;5;3];
  [5;11;3];
  [3];
  [];
  [199;13;3;7;11;3;443;5;3;41;7;3;5];
  [3;5;47;3];
  [5;3;17;37;3;5;11;3;13;131;3];
  [];
  [3;29;13;3;7;41;3;103;5;3;17;7;3;5;97;3;37;67;3;11;23;3];
  [43;3;5];
  [];
  [3];
  [];
  [7;139;3;5];
  [3;223;5;3;61];
  [167;3;113;313;3];
  [5;23;3;59;13;3;7];
  [3;7;521;3;5];
  [];
  [61];
  [3;5];
  [5;3;7];
  [11];
  [3;11;17;3];
  [29;3;5];
  [];
  [3;79;103;3;11;5;3;439];
  [7;3];
  [109;151;3;5;127;3;11;13;3;7;19;3];
  [3];
  [73;3;59];
  [5;7;3];
  [3;31;19;3;5;439;3];
  [11;3;31;5;3;7;59;3;5];
  [7;11;3;29];
  [3;5;7;3;31;101;3;43;277;3;73;5;3;11;157;3;5;97;3;41];
  [5;3];
  [23;29;3];
  [3;7];
  [13;3;5;7;3;373;11;3;31];
  [193;5;3];
  [3;83;23;3];
  [179;3;7];
  [];
  [3;17;5;3];
  [];
  [5;521;3;7;37;3];
  [3];
  [7;3;71;5;3;241;41;3;5;383;3;541;13;3;7;11;3;17;5;3;89;7;3;5;277;3;11;19;3;223];
  [349];
  [3;5;29;3;7];
  [5;3;19;13;3;5;7;3;43];
  [13;7;3];
  [3;41];
  [41;3;5];
  [7;5;3];
  [3;11;7;3;397;5;3;61];
  [211;3;11;43;3;271;229;3;173;5;3;7];
  [59;281;3;5];
  [3;7;5;3;11;13;3;5;7;3;17;23;3;331;53;3];
  [23;3;13;7;3;11;5;3;467;97;3;5;367;3;17;13;3;7;419;3;107;5;3;23;7;3;5;11;3;31];
  [5;17;3;61;59;3;11;557;3;37;5;3;7];
  [3;23;577;3;5;17;3;7;83;3];
  [];
  [181;241;3;13;7;3;113;5;3;11;37;3;5;17;3];
  [3;5];
  [5;3];
  [];
  [3;43;11;3;13;7;3];
  [7;3;5;11;3;73;307;3];
  [];
  [3];
  [];
  [];
  [3;37;5;3;53;251;3;5;11;3;7;179;3;19];
  [521;3];
  [5;193;3;353;29;3;13;7;3;19;5;3;359;593;3;5];
  [3];
  [13;3];
  [79];
  [3;5;331;3;47;113;3;13;7;3;23;5;3];
  [5;3];
  [17;13;3];
  [3;137;643;3;17;571;3;7;5;3;43;13;3;5;7;3;149;11;3;347];
  [];
  [];
  [3;107;13;3;163;5;3;29;19;3;5;281;3;7];
  [];
  [11];
  [3;11;5;3;617;7;3;5;47;3;709;17;3];
  [7;3;11;13;3;41;5;3];
  [5;211;3;11;23;3];
  [3];
  [31;3;41;5;3;11;7;3;5;53;3;577;29;3;61;47;3;131;5;3;7];
  [];
  [3;5;31;3];
  [5;3;313;31;3;5;463;3;11;353;3;13;7;3;67;5;3];
  [7];
  [3];
  [11;3;5;251;3;53;31;3;23;433;3;7;5;3;179;13;3;5;7;3;19];
  [71;5;3;43;17;3;5;31;3;739;137;3;11;7;3];
  [3;7;11;3;277;5;3];
  [409;3];
  [73;59;3;5;11;3;61;79;3;47;23;3;7;5;3;11;13;3;5;7;3];
  [3];
  [];
  [5;569;3;67;7;3;19;11;3];
  [3;127;199;3;5;89;3;149;11;3];
  [37;3;17;5;3];
  [19];
  [3;5;23;3];
  [5;3];
  [];
  [3;599;67;3;7;17;3];
  [101;3;5];
  [];
  [3];
  [13;3;281;19;3;7];
  [7;19;3;5];
  [3;233;5;3;293;173;3;5];
  [];
  [5;13;3;17];
  [3;7;547;3;5];
  [];
  [31;29;3;11;151;3;53;5;3;23;67;3;5;191;3;17;347;3;13;7;3;389;5;3;263;11;3;5;503;3;29;13;3;7;47;3;11;5;3;101;7;3;5];
  [3;5;13;3;11;163;3;7;733;3;29;5;3];
  [5;3;7;523;3;5;17;3;443;7;3;131;13;3;47;5;3;79;353;3;5];
  [67];
  [3];
  [23;3;5;13;3;31];
  [13;5;3;7];
  [3;23;79;3;673;5;3;31;61;3;5;47;3;19;317;3];
  [7;3;419;109;3;43];
  [17;11;3;5;13;3;751];
  [3;13;5;3;7;709;3;5;223;3;31;7;3;11;13;3];
  [];
  [5;7;3;19;11;3;617];
  [3;19;29;3;5;11;3;59;43;3;7;619;3;31;5;3;11;7;3;5;19;3;37];
  [43;3;13;5;3;7;11;3;5];
  [7;719;3;127];
  [3;5;7;3];
  [5;3];
  [137;443;3;13;5;3;7;83;3;5;11;3;179;7;3];
  [3;7;101;3;709];
  [331;3;5;7;3;751;19;3;107;73;3];
  [37;5;3];
  [3;17;19;3;13;5;3;7;499;3;5;149;3;73;7;3];
  [19;3;7];
  [];
  [3];
  [17;3];
  [5];
  [3;139;479;3;5;7;3;653;17;3];
  [7;3];
  [11;23;3;37];
  [3;5];
  [5;3;11];
  [];
  [3;53];
  [];
  [7;5;3;47;23;3;5;7;3;557;701;3;19;83;3];
  [3];
  [];
  [397;17;3;5;29;3;7];
  [3;7;5;3;19;17;3;5;7;3;11];
  [11;3;19;7;3;59;5;3];
  [5;11;3;751;67;3];
  [3];
  [];
  [13];
  [3;5;43;3];
  [5;3;163;359;3;5;11;3;7;19;3];
  [719;181;3;7;5;3];
  [3;13];
  [7;3;5;19;3;491];
  [23;5;3];
  [3;41;17;3;7;5;3];
  [41;3;13];
  [];
  [3;47;5;3;59];
  [];
  [5;131;3;13];
  [3;29;7;3;5];
  [];
  [17;79;3;829;193;3;7;5;3];
  [3;5;661;3;13;23;3];
  [5;3;107;7;3;5;787;3;17];
  [11;31;3];
  [3;11;31;3;271;47;3;7;5;3];
  [];
  [];
  [3];
  [];
  [];
  [3;19;5;3;37;7;3;5;31;3];
  [7;3;29;233;3];
  [5];
  [3;17];
  [11;3];
  [751;7;3];
  [3;5;11;3];
  [5;3;829;11;3;5;19;3;13;149;3];
  [7];
  [3];
  [19;3;5;23;3;647;11;3;181;89;3;7;5;3;41;127;3;5;7;3;79];
  [];
  [3;7];
  [];
  [13;109;3;5];
  [3];
  [];
  [5;29;3];
  [3;13];
  [];
  [];
  [3;5];
  [5;3;13;229;3;5];
  [31;41;3;149;5;3;727;797;3;5;353;3;13;17;3];
  [3;31;293;3;7;43;3];
  [37;3;5];
  [11;5;3;13];
  [3;11];
  [317;3;11];
  [7;23;3;5];
  [3];
  [149;3;23;113;3;11;5;3;31];
  [5;47;3];
  [3;7;17;3;5;211;3;11;7;3;31;19;3;353;5;3;743;113;3;5];
  [];
  [191;461;3;43;23;3];
  [3;5;61;3;131;19;3;7;47;3;11;5;3;31;7;3;5;587;3];
  [5;3;7;19;3;5];
  [];
  [3];
  [13;3;5;11;3;29;43;3;7;79;3;61;5;3;11;7;3;5;23;3];
  [17;5;3;7;11;3;5;23;3;127;7;3;163];
  [3;907;53;3;17;5;3;13;313;3;5;157;3];
  [7;3;251;29;3;101;11;3;17;5;3;83];
  [];
  [3;409;5;3;7];
  [];
  [5;7;3;109;409;3];
  [3;239;13;3;5;181;3];
  [];
  [7];
  [3;5;7;3;43];
  [5;3;257;13;3;5;349;3];
  [13];
  [3;7;23;3];
  [73;3;5;7;3;17;47;3];
  [];
  [3;13];
  [17;3;7;59;3];
  [11];
  [3;11;5;3];
  [373;3;11];
  [5;659;3;7];
  [3;113;41;3;5;7;3];
  [7;3;167;5;3;11;13;3;5];
  [41;37;3;13;19;3;11;5;3;7;101;3;5;71;3;113;7;3];
  [3;5;19;3;7;283;3;11;23;3;79;5;3;13];
  [5;3;17;53;3;5;7;3;11];
  [251;7;3];
  [3;79];
  [11;3;5;443;3;7];
  [7;5;3;37];
  [3];
  [23;3];
  [211];
  [3;7;5;3];
  [97;3];
  [5];
  [3;149];
  [13;3;7;5;3];
  [];
  [3;5;701;3;23];
  [5;3];
  [];
  [3;157;17;3;19;7;3;947;5;3];
  [7;3;5;887;3];
  [19;5;3];
  [3;283;13;3;7;5;3;23];
  [];
  [];
  [3];
  [29;3];
  [5;73;3;107;53;3;61;7;3;29;5;3;47;13;3;5];
  [3;11;7;3;5;19;3];
  [];
  [];
  [3;5];
  [5;3;61;7;3;5];
  [53;23;3;599;5;3;11;17;3;5;887;3;7;31;3;43;109;3];
  [3];
  [59;3;5];
  [];
  [3;37;509;3;41;5;3];
  [11;3];
  [151;11;3;5;23;3];
  [3;17;5;3;83;7;3;5];
  [7;3;541;11;3;17;5;3;59];
  [5];
  [3;211];
  [17;3];
  [];
  [3;5;193;3;37];
  [5;3;199;71;3;5];
  [7;661;3;19;5;3];
  [3;19;7;3;29;37;3;53;5;3;281;11;3;5];
  [241;3;5;101;3;337;233;3;43;13;3;7;5;3;181;107;3;5;7;3;59;23;3;11;17;3;113;5;3];
  [31;5;3;257];
  [3;7;29;3];
  [13;3;17;7;3];
  [23];
  [3;401;5;3;31];
  [];
  [5;13;3];
  [3;53;19;3;5;17;3;31;37;3;83;13;3;7;5;3;97];
  [19;3];
  [11];
  [3;5;13;3;359;7;3];
  [5;3;11];
  [73;229;3;11;5;3];
  [3;269;73;3;7;23;3];
  [61;3;5;13;3;11;7;3;47];
  [13;5;3;17;443;3;5;881;3;43;67;3;29;13;3;7;5;3;109];
  [3;43];
  [];
  [7;541;3;5;13;3;59;7;3;11;29;3;73;5;3;17];
  [3;13;5;3];
  [11;3];
  [5;11;3];
  [3;7;11;3;5;13;3;139;7;3;19];
  [];
  [];
  [3;5;103;3;19;11;3;7];
  [5;3;7];
  [17];
  [3;23];
  [];
  [];
  [3];
  [7;3;43;17;3;59];
  [29;647;3;5];
  [3];
  [53;3;101;19;3;13;5;3;563;59;3;5;941;3];
  [5;7;3];
  [3];
  [];
  [7];
  [3;5;7;3];
  [5;3];
  [11;233;3;103;5;3;7;197;3;5;13;3;883;7;3;163;401;3];
  [3;7];
  [17;3;5;7;3;601];
  [109;5;3;11;17;3;5];
  [3;29];
  [283;3;7];
  [];
  [3;73;5;3];
  [];
  [5;23;3;7;131;3];
  [3];
  [7;3;17;5;3;19;29;3;5;71;3;11;251;3;7;457;3;79;5;3];
  [13;11;3;19];
  [3;5;11;3;7];
  [5;3];
  [37;7;3;53;5;3];
  [3;13;79;3];
  [];
  [7;5;3;59;463;3;5;7;3;157;19;3;41;17;3];
  [3];
  [29;3;13];
  [];
  [3;7;5;3;43;89;3;5;7;3;137;11;3];
  [19;3];
  [5;97;3;13;31;3;41;29;3];
  [3;701;127;3;5;31;3;7];
  [];
  [];
  [3;5;17;3;13;619;3];
  [5;3;47;509;3;5;17;3;7;31;3;23];
  [23];
  [3;811];
  [7;3;5];
  [11;5;3];
  [3;11;23;3;7;5;3];
  [];
  [17;7;3;5];
  [3];
  [13;3;233];
  [5];
  [3];
  [];
  [19;13;3;79];
  [3;5;53;3;29;137;3];
  [5;3;73;7;3;5];
  [];
  [3;59;11;3];
  [];
  [47;5;3];
  [3;17];
  [199;3;503;13;3;17;11;3;7;5;3];
  [13;19;3;5;97;3;101;11;3;17;7;3;37;5;3];
  [3;31;5;3;211;7;3;5;11;3;13;23;3;17];
  [7;3;31];
  [5;479;3;31;13;3;43];
  [3;13];
  [];
  [];
  [3;5;37;3];
  [5;3;13;23;3;5];
  [7;43;3;283;5;3];
  [3];
  [107;3;5];
  [1063;5;3;13;59;3;5;71;3];
  [3;7;937;3;37;5;3;41;7;3;5];
  [101;3];
  [11;17;3;5];
  [3;11;5;3;13;17;3;5];
  [191;3;7;41;3;19;5;3];
  [5;79;3;11;7;3;29];
  [3;19];
  [41;3];
  [];
  [3;5;167;3];
  [5;3];
  [];
  [3;383;43;3;7];
  [11;3;5;59;3];
  [29;5;3;503;19;3;5;97;3];
  [3];
  [19;3;23;11;3;7;17;3;101;5;3;179;7;3;5;239;3;13;29;3;71];
  [7;13;3;5;11;3];
  [3;397;5;3;67;11;3;5];
  [];
  [5];
  [3;7;13;3;5;29;3];
  [];
  [17;257;3];
  [3;5];
  [5;3;7;13;3;5;71;3;17;7;3;379;11;3];
  [13];
  [3;29;59;3];
  [277;3;5;17;3];
  [];
  [3;13;101;3];
  [7;3;37];
  [];
  [3];
  [];
  [5;7;3;113;659;3];
  [3;11];
  [83;3;11;5;3;7;13;3;5;239;3;41;7;3;701;19;3;43;5;3];
  [7];
  [3;5;7;3;11;61;3];
  [5;3;29;389;3;5];
  [757;59;3;23;5;3;7;13;3;5;97;3];
  [3;7];
  [29;3;5;7;3;41;37;3;11;439;3;1033;5;3;13];
  [653;5;3];
  [3;47;181;3;89;5;3;7;13;3;5;53;3];
  [11;3;7;83;3;13];
  [263;11;3;5;7;3;23;29;3;59;811;3;11;5;3;13;139;3;5;67;3;691];
  [3];
  [31;3;17;11;3;173;5;3;7;13;3;5;211;3;11;7;3];
  [5;31;3;7;11;3;13;701;3;67;5;3];
  [3;487;31;3;5;7;3;53;23;3;17];
  [7;3;149;5;3;83;11;3;5;37;3];
  [];
  [3;5;647;3;7;17;3;13;11;3;43;5;3;227];
  [5;3;43];
  [127;7;3;563;5;3;79;31;3;5;11;3;193;17;3;7];
  [3;97;269;3];
  [23;3;5;239;3;7];
  [7;5;3];
  [3;23;7;3];
  [1151;3];
  [37;911;3;5];
  [3;7;5;3;881;313;3;5;7;3;71;229;3;89;23;3;683;5;3;13;19;3;5];
  [953;3;439;7;3;661;5;3];
  [5;37;3];
  [3;101;17;3;5];
  [];
  [11];
  [3;5;29;3];
  [5;3;11;827;3;5;19;3;7;593;3;13;53;3];
  [1039;947;3;7;5;3;67];
  [3;127;19;3;11;7;3;23;5;3;557;103;3;5;577;3;419;41;3;7;107;3;137;5;3;67;7;3;5;29;3;13;1091;3;719;97;3;11;5;3;7;503;3;5;13;3;53;7;3];
  [7;3;5;47;3;11];
  [17;5;3;139;37;3;5];
  [3;863];
  [];
  [];
  [3;137;5;3];
  [11;3];
  [5;11;3];
  [3;31;7;3;5];
  [];
  [113;23;3;31;11;3;7;5;3;149];
  [3;5;769;3;31;11;3;113;7;3];
  [5;3;23;7;3;5;11;3;139];
  [157];
  [3;17;41;3;43];
  [53;3;5];
  [41;5;3;683;7;3;5];
  [3;1069];
  [13;3;19;463;3;23;149;3;7;5;3;31;11;3;5;7;3;17;83;3;179;19;3;11;5;3;13;89;3;5];
  [19;47;3;5;17;3;29;43;3];
  [3;683;5;3];
  [7;3];
  [5;13;3;101;29;3];
  [3];
  [251;3;151;5;3];
  [131;7;3];
  [3;5;13;3];
  [5;3;17;19;3;5;113;3];
  [7;19;3];
  [3;11;7;3;1093];
  [593;3;5;13;3;43];
  [13;5;3;11;139;3;5;53;3;1103;109;3];
  [3;7;37;3;11;5;3;29;7;3;5;127;3];
  [];
  [149];
  [3;13;5;3;389;29;3;5;43;3];
  [43;3;7;307;3;79;5;3;11;7;3;5;457;3;23;179;3;491];
  [5];
  [3;1109;173;3;5;13;3;97;467;3;11];
  [11;3;13;5;3;307];
  [67;11;3;7];
  [3;5;11;3;109;7;3;17];
  [5;3];
  [];
  [3;739;17;3;7;11;3;19;5;3];
  [];
  [];
  [3;19;179;3;13;5;3;37;11;3;5];
  [];
  [7;421;3;5;263;3;887;7;3;23;11;3;313;5;3;29;19;3;5;97;3;7;17;3;13;43;3;563;5;3;47];
  [3;83;5;3];
  [];
  [5;43;3];
  [3;7;73;3;5];
  [23;3;29;5;3;283;19;3;5;13;3];
  [547;89;3;1129;19;3;13;5;3;197];
  [3;5;19;3;727;487;3;7;53;3;37;5;3;1019;7;3;5;11;3];
  [5;3;7;17;3;5];
  [233];
  [3;491];
  [];
  [11;5;3;7;47;3;5;29;3;79;7;3;461];
  [3;11;419;3;23;5;3;43];
  [7;3;11;79;3;89];
  [79;199;3;5];
  [3;17;5;3;7;197;3;5;151;3;97;7;3;37;29;3;163;5;3;877;907;3;5;509;3;7;11;3;13];
  [];
  [5;7;3;29;1039;3;11;89;3;13;5;3];
  [3];
  [17;3;37;5;3;7;227;3;5;109;3];
  [7;29;3;197;17;3;463;5;3;11];
  [3;5;7;3;313;199;3;353;17;3;11;5;3];
  [5;3;59;31;3;5];
  [1103;11;3];
  [3;7;11;3;19;31;3;1049;5;3;23;97;3;5;13;3;37;173;3;257;17;3;7;5;3];
  [];
  [19;5;3];
  [3;277];
  [];
  [43;23;3;5;7;3;17;11;3];
  [3;139;5;3;29];
  [];
  [5;17;3;7];
  [3;449;29;3;5;7;3];
  [7;3];
  [347;19;3;953;23;3];
  [3;5];
  [5;3];
  [461;7;3];
  [3;73];
  [179;3;5;53;3;7];
  [7;5;3;17];
  [3;271;7;3];
  [163;3;67];
  [11;101;3;5;41;3;7];
  [3;7;5;3];
  [13;3;11;7;3];
  [5;41;3;11];
  [3];
  [47;3;7;5;3;11];
  [23;13;3];
  [3;5];
  [5;3;31];
  [17;37;3;7;5;3];
  [3;19;13;3;17;7;3];
  [7;3;5;337;3;31;401;3;17;719;3;11;5;3;7;619;3;5;19;3;487;7;3];
  [];
  [3;113;11;3;7;5;3;31;109;3;5;7;3;11;19;3;17];
  [71;3;239;11;3];
  [13;7;3;5;11;3;397;17;3;31;19;3;59;5;3;7;23;3;5];
  [3];
  [151;3;43];
  [5];
  [3;13;7;3;5];
  [19;3];
  [29];
  [3;5;79;3];
  [5;3;13;7;3;5;293;3;47];
  [181];
  [3];
  [17;3;5];
  [53;5;3;13;7;3;5;37;3];
  [3];
  [23;3;1013;101;3];
  [];
  [3;23;5;3;13;7;3;5];
  [7;3;73;157;3];
  [5];
  [3;11;149;3;5];
  [];
  [83;7;3;11;283;3;17;5;3;41;37;3;5];
  [3;5;59;3;11];
  [5;3;19];
  [7;17;3];
  [3];
  [13;3;5];
  [863;5;3;41];
  [3;7;41;3;677;5;3;13;7;3;5;19;3;499];
  [11;3;857;7;3];
  [41;11;3;5];
  [3;37;5;3;1277;19;3;5;137;3;109;13;3;11;7;3;199;5;3;691;23;3;5];
  [];
  [5;19;3;17;7;3];
  [3;151;13;3;5;11;3;17;367;3;23;761;3;7;5;3;11;139;3;5;7;3;61];
  [29;3;1063;5;3];
  [223;59;3;7;1279;3;281;5;3;13;7;3;5];
  [3;5;17;3;67;7;3];
  [5;3];
  [13;23;3;89;5;3;83;29;3;5;11;3;509;13;3;587;7;3;61;5;3;11];
  [3];
  [1031;3;5];
  [283;5;3];
  [3;13;587;3;601;5;3];
  [];
  [7;61;3;5;23;3;89;7;3];
  [3;109;5;3;17;13;3;5];
  [131;3;13];
  [5;29;3];
  [3;7];
  [59;3;101;5;3;19;13;3;5;149;3;47];
  [11;47;3;13];
  [3;5];
  [5;3;7;941;3;5;311;3;23;7;3];
  [];
  [3];
  [43;3;5;31;3;11;53;3;7;179;3;503;5;3;13;7;3;5;563;3;1279;23;3];
  [];
  [3;17];
  [7;3;61];
  [23;79;3;5;19;3;607;31;3;7];
  [3];
  [11;3;53];
  [5;7;3;71;17;3;13;157;3;131;5;3;11;23;3;5];
  [3;457;11;3;5];
  [13;3;47;5;3;7;41;3;5;29;3];
  [7];
  [3;5;7;3;41;11;3;13;641;3;107;5;3;37;31;3;5;89;3;137;13;3;563;7;3];
  [5;3];
  [383;13;3];
  [3;7];
  [41;3;5;7;3;29];
  [641;5;3;809];
  [3];
  [149;3;7;29;3];
  [];
  [3;607;5;3];
  [367;3;859;13;3];
  [5;347;3;7];
  [3];
  [7;3;19;5;3;37];
  [19;263;3];
  [3;5];
  [5;3];
  [11;7;3;17;5;3;29];
  [3;11;191;3;1087;13;3;17;5;3;7;19;3;5];
  [];
  [7;5;3;11;29;3;5;7;3];
  [3];
  [73;3;71;19;3;11;13;3;37;5;3;7;727;3;5];
  [];
  [3;7;5;3;23;139;3;5;7;3;307;29;3;13;17;3;233;5;3;673;229;3;5;367;3;67;13;3;293;7;3;17;5;3;191;59;3;5;31;3;11;103;3;7;239;3];
  [61;3];
  [5;317;3];
  [3];
  [11;3;7;5;3;1097;23;3;5;7;3;11;73;3;13];
  [17;11;3;131;7;3];
  [3;5;11;3;17;67;3;23;13;3;149;5;3;7;53;3;5;953;3;293;7;3];
  [5;3];
  [43];
  [3];
  [7;3;5;17;3;61;11;3];
  [37;5;3];
  [3];
  [13;3];
  [];
  [3;29;5;3];
  [797;3;397];
  [5;13;3;19;41;3;101;7;3;359;5;3];
  [3;17;7;3;5];
  [];
  [];
  [3;5;13;3;53;109;3];
  [5;3];
  [271;599;3];
  [3;43;53;3];
  [929;3;5;13;3;23;19;3;193;7;3];
  [11;5;3;991;7;3;5;877;3];
  [3;11;19;3];
  [19;3;11];
  [];
  [3;13;5;3;11;7;3;5];
  [7;3;17];
  [5;167;3;1259];
  [3;89;313;3;5;13;3;11];
  [];
  [1231;7;3;47;647;3];
  [3;5];
  [5;3;643;89;3;5;13;3;83;17;3;11;7;3];
  [7;11;3;13;5;3];
  [3;107;7;3;89];
  [47;3;5;11;3];
  [67;5;3;29;11;3;5;13;3];
  [3;7;23;3;13;5;3];
  [433;3;223;7;3];
  [];
  [3;373;5;3;19;43;3;5;11;3;29;883;3;1297;7;3;277;5;3;11];
  [107;3;7;1277;3;13;5;3;101;7;3;5];
  [5];
  [3;79;17;3;5;23;3];
  [];
  [71];
  [3;5;359;3];
  [5;3];
  [];
  [3;47;37;3;7;19;3;13;5;3];
  [31;3;5;19;3;523;7;3;71;191;3;43;5;3;83];
  [17;5;3;43];
  [3];
  [349;3;103;31;3;7;137;3;13;5;3;29;7;3;5;83;3;677];
  [7;563;3;5;31;3];
  [3;11;5;3;37;31;3;5;173;3;1171;23;3];
  [23;3;11;17;3];
  [5];
  [3;7];
  [941;3;379;5;3;11;617;3;5;31;3];
  [13];
  [3;5];
  [5;3;7;23;3;5];
  [];
  [3;13;71;3;23;113;3;37;5;3;11];
  [11;3;5;29;3;17;257;3;7];
  [73;5;3;7;499;3;5];
  [3;197;11;3;43;5;3;19;37;3;5];
  [7;3;13;11;3;19;23;3];
  [];
  [3;19;5;3;7;11;3;5;17;3;101;7;3];
  [1171;3;131];
  [5;7;3;13];
  [3];
  [523;3;449;5;3;7];
  [7];
  [3;5;7;3;13];
  [5;3;17;47;3;5;19;3];
  [353];
  [3;7;19;3;269];
  [19;3;5;7;3;13;61;3];
  [31;5;3];
  [3;31;467;3];
  [];
  [29;1217;3;5;7;3;13];
  [3];
  [13;3;37];
  [5;463;3;7;23;3;31;673;3;313;5;3;373;563;3;5;43;3;311];
  [3;11];
  [7;3;11;5;3;23;1373;3;5;41;3;61];
  [];
  [3;5;409;3;7;29;3;17];
  [5;3;1031;109;3;5;7;3;13;173;3;17;79;3;19;5;3;547;23;3;5;13;3];
  [];
  [3;83;13;3;41;53;3;11;5;3;7];
  [];
  [7;5;3;113;127;3;5;7;3;11;17;3];
  [3;29;7;3;19;5;3];
  [11;3;19;13;3;313;37;3];
  [13;11;3;5];
  [3;7;5;3;547];
  [733;3];
  [5];
  [3;13;59;3;5;11;3;7];
  [];
  [173;43;3];
  [3;5;23;3];
  [5;3;13;17;3;5];
  [191;19;3;7;5;3];
  [3;313;461;3];
  [7;3;5];
  [991;5;3;13];
  [3;433;113;3;7;5;3;83;509;3;5;7;3;13;11;3];
  [29;3];
  [];
  [3;17;5;3;13];
  [71;3];
  [5;59;3];
  [3];
  [17;3;89;5;3;13;47;3;5];
  [11;37;3;101;17;3;7;5;3;23;43;3;5;7;3;13];
  [3;5;43;3;79];
  [5;3;11;7;3;5;163;3;709;13;3;19;17;3;37;5;3;7];
  [139];
  [3;233];
  [13;3;5];
  [];
  [3;19];
  [53;3;17];
  [47;13;3;5;37;3;17;89;3;11;7;3];
  [3];
  [7;3;719;23;3];
  [5;11;3];
  [3;673;11;3;5;17;3;47;19;3;521;7;3;11;5;3;1301];
  [227;3;107;5;3;41;7;3;5;17;3];
  [839;7;3];
  [3;5;19;3;29;11;3];
  [5;3;41;13;3;5;11;3;59;1231;3;89;7;3;47;5;3;11];
  [7;41;3;307;5;3];
  [3;103;7;3;463;1039;3;23;5;3;13;907;3;5;67;3;7];
  [];
  [];
  [3;7;239;3;67;5;3;17;7;3;5;11;3;149;13;3];
  [31;3];
  [113;31;3;5;613;3];
  [3];
  [];
  [5];
  [3;43;79;3;5;31;3];
  [239;3;317;5;3;29;13;3;5];
  [];
  [3;5];
  [5;3;23;29;3;5];
  [11;53;3;151;5;3;19;13;3;5;31;3;29;307;3];
  [3;11];
  [503;3;5];
  [19;5;3;11;23;3;5;449;3];
  [3;37;47;3;11;5;3];
  [97;3];
  [7;773;3;5];
  [3];
  [];
  [5;311;3;479;947;3;7;19;3;11;5;3;953;7;3;5;1381;3;41;13;3;643;97;3;127;5;3;7];
  [3;7;197;3;5;19;3];
  [11;3;43;5;3];
  [467;11;3;631;29;3;59;5;3];
  [3;5;11;3;37;211;3;7];
  [5;3;7;11;3;5];
  [197;13;3;163;5;3];
  [3;797;523;3];
  [17;3;5];
  [23;5;3;7;17;3;5;11;3;41;7;3;79;151;3;103;5;3;11;67;3;5];
  [3];
  [7;3];
  [31;149;3;5;61;3;41];
  [3;31;5;3;7;41;3;5];
  [47;3;31;13;3;271;5;3];
  [5;7;3;23];
  [3];
  [61;3;17;5;3;7;1319;3;5];
  [7];
  [3;5;7;3;227;23;3;19;67;3;17;5;3];
  [5;3];
  [];
  [3;7];
  [];
  [11;5;3;347;83;3;5];
  [3;11];
  [877;3;7];
  [];
  [3;47;5;3;11];
  [37;3;127];
  [5;101;3;7;19;3;11;13;3;107;5;3;257;439;3;5;67;3;31;523;3;1297;23;3;7;5;3];
  [3;61;19;3;5;7;3;11;257;3];
  [7;3];
  [257];
  [3;5;17;3;7];
  [5;3;29;599;3;5;7;3;433;509;3;11];
  [619;7;3;269;5;3];
  [3;353;11;3];
  [29;3;5;11;3;7;211;3;163;13;3];
  [7;5;3;109;11;3;5;7;3;29;439;3;293];
  [3;181;7;3;23;5;3];
  [13;3];
  [17];
  [3;7;5;3;17;857;3;5;7;3];
  [109;3;71;7;3;37;5;3;17;11;3;5];
  [5;13;3;59;163;3];
  [3];
  [293;3;7;5;3;457;37;3;5;7;3];
  [];
  [3;5;13;3;19];
  [5;3;19;1153;3;5;97;3;7;23;3;659;13;3];
  [19;29;3;7;5;3;47;461;3;5;7;3];
  [3];
  [7;3;5;13;3;853;41;3;37];
  [13;5;3;67;827;3;5;61;3;7];
  [3;17];
  [43;3;1307;41;3;17;7;3];
  [11;7;3;5;13;3;1481;19;3;17;53;3];
  [3;11;5;3];
  [17;3;11;19;3;7;5;3;251;1367;3;5;7;3];
  [5;19;3;11;17;3];
  [3];
  [463;3;13;5;3;11;59;3;5];
  [103];
  [3;5;29;3;983;79;3;11;7;3;151;5;3];
  [5;3;79;7;3;5;13;3;11];
  [37;439;3;13;5;3;43;757;3;5;137;3;7;277;3;727;13;3;83;5;3];
  [3;821];
  [11;3;5;137;3];
  [439;5;3;571;7;3;5;13;3];
  [3;71;11;3;13;5;3];
  [];
  [53;17;3;5;11;3;223;211;3;1091;7;3;409;5;3;11;29;3;5];
  [3;59;5;3;61;7;3;5;13;3];
  [7;3;761;773;3;13;5;3];
  [5;31;3;37];
  [3;1427;31;3;5;59;3;19;11;3;389;7;3];
  [1061;3;109;5;3;19;7;3;5;11;3;23];
  [23;7;3;19;31;3;13;5;3;523;11;3;5;103;3;7];
  [3;5;107;3];
  [5;3];
  [7];
  [3];
  [];
  [];
  [3;7;17;3];
  [];
  [59;73;3;5;19;3;29;37;3;193;17;3;7;5;3;79;23;3;5;7;3];
  [3;617;5;3];
  [19;3;7;71;3;73;5;3];
  [5];
  [3;11];
  [79;3;11;5;3;197];
  [13];
  [3;5];
  [5;3;101];
  [29];
  [3;13;103;3;7];
  [];
  [43;5;3];
  [3;757;229;3;193;5;3;29];
  [11;3;13];
  [7;11;3;5;523;3];
  [3;23;5;3];
  [];
  [5];
  [3;7;61;3;5;11;3;137;7;3];
  [];
  [19;1117;3;31];
  [3;5;37;3;13];
  [5;3;7];
  [443;131;3];
  [3;661];
  [181;3;5;1409;3;13;23;3;7;19;3;179;5;3];
  [149;5;3;7;67;3;5;19;3;31;7;3];
  [3;43;71;3;37;5;3;23];
  [7;3];
  [157;19;3;5;47;3;13;101;3;7;827;3;31;5;3;29;7;3;5;13;3];
  [3;79;5;3;7;37;3;5];
  [13;3;17];
  [5;7;3;61;43;3;17];
  [3];
  [881;3;29;5;3;7;647;3;5;83;3];
  [7;13;3;739];
  [3;5;7;3;101;17;3;37];
  [5;3;11;653;3;5;1069;3;13;17;3;7;23;3];
  [];
  [3;7;13;3;11;337;3;71;5;3;131;571;3;5;41;3];
  [];
  [];
  [3;139;163;3];
  [89;3;7;13;3;47;179;3;11;5;3;19;83;3;5;23;3;607;937;3];
  [13;59;3;5;7;3;907;1171;3;11];
  [3;89;5;3];
  [11;3;251];
  [5;11;3;7;13;3;41];
  [3;13;11;3;5;7;3;983];
  [7;3];
  [];
  [3;5;41;3;7;11;3];
  [5;3;13];
  [41;7;3];
  [3];
  [199;3;5];
  [7;5;3;13;19;3;5;7;3];
  [3];
  [19;3;37];
  [23];
  [3;7;5;3;13;61;3;5;7;3];
  [193;3;1217;7;3];
  [5;53;3;47;199;3];
  [3];
  [];
  [109;61;3;23;7;3;71;5;3;601];
  [3;5];
  [5;3;269;457;3;5];
  [11];
  [3;11];
  [7;3;5];
  [251;5;3;11];
  [3;73;139;3;7;5;3;13;983;3;5;7;3;17];
  [17;3;257;73;3;11;7;3;19;5;3];
  [1459;7;3;5;17;3;11;163;3];
  [3;1061;5;3;19;907;3;5;17;3;7;13;3;137;47;3;89;5;3;41;37;3;5;19;3;17;349;3;1297;11;3;7;5;3;173];
  [];
  [5;449;3];
  [3;883;7;3;5;1021;3;59;53;3;11];
  [11;3;61;5;3];
  [];
  [3;5;11;3];
  [5;3;17;7;3;5];
  [13];
  [3;23];
  [859;3;5;19;3;1301;11;3;47;7;3;37;5;3;17];
  [389;5;3;521;7;3;5;11;3;97;211;3];
  [3;13;53;3;1229;5;3;41;11;3;5;101;3;7;13;3;359;1559;3;11;5;3;17];
  [241;3;113;23;3;487;41;3;7;5;3;13;37;3;5;7;3;191];
  [37];
  [3;1033;5;3;23;7;3;5;353;3;197;11;3;29;67;3;113;5;3;7;199;3;5;59;3;37;7;3];
  [7;3;13;41;3;43;5;3];
  [5;37;3;673];
  [3;41];
  [41;3;1163;5;3;617;7;3;5];
  [29;7;3;13;181;3];
  [3;5;83;3];
  [5;3;1039;331;3;5;1489;3;1321];
  [7;137;3;37;5;3;157;7;3;5];
  [3];
  [];
  [11;5;3;659;37;3;5;503;3;19;17;3;127;7;3];
  [3;7;173;3;83;5;3;19;7;3;5];
  [];
  [587;113;3;5];
  [3;19;5;3;11;83;3;5;113;3];
  [383;3;7];
  [5;23;3];
  [3;29;101;3;5];
  [13;3;23;5;3;53;523;3;5;59;3];
  [31];
  [3;5];
  [5;3;31;17;3;5;19;3;29;43;3;11;887;3;7;5;3;13;317;3;5;7;3;41];
  [];
  [3;67;11;3;7];
  [19;3;5;11;3;23;7;3;13];
  [401;5;3];
  [3];
  [229;3];
  [7;157;3;5];
  [3;17;5;3;59];
  [67;3;29;13;3;17;5;3;23;11;3;5;677;3;41;349;3];
  [5];
  [3;7;499;3;5];
  [17;3];
  [];
  [3;5];
  [5;3;7];
  [23;47;3];
  [3;37;43;3;937;13;3;769;5;3;19];
  [];
  [379;5;3;7;41;3;5];
  [3];
  [7;3;17];
  [11;41;3;5;281;3;17];
  [3;11;5;3;7];
  [223;3;11;619;3;137;5;3];
  [5;7;3;11;53;3;113;13;3];
  [3];
  [];
  [7;971;3];
  [3;5;7;3];
  [5;3;47;19;3;5];
  [53;19;3;71;5;3;7];
  [3;7;1451;3];
  [11;3;5;7;3];
  [661;5;3;17;103;3;5;89;3;23;457;3;7];
  [3];
  [13;3;7;11;3;1381];
  [];
  [3];
  [23;3];
  [5;13;3;7];
  [3;23;293;3;5;7;3];
  [7;3];
  [613];
  [3;5;13;3;7;691;3];
  [5;3;599;23;3;5;7;3];
  [17;7;3];
  [3;997];
  [];
  [7;5;3;19;43;3;5;7;3];
  [3;19;7;3];
  [37;3;463;17;3;103;23;3;61;5;3;7];
  [];
  [3;7;5;3];
  [];
  [5];
  [3;11;907;3;5;13;3;7;19;3];
  [653;3;7;5;3];
  [];
  [3;5;19;3;11;41;3];
  [5;3;43;37;3;5;13;3;7];
  [61;31;3;7;5;3;11;389;3;5;7;3];
  [3];
  [7;3;5;31;3];
  [41;5;3];
  [3];
  [11;3;23];
  [281;7;3;5;59;3;911;31;3];
  [3];
  [73;3;347;11;3;7;5;3;131;31;3;5;7;3;11;23;3;127;13;3;19;5;3];
  [5;431;3;83;11;3];
  [3];
  [];
  [];
  [3;5];
  [5;3];
  [67;17;3;43;5;3;19;23;3;5;11;3;7;211;3;1117;31;3;17;5;3;11;631;3;5;19;3;1051;89;3;23;683;3;7;5;3;13];
  [3];
  [];
  [19;5;3;353;7;3;5];
  [3;307];
  [331;3;53;59;3;281;43;3;7;5;3;137;29;3;5;7;3];
  [];
  [3;29;5;3;137;7;3;5;101;3];
  [7;3];
  [5];
  [3;103];
  [97;3];
  [11;7;3];
  [3;5;17;3;257;197;3;307];
  [5;3;11];
  [7;37;3;11;5;3;641;7;3;5;17;3;43;53;3;29;113;3;509;5;3;7;97;3;5;11;3;17;7;3;13;31;3;19;5;3;11;61;3;5];
  [3;13;7;3;11];
  [977;3;5;151;3;11];
  [181;5;3;31;607;3;5;67;3;311;431;3];
  [3;7;59;3;31;5;3;11;7;3;5;307;3;227;383;3];
  [47;3;13;7;3;31];
  [17];
  [3;1019;5;3;17];
  [11;3;7;127;3];
  [5;11;3;13;7;3];
  [3];
  [1187;3;79;5;3;373;137;3;5];
  [];
  [3;5;317;3;13;7;3;19];
  [5;3;97;269;3;5;11;3];
  [];
  [3;19];
  [23;3;5;1283;3;13;7;3;283;11;3;1277;5;3;1231;683;3;5;13;3;7;47;3;23;229;3];
  [71;5;3;29;233;3;5;37;3;1601;11;3;23;797;3;7;5;3;31];
  [3;17;389;3];
  [];
  [7;29;3;5];
  [3];
  [13;3;1607;23;3;1471;5;3;47;239;3;5;683;3];
  [5];
  [3;7;19;3;5];
  [19;3;563;5;3;191];
  [907;13;3;1511];
  [3;5];
  [5;3;7;103;3;5;23;3;13;7;3];
  [11];
  [3;11;13;3;29];
  [59;3;5;797;3];
  [701;5;3;7;859;3;5;683;3;13;7;3;37];
  [3];
  [7;3];
  [13;17;3;5;691;3;11];
  [3;37;5;3;7;17;3;5;677;3;13;7;3;569];
  [79;3;67;139;3;193;5;3;11;17;3;5;503;3;19];
  [5;7;3];
  [3;13;37;3;5;61;3];
  [11;3];
  [7;11;3];
  [3;5;7;3;19;13;3;1367;613;3];
  [5;3;13;11;3;5;251;3;311;179;3;7];
  [19;61;3;17;5;3;7];
  [3;7];
  [683;3;5;7;3;971;11;3;41];
  [];
  [3;571;17;3];
  [313;3;7;757;3;23;17;3;149;5;3];
  [73;239;3;5;7;3];
  [3];
  [83;3;41;19;3;743;5;3;7];
  [5;19;3;7];
  [3;1193;43;3;5;7;3;37;13;3];
  [7;3];
  [17];
  [3;5];
  [5;3;61];
  [];
  [3];
  [13;3;5;17;3;7;191;3;569;373;3;23;5;3];
  [7;5;3];
  [3;11;7;3;443;5;3;13;463;3;5;17;3;1151;1171;3;7];
  [];
  [29;13;3;5;31;3;7];
  [3;7;5;3;11;31;3;5;7;3;359;13;3;19;181;3];
  [823;3;601;7;3;11;5;3;13;71;3;5;137;3;23;311;3;7;29;3];
  [5;337;3;23;251;3;11;31;3;19;5;3;7];
  [3;17;13;3;5;137;3;7;31;3];
  [37;3;7;5;3;17;83;3;5;7;3];
  [];
  [3;5;863;3;181;23;3];
  [5;3];
  [13;11;3;7;5;3;23];
  [3;677;11;3];
  [7;3;5;11;3;569;67;3;83;97;3;641;5;3;7;31;3;5];
  [101;5;3];
  [3;13];
  [109;3;47;37;3;59;7;3;1031;5;3;13];
  [103;7;3;5;19;3;107;11;3;23];
  [3;43;5;3;569;13;3;5;11;3;7;241;3;251;41;3;37;5;3;11;31;3;5;139;3;113;79;3;29;47;3;7;5;3;67;173;3;5;7;3;19;11;3;577;13;3];
  [19;3;13];
  [5];
  [3];
  [23;3];
  [127;17;3;13;43;3;7;5;3;41];
  [3;5;1637;3];
  [5;3];
  [743;227;3];
  [3;229];
  [61;3;5;23;3];
  [31;5;3;41;7;3;5;283;3;499];
  [3;31;41;3;23;5;3];
  [29;3;31;113;3;13];
  [11];
  [3;11;5;3;31;7;3;5;59;3;19];
  [7;3;11;67;3;31;5;3;19;13;3;5];
  [5;353;3;11;197;3;13;29;3;7;5;3;383];
  [3];
  [13;3;19;5;3;11;7;3;5;479;3];
  [19;7;3;107];
  [3;5];
  [5;3;197;1667;3;5];
  [7;13;3;29;5;3;149;7;3;5];
  [3;61;7;3];
  [11;3;5];
  [17;5;3;59;47;3;5;19;3;137];
  [3;7;11;3;17;5;3;313;7;3;5;53;3;11;311;3;31];
  [1213;3;137;7;3];
  [];
  [3;67;5;3;499;11;3;5;29;3;179;47;3;23;7;3;11;5;3;13;103;3;5;1637;3;41;37;3;7];
  [911;3;7;13;3;883;5;3;1103;7;3;5;79;3;37];
  [5;733;3;43;7;3;643;11;3;79;5;3];
  [3;631;103;3;5];
  [];
  [79;139;3;7;13;3;373;5;3];
  [3;5;241;3;29;7;3;1523];
  [5;3;127;691;3;5;43;3];
  [431];
  [3;17;29;3;7;13;3;89;5;3;1283;7;3;5;11;3;41;211;3;19;359;3];
  [];
  [107;5;3];
  [3;53;1279;3];
  [17;3;73];
  [7;163;3;5;17;3;37;7;3;19;593;3;47;5;3;617;13;3;5;11;3;7];
  [3;113;5;3;71;1103;3;5;17;3;41;137;3;13;283;3;7;5;3];
  [277;3;613;431;3;19;5;3;73;41;3;5;17;3;1249];
  [5];
  [3;7];
  [];
  [23];
  [3;5;269;3;11;263;3;7;13;3;719;5;3;89;7;3;5;881;3;983];
  [5;3;7;29;3;5;271;3;191;7;3];
  [227];
  [3;41;23;3;101];
  [41;3;5];
  [];
  [3;83;19;3];
  [7;3];
  [307;11;3;5];
  [3;887;5;3;7;23;3;5];
  [113;3];
  [5;7;3];
  [3;827];
  [47;3;811;5;3;7;11;3;5];
  [7];
  [3;5;7;3;61;1511;3;17;11;3;103;5;3;29;1217;3;5;59;3;11];
  [5;3;53];
  [59];
  [3;7;17;3;127;67;3;277;5;3;163;11;3;5;71;3;19];
  [43;3;5;7;3;317;17;3];
  [13;5;3;71;59;3;5];
  [3];
  [23;3;7];
  [223;31;3;5;7;3;19;97;3];
  [3;13;5;3;19];
  [];
  [5;593;3;7;31;3;457];
  [3;47;1237;3;5;7;3];
  [7;3;13;5;3;331;31;3;5];
  [11;359;3;73];
  [3;5;157;3;7;73;3];
  [5;3;11;17;3;5;7;3;47;19;3];
  [];
  [3;29;433;3;11;19;3;37;5;3;7;17;3;5;61;3;421;7;3];
  [];
  [7;5;3];
  [3;137;7;3;13;5;3;11;37;3;5;83;3;269;31;3;7;13;3;797;5;3;353;7;3;5];
  [];
  [173];
  [3;7;5;3];
  [11;3];
  [5;11;3;53;41;3];
  [3];
  [17;3;7;5;3;113;61;3;5;7;3;67;1307;3;11;59;3;17;5;3;97;31;3;5;647;3];
  [];
  [3;5];
  [5;3;29];
  [];
  [3];
  [7;3;5];
  [];
  [3];
  [1123;3;17];
  [31;7;3;5;23;3;17;29;3;563;137;3];
  [3;19;5;3];
  [];
  [5;17;3;31;167;3;359;7;3;13;5;3];
  [3];
  [];
  [13;1301;3;29;113;3;7;5;3;1321;19;3;5;7;3;409];
  [3;5];
  [5;3];
  [11;29;3;61;5;3;269;1489;3;5;173;3;7];
  [3;11;19;3];
  [19;3;5];
  [];
  [3;97;571;3;11;5;3;17;29;3;5;43;3;7];
  [];
  [23;103;3;5];
  [3;199;5;3;47;7;3;5];
  [7;3];
  [5];
  [3;71;23;3;5;467;3];
  [11;3;937;5;3;89;7;3;5;1733;3;11;853;3;23];
  [397;7;3;23;139;3];
  [3;5;11;3;13;499;3;827;739;3;7;5;3;11];
  [5;3];
  [7;211;3;859;5;3;977;7;3;5];
  [3;43;7;3;17;11;3];
  [];
  [];
  [3;7];
  [];
  [19;179;3;5;43;3;13;17;3;199;11;3;7;5;3];
  [3;479;5;3];
  [13;3;7];
  [5];
  [3];
  [];
  [];
  [3;5];
  [5;3;113;19;3;5;419;3;13;283;3];
  [];
  [3;23;13;3;7];
  [17;3;5;53;3;167;7;3];
  [11;5;3;37;17;3;5];
  [3;11;631;3];
  [107;3;11;13;3;7;47;3];
  [7];
  [3;251;5;3;11;43;3;5;157;3;13;59;3];
  [];
  [5;73;3];
  [3;7;541;3;5;97;3;11;7;3];
  [];
  [];
  [3;5];
  [5;3;7;1381;3;5];
  [29;11;3;433;5;3;823;37;3;5;277;3;11;73;3];
  [3];
  [];
  [];
  [3;19;211;3];
  [7;3;173;811;3;283;11;3];
  [];
  [3;271;5;3;7;29;3;5;11;3;127;7;3;41;19;3];
  [31;3;79];
  [5;7;3;17;47;3;53];
  [3;277;31;3;5;1663;3;17;13;3;7;11;3;23;5;3;103;7;3;5;61;3;11;53;3];
  [419;3;23;5;3;7;19;3;5;41;3;17;7;3];
  [7;269;3;509;19;3];
  [3;5;7;3];
  [5;3;223];
  [];
  [3;7];
  [13;3;5;7;3;23;557;3;29;31;3;757;5;3;1559;467;3;5;11;3;43;211;3;1129;7;3;13;5;3;11];
  [53;5;3];
  [3;37];
  [41;3;7];
  [11;13;3;5;7;3];
  [3;11;5;3;17];
  [443;3;11;1009;3;47;5;3;7];
  [5;191;3;7];
  [3];
  [7;3;29;5;3;11;101;3;5];
  [];
  [3;5;47;3;7;1429;3;11];
  [5;3;431;13;3;5;7;3;11];
  [13;7;3];
  [3];
  [11;3;5];
  [7;5;3;101;13;3;5;7;3];
  [3;13;7;3];
  [61;3;1289;11;3;17];
  [643;71;3;5;11;3;7;223;3;17];
  [3;7;5;3];
  [17;3;13;7;3;739;5;3];
  [5];
  [3;31;167;3;5;19;3;7;11;3;97];
  [43;3;7;5;3;367;13;3;5;7;3];
  [];
  [3;5;619;3;31];
  [5;3;179];
  [89;691;3;7;5;3;31;13;3;5;7;3;103;11;3];
  [3];
  [7;3;5];
  [];
  [3;61;89;3;7;5;3;191;13;3;5;7;3];
  [];
  [541;7;3;5];
  [3;181;5;3;29;17;3;5];
  [23;3];
  [5;487;3];
  [3;11;7;3;5;89;3];
  [13;3;11;5;3;41];
  [157;43;3;11;41;3;7;5;3;19;13;3;5;7;3];
  [3;5];
  [5;3;37;7;3;5];
  [];
  [3;19;197;3;23];
  [71;3;5;37;3;101;53;3;11;7;3;17;5;3;1091;61;3;5;19;3];
  [];
  [3;103;13;3;613;5;3];
  [11;3;97;199;3;29;17;3;7;5;3;11;13;3;5;7;3];
  [197;11;3;5];
  [3;73;5;3];
  [7;3;53;11;3;37;5;3;443;307;3;5;139;3;7;251;3];
  [5];
  [3];
  [19;3;359;5;3];
  [17;7;3;1483;13;3;599;5;3;691;29;3;5];
  [3;5;43;3;17];
  [5;3];
  [7;769;3];
  [3;281;7;3;1733;13;3];
  [];
  [];
  [3;7];
  [67;3;23;7;3];
  [331;263;3;5;29;3;163];
  [3;577;5;3;821;131;3;5];
  [];
  [5;443;3];
  [3;17;347;3;5];
  [];
  [11];
  [3;5;163;3;19;7;3];
  [5;3;11;43;3;5];
  [19;107;3;11;5;3;281;23;3;5];
  [3;311;109;3;7];
  [233;3;5;809;3;11;7;3;23;13;3];
  [1069;5;3;53];
  [3];
  [13;3];
  [7;53;3;5;151;3;41;7;3;11;13;3;59;5;3;103;433;3;5];
  [3];
  [11;3;17;19;3];
  [5;11;3;37;277;3;7;241;3;43;5;3;11;7;3;5;59;3;101;109;3;29;61;3];
  [3;7;11;3;5];
  [31;3];
  [41;17;3];
  [3;5;13;3;47;11;3;7];
  [5;3;7;31;3;5;11;3;29;7;3;281;13;3;23;5;3;11;61;3;5];
  [];
  [3;937;1033;3;139;31;3];
  [1087;3;5;13;3;241;29;3;7;11;3;47;5;3];
  [13;5;3;7;491;3;5;31;3];
  [3];
  [7;3];
  [];
  [3;13;5;3;7;67;3;5;47;3];
  [];
  [5;7;3];
  [3;601;17;3;5;13;3;19;23;3;7;283;3];
  [29;3;13;5;3;7;17;3;5;1657;3];
  [7;127;3;19];
  [3;5;7;3;53];
  [5;3;241];
  [11];
  [3;7;53;3];
  [23;3;5;7;3;181];
  [17;5;3;11];
  [3;23;61;3;11;5;3;7;19;3;5];
  [137;3;7;743;3;11;19;3;17;5;3];
  [];
  [3;881;5;3];
  [19;3];
  [5;29;3;7];
  [3;37];
  [7;3;911;5;3;397;47;3;5;13;3;11;41;3;7;17;3];
  [31;11;3;43;191;3;13;5;3;7];
  [3;5;11;3;7];
  [5;3;31;11;3;5;7;3];
  [];
  [3;17;883;3;31;11;3;13;5;3;7;733;3;5;43;3;11;7;3;71;13;3;19;5;3;107;59;3;5;61;3;7];
  [];
  [7;5;3;61];
  [3];
  [17;3];
  [47;173;3;5;17;3;7];
  [3;7;5;3;89;37;3;5;7;3;19;11;3];
  [41;3];
  [5;1613;3;1867];
  [3;1471;443;3;5;71;3;7;239;3;839;73;3;31;5;3;163];
  [59;3;7;5;3];
  [13;23;3;557;7;3];
  [3;5];
  [5;3;17;127;3;5;103;3;7];
  [103;1543;3;7;5;3;17;619;3;5;7;3];
  [3;13;83;3];
  [7;3;5];
  [11;5;3;577;23;3;5;19;3;7];
  [3;11];
  [971;3;11;19;3;23;7;3;691;5;3];
  [];
  [3];
  [];
  [5];
  [3];
  [];
  [];
  [3;5];
  [5;3;131;7;3;5;881;3;79];
  [277;11;3;547;5;3;29;67;3;5;23;3;7;103;3;17;263;3;61;5;3;19];
  [3;337;11;3;163;61;3;7;5;3];
  [109;3;5;11;3;13;17;3;229;7;3;23;5;3;11];
  [23;5;3];
  [3;167;47;3;227;5;3];
  [43;3;37;157;3];
  [];
  [3];
  [7;3];
  [5;617;3;19;709;3;857;211;3;7;5;3];
  [3;19];
  [73;3];
  [53;7;3];
  [3;5;173;3;73;23;3;29];
  [5;3;499;17;3;5;73;3;13;349;3;113;7;3;43;5;3;23];
  [7];
  [3;211;7;3;379;29;3;1571;5;3;73;17;3;5];
  [];
  [];
  [3;7;19;3;367;5;3];
  [19;3;61;7;3];
  [11;43;3;5;67;3];
  [3;11;5;3];
  [47;3;7;701;3;17;5;3;37;7;3;5];
  [5;457;3;11;7;3;523;419;3;17;5;3;79];
  [3;13;107;3;5];
  [17;3;1303;5;3;11;79;3;5;37;3;13];
  [];
  [3;5;521;3;269;7;3;11;17;3;293;5;3];
  [5;3;13;113;3;5;29;3;11];
  [];
  [3;1327;31;3;7;53;3;43;5;3;11;7;3;5;23;3;19;83;3;653;17;3;13;5;3;7;151;3;5;41;3;89;7;3;1193;13;3;17;5;3;73];
  [11;3;5;23;3;787;7;3];
  [];
  [3;293;11;3;23;5;3;991];
  [];
  [7;709;3;5;11;3;17;7;3;233;43;3;151;5;3;11;229;3;5];
  [3;47;5;3;13;11;3;5;31;3;17;71;3;431];
  [29;3;19;229;3;811;5;3];
  [5;17;3];
  [3;7];
  [];
  [];
  [3;5;1873;3;59];
  [5;3;7];
  [709;1321;3;37;5;3;13;19;3;5];
  [3];
  [13;3;5;19;3];
  [43;5;3;7;37;3;5;127;3];
  [3];
  [7;3;211;139;3;73;1301;3;1223;5;3;17;23;3;5];
  [];
  [3];
  [61;3;23;43;3;409;5;3;13;67;3;5];
  [5;7;3];
  [3;11;13;3;5;41;3;229;29;3;7;599;3;107;5;3];
  [1033;3;11;5;3;7;53;3;5;101;3];
  [7;521;3;11;23;3;433;5;3;13];
  [3;5;7;3;11];
  [5;3];
  [13;89;3;1091;5;3;7;59;3;5;1361;3];
  [3;7;1481;3;17;1439;3;11;5;3;13;647;3;5];
  [1307;3;5;7;3;61];
  [83;5;3;31;13;3;5;23;3;11;71;3;7;541;3;113;5;3];
  [3;13;29;3;31;5;3;7;127;3;5;421;3;47;7;3;17;67;3;23;5;3;113;1361;3;5;19;3;7];
  [11;3;7;17;3;19;181;3;23;5;3;11;199;3;5;673;3;193;313;3;17];
  [479;11;3;5;7;3;31;17;3;263;37;3;11;5;3;59;331;3;5];
  [3;19;5;3];
  [];
  [5];
  [3;131];
  [7;3;59;5;3];
  [23];
  [3;5;1013;3;7;311;3;691;11;3;197;5;3;13];
  [5;3;941];
  [];
  [3;37;19;3;13;137;3];
  [17;3;5;29;3;7];
  [7;5;3;23;17;3;5;7;3;53;89;3;29;11;3;67;5;3;31;1627;3;5;1447;3;11;107;3];
  [3;127;7;3;47;5;3;743;13;3;5];
  [];
  [937;367;3;5];
  [3;7;5;3;151;23;3;5;7;3];
  [587;3];
  [5;47;3;211];
  [3;59;73;3;5;43;3;7;1151;3;1321;61;3];
  [13;3;7;5;3];
  [11;1051;3;53;7;3;17;5;3];
  [3;5];
  [5;3;11;277;3;5];
  [1499;13;3;7;5;3;349;61;3;5;7;3;19;179;3;1213;89;3;17;5;3];
  [3];
  [7;3;5];
  [];
  [3];
  [23;3;19;61;3;491;7;3;11;5;3;43;13;3;5];
  [19;7;3;5];
  [3;23;5;3;41;1109;3;5;37;3;7;157;3;181;53;3;353;5;3;13;1381;3;5];
  [11;3;47;13;3;7;5;3];
  [5;11;3;17];
  [3;41;7;3;5;149;3;17;181;3;13;19;3;11;5;3;7;227;3;5];
  [41;3];
  [];
  [3;5;17;3;23;11;3;239;7;3;37;5;3;103;13;3;5];
  [5;3;193;7;3;5;11;3;61;79;3;13];
  [151;19;3];
  [3];
  [79;3;5];
  [257;5;3];
  [3;29;313;3;61;5;3;23];
  [37;3];
  [17];
  [3];
  [7;3];
  [5];
  [3;787;53;3;5];
  [67;3;37;5;3];
  [47;7;3;239];
  [3;5;1069;3;107];
  [5;3;887;37;3;5;727;3;523];
  [7;23;3];
  [3;11;7;3];
  [31;3;5;73;3;19;1579;3;463;13;3;7;5;3];
  [];
  [3;7;31;3;11;5;3;73;7;3;5;401;3];
  [13;3;701;7;3;11];
  [];
  [3;857;5;3;127;31;3;5;67;3];
  [17;3;7;947;3;23;5;3;11;7;3;5;19;3;41;73;3;13;113;3];
  [5;13;3];
  [3];
  [11;3;293;5;3;271;19;3;5;31;3;11;17;3];
  [];
  [3;5;11;3;401;7;3];
  [5;3];
  [];
  [3];
  [];
  [13;5;3];
  [3;107;761;3;389;5;3;97;11;3;5];
  [];
  [7;17;3;5;13;3;67;7;3;167;11;3];
  [3;13;5;3];
  [827;3];
  [5;59;3];
  [3;7;23;3;5;13;3];
  [83;3;13;5;3];
  [37];
  [3;5;599;3;29;67;3;7;97;3;19;5;3];
  [5;3;7;1087;3;5;13;3;19;7;3];
  [];
  [3];
  [];
  [11;5;3;7;1637;3;5;13;3];
  [3;11;17;3;13;5;3;1093];
  [7;3;11;83;3];
  [];
  [3];
  [59;3;73;1327;3;11;5;3];
  [5;7;3;47;37;3;11;19;3;23;5;3];
  [3];
  [];
  [7;19;3;67];
  [3;5;7;3;17;443;3;613;89;3;11;5;3;643;857;3;5];
  [5;3;827;29;3;5;83;3;17];
  [];
  [3;7;11;3;251;631;3;13;5;3;97];
  [];
  [];
  [3;179;67;3];
  [577;3;7;23;3;1847;11;3;13;5;3;359;181;3;5;17;3;11];
  [53;167;3;5;7;3];
  [3;257;5;3;23];
  [97;3;461];
  [5;113;3;7];
  [3;17;733;3;5;7;3;127;41;3];
  [7;3;181;5;3;17;23;3;5;179;3;19;11;3;7;113;3;647;5;3;1667;7;3;5;29;3;367;443;3;13;19;3;53;5;3;7];
  [13];
  [3;5];
  [5;3];
  [673;7;3;19;5;3];
  [3;13;41;3];
  [];
  [7;5;3];
  [3];
  [];
  [11;509;3;5;1049;3;7];
  [3;7;5;3;241;47;3;5;7;3;379;1201;3];
  [];
  [5;23;3;11;19;3;17];
  [3;313;19;3;5;29;3;7;881;3;17];
  [19;3;7;5;3;11];
  [];
  [3;5];
  [5;3;433;137;3;5;167;3;7;17;3];
  [373;199;3;7;5;3;563];
  [3;29;311;3;37;7;3;449;5;3;11;349;3;5;569;3;23;17;3;7;43;3;389;5;3];
  [7;3;5];
  [];
  [3;241;11;3;7;5;3];
  [];
  [];
  [3];
  [13;3;61];
  [5];
  [3];
  [157;3;1249;5;3;59;17;3;5;11;3;7;53;3];
  [877;13;3];
  [3;5];
  [5;3;19;7;3;5;883;3;13;59;3;23;11;3;439;5;3;7;17;3;5;13;3;11;7;3;173];
  [19;149;3];
  [3];
  [29;3;5;421;3;193];
  [17;5;3;1069;7;3;5];
  [3;991;23;3;17;5;3];
  [31;3];
  [13;31;3;5];
  [3];
  [7;3];
  [5;19;3];
  [3;11];
  [37;3;11;5;3];
  [1871;7;3;11;67;3;23;5;3];
  [3;5];
  [5;3;13];
  [7;29;3;43;5;3;11;7;3;5;31;3;13];
  [3;17;7;3];
  [631;3;5];
  [];
  [3;7;157;3;317;5;3;101;7;3;5];
  [11;3];
  [];
  [3;83;5;3;13;1499;3;5;17;3];
  [23;3;7;11;3;479;5;3;1747;7;3;5;17;3;11;29;3;79;31;3];
  [5];
  [3;23;83;3;5;11;3;19;13;3;73;79;3;7;5;3;11;37;3;5;7;3];
  [61;3;67;5;3;13;11;3;5];
  [601;311;3;7];
  [3;5;29;3];
  [5;3;17;23;3;5;37;3];
  [];
  [3;191;577;3;7;569;3];
  [13;3;5;89;3];
  [199;5;3;839];
  [3];
  [];
  [7;13;3;5;19;3;181;7;3];
  [3;31;5;3;419];
  [19;3;31];
  [5;53;3;31];
  [3;7;13;3;5;661;3;83;7;3];
  [439;3;281;5;3;31;59;3;5;23;3];
  [11];
  [3;5;109;3;1451;449;3;7;83;3;23;5;3];
  [5;3;7;13;3;5;1823;3;31;7;3;17];
  [13];
  [3];
  [1013;3;5];
  [37;5;3;7;13;3;5;41;3;101;7;3;31];
  [3;13];
  [7;3;23];
  [1567;37;3;5;41;3;29];
  [3;59;5;3;7;13;3;5;43;3;11;7;3;89;107;3;31;5;3];
  [11;3;13];
  [5;7;3;79;23;3;19;1663;3;1031;5;3;11];
  [3];
  [569;3;19;5;3;7;13;3;5];
  [7;73;3;13;11;3];
  [3;5;7;3];
  [5;3;823;17;3;5;11;3;487;233;3;7;827;3;443;5;3;11;7;3;5];
  [29];
  [3;7;71;3;13];
  [131;3;5;7;3];
  [];
  [3];
  [1381;3;7;19;3;13;67;3;197;5;3;103;11;3;5];
  [59;19;3;5;7;3;37];
  [3;17;5;3];
  [311;3];
  [5;43;3;7;59;3;13;37;3;17;5;3;281];
  [3];
  [7;3];
  [];
  [3;5;23;3;7;727;3;13;17;3;499;5;3];
  [5;3];
  [11;7;3;23;5;3];
  [3;11;47;3;109];
  [];
  [7;5;3;11];
  [3];
  [];
  [];
  [3;7;5;3;61;809;3;5;7;3;17];
  [];
  [5;17;3;19];
  [3;19;43;3;5;17;3;7;23;3;11;41;3;653;5;3];
  [11;3;7;5;3;53;149;3;5;7;3;11];
  [61;11;3;97;7;3;151;5;3;23];
  [3;5;11;3];
  [5;3;1409;11;3;5;353;3;7;1523;3;13;19;3;11;5;3;1597;109;3;5;17;3];
  [167];
  [3;373;37;3;263;7;3;401;5;3;661;23;3;5;379;3;11];
  [7;3;5;1223;3;499;11;3;191;71;3;839;5;3;7;13;3;5];
  [73;5;3;17;19;3;5;11;3;7];
  [3;23;19;3;7;5;3;17;11;3;5;7;3];
  [19;3;367;179;3];
  [41;7;3;5;97;3;73;733;3;587;11;3];
  [3];
  [31;3;101;23;3;7;5;3];
  [5;31;3;29];
  [3;67;7;3;5;37;3;103;137;3];
  [];
  [83;29;3];
  [3;5];
  [5;3];
  [17;83;3];
  [3];
  [67;3;5];
  [11;5;3;641;7;3;5];
  [3;11];
  [13;3;11;17;3;1039;61;3;7;5;3;673;31;3;5;7;3;43];
  [499;59;3;5];
  [3;43;5;3;11;7;3;5;331;3;23;17;3];
  [7;3;19;1583;3;11;5;3;47];
  [5;13;3;109;53;3;11;367;3;7;5;3];
  [3];
  [359;3];
  [1399;7;3;983;43;3;1559;5;3;11];
  [3;5;13;3];
  [5;3;23];
  [7;11;3];
  [3;503;7;3];
  [17;3;5;11;3];
  [13;5;3;193;11;3;5;83;3;1381];
  [3;7];
  [59;3];
  [859;607;3;5;13;3];
  [3;13;5;3;101];
  [];
  [5];
  [3;31];
  [829;3;13;5;3];
  [];
  [3;5;1321;3;31;7;3;73;673;3;17;5;3;577;11;3;5;283;3;7;431;3;13];
  [5;3;397;41;3;5;13;3];
  [];
  [3;41;107;3;7;17;3;31;5;3;167;7;3;5];
  [41;3;5;47;3;37;7;3;31;17;3;19;5;3];
  [23;5;3;263];
  [3];
  [307;3];
  [7];
  [3;11;5;3;113;373;3;5;13;3];
  [];
  [5];
  [3;7];
  [1279;3];
  [29];
  [3;5;17;3;139;23;3;7;19;3];
  [5;3;7];
  [107];
  [3];
  [11;3;5];
  [157;5;3;7];
  [3];
  [7;3;571;11;3];
  [17;47;3;5;11;3;101];
  [3;449;5;3;7;11;3;5;251;3;79;7;3;311;137;3;11;5;3;127;101;3;5;59;3;7];
  [];
  [5;7;3;347;79;3;59;11;3;13;5;3;17];
  [3;29;67;3;5];
  [23;3;541;5;3;7;1867;3;5;11;3];
  [7;37;3];
  [3;5;7;3;179];
  [5;3;821];
  [];
  [3;7;167;3;1489;1171;3;197;5;3;19];
  [139;3;5;7;3];
  [];
  [3;17];
  [101;3;7];
  [19];
  [3];
  [17;3;29];
  [5;271;3;7;17;3];
  [3;11;97;3;5;7;3;23;17;3;109;19;3;13;5;3];
  [7;3;11;5;3;43;331;3;5;19;3];
  [1181;41;3;11;977;3;37;5;3;7];
  [3;5];
  [5;3;673;19;3;5;7;3];
  [];
  [3;197;1597;3];
  [43;3;5];
  [7;5;3;271;223;3;5;7;3;11];
  [3;199;7;3];
  [11;3;263;1777;3;79];
  [191;11;3;5];
  [3;7;5;3;59;17;3;5;7;3;107;1231;3;11;281;3;13;5;3;71;47;3;5;1861;3;19;53;3;151;7;3];
  [13;3;23;7;3;149;5;3];
  [5;29;3];
  [3;109];
  [31;3;7;5;3;199;11;3;5;7;3;397];
  [1091;13;3;757;7;3;43;5;3];
  [3;5;31;3;97;1069;3;47;11;3];
  [5;3];
  [];
  [3];
  [7;3;5];
  [461;5;3;19;47;3;5;23;3;7];
  [3;19;17;3;7;5;3;1811;31;3;5;7;3];
  [347;3];
  [13;7;3;5;761;3;313;271;3;383;17;3];
  [3];
  [];
  [5;103;3;73;13;3;1697;7;3];
  [3;13;7;3;5;73;3];
  [113;3;179;5;3;67;19;3;5;29;3;7];
  [11;499;3];
  [3;5;19;3;17;13;3;43;7;3;71;5;3;61;113;3;5;31;3;1091];
  [5;3;11;7;3;5];
  [223];
  [3];
  [773;3;5;17;3;11;13;3;277;7;3];
  [79;5;3;13;7;3;5;17;3;61;43;3];
  [3];
  [];
  [229;1601;3;5];
  [3;283;5;3;13;7;3;5];
  [7;3];
  [5;11;3];
  [3;17;11;3;5];
  [];
  [31;7;3;241;11;3;157;5;3;17];
  [3;5;53;3;173;11;3];
  [5;3;31;1879;3;5;11;3;19;13;3];
  [7];
  [3;431;7;3;19];
  [13;3;5];
  [19;5;3];
  [3;7];
  [23;3];
  [];
  [3;23;5;3];
  [37;3;7];
  [5;67;3];
  [3;101;13;3;5;19;3];
  [47;3];
  [];
  [3;5];
  [5;3;37;13;3;5;449;3]].

Lemma ethash_cacheSizes_check :
  check_table 64 262143 2048 98 ethash_cacheSizes ethash_cacheSizes_certs = true.
Proof. vm_cast_no_check (eq_refl true). Qed.

Lemma ethash_cacheSizes_len : lenN ethash_cacheSizes = 2045.
Proof. vm_compute. reflexivity. Qed.

Lemma ethash_cacheSizes_ok e :
  e < 2045 -> prime_size (16777216 + 131072 * e) 64 (nth (N.to_nat e) ethash_cacheSizes 0).
Proof.
  intros H.
  refine (table_prime_size 64 262143 2048 98 ethash_cacheSizes ethash_cacheSizes_certs 131072 1024
            _ _ _ _ _ _ ethash_cacheSizes_check e _).
  - reflexivity.
  - reflexivity.
  - discriminate.
  - rewrite ethash_cacheSizes_len. reflexivity.
  - reflexivity.
  - reflexivity.
  - rewrite ethash_cacheSizes_len. exact H.
Qed.

Lemma kawpow_cacheSizes_eq : kawpow_cacheSizes = ethash_cacheSizes.
Proof. vm_compute. reflexivity. Qed.
Lemma firopow_cacheSizes_eq : firopow_cacheSizes = ethash_cacheSizes.
Proof. vm_compute. reflexivity. Qed.
