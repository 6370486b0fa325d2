(** Kernel computation: the octopus tables.  [..._certs] lists, per epoch, a divisor of each
    row count skipped by the search (a certificate, checked by [check_table]). *)
From Coq Require Import NArith ZArith List Bool Lia ZifyBool ZifyN ZifyNat.
From Verif Require Import Base BaseFacts DagModel DagSpec Trial DagSize LookupTables.
Import ListNotations.
Open Scope N_scope.

Definition octopus_cacheSizes_certs : list (list N) := [
  [3;11];
  [];
  [61;3;7;5;3;67];
  [3;13;113;3];
  [];
  [67;3];
  [3;5];
  [7;43;3;5;71;3;197;7;3;53;11;3;19;5;3];
  [5;3;83];
  [3];
  [];
  [101;3;13;23;3;131;5;3;19;31;3;5;11;3;167;13;3;461;7;3];
  [3;37;29;3];
  [5];
  [7;3;5;83;3;19];
  [3;7];
  [223;5;3;19;67;3;5;41;3;7;23;3];
  [];
  [3;19;37;3;7;5;3];
  [19;379;3;13;97;3;193;5;3];
  [11;3;409];
  [3;5;89;3];
  [23;7;3;5;41;3];
  [5;3;7;109;3;5;23;3;29;7;3];
  [3;163;5;3];
  [59;167;3;53;5;3];
  [];
  [3];
  [5;41;3;43;11;3];
  [17;3;5];
  [3;61;7;3;5;11;3];
  [11;5;3;7;17;3;5;19;3;71;7;3];
  [];
  [3;11;139;3;541;5;3;223;13;3;5;199;3];
  [13;149;3;23;19;3;7;5;3];
  [7;3;11;19;3;13];
  [3;5;19;3];
  [197;19;3;5];
  [5;3];
  [3;457;5;3;7;47;3;5;379;3;23;7;3];
  [47;101;3];
  [];
  [3;13];
  [5;7;3];
  [97;3;5;277;3];
  [3;193];
  [17;5;3];
  [13;3;17;5;3;7;449;3;5;461;3;557;7;3];
  [3];
  [7;23;3];
  [];
  [3;5;7;3];
  [139];
  [5;3;23;397;3;5];
  [3];
  [31;11;3];
  [7;3];
  [3;7;11;3;79;17;3;41;5;3;53;13;3;5];
  [5;67;3;13;47;3;29;17;3;7;5;3;43];
  [];
  [3];
  [43;5;3;31;11;3;5];
  [];
  [3;227;13;3;31;5;3;7;53;3;5];
  [11;7;3];
  [257;3;7;41;3;23;11;3];
  [3;5];
  [113];
  [5;3;11];
  [3;41;5;3];
  [7];
  [41;3];
  [3;17;7;3;11;53;3];
  [5;29;3;7];
  [];
  [3;19;73;3;5;7;3;17];
  [19;5;3;73];
  [7;3;277;5;3;229];
  [3;7;127;3;71;5;3;11;7;3;5];
  [83];
  [17;3;97;7;3];
  [3;5;17;3;7;61;3;233;29;3];
  [];
  [5;3];
  [3;53;5;3;23];
  [];
  [11;3;7;61;3;47;5;3];
  [3];
  [5;11;3];
  [149;3;5;541;3;7;19;3];
  [3];
  [7;5;3];
  [];
  [3;43;7;3;29;5;3;191];
  [199;13;3;7;11;3;443;5;3;41;7;3;5];
  [19;3];
  [3;5;47;3];
  [11];
  [5;3;17;37;3;5;11;3;13;131;3];
  [3;7;5;3;17;593;3;5;7;3;59];
  [];
  [];
  [3;29;13;3;7;41;3;103;5;3;17;7;3;5;97;3;37;67;3;11;23;3];
  [5];
  [43;3;5];
  [3];
  [];
  [337;3;7;5;3;11];
  [3];
  [163];
  [];
  [3;5;67;3];
  [7;139;3;5];
  [5;3];
  [3;223;5;3;61];
  [];
  [167;3;113;313;3];
  [3];
  [5;23;3;59;13;3;7];
  [7;3;5;151;3;29];
  [3;7;521;3;5];
  [];
  [];
  [3;17;11;3;7;5;3];
  [61];
  [13;3;43;11;3;17;7;3;19;5;3;367];
  [3;5];
  [173;7;3;5;11;3;19];
  [5;3;7];
  [3;263;5;3;19;11;3;5];
  [11];
  [17;3;19;53;3;7;5;3;223];
  [3;11;17;3];
  [5;13;3;379;17;3];
  [29;3;5];
  [3];
  [];
  [23;3;107;5;3;103];
  [3;79;103;3;11;5;3;439];
  [67;577;3;601;631;3;7;5;3];
  [7;3];
  [3;5;13;3;37];
  [109;151;3;5;127;3;11;13;3;7;19;3];
  [5;3;47;7;3;5];
  [3];
  [];
  [73;3;59];
  [3;73];
  [5;7;3];
  [229;3;5;13;3];
  [3;31;19;3;5;439;3];
  [13;5;3];
  [11;3;31;5;3;7;59;3;5];
  [3];
  [7;11;3;29];
  [271;3];
  [3;5;7;3;31;101;3;43;277;3;73;5;3;11;157;3;5;97;3;41];
  [];
  [5;3];
  [3;13;5;3;409;7;3;5;251;3];
  [23;29;3];
  [7;3;311];
  [3;7];
  [5;71;3;79;487;3];
  [13;3;5;7;3;373;11;3;31];
  [3;11];
  [193;5;3];
  [];
  [3;83;23;3];
  [563;7;3;11];
  [179;3;7];
  [3;5];
  [];
  [5;3;271];
  [3;17;5;3];
  [7;109;3;13;5;3;11;7;3;5;173;3];
  [];
  [3];
  [5;521;3;7;37;3];
  [31;3;5];
  [3];
  [47;5;3];
  [7;3;71;5;3;241;41;3;5;383;3;541;13;3;7;11;3;17;5;3;89;7;3;5;277;3;11;19;3;223];
  [3;7;17;3;13;5;3;19;7;3;5;37;3;61;107;3;67;13;3;17;5;3;7;23;3;5;19;3;43;7;3];
  [349];
  [11;3];
  [3;5;29;3;7];
  [];
  [5;3;19;13;3;5;7;3;43];
  [3;19;5;3;43;31;3;5;13;3];
  [13;7;3];
  [37;3;7;11;3;13;5;3];
  [3;41];
  [5;257;3;211;7;3];
  [41;3;5];
  [3;89];
  [7;5;3];
  [131;3];
  [3;11;7;3;397;5;3;61];
  [17];
  [211;3;11;43;3;271;229;3;173;5;3;7];
  [3;5];
  [59;281;3;5];
  [5;3;37;89;3;5;19;3;17;11;3];
  [3;7;5;3;11;13;3;5;7;3;17;23;3;331;53;3];
  [];
  [23;3;13;7;3;11;5;3;467;97;3;5;367;3;17;13;3;7;419;3;107;5;3;23;7;3;5;11;3;31];
  [3;103;19;3;7];
  [5;17;3;61;59;3;11;557;3;37;5;3;7];
  [19;3;5;17;3;197;7;3];
  [3;23;577;3;5;17;3;7;83;3];
  [];
  [];
  [3;61;283;3;97;5;3;79;563;3;5;13;3;281;11;3;37;7;3;23;5;3;29];
  [181;241;3;13;7;3;113;5;3;11;37;3;5;17;3];
  [71;3;29;307;3;7;89;3;13;5;3];
  [3;5];
  [7;79;3;5;67;3];
  [5;3];
  [3];
  [];
  [29;3;73];
  [3;43;11;3;13;7;3];
  [5];
  [7;3;5;11;3;73;307;3];
  [3;7;269;3;5;41;3;53;7;3];
  [];
  [];
  [3];
  [11;197;3;41];
  [];
  [3;5;41;3];
  [];
  [5;3;7];
  [3;37;5;3;53;251;3;5;11;3;7;179;3;19];
  [41];
  [521;3];
  [3;13;23;3;11];
  [5;193;3;353;29;3;13;7;3;19;5;3;359;593;3;5];
  [223;3;5];
  [3];
  [31;5;3;7];
  [13;3];
  [3;31;523;3;19;5;3;11;101;3;5;661;3;89;599;3];
  [79];
  [7;3;13];
  [3;5;331;3;47;113;3;13;7;3;23;5;3];
  [19;29;3;5;227;3;491;601;3;7;211;3;13;5;3];
  [5;3];
  [3;181;5;3;7;23;3;5;367;3;11;7;3;71];
  [17;13;3];
  [11;3;17];
  [3;137;643;3;17;571;3;7;5;3;43;13;3;5;7;3;149;11;3;347];
  [5;7;3;13;167;3;17];
  [];
  [3];
  [];
  [541;3;83;5;3;7];
  [3;107;13;3;163;5;3;29;19;3;5;281;3;7];
  [7;17;3];
  [];
  [3;5;7;3;13;11;3];
  [11];
  [5;3;179;19;3;5;11;3;113;17;3;7;37;3;13;5;3;11;7;3;5;59;3;223;227;3;17;13;3;139;5;3;7;641;3;5];
  [3;11;5;3;617;7;3;5;47;3;709;17;3];
  [37;19;3;47;5;3;7;11;3;5;151;3;31;7;3;113;337;3;11;5;3;701];
  [7;3;11;13;3;41;5;3];
  [3;7];
  [5;211;3;11;23;3];
  [];
  [3];
  [383;5;3];
  [31;3;41;5;3;11;7;3;5;53;3;577;29;3;61;47;3;131;5;3;7];
  [3];
  [];
  [23;3;7;103;3;83;613;3;53;5;3;29;11;3;5];
  [3;5;31;3];
  [];
  [5;3;313;31;3;5;463;3;11;353;3;13;7;3;67;5;3];
  [3;23;5;3];
  [7];
  [13;3];
  [3];
  [5];
  [11;3;5;251;3;53;31;3;23;433;3;7;5;3;179;13;3;5;7;3;19];
  [3];
  [71;5;3;43;17;3;5;31;3;739;137;3;11;7;3];
  [7;3];
  [3;7;11;3;277;5;3];
  [313;13;3;229;37;3];
  [409;3];
  [3;5];
  [73;59;3;5;11;3;61;79;3;47;23;3;7;5;3;11;13;3;5;7;3];
  [5;3;53];
  [3];
  [11;7;3;59;5;3;107;113;3;5;43;3;433];
  [];
  [3;11;13;3;61;73;3;19;5;3;7;463;3;5;113;3;263;7;3];
  [5;569;3;67;7;3;19;11;3];
  [53;3;5;29;3;7;23;3];
  [3;127;199;3;5;89;3;149;11;3];
  [7;5;3;11];
  [37;3;17;5;3];
  [3;19;7;3;11;5;3;23];
  [19];
  [157;3;397;13;3;11;41;3;17;5;3;7];
  [3;5;23;3];
  [13];
  [5;3];
  [3;7;5;3;41;107;3;5;7;3;13];
  [];
  [];
  [3;599;67;3;7;17;3];
  [5;401;3];
  [101;3;5];
  [3;13];
  [];
  [11;3;7;5;3];
  [3];
  [43;11;3;181;7;3;29;5;3;37];
  [13;3;281;19;3;7];
  [3;5;11;3];
  [7;19;3;5];
  [5;3;13;11;3;5;67;3;7];
  [3;233;5;3;293;173;3;5];
  [311;23;3;7;5;3];
  [];
  [3;17];
  [5;13;3;17];
  [7;3;5;43;3;17;11;3];
  [3;7;547;3;5];
  [743;5;3;13];
  [];
  [3];
  [31;29;3;11;151;3;53;5;3;23;67;3;5;191;3;17;347;3;13;7;3;389;5;3;263;11;3;5;503;3;29;13;3;7;47;3;11;5;3;101;7;3;5];
  [17;3;607];
  [3;5;13;3;11;163;3;7;733;3;29;5;3];
  [29;7;3;5;17;3];
  [5;3;7;523;3;5;17;3;443;7;3;131;13;3;47;5;3;79;353;3;5];
  [3];
  [67];
  [379;3];
  [3];
  [5;101;3;53];
  [23;3;5;13;3;31];
  [3;37;7;3;5];
  [13;5;3;7];
  [];
  [3;23;79;3;673;5;3;31;61;3;5;47;3;19;317;3];
  [179;53;3;173];
  [7;3;419;109;3;43];
  [3;5;37;3;67;29;3;521;7;3;19;5;3];
  [17;11;3;5;13;3;751];
  [5;3;17;7;3;5;61;3;19;13;3;71];
  [3;13;5;3;7;709;3;5;223;3;31;7;3;11;13;3];
  [];
  [];
  [3];
  [5;7;3;19;11;3;617];
  [13;3;5;47;3;113];
  [3;19;29;3;5;11;3;59;43;3;7;619;3;31;5;3;11;7;3;5;19;3;37];
  [11;5;3;479;7;3;5;379;3];
  [43;3;13;5;3;7;11;3;5];
  [3;11;61;3;37;5;3;13;179;3;5];
  [7;719;3;127];
  [31;3;11;67;3];
  [3;5;7;3];
  [23;13;3;5;359;3];
  [5;3];
  [3];
  [137;443;3;13;5;3;7;83;3;5;11;3;179;7;3];
  [7;3;97;31;3;11;5;3;13;19;3;5;197;3;7;223;3];
  [3;7;101;3;709];
  [5;89;3];
  [331;3;5;7;3;751;19;3;107;73;3];
  [3;79;13;3;5;19;3;11;787;3;53;7;3;97;5;3;449;47;3;5];
  [37;5;3];
  [];
  [3;17;19;3;13;5;3;7;499;3;5;149;3;73;7;3];
  [59;7;3;17;691;3];
  [19;3;7];
  [3;5];
  [];
  [5;3;43;13;3;5];
  [3];
  [7;11;3];
  [17;3];
  [3;277;7;3;47;23;3];
  [5];
  [449;3;5;11;3;41;17;3;353;683;3;7;5;3;11];
  [3;139;479;3;5;7;3;653;17;3];
  [];
  [7;3];
  [3;7];
  [11;23;3;37];
  [29;3;41;7;3;233;11;3];
  [3;5];
  [];
  [5;3;11];
  [3;433;5;3];
  [];
  [];
  [3;53];
  [5];
  [];
  [3];
  [7;5;3;47;23;3;5;7;3;557;701;3;19;83;3];
  [67;3];
  [3];
  [];
  [];
  [3;5];
  [397;17;3;5;29;3;7];
  [5;3];
  [3;7;5;3;19;17;3;5;7;3;11];
  [101];
  [11;3;19;7;3;59;5;3];
  [3;19;683;3;7];
  [5;11;3;751;67;3];
  [];
  [3];
  [587;5;3;151;163;3;5;433;3;359;281;3];
  [];
  [3];
  [13];
  [683;3;37;23;3;7;43;3];
  [3;5;43;3];
  [7;127;3;5];
  [5;3;163;359;3;5;11;3;7;19;3];
  [3;11;5;3;23;599;3;5;19;3];
  [719;181;3;7;5;3];
  [197;3;11;37;3;17;5;3];
  [3;13];
  [5];
  [7;3;5;19;3;491];
  [3;7;19;3;5];
  [23;5;3];
  [13;3;131;5;3;11;23;3;5;61;3];
  [3;41;17;3;7;5;3];
  [];
  [41;3;13];
  [3;5;59;3;29;83;3;7;17;3;619;5;3;827;7;3;5;37;3;257;13;3;181];
  [];
  [5;3;7;503;3;5;47;3;11;7;3];
  [3;47;5;3;59];
  [613;13;3];
  [];
  [3;71;29;3;43;61;3;257;5;3;11;13;3;5;641;3];
  [5;131;3;13];
  [11;3;5;53;3];
  [3;29;7;3;5];
  [];
  [];
  [3];
  [17;79;3;829;193;3;7;5;3];
  [7;3;17;11;3;467;311;3];
  [3;5;661;3;13;23;3];
  [];
  [5;3;107;7;3;5;787;3;17];
  [3];
  [11;31;3];
  [];
  [3;11;31;3;271;47;3;7;5;3];
  [5;7;3];
  [];
  [3];
  [];
  [];
  [3];
  [7;59;3];
  [];
  [3;5;7;3;19;41;3;47];
  [];
  [5;3;19;29;3;5];
  [3;19;5;3;37;7;3;5;31;3];
  [19];
  [7;3;29;233;3];
  [3;7;41;3;773;13;3;193;5;3];
  [5];
  [];
  [3;17];
  [41;5;3;17;47;3;5;167;3;59;29;3;7;19;3;461;5;3];
  [11;3];
  [3;281;857;3];
  [751;7;3];
  [];
  [3;5;11;3];
  [37;113;3;5;7;3;593;19;3];
  [5;3;829;11;3;5;19;3;13;149;3];
  [3];
  [7];
  [43;3;599;19;3;139;5;3;7;131;3;5];
  [3];
  [5;19;3;7];
  [19;3;5;23;3;647;11;3;181;89;3;7;5;3;41;127;3;5;7;3;79];
  [3;11];
  [];
  [7;3;11;5;3;173;431;3;5;97;3];
  [3;7];
  [71];
  [];
  [3;5];
  [13;109;3;5];
  [5;3;193];
  [3];
  [17;7;3;37;5;3;11];
  [];
  [3];
  [5;29;3];
  [];
  [3;13];
  [7;5;3;167;37;3;5;7;3;11;509;3;17;23;3];
  [];
  [3;163;7;3];
  [];
  [11;3;839;17;3];
  [3;5];
  [283;11;3;5];
  [5;3;13;229;3;5];
  [3;7;5;3];
  [31;41;3;149;5;3;727;797;3;5;353;3;13;17;3];
  [];
  [3;31;293;3;7;43;3];
  [5;13;3];
  [37;3;5];
  [3];
  [11;5;3;13];
  [];
  [3;11];
  [97;139;3;19;7;3;23;5;3;181];
  [317;3;11];
  [3;5;13;3;79];
  [7;23;3;5];
  [5;3];
  [3];
  [];
  [149;3;23;113;3;11;5;3;31];
  [3;29;71;3;107;7;3;59;5;3];
  [5;47;3];
  [7;3;5;13;3];
  [3;7;17;3;5;211;3;11;7;3;31;19;3;353;5;3;743;113;3;5];
  [13;5;3];
  [];
  [3];
  [191;461;3;43;23;3];
  [];
  [3;5;61;3;131;19;3;7;47;3;11;5;3;31;7;3;5;587;3];
  [89;7;3;5;13;3];
  [5;3;7;19;3;5];
  [3;13;5;3;239;53;3;5;193;3;7;23;3;61;13;3];
  [];
  [19;3];
  [3];
  [5;31;3];
  [13;3;5;11;3;29;43;3;7;79;3;61;5;3;11;7;3;5;23;3];
  [3;23;7;3;5;13;3];
  [17;5;3;7;11;3;5;23;3;127;7;3;163];
  [47;3;13;5;3;673];
  [3;907;53;3;17;5;3;13;313;3;5;157;3];
  [11;383;3;89;31;3;7;5;3;61;439;3;5;7;3;467];
  [7;3;251;29;3;101;11;3;17;5;3;83];
  [3;5;263;3;821;31;3;71;7;3;17;5;3;787;23;3;5];
  [];
  [5;3;11;7;3;5;13;3;67;823;3];
  [3;409;5;3;7];
  [];
  [];
  [3;37];
  [5;7;3;109;409;3];
  [29;3;5;191;3;11;313;3;433;7;3];
  [3;239;13;3;5;181;3];
  [353;5;3];
  [];
  [3];
  [7];
  [];
  [3;5;7;3;43];
  [43];
  [5;3;257;13;3;5;349;3];
  [3;61;5;3];
  [13];
  [7;3];
  [3;7;23;3];
  [5;11;3;17;137;3;19];
  [73;3;5;7;3;17;47;3];
  [3;47;11;3;5;113;3;17];
  [];
  [];
  [3;13];
  [19;7;3;29;11;3;13;5;3];
  [17;3;7;59;3];
  [3;5;17;3];
  [11];
  [5;3];
  [3;11;5;3];
  [7;29;3;83;5;3;631;7;3;5;13;3;89;19;3];
  [373;3;11];
  [3];
  [5;659;3;7];
  [];
  [3;113;41;3;5;7;3];
  [];
  [7;3;167;5;3;11;13;3;5];
  [3;7;673;3];
  [41;37;3;13;19;3;11;5;3;7;101;3;5;71;3;113;7;3];
  [];
  [3;5;19;3;7;283;3;11;23;3;79;5;3;13];
  [17;19;3;5];
  [5;3;17;53;3;5;7;3;11];
  [3;43;5;3;17;199;3;5;37;3;293];
  [251;7;3];
  [359;3;7;487;3;227;5;3;17;7;3;5;13;3;107;11;3;41;283;3;467;5;3;7];
  [3;79];
  [5;439;3;197;7;3;71;293;3;13;5;3;17];
  [11;3;5;443;3;7];
  [3;31];
  [7;5;3;37];
  [53;3;31;5;3;23];
  [3];
  [13;103;3;7;43;3];
  [23;3];
  [3;5;29;3;31;7;3];
  [211];
  [5;3];
  [3;7;5;3];
  [11];
  [97;3];
  [3;11;877;3;7];
  [5];
  [557;3;5];
  [3;149];
  [];
  [13;3;7;5;3];
  [3;17;233;3;11;5;3;397;131;3;5;101;3;19];
  [];
  [37;3;13;61;3;7;79;3];
  [3;5;701;3;23];
  [7];
  [5;3];
  [3];
  [];
  [17;3;41;47;3;19;5;3;11;347;3;5;67;3;31];
  [3;157;17;3;19;7;3;947;5;3];
  [5;41;3;13;17;3;7];
  [7;3;5;887;3];
  [3;7];
  [19;5;3];
  [11;3;37;5;3];
  [3;283;13;3;7;5;3;23];
  [127;11;3;59;401;3];
  [];
  [3;5;11;3;13;43;3;7;71;3;113;5;3;11;7;3;5;13;3;31;17;3;137;827;3;23;5;3;7;487;3;5];
  [];
  [5;3;7;11;3;5;149;3;61;7;3;107;19;3;11;5;3;113];
  [3];
  [];
  [29;3];
  [3];
  [5;73;3;107;53;3;61;7;3;29;5;3;47;13;3;5];
  [601;3;5];
  [3;11;7;3;5;19;3];
  [];
  [];
  [3;137;19;3;61;5;3];
  [];
  [7;3;157];
  [3;5];
  [];
  [5;3;61;7;3;5];
  [3];
  [53;23;3;599;5;3;11;17;3;5;887;3;7;31;3;43;109;3];
  [13;3];
  [3];
  [5;7;3;43;29;3];
  [59;3;5];
  [3];
  [];
  [];
  [3;37;509;3;41;5;3];
  [7;13;3];
  [11;3];
  [3;5;7;3];
  [151;11;3;5;23;3];
  [5;3];
  [3;17;5;3;83;7;3;5];
  [29];
  [7;3;541;11;3;17;5;3;59];
  [3;7;13;3];
  [5];
  [23;3;5;7;3;487];
  [3;211];
  [11;5;3];
  [17;3];
  [3;11;17;3];
  [];
  [];
  [3;5;193;3;37];
  [13];
  [5;3;199;71;3;5];
  [3;521;5;3;11;29;3;5;53;3;13];
  [7;661;3;19;5;3];
  [269;3;19;23;3;11;5;3;7];
  [3;19;7;3;29;37;3;53;5;3;281;11;3;5];
  [5;769;3;7;13;3;11;71;3;257;5;3;41;379;3;5];
  [241;3;5;101;3;337;233;3;43;13;3;7;5;3;181;107;3;5;7;3;59;23;3;11;17;3;113;5;3];
  [3;13];
  [31;5;3;257];
  [7;3;47;5;3];
  [3;7;29;3];
  [17];
  [13;3;17;7;3];
  [3;5;691;3;7;13;3;67;41;3;11;5;3];
  [23];
  [5;3;13];
  [3;401;5;3;31];
  [];
  [];
  [3;631;11;3;71;19;3;23;5;3;7];
  [5;13;3];
  [];
  [3;53;19;3;5;17;3;31;37;3;83;13;3;7;5;3;97];
  [7;5;3;13;11;3;5;7;3];
  [19;3];
  [3];
  [11];
  [89;3;757];
  [3;5;13;3;359;7;3];
  [41];
  [5;3;11];
  [3;7;5;3;13;223;3;5;7;3;23];
  [73;229;3;11;5;3];
  [];
  [3;269;73;3;7;23;3];
  [5];
  [61;3;5;13;3;11;7;3;47];
  [3;17];
  [13;5;3;17;443;3;5;881;3;43;67;3;29;13;3;7;5;3;109];
  [31;3;7;5;3;13;283;3;5;7;3;61;11;3;569;251;3;37;5;3;71];
  [3;43];
  [];
  [];
  [3;5;31;3;89;79;3];
  [7;541;3;5;13;3;59;7;3;11;29;3;73;5;3;17];
  [5;3;23;31;3;5];
  [3;13;5;3];
  [47];
  [11;3];
  [3;101];
  [5;11;3];
  [7;3;5];
  [3;7;11;3;5;13;3;139;7;3;19];
  [983;5;3];
  [];
  [3;313;109;3;7;5;3;13;31;3;5;7;3];
  [];
  [];
  [3;5;103;3;19;11;3;7];
  [11;7;3;5];
  [5;3;7];
  [3;11;5;3];
  [17];
  [163;3;11;83;3;7;5;3;13;89;3;5;7;3;47;383;3];
  [3;23];
  [5];
  [];
  [3;571;7;3;5];
  [];
  [];
  [3];
  [];
  [7;3;43;17;3;59];
  [3;5];
  [29;647;3;5];
  [5;3];
  [3];
  [13];
  [53;3;101;19;3;13;5;3;563;59;3;5;941;3];
  [3;379;19;3;127];
  [5;7;3];
  [11;3;5];
  [3];
  [23;5;3];
  [];
  [3;13;11;3];
  [7];
  [641;3];
  [3;5;7;3];
  [419;467;3;5;11;3];
  [5;3];
  [3;37;5;3;29;7;3;5];
  [11;233;3;103;5;3;7;197;3;5;13;3;883;7;3;163;401;3];
  [7;3;13;227;3;47;5;3;83;41;3;5];
  [3;7];
  [5;107;3;23];
  [17;3;5;7;3;601];
  [3;67;17;3;5];
  [109;5;3;11;17;3;5];
  [79;3;613;5;3;131;7;3;5;11;3;29];
  [3;29];
  [31;7;3;13];
  [283;3;7];
  [3;5;47;3;41;23;3;43];
  [];
  [5;3;31;41;3;5];
  [3;73;5;3];
  [7];
  [];
  [3;41;7;3;13;71;3;569;5;3;19];
  [5;23;3;7;131;3];
  [41;3;5];
  [3];
  [17;5;3];
  [7;3;17;5;3;19;29;3;5;71;3;11;251;3;7;457;3;79;5;3];
  [3;7;43;3;17;5;3;31;7;3;5];
  [13;11;3;19];
  [];
  [3;5;11;3;7];
  [19;193;3;5;53;3;569];
  [5;3];
  [3];
  [37;7;3;53;5;3];
  [];
  [3;13;79;3];
  [5;59;3];
  [];
  [3;11];
  [7;5;3;59;463;3;5;7;3;157;19;3;41;17;3];
  [13;3;11;5;3;569;223;3;5;19;3;859];
  [3];
  [53;109;3;7];
  [29;3;13];
  [3;5];
  [];
  [5;3];
  [3;7;5;3;43;89;3;5;7;3;137;11;3];
  [43;13;3];
  [19;3];
  [3;17];
  [5;97;3;13;31;3;41;29;3];
  [47;3;5;23;3;17;7;3;11];
  [3;701;127;3;5;31;3;7];
  [];
  [];
  [3;179;13;3;23;5;3];
  [];
  [11;3;457;43;3;7];
  [3;5;17;3;13;619;3];
  [7;11;3;5;17;3];
  [5;3;47;509;3;5;17;3;7;31;3;23];
  [3;79;5;3;599];
  [23];
  [59;3;61;11;3;151;5;3];
  [3;811];
  [5];
  [7;3;5];
  [3;7];
  [11;5;3];
  [37;3;569;5;3;149;11;3;5;179;3;241];
  [3;11;23;3;7;5;3];
  [29];
  [];
  [3;5];
  [17;7;3;5];
  [5;3;7];
  [3];
  [];
  [13;3;233];
  [3;43;139;3];
  [5];
  [];
  [3];
  [];
  [];
  [3;19;149;3];
  [19;13;3;79];
  [7;3];
  [3;5;53;3;29;137;3];
  [569;23;3;5;43;3];
  [5;3;73;7;3;5];
  [3;53;5;3;7];
  [];
  [];
  [3;59;11;3];
  [5;7;3];
  [];
  [3;29;337;3;5;47;3;227;19;3;7];
  [47;5;3];
  [347;3;41;5;3;7;19;3;5;251;3;73;7;3;13;23;3];
  [3;17];
  [7;41;3;17;19;3];
  [199;3;503;13;3;17;11;3;7;5;3];
  [3;5;7;3];
  [13;19;3;5;97;3;101;11;3;17;7;3;37;5;3];
  [5;3;11;103;3;5;37;3;29];
  [3;31;5;3;211;7;3;5;11;3;13;23;3;17];
  [];
  [7;3;31];
  [3;7;17;3;11];
  [5;479;3;31;13;3;43];
  [677;3;5;7;3;11;17;3];
  [3;13];
  [];
  [];
  [3];
  [];
  [13;3;7];
  [3;5;37;3];
  [];
  [5;3;13;23;3;5];
  [3;359;5;3];
  [7;43;3;283;5;3];
  [11;3;29;71;3];
  [3];
  [5;11;3;7;241;3;47];
  [107;3;5];
  [3;83;11;3;5;7;3];
  [1063;5;3;13;59;3;5;71;3];
  [7;3;163;5;3];
  [3;7;937;3;37;5;3;41;7;3;5];
  [23;593;3];
  [101;3];
  [3;5;13;3;7;11;3;101];
  [11;17;3;5];
  [5;3];
  [3;11;5;3;13;17;3;5];
  [71;7;3];
  [191;3;7;41;3;19;5;3];
  [3];
  [5;79;3;11;7;3;29];
  [];
  [3;19];
  [7;5;3;23;31;3;5;7;3;691;11;3];
  [41;3];
  [3];
  [];
  [53;3;443];
  [3;5;167;3];
  [];
  [5;3];
  [3;7;5;3;131;23;3;5;7;3;773;19;3;571;11;3;337;5;3;163;547;3;5];
  [];
  [];
  [3;383;43;3;7];
  [5;29;3];
  [11;3;5;59;3];
  [3;61;631;3;5;13;3;7];
  [29;5;3;503;19;3;5;97;3];
  [17;3;7;5;3;59];
  [3];
  [73;19;3;37;7;3];
  [19;3;23;11;3;7;17;3;101;5;3;179;7;3;5;239;3;13;29;3;71];
  [3;5;73;3;47;107;3;83;17;3];
  [7;13;3;5;11;3];
  [5;3;97;79;3;5;13;3;7;59;3];
  [3;397;5;3;67;11;3;5];
  [11;1009;3;7;5;3;73;547;3;5;7;3];
  [];
  [3;11];
  [5];
  [7;3;5];
  [3;7;13;3;5;29;3];
  [];
  [];
  [3];
  [17;257;3];
  [23;3;17];
  [3;5];
  [1019;7;3;5];
  [5;3;7;13;3;5;71;3;17;7;3;379;11;3];
  [3;23;5;3;1117;1019;3;5;13;3;7];
  [13];
  [113;3;109;97;3;7;5;3;11];
  [3;29;59;3];
  [5;17;3;613];
  [277;3;5;17;3];
  [3];
  [];
  [11;3];
  [3;13;101;3];
  [389;11;3;53;953;3;7;5;3;19;613;3;5;7;3;23];
  [7;3;37];
  [3;5;11;3;23];
  [];
  [5;3];
  [3];
  [31;53;3;19;5;3];
  [];
  [3;19];
  [5;7;3;113;659;3];
  [];
  [3;11];
  [];
  [83;3;11;5;3;7;13;3;5;239;3;41;7;3;701;19;3;43;5;3];
  [3;199;107;3;31;5;3;17;11;3;5;13;3;7;19;3;53;443;3;11;5;3;79;29;3;5;71;3;353;47;3;41];
  [7];
  [827;3;491;29;3;31;103;3;7;5;3;17;19;3;5;7;3];
  [3;5;7;3;11;61;3];
  [103];
  [5;3;29;389;3;5];
  [3];
  [757;59;3;23;5;3;7;13;3;5;97;3];
  [7;3];
  [3;7];
  [5];
  [29;3;5;7;3;41;37;3;11;439;3;1033;5;3;13];
  [3;461;19;3;5;379;3];
  [653;5;3];
  [19;3];
  [3;47;181;3;89;5;3;7;13;3;5;53;3];
  [13;7;3;293;347;3];
  [11;3;7;83;3;13];
  [3;5];
  [263;11;3;5;7;3;23;29;3;59;811;3;11;5;3;13;139;3;5;67;3;691];
  [5;3];
  [3];
  [7;23;3];
  [31;3;17;11;3;173;5;3;7;13;3;5;211;3;11;7;3];
  [3;13;7;3;17];
  [5;31;3;7;11;3;13;701;3;67;5;3];
  [];
  [3;487;31;3;5;7;3;53;23;3;17];
  [11;5;3];
  [7;3;149;5;3;83;11;3;5;37;3];
  [3;7];
  [];
  [139;3;11;7;3];
  [3;5;647;3;7;17;3;13;11;3;43;5;3;227];
  [47;167;3;5;23;3;43;17;3;229];
  [5;3;43];
  [3];
  [127;7;3;563;5;3;79;31;3;5;11;3;193;17;3;7];
  [];
  [3;97;269;3];
  [5];
  [23;3;5;239;3;7];
  [3];
  [7;5;3];
  [383;3;827;5;3;113;59;3;5;41;3;101];
  [3;23;7;3];
  [61;43;3;7];
  [1151;3];
  [3;5;239;3;13;7;3;29];
  [37;911;3;5];
  [5;3;19;181;3;5;41;3;23];
  [3;7;5;3;881;313;3;5;7;3;71;229;3;89;23;3;683;5;3;13;19;3;5];
  [19;11;3];
  [953;3;439;7;3;661;5;3];
  [3;109;11;3;7;29;3;37;5;3;587;7;3;5;137;3];
  [5;37;3];
  [17;3;5;11;3;13;7;3;263;271;3;347;5;3;11;19;3;5;13;3;7;23;3];
  [3;101;17;3;5];
  [];
  [];
  [3;41];
  [11];
  [41;3;353;313;3;7;11;3;79;5;3;23;7;3;5];
  [3;5;29;3];
  [7];
  [5;3;11;827;3;5;19;3;7;593;3;13;53;3];
  [3;29;5;3;449;19;3;5;11;3];
  [1039;947;3;7;5;3;67];
  [13;3;809;19;3];
  [3;127;19;3;11;7;3;23;5;3;557;103;3;5;577;3;419;41;3;7;107;3;137;5;3;67;7;3;5;29;3;13;1091;3;719;97;3;11;5;3;7;503;3;5;13;3;53;7;3];
  [5;19;3;269];
  [7;3;5;47;3;11];
  [3;7;23;3;5;59;3;13;7;3;37;11;3;127;5;3;769];
  [17;5;3;139;37;3;5];
  [71;3;17;5;3];
  [3;863];
  [367;13;3;23;113;3;17;5;3;499;43;3;5;11;3;331;131;3];
  [];
  [3;5;43;3;373];
  [];
  [5;3;7];
  [3;137;5;3];
  [83;17;3];
  [11;3];
  [3;149;13;3;223;17;3;431;5;3];
  [5;11;3];
  [37;3;5;349;3;53];
  [3;31;7;3;5];
  [89;5;3;7;709;3;5;751;3;13;7;3;47;17;3];
  [];
  [3;719;47;3;769;5;3];
  [113;23;3;31;11;3;7;5;3;149];
  [7;3;29;13;3];
  [3;5;769;3;31;11;3;113;7;3];
  [11;251;3;5];
  [5;3;23;7;3;5;11;3;139];
  [3;11;5;3;7];
  [157];
  [29;3;11];
  [3;17;41;3;43];
  [5;7;3;11;13;3;337;907;3;19;5;3;773];
  [53;3;5];
  [3;13;61;3;5;191;3;17;353;3;7];
  [41;5;3;683;7;3;5];
  [];
  [3;1069];
  [7];
  [13;3;19;463;3;23;149;3;7;5;3;31;11;3;5;7;3;17;83;3;179;19;3;11;5;3;13;89;3;5];
  [3;5;7;3];
  [19;47;3;5;17;3;29;43;3];
  [5;3;13;43;3;5;17;3;11];
  [3;683;5;3];
  [];
  [7;3];
  [3;7;1021;3;499;367;3];
  [5;13;3;101;29;3];
  [11;3;5;7;3;37;13;3];
  [3];
  [97;5;3;13;331;3;5];
  [251;3;151;5;3];
  [3;157;11;3;1181;5;3;7;19;3;5;1021;3;11;7;3];
  [131;7;3];
  [];
  [3;5;13;3];
  [17;29;3;5;7;3];
  [5;3;17;19;3;5;113;3];
  [3];
  [7;19;3];
  [19;3];
  [3;11;7;3;1093];
  [5];
  [593;3;5;13;3;43];
  [3;43;421;3;5;7;3];
  [13;5;3;11;139;3;5;53;3;1103;109;3];
  [7;3];
  [3;7;37;3;11;5;3;29;7;3;5;127;3];
  [];
  [];
  [3;5];
  [149];
  [5;3;41;701;3;5;7;3;229;13;3;59;11;3;331;5;3;587;929;3;5];
  [3;13;5;3;389;29;3;5;43;3];
  [151;7;3;383;5;3;13];
  [43;3;7;307;3;79;5;3;11;7;3;5;457;3;23;179;3;491];
  [3];
  [5];
  [13;3;5];
  [3;1109;173;3;5;13;3;97;467;3;11];
  [7;5;3];
  [11;3;13;5;3;307];
  [3;17;7;3;71;5;3;13];
  [67;11;3;7];
  [];
  [3;5;11;3;109;7;3;17];
  [53;13;3;5;751;3;7;829;3;17];
  [5;3];
  [3;7;5;3;613];
  [];
  [17;3];
  [3;739;17;3;7;11;3;19;5;3];
  [5;23;3;1109;17;3;19;389;3];
  [];
  [3;11;13;3;5;149;3;7;17;3;43;613;3;23;5;3;79;353;3;5];
  [];
  [127;3;7;5;3];
  [3;19;179;3;13;5;3;37;11;3;5];
  [19;37;3;11;7;3];
  [];
  [3;5];
  [7;421;3;5;263;3;887;7;3;23;11;3;313;5;3;29;19;3;5;97;3;7;17;3;13;43;3;563;5;3;47];
  [5;3;281;13;3;5];
  [3;83;5;3];
  [13;79;3;7;5;3;11];
  [];
  [3];
  [5;43;3];
  [7;3;5;29;3;23;137;3;11;19;3];
  [3;7;73;3;5];
  [31;5;3;37;13;3;5;19;3;7;151;3;29;947;3;347;5;3];
  [23;3;29;5;3;283;19;3;5;13;3];
  [3;13;449;3;7;5;3;757;373;3;5;7;3;1123;13;3];
  [547;89;3;1129;19;3;13;5;3;197];
  [11;3;31;19;3;223;7;3;397;5;3;11;47;3;5];
  [3;5;19;3;727;487;3;7;53;3;37;5;3;1019;7;3;5;11;3];
  [];
  [5;3;7;17;3;5];
  [3];
  [233];
  [];
  [3;491];
  [5];
  [];
  [3;463;7;3;5;11;3;31];
  [11;5;3;7;47;3;5;29;3;79;7;3;461];
  [];
  [3;11;419;3;23;5;3;43];
  [];
  [7;3;11;79;3;89];
  [3;5;751;3];
  [79;199;3;5];
  [5;3;743;7;3;5];
  [3;17;5;3;7;197;3;5;151;3;97;7;3;37;29;3;163;5;3;877;907;3;5;509;3;7;11;3;13];
  [23];
  [];
  [3;53];
  [5;7;3;29;1039;3;11;89;3;13;5;3];
  [421;3;5;199;3];
  [3];
  [];
  [17;3;37;5;3;7;227;3;5;109;3];
  [3;193;17;3;293;5;3;479;13;3;5;29;3;7;11;3;31];
  [7;29;3;197;17;3;463;5;3;11];
  [59;3];
  [3;5;7;3;313;199;3;353;17;3;11;5;3];
  [29;293;3;5;757;3;41];
  [5;3;59;31;3;5];
  [3];
  [1103;11;3];
  [7;3];
  [3;7;11;3;19;31;3;1049;5;3;23;97;3;5;13;3;37;173;3;257;17;3;7;5;3];
  [5;751;3;19];
  [];
  [3;19;41;3;5;23;3;29];
  [19;5;3];
  [13;3;61;5;3;907;7;3;5;257;3;239;53;3];
  [3;277];
  [11;7;3];
  [];
  [3;5;127;3;17;29;3;13];
  [43;23;3;5;7;3;17;11;3];
  [5;3;11];
  [3;139;5;3;29];
  [7;13;3;11;5;3];
  [];
  [3];
  [5;17;3;7];
  [];
  [3;449;29;3;5;7;3];
  [349;5;3];
  [7;3];
  [3;7;13;3;47;5;3;11;7;3;5;17;3;103];
  [347;19;3;953;23;3];
  [19;3;1061;7;3;881;53;3;11;5;3;151;13;3;5;17;3;7];
  [3;5];
  [];
  [5;3];
  [3;173;5;3];
  [461;7;3];
  [11;3;7;13;3];
  [3;73];
  [5;11;3];
  [179;3;5;53;3;7];
  [3;17;11;3;5];
  [7;5;3;17];
  [157;3;53;5;3;17;29;3;5];
  [3;271;7;3];
  [];
  [163;3;67];
  [3;5;389;3;37;7;3;157;47;3;73;5;3;17;13;3;5];
  [11;101;3;5;41;3;7];
  [5;3;83;23;3;5;11;3;101;181;3;13;61;3;7;5;3;11];
  [3;7;5;3];
  [211];
  [13;3;11;7;3];
  [3;659;271;3;7;13;3;641;5;3;71;7;3;5];
  [5;41;3;11];
  [89;3;5;83;3;239;7;3];
  [3];
  [];
  [47;3;7;5;3;11];
  [3;89;151;3;251;5;3;691;43;3;5;11;3];
  [23;13;3];
  [29;3];
  [3;5];
  [7];
  [5;3;31];
  [3];
  [17;37;3;7;5;3];
  [79;3;17;89;3;83;5;3];
  [3;19;13;3;17;7;3];
  [5];
  [7;3;5;337;3;31;401;3;17;719;3;11;5;3;7;619;3;5;19;3;487;7;3];
  [3;7;193;3;5;67;3];
  [];
  [353;3];
  [3;113;11;3;7;5;3;31;109;3;5;7;3;11;19;3;17];
  [];
  [71;3;239;11;3];
  [3;5;101;3];
  [13;7;3;5;11;3;397;17;3;31;19;3;59;5;3;7;23;3;5];
  [5;3;7;829;3;5;89;3];
  [3];
  [11;557;3;29;5;3;43;19;3;5];
  [151;3;43];
  [3;11];
  [5];
  [];
  [3;13;7;3;5];
  [];
  [19;3];
  [3;577;157;3;11;5;3];
  [29];
  [7;3;23;41;3;11];
  [3;5;79;3];
  [];
  [5;3;13;7;3;5;293;3;47];
  [3;41;5;3;7;499;3;5;29;3;89;7;3;1153;317;3;241;5;3];
  [181];
  [37;3;269;31;3;59;5;3;11;167;3;5;109;3];
  [3];
  [5;7;3;67;23;3;283;619;3;11;5;3;797];
  [17;3;5];
  [3;1223;17;3;5;31;3];
  [53;5;3;13;7;3;5;37;3];
  [11;3;593;5;3;7;17;3;5;59;3;11;7;3];
  [3];
  [7;11;3];
  [23;3;1013;101;3];
  [3;5;7;3;29];
  [];
  [5;3;37;11;3;5];
  [3;23;5;3;13;7;3;5];
  [];
  [7;3;73;157;3];
  [3;7;29;3;563;11;3;43;5;3;79;31;3;5;53;3;11;151;3;13;599;3;7;5;3];
  [5];
  [607;3;5;7;3;73;11;3;23];
  [3;11;149;3;5];
  [13;5;3;163;79;3;5;11;3;19;401;3;7;13;3];
  [];
  [3;79];
  [83;7;3;11;283;3;17;5;3;41;37;3;5];
  [];
  [3;5;59;3;11];
  [431];
  [5;3;19];
  [3;13;5;3;59];
  [7;17;3];
  [599;3;797;17;3;37;5;3;7;383;3;5;11;3];
  [3];
  [5];
  [13;3;5];
  [3;181;227;3;5;7;3];
  [863;5;3;41];
  [7;3;13;5;3;29;37;3;5;353;3];
  [3;7;41;3;677;5;3;13;7;3;5;19;3;499];
  [541];
  [11;3;857;7;3];
  [3;5;23;3;7];
  [41;11;3;5];
  [5;3];
  [3;37;5;3;1277;19;3;5;137;3;109;13;3;11;7;3;199;5;3;691;23;3;5];
  [67;7;3;13;5;3;229];
  [];
  [3;17;19;3;53;809;3];
  [5;19;3;17;7;3];
  [19;3;5];
  [3;151;13;3;5;11;3;17;367;3;23;761;3;7;5;3;11;139;3;5;7;3;61];
  [7;5;3];
  [29;3;1063;5;3];
  [3;11;7;3;13;5;3];
  [223;59;3;7;1279;3;281;5;3;13;7;3;5];
  [17;3;11];
  [3;5;17;3;67;7;3];
  [31;617;3;5;17;3;7;61;3];
  [5;3];
  [3;7;5;3;11];
  [13;23;3;89;5;3;83;29;3;5;11;3;509;13;3;587;7;3;61;5;3;11];
  [];
  [3];
  [5;139;3;31;269;3;11;59;3;137;5;3;7;151;3;5;17;3;479;7;3;509];
  [1031;3;5];
  [3;131;47;3;5];
  [283;5;3];
  [331;3;7;5;3;31];
  [3;13;587;3;601;5;3];
  [491];
  [];
  [3;5];
  [7;61;3;5;23;3;89;7;3];
  [5;3;17];
  [3;109;5;3;17;13;3;5];
  [37;11;3;7;5;3;17];
  [131;3;13];
  [3;479;11;3;97;7;3;13;5;3;17;23;3;5;457;3;373;941;3;7;13;3;1123;5;3;37;7;3;5;19;3];
  [5;29;3];
  [7;3;5;11;3;107;241;3;19;677;3;31;5;3;7];
  [3;7];
  [29;5;3];
  [59;3;101;5;3;19;13;3;5;149;3;47];
  [3;23];
  [11;47;3;13];
  [829;3;19];
  [3;5];
  [19;7;3;5];
  [5;3;7;941;3;5;311;3;23;7;3];
  [3];
  [];
  [];
  [3];
  [5];
  [43;3;5;31;3;11;53;3;7;179;3;503;5;3;13;7;3;5;563;3;1279;23;3];
  [3];
  [];
  [1097;3];
  [3;17];
  [13];
  [7;3;61];
  [3;5;293;3;631;19;3;17;7;3;13;5;3;179;11;3;5;23;3];
  [23;79;3;5;19;3;607;31;3;7];
  [5;3;907;7;3;5;23;3];
  [3];
  [61;19;3;181;5;3];
  [11;3;53];
  [3;13;17;3];
  [5;7;3;71;17;3;13;157;3;131;5;3;11;23;3;5];
  [103;3;5];
  [3;457;11;3;5];
  [127;5;3;101;7;3;5;47;3];
  [13;3;47;5;3;7;41;3;5;29;3];
  [3;59;433;3];
  [7];
  [];
  [3;5;7;3;41;11;3;13;641;3;107;5;3;37;31;3;5;89;3;137;13;3;563;7;3];
  [11;229;3;5;857;3;347;37;3];
  [5;3];
  [3;11;5;3;193;7;3;5;131;3;23];
  [383;13;3];
  [7;3;11];
  [3;7];
  [5];
  [41;3;5;7;3;29];
  [3;227];
  [641;5;3;809];
  [241;3;1097;5;3;11;7;3;5;281;3];
  [3];
  [79;7;3;277;317;3;11;5;3;37];
  [149;3;7;29;3];
  [3;5];
  [];
  [5;3;23;17;3;5];
  [3;607;5;3];
  [7;107;3;577;5;3];
  [367;3;859;13;3];
  [3;307;7;3];
  [5;347;3;7];
  [11;3;5];
  [3];
  [59;5;3;19;23;3;5;103;3;29;61;3;11;7;3;13;5;3];
  [7;3;19;5;3;37];
  [3;7;11;3];
  [19;263;3];
  [739;3;89;7;3;23];
  [3;5];
  [];
  [5;3];
  [3;17;5;3];
  [11;7;3;17;5;3;29];
  [13;3;7;617;3;17;5;3];
  [3;11;191;3;1087;13;3;17;5;3;7;19;3;5];
  [5];
  [];
  [3;37;317;3;5;41;3;13;11;3;191;547;3;7;5;3];
  [7;5;3;11;29;3;5;7;3];
  [17;3;677;5;3;89;19;3;5;11;3;769;47;3;433;7;3;13;5;3;11;733;3;5];
  [3];
  [463;13;3;7;17;3;1181;5;3];
  [73;3;71;19;3;11;13;3;37;5;3;7;727;3;5];
  [3;5;19;3;173;7;3];
  [];
  [5;3;1237;73;3;5;661;3;13;163;3];
  [3;7;5;3;23;139;3;5;7;3;307;29;3;13;17;3;233;5;3;673;229;3;5;367;3;67;13;3;293;7;3;17;5;3;191;59;3;5;31;3;11;103;3;7;239;3];
  [41;29;3];
  [61;3];
  [3];
  [5;317;3];
  [];
  [3];
  [23;5;3];
  [11;3;7;5;3;1097;23;3;5;7;3;11;73;3;13];
  [3];
  [17;11;3;131;7;3];
  [1291;3;17;13;3;7];
  [3;5;11;3;17;67;3;23;13;3;149;5;3;7;53;3;5;953;3;293;7;3];
  [7;919;3;5];
  [5;3];
  [3];
  [43];
  [31;3];
  [3];
  [5;17;3;23;13;3;7;167;3];
  [7;3;5;17;3;61;11;3];
  [3;7;31;3;5;17;3];
  [37;5;3];
  [199;3;11;5;3;1249;1097;3;5;17;3;13];
  [3];
  [281;233;3;11;31;3];
  [13;3];
  [3;5;29;3;11;13;3;7];
  [];
  [5;3;7];
  [3;29;5;3];
  [];
  [797;3;397];
  [3;283];
  [5;13;3;19;41;3;101;7;3;359;5;3];
  [97;3;5;347;3];
  [3;17;7;3;5];
  [19;5;3;7;199;3;5];
  [];
  [3];
  [];
  [7;3];
  [3;5;13;3;53;109;3];
  [131;11;3;5];
  [5;3];
  [3];
  [271;599;3];
  [173;3];
  [3;43;53;3];
  [5;7;3;167;11;3];
  [929;3;5;13;3;23;19;3;193;7;3];
  [3;53];
  [11;5;3;991;7;3;5;877;3];
  [23;3];
  [3;11;19;3];
  [7;19;3;263;313;3;151;5;3];
  [19;3;11];
  [3;5;7;3;113];
  [];
  [5;3];
  [3;13;5;3;11;7;3;5];
  [17;47;3];
  [7;3;17];
  [3;7];
  [5;167;3;1259];
  [13;3;5;7;3];
  [3;89;313;3;5;13;3;11];
  [673;5;3;887];
  [];
  [3];
  [1231;7;3;47;647;3];
  [];
  [3;5];
  [];
  [5;3;643;89;3;5;13;3;83;17;3;11;7;3];
  [3;269;5;3;41];
  [7;11;3;13;5;3];
  [313;3];
  [3;107;7;3;89];
  [5];
  [47;3;5;11;3];
  [3;31;13;3;5;7;3;23];
  [67;5;3;29;11;3;5;13;3];
  [7;3;31;5;3];
  [3;7;23;3;13;5;3];
  [11;839;3;31];
  [433;3;223;7;3];
  [3;5;181;3;7];
  [];
  [5;3;11;13;3;5;7;3;419;23;3];
  [3;373;5;3;19;43;3;5;11;3;29;883;3;1297;7;3;277;5;3;11];
  [13;7;3;11;5;3;31;71;3;5;113;3];
  [107;3;7;1277;3;13;5;3;101;7;3;5];
  [3;19];
  [5];
  [17;3;5];
  [3;79;17;3;5;23;3];
  [7;5;3;433;13;3;5;7;3;31;389;3];
  [];
  [3;13;7;3];
  [71];
  [];
  [3;5;359;3];
  [];
  [5;3];
  [3;7;5;3;71;13;3;5;7;3;11];
  [];
  [11;3;13;7;3;127;5;3;37];
  [3;47;37;3;7;19;3;13;5;3];
  [5;11;3];
  [31;3;5;19;3;523;7;3;71;191;3;43;5;3;83];
  [3];
  [17;5;3;43];
  [19;3;7;5;3;577;13;3;5;7;3;103;29;3;11;23;3;31;5;3];
  [3];
  [149;83;3;13;7;3;17;5;3;1187;353;3;5;47;3;11;13;3;7;397;3;29;5;3];
  [349;3;103;31;3;7;137;3;13;5;3;29;7;3;5;83;3;677];
  [3;5];
  [7;563;3;5;31;3];
  [5;3;61];
  [3;11;5;3;37;31;3;5;173;3;1171;23;3];
  [];
  [23;3;11;17;3];
  [3];
  [5];
  [7;3;5];
  [3;7];
  [47;5;3;83];
  [941;3;379;5;3;11;617;3;5;31;3];
  [3];
  [13];
  [587;3;349;293;3;13;7;3;23;5;3;109;11;3;5;743;3;41;13;3;7;17;3;11;5;3;31;7;3;5;67;3];
  [3;5];
  [37;7;3;5;83;3];
  [5;3;7;23;3;5];
  [3;67;5;3];
  [];
  [];
  [3;13;71;3;23;113;3;37;5;3;11];
  [5;37;3;17;491;3;13;7;3];
  [11;3;5;29;3;17;257;3;7];
  [3];
  [73;5;3;7;499;3;5];
  [13;3;29;5;3];
  [3;197;11;3;43;5;3;19;37;3;5];
  [23];
  [7;3;13;11;3;19;23;3];
  [3;5;17;3;19;73;3;13;7;3];
  [];
  [5;3;19;7;3;5;17;3;41;227;3];
  [3;19;5;3;7;11;3;5;17;3;101;7;3];
  [11;13;3;37;5;3];
  [1171;3;131];
  [3;11;23;3];
  [5;7;3;13];
  [167;3;5;43;3;41];
  [3];
  [];
  [523;3;449;5;3;7];
  [3];
  [7];
  [419;3;41;521;3;11;349;3;7;5;3;199;13;3;5;7;3;37;47;3;1367;239;3];
  [3;5;7;3;13];
  [17;41;3;5];
  [5;3;17;47;3;5;19;3];
  [3];
  [353];
  [7;3];
  [3;7;19;3;269];
  [5;19;3;29];
  [19;3;5;7;3;13;61;3];
  [3];
  [31;5;3];
  [11;3];
  [3;31;467;3];
  [];
  [];
  [3;5;11;3];
  [29;1217;3;5;7;3;13];
  [5;3;191;11;3;5];
  [3];
  [7];
  [13;3;37];
  [3];
  [5;463;3;7;23;3;31;673;3;313;5;3;373;563;3;5;43;3;311];
  [61;3;5;379;3;1367;11;3];
  [3;11];
  [];
  [7;3;11;5;3;23;1373;3;5;41;3;61];
  [3;7];
  [];
  [23;3];
  [3;5;409;3;7;29;3;17];
  [1367];
  [5;3;1031;109;3;5;7;3;13;173;3;17;79;3;19;5;3;547;23;3;5;13;3];
  [3;23;5;3;29;71;3;5];
  [];
  [17;3;7];
  [3;83;13;3;41;53;3;11;5;3;7];
  [5;811;3;229;7;3;67;13;3;19;5;3;89;11;3;5;47;3;7;983;3;17;29;3;11;5;3;739;19;3;5;61;3;13];
  [];
  [3];
  [7;5;3;113;127;3;5;7;3;11;17;3];
  [31;3];
  [3;29;7;3;19;5;3];
  [];
  [11;3;19;13;3;313;37;3];
  [3;5;31;3;23;7;3];
  [13;11;3;5];
  [5;3;43;31;3;5;593;3];
  [3;7;5;3;547];
  [];
  [733;3];
  [3;37];
  [5];
  [73;3;5;367;3];
  [3;13;59;3;5;11;3;7];
  [11;5;3;313];
  [];
  [3;11;37;3;59;5;3;23;19;3;5];
  [173;43;3];
  [13;3;11];
  [3;5;23;3];
  [7;17;3;5;19;3];
  [5;3;13;17;3;5];
  [3];
  [191;19;3;7;5;3];
  [19;3;79;29;3;11;5;3];
  [3;313;461;3];
  [5;13;3];
  [7;3;5];
  [3;7;179;3;5];
  [991;5;3;13];
  [];
  [3;433;113;3;7;5;3;83;509;3;5;7;3;13;11;3];
  [];
  [29;3];
  [3;5;13;3];
  [];
  [5;3;7];
  [3;17;5;3;13];
  [];
  [71;3];
  [3;263;11;3];
  [5;59;3];
  [];
  [3];
  [13;5;3;7;11;3;5];
  [17;3;89;5;3;13;47;3;5];
  [3;47;17;3];
  [11;37;3;101;17;3;7;5;3;23;43;3;5;7;3;13];
  [7;3];
  [3;5;43;3;79];
  [593;523;3;5;13;3;137;11;3;7;17;3;19;5;3];
  [5;3;11;7;3;5;163;3;709;13;3;19;17;3;37;5;3;7];
  [3;13;5;3;7];
  [139];
  [547;3;499;53;3;23;5;3;19;11;3;5;71;3];
  [3;233];
  [5;7;3;757];
  [13;3;5];
  [3;71;281;3;5;13;3;269];
  [];
  [];
  [3;19];
  [7];
  [53;3;17];
  [3;5;7;3;17;47;3;211];
  [47;13;3;5;37;3;17;89;3;11;7;3];
  [5;3;31;61;3;5;13;3;17;617;3;7];
  [3];
  [];
  [7;3;719;23;3];
  [3;7];
  [5;11;3];
  [83;3;5;7;3;31;641;3];
  [3;673;11;3;5;17;3;47;19;3;521;7;3;11;5;3;1301];
  [307;5;3];
  [227;3;107;5;3;41;7;3;5;17;3];
  [3];
  [839;7;3];
  [37;3;7;19;3;179;59;3;31;5;3;23;139;3;5;17;3;71;101;3];
  [3;5;19;3;29;11;3];
  [11;19;3;5;7;3];
  [5;3;41;13;3;5;11;3;59;1231;3;89;7;3;47;5;3;11];
  [3;11;5;3];
  [7;41;3;307;5;3];
  [631;3;11;239;3;13;5;3;7;107;3;5;29;3;97;7;3];
  [3;103;7;3;463;1039;3;23;5;3;13;907;3;5;67;3;7];
  [5;73;3;7;307;3];
  [];
  [3;17;23;3;5;7;3];
  [];
  [7;3;37;5;3;11;109;3;5;13;3];
  [3;7;239;3;67;5;3;17;7;3;5;11;3;149;13;3];
  [];
  [31;3];
  [3;5;353;3;7];
  [113;31;3;5;613;3];
  [5;3];
  [3];
  [];
  [];
  [3;59;149;3];
  [5];
  [11;3;5;47;3;7;29;3;67;937;3;11;5;3;401;97;3;5];
  [3;43;79;3;5;31;3];
  [7;5;3];
  [239;3;317;5;3;29;13;3;5];
  [3];
  [];
  [1283;3];
  [3;5];
  [71;887;3;5;11;3;7];
  [5;3;23;29;3;5];
  [3;7;5;3;607;11;3;5;7;3];
  [11;53;3;151;5;3;19;13;3;5;31;3;29;307;3];
  [43;3;17;7;3;19;5;3;863];
  [3;11];
  [5;1187;3;19];
  [503;3;5];
  [3;19];
  [19;5;3;11;23;3;5;449;3];
  [29;3;7;5;3];
  [3;37;47;3;11;5;3];
  [13;17;3];
  [97;3];
  [3;5];
  [7;773;3;5];
  [5;3];
  [3];
  [59];
  [];
  [3;13];
  [5;311;3;479;947;3;7;19;3;11;5;3;953;7;3;5;1381;3;41;13;3;643;97;3;127;5;3;7];
  [7;3;5];
  [3;7;197;3;5;19;3];
  [263;5;3];
  [11;3;43;5;3];
  [3;151;19;3;7;5;3];
  [467;11;3;631;29;3;59;5;3];
  [19;3;13;23;3];
  [3;5;11;3;37;211;3;7];
  [];
  [5;3;7;11;3;5];
  [3;1249;5;3;23];
  [197;13;3;163;5;3];
  [];
  [3;797;523;3];
  [5;29;3;13;1307;3];
  [17;3;5];
  [3;11;7;3;5];
  [23;5;3;7;17;3;5;11;3;41;7;3;79;151;3;103;5;3;11;67;3;5];
  [743;3;11;5;3];
  [3];
  [37];
  [7;3];
  [3;5;443;3;11;53;3;23;7;3];
  [31;149;3;5;61;3;41];
  [5;3];
  [3;31;5;3;7;41;3;5];
  [73;37;3];
  [47;3;31;13;3;271;5;3];
  [3];
  [5;7;3;23];
  [101;3;5;59;3;13];
  [3];
  [17;5;3;179;7;3;5];
  [61;3;17;5;3;7;1319;3;5];
  [3;53];
  [7];
  [11;3;47;107;3;137;271;3;7;5;3;11];
  [3;5;7;3;227;23;3;19;67;3;17;5;3];
  [];
  [5;3];
  [3];
  [];
  [7;3;19;11;3;367;5;3;619];
  [3;7];
  [5;23;3;281;11;3;449;17;3;7;5;3];
  [];
  [3];
  [11;5;3;347;83;3;5];
  [];
  [3;11];
  [];
  [877;3;7];
  [3;5];
  [];
  [5;3;67];
  [3;47;5;3;11];
  [7;31;3;61;5;3;37;7;3;5;11;3];
  [37;3;127];
  [3;17;7;3];
  [5;101;3;7;19;3;11;13;3;107;5;3;257;439;3;5;67;3;31;523;3;1297;23;3;7;5;3];
  [139;3;5;19;3;17];
  [3;61;19;3;5;7;3;11;257;3];
  [601;5;3;149;31;3;5;37;3;13;541;3;223;7;3];
  [7;3];
  [3;7;257;3;311;5;3];
  [257];
  [17;3];
  [3;5;17;3;7];
  [13;67;3;5;17;3;509;23;3;211;163;3;7;5;3;349;11;3;5;7;3;17];
  [5;3;29;599;3;5;7;3;433;509;3;11];
  [3];
  [619;7;3;269;5;3];
  [1453;3;7;223;3];
  [3;353;11;3];
  [5;41;3];
  [29;3;5;11;3;7;211;3;163;13;3];
  [3;13];
  [7;5;3;109;11;3;5;7;3;29;439;3;293];
  [107;3];
  [3;181;7;3;23;5;3];
  [11;227;3;7];
  [13;3];
  [3;5];
  [17];
  [5;3;11];
  [3;7;5;3;17;857;3;5;7;3];
  [23;59;3;11;5;3;17;151;3;5];
  [109;3;71;7;3;37;5;3;17;11;3;5];
  [3];
  [5;13;3;59;163;3];
  [53;3;5];
  [3];
  [];
  [293;3;7;5;3;457;37;3;5;7;3];
  [3;389;23;3;421;5;3;11;167;3;5;641;3;13;1091;3];
  [];
  [1223;3;163];
  [3;5;13;3;19];
  [7];
  [5;3;19;1153;3;5;97;3;7;23;3;659;13;3];
  [3;19;5;3;13];
  [19;29;3;7;5;3;47;461;3;5;7;3];
  [11;3;331;73;3];
  [3];
  [5;11;3;641;727;3;7];
  [7;3;5;13;3;853;41;3;37];
  [3;7;11;3;5;23;3;73;7;3;173;569;3;11;5;3];
  [13;5;3;67;827;3;5;61;3;7];
  [];
  [3;17];
  [241];
  [43;3;1307;41;3;17;7;3];
  [3;5;283;3];
  [11;7;3;5;13;3;1481;19;3;17;53;3];
  [5;3;7;499;3;5;11;3;199;7;3;17];
  [3;11;5;3];
  [31];
  [17;3;11;19;3;7;5;3;251;1367;3;5;7;3];
  [3;31;17;3;37;29;3;67;5;3;101;739;3;5];
  [5;19;3;11;17;3];
  [13;3;5];
  [3];
  [];
  [463;3;13;5;3;11;59;3;5];
  [3];
  [103];
  [7;3;359];
  [3;5;29;3;983;79;3;11;7;3;151;5;3];
  [617;13;3;5];
  [5;3;79;7;3;5;13;3;11];
  [3;29;5;3;7];
  [37;439;3;13;5;3;43;757;3;5;137;3;7;277;3;727;13;3;83;5;3];
  [23;3;43;151;3;397;5;3;13;179;3;5;59;3];
  [3;821];
  [5;7;3;53];
  [11;3;5;137;3];
  [3;23;13;3;5;83;3;37;569;3;7;41;3;233;5;3];
  [439;5;3;571;7;3;5;13;3];
  [];
  [3;71;11;3;13;5;3];
  [7;53;3];
  [];
  [3;5;7;3];
  [53;17;3;5;11;3;223;211;3;1091;7;3;409;5;3;11;29;3;5];
  [5;3];
  [3;59;5;3;61;7;3;5;13;3];
  [11];
  [7;3;761;773;3;13;5;3];
  [3;7];
  [5;31;3;37];
  [809;3;5;7;3];
  [3;1427;31;3;5;59;3;19;11;3;389;7;3];
  [];
  [1061;3;109;5;3;19;7;3;5;11;3;23];
  [3;13;41;3;11;5;3;7;83;3;5];
  [23;7;3;19;31;3;13;5;3;523;11;3;5;103;3;7];
  [487;3;7];
  [3;5;107;3];
  [19];
  [5;3];
  [3;17;5;3;67;13;3;5];
  [7];
  [29;3;13];
  [3];
  [5];
  [];
  [3;331;367;3;5;7;3];
  [];
  [7;3;421;5;3;1303;13;3;5;19;3;11;991;3;7;1123;3;17;5;3];
  [3;7;17;3];
  [227;11;3;13;17;3;239;5;3;7];
  [];
  [3;5;11;3;7;19;3];
  [59;73;3;5;19;3;29;37;3;193;17;3;7;5;3;79;23;3;5;7;3];
  [5;3;73;11;3;5;7;3;541];
  [3;617;5;3];
  [457;7;3];
  [19;3;7;71;3;73;5;3];
  [3];
  [5];
  [1063;3;5];
  [3;11];
  [7;5;3;29;1223;3;5;7;3;743;73;3;67;421;3;227;5;3;11];
  [79;3;11;5;3;197];
  [3];
  [13];
  [];
  [3;5];
  [1087;29;3;5;89;3;7];
  [5;3;101];
  [3;7;5;3];
  [29];
  [];
  [3;13;103;3;7];
  [5;17;3];
  [];
  [3;47;569;3;5;17;3;7;29;3];
  [43;5;3];
  [13;3;7;5;3;23];
  [3;757;229;3;193;5;3;29];
  [953];
  [11;3;13];
  [3;5];
  [7;11;3;5;523;3];
  [5;3];
  [3;23;5;3];
  [];
  [];
  [3;947;79;3;29;7;3;19;5;3;113;13;3;5];
  [5];
  [7;3;5];
  [3;7;61;3;5;11;3;137;7;3];
  [11;5;3;17];
  [];
  [3;11;13;3;7;5;3;17];
  [19;1117;3;31];
  [61;3;11;127;3];
  [3;5;37;3;13];
  [];
  [5;3;7];
  [3];
  [443;131;3];
  [];
  [3;661];
  [5];
  [181;3;5;1409;3;13;23;3;7;19;3;179;5;3];
  [3;1093;7;3;5];
  [149;5;3;7;67;3;5;19;3;31;7;3];
  [103;3;311;5;3;43;19;3;5];
  [3;43;71;3;37;5;3;23];
  [331;167;3];
  [7;3];
  [3;5;19;3;41];
  [157;19;3;5;47;3;13;101;3;7;827;3;31;5;3;29;7;3;5;13;3];
  [5;3;487;7;3;5;71;3;149];
  [3;79;5;3;7;37;3;5];
  [17;11;3;23;5;3];
  [13;3;17];
  [3;41;11;3;17;13;3;7;5;3];
  [5;7;3;61;43;3;17];
  [31;3;5;11;3];
  [3];
  [37;5;3;251;7;3;5];
  [881;3;29;5;3;7;647;3;5;83;3];
  [3;61;31;3];
  [7;13;3;739]].

Lemma octopus_cacheSizes_check :
  check_table 64 262143 1024 98 octopus_cacheSizes octopus_cacheSizes_certs = true.
Proof. vm_cast_no_check (eq_refl true). Qed.

Lemma octopus_cacheSizes_len : lenN octopus_cacheSizes = 2045.
Proof. vm_compute. reflexivity. Qed.

Lemma octopus_cacheSizes_ok e :
  e < 2045 -> prime_size (16777216 + 65536 * e) 64 (nth (N.to_nat e) octopus_cacheSizes 0).
Proof.
  intros H.
  refine (table_prime_size 64 262143 1024 98 octopus_cacheSizes octopus_cacheSizes_certs 131072 512
            _ _ _ _ _ _ octopus_cacheSizes_check e _).
  - reflexivity.
  - reflexivity.
  - discriminate.
  - rewrite octopus_cacheSizes_len. reflexivity.
  - reflexivity.
  - reflexivity.
  - rewrite octopus_cacheSizes_len. exact H.
Qed.

Definition octopus_datasetSizes_certs : list (list N) := [
  [3];
  [];
  [11;3;7;13;3;41;5;3;19;7;3;5];
  [3;19;661;3;5;89;3;839;109;3;7;13;3;1151;5;3;2549;7;3;5;19;3;2687;43;3;2969;31;3];
  [1307;257;3;499;7;3;13;5;3;11];
  [5;3];
  [3];
  [7;5;3];
  [31;3;47;23;3;11;61;3;7;5;3;367;13;3;5;7;3;139;41;3];
  [3;31;5;3;11];
  [5;83;3;7;29;3;131];
  [];
  [3;5;823;3;31;7;3];
  [11;1999;3;919;5;3;7;19;3;5;401;3;827;7;3;17;1231;3;3169;5;3;59;11;3;5;601;3;7;409;3];
  [7;3;5;89;3];
  [3;7];
  [];
  [17;3;211;7;3;1093;5;3;43;23;3;5;449;3];
  [3;13;23;3;5;2423;3];
  [];
  [5;3;37;41;3;5;7;3;79;257;3;23;31;3;43;5;3;13];
  [3;3527;17;3;23;1451;3;7;5;3;3109;29;3;5;7;3;43;101;3;17];
  [193;5;3];
  [173;3;7;17;3];
  [3;701;5;3;349;29;3;5];
  [5;89;3;29;7;3;37;41;3];
  [13;3;107;5;3;7;2393;3;5;11;3;19;7;3;3533;23;3;89;5;3;11;61;3;5;163;3;7];
  [3;5;739;3;19;17;3;191;11;3;1409;5;3;7;1031;3;5;3719;3;11;7;3;17;19;3;41;5;3;29;163;3;5;47;3;7];
  [7;23;3;13;5;3];
  [653;3;5;47;3;2089;11;3;7;19;3;13;5;3;367;7;3;5];
  [3;241;7;3;61;5;3];
  [];
  [];
  [3];
  [17;11;3];
  [5;3];
  [3;7;13;3];
  [811;5;3];
  [23;3;17;7;3;13;29;3;11;5;3];
  [3;79;5;3;7;829;3;5];
  [5;31;3;17];
  [29;3;23;5;3;11;7;3;5];
  [3;5;971;3;11];
  [191;7;3;11;5;3;13];
  [];
  [3;11];
  [11];
  [41;3;197;139;3;7;5;3;31;2753;3;5;7;3;149;17;3;29];
  [3;73;149;3;5;167;3;13;97;3];
  [7];
  [5;3];
  [3;23;7;3];
  [13;5;3;7;41;3;5;29;3;17;7;3;293;13;3;313;5;3];
  [79;3;911;113;3;29;53;3;13;5;3;7;19;3;5;11;3;83;7;3;3079;13;3];
  [3;113;5;3];
  [5;29;3];
  [7;3;73;5;3;197;13;3;5;251;3;17;11;3;7;109;3;31;5;3];
  [3;5;37;3;103;23;3;317;7;3];
  [2351;491;3];
  [67;3;5;7;3;647;43;3;19;11;3;37;5;3;23];
  [3;19;241;3;7;5;3;23;11;3;5;7;3;17];
  [23];
  [2797;3;13;101;3;79;5;3;167];
  [3;61];
  [1879;7;3;73;11;3];
  [5;3;7;11;3;5;313;3;197;7;3;2311;643;3;11;5;3];
  [3;59;11;3];
  [109;5;3;13;7;3;5];
  [11;3;19;2539;3;7];
  [3;1249;5;3;1993;1597;3;5;101;3;11;59;3;7;19;3];
  [5;13;3;2683];
  [19;3;2399;5;3;47];
  [3;5;7;3;13];
  [37];
  [61;3;5;17;3;11;211;3;59;383;3;7;5;3;2203;2351;3;5;7;3;13;29;3;37;23;3;101;5;3;1153];
  [3;2909;13;3;11;5;3;97;1277;3;5;61;3;67];
  [];
  [7;3;11;23;3;13;5;3;157;191;3;5;47;3;7;19;3];
  [3;7];
  [11;19;3;43;3851;3];
  [5;3];
  [3;47;3847;3;7];
  [];
  [281;3;53;29;3;83;7;3;37;5;3;19;1499;3;5];
  [3;29;5;3;19;41;3;5;17;3;2273;311;3;43;7;3;53;5;3;599];
  [5;7;3];
  [4507;3;7;5;3;1777;227;3;5;7;3];
  [3;5;19;3;2383;53;3;13;47;3;7;5;3;461;11;3;5;7;3;43;13;3];
  [41;233;3;83;5;3;73;2609;3;5;17;3;37;11;3;13];
  [];
  [3;199;1297;3;23;5;3;509;2999;3;5;11;3;7;167;3;3593;2281;3;19;5;3;11;101;3;5];
  [7;4391;3;5;61;3;157;7;3;3217;11;3;19;5;3];
  [137;3;503];
  [3;83;7;3;5];
  [211;127;3;7];
  [5;3];
  [3;13];
  [131;5;3];
  [7;3;29;11;3;157];
  [3;7;5;3;167;2213;3;5;7;3;23;127;3;11;53;3];
  [5;11;3;23;67;3;19;13;3;7;5;3;11;127;3;5;7;3;1117;373;3];
  [11;3;13;5;3;139];
  [3;5;47;3;7];
  [317;137;3;89;5;3;397];
  [13;3;5;31;3;3709;7;3;11;109;3];
  [3];
  [];
  [23;3;7];
  [3];
  [19;13;3;11;7;3;2027;5;3;23;89;3;5;193;3;149];
  [5;3;11;149;3;5;3911;3];
  [3;11;41;3;13;19;3;1021;5;3;31;2243;3;5];
  [7;5;3;29;541;3;5;7;3;37;83;3;13;419;3];
  [73;3;61;347;3];
  [3;89;5;3;4133;2207;3;5;277;3];
  [5];
  [];
  [3;5;617;3;2459;7;3;1489;83;3;449;5;3;13;107;3;5;11;3;7;19;3;23];
  [];
  [7;3;5;13;3;773;19;3;23;1621;3];
  [3;7;227;3;59;5;3;109;7;3;5;13;3;439;11;3;29;1861;3;31;5;3;7;47;3;5;17;3];
  [];
  [151;3];
  [3;103;17;3;5;43;3;173];
  [1607;61;3;2699;13;3];
  [5;3;19;17;3;5;7;3;107;11;3];
  [3;157;757;3;29;23;3;7;5;3];
  [];
  [19;3;7;557;3];
  [3;1051;5;3];
  [5];
  [];
  [3;5;11;3;673];
  [7;11;3;19;5;3;1259;7;3;5];
  [11;3;5];
  [3;13;7;3];
  [17;19;3;5;23;3;37];
  [83;3;691;73;3;31;5;3;11;17;3;5;1873;3];
  [3;17];
  [];
  [5;3;13;67;3;5];
  [3;7;677;3;11;61;3;211;5;3;13;17;3;5;2677;3];
  [43;5;3;11;89;3;5;1571;3;7;31;3;3917;67;3;397;5;3;13;2963;3;5;107;3;131;11;3];
  [13;3;11;7;3];
  [3;11;5;3;7;37;3;5;13;3];
  [5;181;3;13;73;3;43;2161;3;2287;5;3;7;17;3;5;13;3];
  [];
  [3;5];
  [];
  [4871;3;5;3491;3;19];
  [3;347];
  [53];
  [];
  [3;67;13;3;5;73;3;163;29;3];
  [7;503;3];
  [5;3;4481;53;3;5;2549;3;7;23;3;67;11;3];
  [3;293;7;3;97;4903;3];
  [29;5;3;7];
  [];
  [3;307;5;3;23;7;3;5;11;3;379;13;3];
  [5;1511;3;37;19;3;7;11;3;1231;5;3;17;7;3;5;373;3;11;13;3;2459];
  [7;3];
  [3;5;233;3;439;11;3;107;7;3;41;5;3;17];
  [31];
  [89;3;5;7;3];
  [3];
  [19;11;3;5;107;3;1093;4051;3;3119;409;3;7;5;3;13;269;3;5;7;3];
  [11;3;631];
  [3;109;37;3;5;13;3;7;281;3;11;293;3;103;5;3;17;503;3;5;79;3;127;41;3];
  [13;7;3;23];
  [5;3;7;29;3;5];
  [3;29;181;3];
  [];
  [];
  [3;13;5;3;11;461;3;5;1051;3];
  [5;47;3;11;41;3];
  [23;3;11;5;3];
  [3;5;7;3;269];
  [11;1277;3;7;5;3;3511;13;3;5;7;3;733;139;3;31;29;3;613;5;3;17;11;3;5;3739;3;109;47;3;19;7;3;11;5;3];
  [101;3;5];
  [3;1283;67;3;2099;5;3;61;41;3;5];
  [];
  [7;3;19;103;3;4993;5;3;29];
  [3;7;79;3;5];
  [37;59;3;13;29;3;653;5;3;7];
  [5;3;29;7;3;5;23;3;2141;73;3;13;41;3;83;5;3;7;4597;3;5;263;3;37;7;3;11;67;3;23;5;3];
  [3];
  [17;5;3];
  [877;3;199];
  [3;17;5;3;13;5233;3;5;43;3;19;11;3;743;7;3;349;5;3];
  [5;7;3;19];
  [199;3;7;5;3];
  [3;5;13;3;421;179;3;79;11;3;7;5;3;47;43;3;5;7;3;11];
  [67;19;3;17;5;3;191;11;3;5;13;3;3491];
  [31;3;5];
  [3;31;277;3;17;5;3;3083];
  [7];
  [1009;3;149;11;3;17;5;3;7;229;3;5];
  [3];
  [23;11;3;7];
  [5;3];
  [3;1559;19;3];
  [1663;5;3];
  [7;3];
  [3;7;5;3;1889;4211;3;5;7;3;31;23;3;97];
  [5];
  [2777;3];
  [3;5;809;3;7;13;3;47;3823;3;17;5;3;23;251;3;5;19;3];
  [13];
  [];
  [3;11;97;3;83;5;3;7;401;3;5;557;3];
  [11;7;3;5];
  [];
  [3;13];
  [467];
  [5;3;83;23;3;5;59;3];
  [3;251];
  [7;5;3;47;19;3;5;7;3];
  [];
  [3];
  [5;67;3;7;947;3;89;1801;3];
  [13;3;2621;5;3;71;67;3;5];
  [3;5;2309;3;113;7;3;19;13;3;2531;5;3];
  [19;17;3;13;5;3;7];
  [7;3;5;61;3];
  [3;7;17;3;101;5;3;863;7;3;5;71;3;947;61;3;2749;1319;3;11;5;3;7;97;3;5;67;3;47;7;3;31;13;3];
  [];
  [3229;3;31;7;3;29;5;3];
  [3;577;211;3;5;11;3];
  [137;29;3;1733;11;3;2903;5;3];
  [5;3];
  [3;19;11;3;89;17;3;7;5;3];
  [];
  [11;3;7];
  [3;823;5;3;67;149;3;5;23;3;7;83;3;13;683;3];
  [5;23;3];
  [251;3];
  [3;5];
  [7];
  [];
  [3;17;7;3;11;5;3;463;29;3;5;1627;3];
  [241;101;3;5;13;3;29;19;3];
  [19;3;11];
  [3;11;29;3;5;7;3;13;131;3];
  [11];
  [5;3];
  [3;7;239;3;17;13;3;71;5;3;19;59;3;5;137;3;23];
  [13;5;3;19;3217;3;5;193;3;7;577;3;61;13;3;97;5;3;5197;11;3;5;19;3];
  [47;3;23;7;3;17;101;3;13;5;3];
  [3];
  [5;19;3;131;197;3;17];
  [409;3;137;5;3];
  [3;5];
  [89;7;3;4549;5;3];
  [1453;3;5;83;3;3019;23;3;17;7;3;19;5;3;1979;2707;3;5;41;3];
  [3;2833];
  [31;479;3;5;7;3;197;13;3;17;11;3;271;5;3;23;19;3;5];
  [53;3;13;29;3;7;5;3;23;11;3;5;7;3;37;13;3;1193;17;3;11;5;3;103];
  [3;23;19;3;5];
  [7;83;3;31;3863;3;2467;5;3;607];
  [5;3];
  [3;257;7;3];
  [229;5;3;7;11;3;5;433;3;709;7;3;17];
  [];
  [3;1063;5;3;907;7;3;5;31;3];
  [5;11;3;257;1231;3;7;877;3;31;5;3;11;7;3;5;29;3;2659;73;3;23;17;3];
  [7;3];
  [3;5;223;3;13;653;3;23;7;3;11;5;3];
  [23];
  [];
  [3];
  [43;139;3;5;29;3;11;41;3;71;13;3;7;5;3;31;1439;3;5;7;3;89];
  [17;3;29;349;3;11;5;3];
  [3;179;229;3;5;1741;3;7];
  [];
  [5;3;7;13;3;5;181;3;43;7;3;113;2749;3;4261;5;3;1579;79;3;5;37;3;7;11;3];
  [3;11;17;3;4337];
  [11;5;3;977;7;3;5;113;3;199;3583;3;43;197;3;53;5;3;7;13;3;5;11;3;2239;7;3;83;17;3;37;5;3;11];
  [];
  [3;131;5;3];
  [5;113;3;97;13;3;41;7;3;61;5;3;79;3271;3;5];
  [];
  [3;5;7;3;1811;17;3;13;5009;3];
  [];
  [59;3;5;23;3;137;17;3];
  [3;2417;127;3;47;5;3;503;569;3;5;647;3;257;11;3];
  [13;859;3;5;127;3;7;17;3;727;5623;3;23;5;3;19;197;3;5;41;3;107];
  [7;3;1877;4243;3;23;5;3;13;877;3;5;11;3;7];
  [3;7];
  [17;199;3;2897];
  [5;3;47;7;3;5;13;3;1699;11;3;757;127;3;41;5;3;7;107;3;5];
  [3;13];
  [];
  [41;3;17];
  [3];
  [5;7;3;17;11;3;137;13;3;19;5;3];
  [];
  [3;5;11;3;17];
  [367;11;3];
  [11;3;5;941;3;7;29;3];
  [3];
  [7;2477;3;5;67;3;17;7;3;11];
  [29;3];
  [3];
  [];
  [5;3;347;337;3;5];
  [3;523];
  [];
  [7;3;11;37;3;2029];
  [3;7;5;3];
  [5];
  [];
  [3;5;367;3;7];
  [1021;71;3;173;5;3;61;23;3;5;911;3;7];
  [23;3;5;13;3;29;7;3];
  [3];
  [];
  [1283;3;7;167;3;521;5;3;137;7;3;5;101;3;13;11;3;67];
  [3;1259;1447;3;5];
  [];
  [5;3;31;277;3;5;607;3;373];
  [3;233];
  [7;5;3;179;31;3;5;7;3;53;11;3];
  [17;3];
  [3;37;5;3];
  [5;17;3;7];
  [];
  [3;5;17;3];
  [];
  [7;3;5;11;3;37;13;3;3499];
  [3;7;11;3;227;5;3];
  [29;11;3;5;17;3;167];
  [11;3;523;7;3;83;5;3];
  [3];
  [41;97;3;773;191;3;113;5;3;11];
  [5;3;13];
  [3;43;113;3];
  [19;5;3;43;37;3;5;17;3;89;103;3;277;1399;3;7;5;3;13;19;3;5;7;3;17];
  [13;3;7;59;3;11];
  [3];
  [5;73;3;11;7;3;71;373;3;43;5;3];
  [];
  [3;5;1367;3];
  [7;13;3;3019;5;3;4273;7;3;5;17;3;191;67;3;19;89;3;1789;5;3;7;11;3;5;31;3;13;7;3;3571;37;3;11;5;3;947;239;3;5;13;3;7;269;3;101;71;3];
  [];
  [3;19;7;3;13;5;3;4999;1291;3;5;17;3;23;149;3;7;13;3;43;5;3;283;7;3;5;173;3;17;73;3;11;101;3];
  [];
  [2161;3;107];
  [3;127;13;3;5;7;3;47];
  [31];
  [5;3;1549;907;3;5;2749;3];
  [3;7;31;3];
  [];
  [];
  [3;67;5;3;7;31;3;5;367;3];
  [5;79;3;317;379;3;13;19;3;2791;5;3;7];
  [19;3];
  [3;5;41;3;2089];
  [];
  [131;3;5];
  [3];
  [97;37;3;5;7;3];
  [2963;3;193;11;3;7;5;3];
  [3;47;11;3;5;13;3;61;19;3;37;1549;3;7;5;3;101];
  [7;11;3];
  [5;3];
  [3;41;7;3;23;37;3;97;5;3;11];
  [];
  [3121;3;167];
  [3;13;5;3;19;7;3;5;47;3];
  [5;223;3;89;881;3;7;5449;3;13;5;3;149;7;3;5;19;3];
  [7;3;1663;5;3;11;53;3;5;19;3;4241];
  [3;5;19;3;11;29;3;397;7;3;107;5;3;137;41;3;5;6271;3];
  [];
  [17;3;5;7;3;59;47;3;131;173;3;3041;5;3];
  [3;11;2999;3;7;5;3];
  [11;17;3;5;83;3];
  [13;3;4903;97;3;19;5;3];
  [3;1061;17;3;5;79;3;7;13;3];
  [61;7;3;13;47;3];
  [5;3;7;17;3;5;73;3;2351;7;3;13];
  [3;31;67;3];
  [1303;5;3;37;7;3;5;23;3];
  [23;3];
  [3;71;5;3;13;17;3;5];
  [5;193;3;6269];
  [83;3;23;5;3];
  [3;5;7;3;29;251;3;31;89;3;79;5;3;113];
  [];
  [29;3;5;41;3;13];
  [3];
  [17;857;3;5;823;3;7;11;3];
  [7;3;991;13;3];
  [3;7];
  [19];
  [5;3;17;7;3;5;37;3;23];
  [3;23;11;3;7;19;3;409;5;3;67;7;3;5;173;3;31];
  [];
  [11;3;41];
  [3;1223;5;3;17];
  [5;7;3];
  [];
  [3;5];
  [13;29;3;3343;5;3;11;103;3;5];
  [];
  [3];
  [7;3943;3;5;4463;3;139;7;3];
  [71;3;11;61;3];
  [3;11;7;3;5;3559;3;857;4967;3;41];
  [11];
  [5;3;19;5077;3;5];
  [3;4423;457;3;37;7;3;101;5;3;17;23;3;5;19;3;103;2111;3;7;11;3;43;5;3;13;7;3;5;137;3;11];
  [761;5;3;4759;23;3;5;13;3;659;73;3;29;7;3;317;5;3];
  [7;3;13;163;3;409;107;3;61;5;3;17;3187;3;5;13;3;59;11;3;23;7;3];
  [3;7;5;3];
  [5;3643;3;647;31;3;23;229;3;7;5;3;17;163;3;5;7;3;13;1429;3];
  [13;3];
  [3;5;29;3;7;5821;3;1289;13;3;19;5;3;17;11;3;5;47;3];
  [29];
  [];
  [3;59;79;3;6653;5;3;7;19;3;5;11;3;5281;7;3];
  [107;7;3;5;41;3;47;223;3;617;11;3;37;5;3;7;521;3;5];
  [5189;3;7;23;3;1201;5;3];
  [3];
  [151;509;3;1609;7;3;53;5;3];
  [5;3];
  [3];
  [7;5;3;151;11;3;5;7;3];
  [563;3;1223;11;3;13];
  [3;61;5;3;761;151;3;5];
  [5;11;3;7];
  [11;3;47;5;3;947;1163;3;5;23;3;7;41;3];
  [3;5;23;3;131;7;3;4787;151;3;11;5;3;149];
  [547;149;3;653;5;3;7;139;3;5];
  [7;3;5;3967;3;19];
  [3;7];
  [47;2671;3;5;13;3;11;2251;3;7;19;3;151;5;3;53;7;3;5;2383;3];
  [5867;3;139;7;3;11;5;3;881;47;3;5;13;3;67;179;3;7];
  [3;197;59;3;5];
  [1013];
  [5;3;11;1381;3;5;7;3];
  [3;11;197;3;5647;13;3;7;5;3;607;61;3;5;7;3];
  [11;5;3];
  [37;3;7];
  [3;17;5;3];
  [5;271;3;23;7;3;149;431;3;37;5;3];
  [2857;3;17;5;3;7;13;3;5;59;3];
  [3;5;173;3;97;31;3;109;43;3;53;5;3;7;13;3;5;11;3];
  [7;41;3;17;5;3;31;7;3;5;43;3];
  [1783;3;5;6101;3;313];
  [3;191;7;3;17;5;3;19;31;3;5;619;3;37;11;3;7];
  [19;3169;3;5];
  [23;3;13;47;3;17;5;3];
  [3;379];
  [103];
  [5;3;23];
  [3;7];
  [41;5;3;13;61;3;5;11;3;7;1151;3];
  [97;3];
  [3;19;5;3;7;11;3;5;197;3;521;7;3;59];
  [5;13;3;29;11;3;2621];
  [59;3;131;5;3;311;7;3;5;13;3;293;2347;3;11];
  [3;5;11;3;13;67;3;7;53;3;17;5;3;11;7;3;5;13;3];
  [5581;7;3];
  [11;3;5;139;3;5261];
  [3;23;13;3];
  [];
  [];
  [3];
  [7;227;3;233;103;3;11;5;3;43;491;3;5;1663;3;47;149;3];
  [5;3];
  [3];
  [];
  [31;3;11;53;3;1621;29;3;101;5;3;7;6907;3;5;83;3;19;7;3;2647;41;3];
  [3;11;5;3;29;7;3;5;61;3;19];
  [5;127;3;19;13;3;7;6311;3];
  [7;3;353;5;3];
  [3;5];
  [71;17;3];
  [1373;3;5;7;3;2843;31;3];
  [3;281;17;3;7;5;3;31;3209;3;5;7;3;61;1721;3;241;11;3;17;5;3];
  [13];
  [101;3];
  [3;1433;673;3;5;131;3;7;887;3;31;83;3;23;5;3;13;127;3;5];
  [];
  [5;3;7;79;3;5;13;3;839;7;3;29;11;3;6701;5;3;157;47;3;5;59;3;7];
  [3;13;19;3;1223;17;3];
  [251;5;3;397;7;3;5;29;3;13;11;3];
  [];
  [3;41;5;3;1327;101;3;5;11;3];
  [5;29;3;937;3931;3;97;7;3];
  [229;3;13;5;3;19;11;3;5];
  [3;5;7;3;53;11;3];
  [17;1619;3;7;5;3];
  [13;3;5;11;3;23];
  [3;17;11;3];
  [3659;11;3;5];
  [7;3;17];
  [3;7;1433;3;5;83;3;37;7;3;11;17;3;19;5;3];
  [277;13;3;17;569;3;19;5;3;7;6007;3;5];
  [5;3;499;7;3;5;397;3;11;13;3];
  [3;283;23;3;7];
  [2393;5;3;73;19;3;5;607;3;113];
  [109;3;71;83;3;11;7;3];
  [3;47;5;3;11;113;3;5;1283;3;347;89;3;41;7;3];
  [5;7;3;11];
  [];
  [3;5;53;3;223;61;3;17;71;3;7;5;3;13];
  [11;43;3];
  [6221;3;5;13;3;7];
  [3];
  [7;23;3;5;163;3;13;7;3;17;37;3];
  [6563;3;3191;41;3;563;5;3;7;43;3;5;107;3;13;7;3;23;11;3;6949;5;3;3109];
  [3;79;7;3;5;1103;3;1931];
  [3347;137;3;7;13;3;1193;5;3;523;7;3;5;43;3;19;11;3];
  [5;3;67;59;3;5;47;3;19;29;3;7;13;3];
  [3;19;653;3];
  [37;5;3];
  [7;3];
  [3;7;5;3];
  [5;1039;3;3023;47;3;107;23;3;7;5;3;157;13;3;5;7;3];
  [23;3;41;5;3];
  [3;5];
  [];
  [863;3;5;107;3];
  [3;13;47;3;173;5;3;7];
  [2687;7;3;5;11;3;41;19;3;13];
  [17;3;7;11;3];
  [3;97;11;3;5;433;3;59;5237;3;7;643;3;11;5;3;661;7;3;5;23;3];
  [43;11;3;61;7;3];
  [5;3;13;37;3;5;23;3;29];
  [3];
  [7;5;3;19;29;3;5;7;3;11;71;3;37];
  [13;3;29;17;3];
  [3;23;5;3];
  [5;19;3;7;17;3;11;37;3;101;5;3;43];
  [];
  [3;5;31;3;11;7;3];
  [127;13;3;11;5;3;7];
  [7;3;5;2657;3];
  [3;7;61;3;13;5;3];
  [11;53;3;5];
  [173;3;241;7;3];
  [3;163;13;3;5;1433;3;23;17;3;103;7;3;211;5;3];
  [17;101;3;1787;41;3;163;5;3;29;13;3;5;67;3;5171];
  [5;3;1163];
  [3;17];
  [];
  [1657;3;7;13;3;19;857;3;109;5;3;283];
  [3;139;5;3;739;167;3;5;41;3;7;13;3];
  [5;2719;3;17;7;3;13;1409;3;73;5;3;443;11;3;5];
  [73;3;271;5;3;7;101;3;5];
  [3;5;709;3;17];
  [7];
  [37;3;5;809;3;17];
  [3;67;7;3;3389;5;3;13;11;3;5];
  [1733];
  [103;3];
  [3];
  [13;73;3;181;11;3;7;5;3;79;23;3;5;7;3;11;17;3;1193;1061;3;67;5;3;31;97;3;5;61;3;137;167;3;17;7;3];
  [5;3;53;11;3;5;29;3;13];
  [3;7;11;3;29];
  [61;5;3];
  [11;3];
  [3;13;5;3;7;53;3;5;37;3;11;7;3];
  [5;1423;3];
  [31;3;179;5;3;331;7;3;5];
  [3;5;73;3;47;19;3;7];
  [];
  [2473;3;5;31;3;11;59;3;149;7;3;907;5;3;173;13;3;5];
  [3;331;23;3;11;5;3];
  [331;41;3;5;7;3];
  [13;3;11;241;3;7;5;3;19];
  [3;11;43;3;5;5869;3;31;13;3;439;47;3;7;5;3;461;233;3;5;7;3;2311;11;3;53];
  [7];
  [5;3;37;73;3;5;19;3;7;31;3;13;223;3;2797;5;3];
  [3;151;7;3;157;41;3;83;5;3;31;3491;3;5;53;3;7];
  [47;5;3;7];
  [17;3;79;151;3;2287;347;3;71;5;3;7;31;3;5;23;3;17;7;3];
  [3];
  [5;17;3];
  [7;3;19;5;3;83;151;3;5;41;3;1367;239;3;7;11;3;23;5;3;13;7;3;5];
  [3;5;13;3];
  [101;37;3;23;5;3;53;19;3;5;13;3];
  [19;3;5;7;3;13;1487;3;6619;151;3];
  [3];
  [];
  [3119;3;1709;13;3];
  [3;541;317;3;5;17;3;7;11;3;19;13;3;151;5;3];
  [199;7;3;19];
  [5;3;7;61;3;5;11;3;41;7;3];
  [3;83;29;3];
  [29;5;3;839;7;3;5;17;3;23];
  [];
  [3;43;5;3;107];
  [5;11;3;43;2741;3;2029;7;3;6151;5;3;11;139;3;5;83;3;19;1567;3;7];
  [11;3;109;5;3;43];
  [3;5;7;3;19;13;3;43;557;3;11;5;3];
  [13;31;3;7;5;3;797;251;3;5;7;3;1301;13;3;67;19;3;571;5;3];
  [5737;3;5;1291;3;1789;23;3;11;19;3;7;5;3;2693;29;3;5;7;3;67;13;3;2459;151;3;457;5;3;23;11;3;5;31;3;499;17;3];
  [3];
  [193];
  [7;3;4799];
  [3;7;41;3;5;263;3;29;7;3;71;1033;3];
  [157;109;3;11;401;3;419;5;3;7;2549;3;5;17;3;101;7;3;5689;757;3;43;5;3];
  [5;3;11;7;3;5];
  [3;11;101;3;7;911;3;1901;5;3;53;7;3;5;17;3;73;19;3];
  [11;5;3;421];
  [163;3;13;19;3];
  [3];
  [5;7;3;223];
  [13;3;7;5;3;181];
  [3;5;37;3;2753;769;3;23;13;3;7;5;3;19];
  [23;3517;3;13;5;3;19;101;3;5;41;3;61;113;3;59;11;3;7;5;3];
  [];
  [3;439;59;3;179;5;3;89;73;3;5;19;3;7;11;3;2971;5749;3;13;5;3];
  [7;13;3;5;19;3];
  [449;3;383];
  [3];
  [2221;113;3;7;23;3;239;5;3];
  [5;3;29];
  [3];
  [19;5;3;71];
  [7;3];
  [3;7;5;3];
  [5;97;3];
  [1063;3;293;5;3;89];
  [3;5;11;3;7;223;3];
  [31;11;3];
  [11;3;5;23;3;61;7;3;19];
  [3;19;31;3;139;5;3;7;97;3;5;29;3;2671;7;3;61];
  [719;7;3;5;13;3;103;421;3;11;73;3;23;5;3;7;47;3;5];
  [197;3;7;53;3;23;5;3;11;7;3;5;13;3];
  [3];
  [];
  [5;3];
  [3;1213;3547;3;11;13;3;379;5;3];
  [7;5;3;11;17;3;5;7;3;19;739;3];
  [59;3;11;43;3;251;4817;3;7;5;3];
  [3;11;5;3];
  [5];
  [19;3;163;5;3];
  [3;5;2767;3;23;7;3;163;617;3];
  [];
  [7;3;5;673;3];
  [3;7;71;3];
  [17];
  [];
  [3;17];
  [];
  [5;3;17;1621;3;5;7;3;2909;191;3;1103;11;3];
  [3;137];
  [97;5;3;13];
  [];
  [3;941;5;3;17;1061;3;5;11;3;7;397;3];
  [5;13;3];
  [];
  [3;5;19;3;13;11;3;97;61;3;3257;5;3;7;17;3;5;13;3];
  [7];
  [23;3;5;11;3];
  [3;31;7;3;43;5;3;17;107;3;5];
  [139;11;3;5;47;3;43;29;3;23;7;3;11;5;3];
  [11;3;23;31;3;13;5;3;17];
  [3];
  [];
  [5;3;1901;13;3;5;31;3;11];
  [3;7;47;3];
  [349;5;3;6091;41;3;5];
  [797;3;107;7;3;11;23;3;277;5;3;17;149;3;5;137;3;7];
  [3;809;5;3;7;59;3;5;127;3;31;7;3;19;113;3;251;5;3];
  [5;563;3;11;13;3;19];
  [47;3;11;5;3];
  [3;5;269;3;2531];
  [11;7;3;137;5;3;109];
  [];
  [3;1429;113;3;103;5;3];
  [13;2179;3;5;7;3;29;349;3;1031];
  [];
  [3;2699;29;3;5;23;3;19;1039;3];
  [7;601;3;227];
  [5;3;4457;179;3;5;13;3;7;233;3;139;19;3;23;5;3;17];
  [3;13;7;3];
  [23;5;3;7;307;3;5];
  [3989;3;977];
  [3;1237;5;3;137;7;3;5;607;3;829;11;3;311];
  [5];
  [7;3;13;5;3;3463];
  [3;5;89;3;293];
  [6079;139;3;1459;5;3];
  [13;3;5;7;3;7069;11;3;181;29;3;79;5;3];
  [3];
  [71;31;3;5;11;3;23;317;3];
  [];
  [3;29;11;3;5;4513;3;7;373;3;47];
  [1049;7;3];
  [5;3;7];
  [3;227;431;3;13];
  [17;5;3;103;7;3;5;19;3;11;23;3;13];
  [19;3;251;23;3;7];
  [3;17;5;3];
  [5;53;3;6857];
  [43;3;17;5;3;11];
  [3;5;7;3;11];
  [41];
  [3361;3;5;13;3];
  [3;11;109;3;17;5;3;59;19;3;5;13;3];
  [11;19;3;5;29;3;7;1091;3];
  [7;3;29;1759;3;17;5;3];
  [3;7;23;3;5];
  [];
  [5;3;1153;7;3;5];
  [3];
  [631;5;3;61];
  [233;3;47];
  [3];
  [5;7;3;37;269;3];
  [];
  [3;5];
  [47;23;3];
  [503;3;5];
  [3;13];
  [7];
  [];
  [3;43;7;3;5;11;3;467;59;3];
  [4789;2819;3;7;11;3];
  [5;3;13;11;3;5;6569;3];
  [3];
  [211;5;3];
  [7;3;151];
  [3;7;5;3;73;47;3;5;7;3;11;19;3;43];
  [5];
  [17;3;23;5;3;127;41;3;5];
  [3;5];
  [];
  [53;3;5;47;3;11;7;3;151;13;3;127;5;3;19;1787;3;5;3221;3;7;137;3;43;2309;3];
  [3;41;17;3;11;5;3;7];
  [19;7;3;5];
  [29;3;7;17;3;73;5;3];
  [3;11;13;3;5;19;3];
  [11;47;3;163;7;3];
  [5;3];
  [3;23];
  [7;5;3;139;229;3;5;7;3];
  [4703;3;577;13;3];
  [3;19;5;3;37];
  [5];
  [6091;3];
  [3;5;157;3];
  [17;353;3];
  [7;3;5;1151;3;29];
  [3;7];
  [23;29;3;5;3109;3];
  [31;3;17;7;3];
  [3;31];
  [13;157;3;17];
  [5;3];
  [3;67];
  [];
  [2789;3;7;11;3;17;13;3;991;5;3;67];
  [3;13;5;3;811;547;3;5];
  [5;11;3;19;7;3;17];
  [11;3;6469;5;3;7;311;3;5;31;3;11;7;3;139;17;3;13;5;3;1699];
  [3;5];
  [7;19;3];
  [79;3;5;71;3];
  [3];
  [29;43;3;5;181;3;11;2503;3;17;7;3];
  [13;3;41;23;3;11;5;3;107;3607;3;5];
  [3;37];
  [2399];
  [5;3;11;1373;3;5;823;3;8191;19;3;13;71;3;7;5;3;1013;31;3;5;7;3;4349;11;3];
  [3;7;19;3];
  [11;5;3;461];
  [257;3];
  [3;59;5;3;7;929;3;5];
  [5;257;3];
  [37;3;89;5;3;19;7;3;5;23;3;4493];
  [3;5;13;3;1307];
  [];
  [];
  [3;29;263;3;23;5;3;547;53;3;5;1697;3;13;11;3;17;7;3;61;5;3];
  [2179;1523;3;5;7;3;97;167;3;1051;223;3;2377;5;3;173;113;3;5;4373;3;13;53;3;11;7;3;19;5;3;61;43;3;5;13;3];
  [17;3];
  [3];
  [7;17;3];
  [5;3;31];
  [3;47;7;3];
  [43;5;3;7;13;3;5;11;3];
  [199;3;43;17;3;31;11;3];
  [3;4001;5;3;43;7;3;5;257;3;23;131;3;683;863;3;11;5;3;7;13;3;5];
  [5;1321;3;23;11;3;7;31;3;1277;5;3];
  [7;3];
  [3;5;11;3];
  [13;11;3;373;5;3;5683;89;3;5;31;3;11;13;3];
  [11;3;5;7;3;419;17;3;13;1823;3;11;5;3;43];
  [3;61];
  [67;709;3;5;1601;3;131;17;3;11];
  [23;3;37;1607;3;67;5;3;11;97;3;5;257;3;31;1117;3;71];
  [3;13;631;3;5];
  [17;7;3;41;389;3;11;5;3;13;101;3;5;257;3;7;31;3;619];
  [5;3;7;103;3;5;353;3;19;7;3;521;41;3];
  [3;17;227;3;11];
  [];
  [523;3;11;293;3;7;19;3;193;5;3];
  [3;11;5;3];
  [5;37;3;17;673;3;59;7;3;29;5;3;607;23;3;5;41;3;13;4457;3;7;11;3];
  [13;3;607;5;3];
  [3;5;7;3;17;29;3];
  [];
  [];
  [3;23;4441;3;53;5;3;271;79;3;5;821;3;83;17;3;769;11;3;7;5;3];
  [];
  [7;3];
  [3;7;373;3;5];
  [31;3803;3];
  [5;3;79;7;3;5];
  [3;223;13;3;7;23;3;1193;5;3;19;7;3;5];
  [];
  [149;3;677;167;3;13;7;3;1627;5;3];
  [3;97;5;3];
  [5;7;3];
  [];
  [3;5;103;3;29;11;3];
  [];
  [29;3;5;11;3;7;67;3;97];
  [3];
  [7;11;3;5;13;3;307;7;3];
  [11;3];
  [3];
  [197;79;3;7];
  [5;3];
  [3];
  [13;5;3;173;43;3;5];
  [7;3;1381;223;3;11;43;3;13;5;3;29;79;3;5;3359;3;17;2579;3;271;7;3];
  [3;7;5;3;11];
  [5;17;3;11;97;3];
  [5231;3;11;5;3;29;13;3;5;6317;3;37;43;3];
  [3;5;17;3;7];
  [11;29;3;197;5;3;79;4729;3;5];
  [];
  [3;83;3119;3;8353;5;3;7;61;3;5;97;3;19;7;3];
  [];
  [5923;3;7];
  [3;3191];
  [2131;103;3;53;7;3;47;5;3;1381;37;3;5];
  [5;3;61;107;3;5;17;3;2027;23;3];
  [3;31;23;3];
  [7;5;3;13];
  [811;3;3671;31;3];
  [3];
  [5;13;3;7];
  [];
  [3;5;29;3;13;7;3;31;11;3;103;5;3];
  [29];
  [7;3;5;4099;3;43;11;3;173;31;3];
  [3;7;13;3;37;5;3;43;7;3;5;17;3];
  [];
  [601;3;191;7;3;13;5;3;19;983;3;5;17;3;11];
  [3;19;11;3;5;127;3];
  [47;11;3;23];
  [5;3];
  [3];
  [];
  [67;3;7;37;3;41;5927;3;11;5;3];
  [3;4999;5;3];
  [5];
  [23;3;19;5;3;7];
  [3;5;2579;3;11];
  [7];
  [19;3;5;59;3;271;83;3;7];
  [3;11;7;3;359;5;3];
  [11];
  [641;3;2267;1741;3;193;5;3;13;419;3;5];
  [3];
  [59;3001;3;19;83;3;7;5;3;103;1759;3;5;7;3;167;29;3;907;11;3];
  [5;3];
  [3;7];
  [151;5;3;67;3499;3;5;199;3;7;29;3];
  [3079;3;31;7;3;107;97;3;23;5;3];
  [3;23;5;3;7;1439;3;5];
  [5;47;3;79;29;3;751;13;3];
  [271;3;13;5;3;31;7;3;5;3733;3;19;11;3];
  [3;5;107;3;19;53;3;7];
  [131;7;3;199;5;3;151;31;3;5;11;3];
  [13;3;5;397;3;37];
  [3;2081;19;3;8269;5;3;71;11;3;5];
  [101;17;3;5;7;3];
  [37;3];
  [3];
  [7;13;3;863;11;3];
  [5;3;41;11;3;5];
  [3];
  [];
  [11;3;1277;19;3;89;3769;3];
  [3];
  [5;43;3;29;23;3;7;281;3;11;5;3;6491;7;3;5];
  [7;3];
  [3;5;641;3;6763;43;3;11;7;3;113;5;3;13];
  [263;1399;3;7517;5;3;11;17;3;5;1471;3;211;79;3];
  [911;3;5;7;3;11;113;3];
  [3];
  [17;277;3;5;19;3;13];
  [113;3;11;163;3;6829;5;3;487;17;3;5;37;3;13;43;3];
  [3;11;439;3;5;2393;3;7;163;3];
  [11;7;3;89;13;3;691;5;3;139;17;3;5;163;3;7;353;3;109;43;3;19;5;3;137;197;3;5;31;3;13;4871;3;11;2963;3;7;5;3;107;19;3;5;7;3;739;41;3;53];
  [5;3;7;23;3;5];
  [3;5101;61;3;2293];
  [19;5;3;17;7;3;5;2153;3;47;107;3;23;61;3;13;5;3;7;11;3;5];
  [41;3;37];
  [3;461;5;3;17;13;3;5];
  [5];
  [29;3;6961;5;3;17];
  [3;5;7;3];
  [];
  [137;3;5];
  [3;13;23;3;107;5;3;17;31;3;5;11;3];
  [43;37;3;5;53;3;7;101;3;13;11;3;191;5;3;2897;17;3;5;29;3;11;13;3;167;1949;3;7;5;3;107;41;3;5;7;3];
  [7;3;43;307;3;47;5;3;17;11;3;5];
  [3;7;3413;3;5];
  [127;107;3];
  [5;3;13;7;3;5;11;3;43];
  [3];
  [79;5;3;41;11;3;5;29;3;19;181;3;7;2111;3;11;5;3;13;7;3;5;23;3;89;7649;3;67;19;3];
  [13;3;19;11;3;29;7;3;127;5;3;17;41;3;5;23;3;181;3413;3;7;19;3];
  [3;73;5;3];
  [5;7;3;13;263;3;347;19;3;1889;5;3;11;179;3;5;13;3;31;457;3];
  [11;3;7;5;3];
  [3;5;433;3;3359;631;3;41];
  [61;13;3;23;5;3;1979;4783;3;5;47;3];
  [751;3;5;251;3;7;4561;3;11;13;3;61;5;3;17];
  [3;677];
  [7;109;3;5];
  [];
  [3;509;7;3;5;523;3;241;19;3;479;103;3;349;5;3;7;5927;3;5;41;3;37;7;3];
  [163;19;3;7;167;3;1747;5;3];
  [5;3;11;233;3;5];
  [3;11;137;3];
  [11;5;3;37;2647;3;5;1693;3;23;4733;3;83;7;3;41;5;3;17;173;3;5;11;3;2053];
  [7;3;23;13;3];
  [3;7;5;3;19];
  [5;41;3;73];
  [];
  [3;5;19;3;7;1063;3;37;691;3;83;5;3];
  [97;557;3];
  [];
  [3];
  [53;7;3;5;59;3];
  [];
  [3;23;47;3;5;13;3;97;577;3;7;11;3;29;5;3;1103;7;3;5];
  [13];
  [5;3];
  [3;59];
  [7;5;3;107];
  [47;3;1097;29;3];
  [3;13;5;3;41;11;3;5];
  [5;617;3;7;11;3;19;113;3;13;5;3];
  [107;3;17;5;3;73];
  [3;5;11;3;83;7;3;23;1367;3];
  [23;11;3;17;5;3;7;13;3;5;71;3;11;7;3];
  [7;3;5;79;3];
  [3;7;43;3;17;5;3];
  [37];
  [13;3;83;7;3;17;5;3;11];
  [3];
  [19;193;3;13;23;3;11;5;3];
  [5;3;1063];
  [3;139;173;3;11;19;3;7;5;3;2819];
  [83;5;3;11;29;3;5;2339;3;839];
  [];
  [3;11;5;3;13;137;3;5];
  [5;31;3;349;7;3;223;887;3;17;5;3;13;1069;3;5];
  [167;3;31;5;3;7];
  [3;5;13;3];
  [7];
  [];
  [3;1753;7;3];
  [3967;6701;3;5;3557;3];
  [];
  [3;61];
  [];
  [5;3;19];
  [3;7];
  [];
  [19;3];
  [3;3217;5;3;7;557;3;5;11;3;409;7;3;157;311;3;17;5;3;11;13;3;5;1153;3;7];
  [5];
  [17;3;97;5;3;41;7;3;5;83;3;23;67;3];
  [3;5];
  [13;7;3;19;5;3;1753;173;3;5];
  [61;3;5;11;3;1031;4987;3;13;7;3;1543;5;3;11;19;3;5;29;3;31;13;3;7;3643;3];
  [3;37;11;3;47;5;3];
  [379;11;3;5;7;3;601;83;3;41;149;3;11;5;3;191];
  [11;3];
  [3;13;139;3;5;1213;3];
  [7;23;3];
  [5;3;47];
  [3;499;7;3;19;17;3;11;5;3;23;47;3;5];
  [67;5;3;7;3671;3;5;13;3];
  [29;3;13];
  [3];
  [5];
  [7;3;11;5;3;571];
  [3;5;31;3];
  [11;3581;3;13;5;3];
  [23;3;5;7;3;19;313;3;71;17;3;13;5;3];
  [3;17;73;3;7;5;3];
  [];
  [1429;3;17;19;3;131;5;3;191;13;3;5;97;3;2707;61;3;103;11;3;7;5;3;1229];
  [3];
  [];
  [5;3;7;1489;3;5];
  [3;2287;13;3;17;47;3;239;5;3;7;31;3;5;11;3;8429;7;3];
  [3527;5;3];
  [];
  [3];
  [5];
  [349;3;809;5;3];
  [3;5;7;3];
  [];
  [];
  [3;233];
  [19;47;3;5;11;3;7;103;3;17;1019;3;29;5;3;11;1217;3;5;19;3;31;1301;3];
  [7;3;421;11;3];
  [3;7;11;3;5;19;3;13;7;3;17];
  [181;11;3;109;79;3;29;5;3;7;137;3;5];
  [5;3];
  [3;107;29;3;7;13;3;23;5;3;11;7;3;5;181;3;401];
  [13;5;3;739;2017;3;5;43;3;11];
  [151;3;59;421;3];
  [3;19;5;3;97;73;3;5;131;3;37;43;3;17;7;3;13;5;3];
  [5;7;3;2801;239;3;11;1307;3];
  [31;3;7;5;3;11;13;3;5;7;3];
  [3;5;109;3;11;37;3];
  [];
  [283;3;5;31;3;7;151;3;2099];
  [3;11];
  [7;1493;3;5;41;3;23;7;3;19;383;3];
  [17;3;13];
  [3];
  [];
  [5;3;1601;29;3;5;757;3;2087;31;3;7;61;3;67;5;3];
  [3;29;17;3];
  [677;5;3;13];
  [7;3;89;17;3;1933;103;3];
  [3;7;5;3;173];
  [5;13;3;19;17;3;61;73;3;7;5;3;23;11;3;5;7;3;881];
  [71;3;43;5;3;23;421;3;5;13;3];
  [3;5;127;3;7;17;3;197;19;3;1663;5;3];
  [109;19;3;37;5;3;43];
  [607;3;5];
  [3;103;13;3;3767;5;3;7;11;3;5;8731;3];
  [59;7;3;5];
  [53;3;7];
  [3];
  [17;269;3;157;7;3];
  [5;3;29;11;3;5;107;3];
  [3;17;11;3;23;61;3];
  [7;5;3;6791];
  [11;3;17;3511;3;47;131;3;7;5;3;11];
  [3;2887;5;3;613;491;3;5];
  [5;433;3;7;13;3;53;89;3;11;5;3;19;827;3;5];
  [173;3;157;5;3;19;37;3;5;73;3;7;13;3];
  [3;5];
  [107;23;3;47;5;3;7;3253;3;5;19;3];
  [7;3;5;19;3;11];
  [3;7;6577;3;11;5;3;1871;7;3;5;29;3;113;17;3;149;7283;3;41;5;3;7;53;3;5;11;3];
  [13;79;3;5;31;3;17];
  [];
  [3;11;8293;3;5;29;3;17];
  [11;59;3;29];
  [5;3];
  [3;13;71;3;349;89;3;7;5;3];
  [37;5;3;101;19;3;5;23;3;13;31;3;6217;2063;3;7;5;3;223;11;3;5;7;3];
  [23;3;7;191;3;71];
  [3;2917;5;3;839;139;3;5;47;3;7];
  [5];
  [5107;3;13;5;3;7];
  [3;5];
  [7];
  [13;3;5];
  [3;307;7;3];
  [];
  [];
  [3];
  [];
  [5;3];
  [3;7];
  [2347;5;3];
  [17;3;4259;7;3;2017;19;3;107;5;3;443];
  [3;83;5;3;7;79;3;5];
  [5;11;3];
  [11;3;149;5;3;13;7;3;5];
  [3;5;17;3];
  [31;7;3];
  [47;3;5;13;3;53;911;3;11;7;3;29;5;3;23];
  [3];
  [23;3677;3;5;7;3;11;19;3];
  [19;3;853;269;3;7;5;3;701;997;3;5;7;3;13];
  [3;1279;503;3;5;17;3;71;53;3;79];
  [7;29;3;11;13;3;31;5;3;631;163;3;5];
  [5;3;11;659;3;5;17;3;7];
  [3;11;7;3;167];
  [11;5;3;7;23;3;5;17;3;31;7;3;131;71;3;13;5;3;3529;149;3;5;11;3;7;47;3;23;13;3];
  [1129;3;179];
  [3;41;5;3;4817;7;3;5;17;3];
  [5;19;3;59;67;3;7];
  [7;3];
  [3;5;3323;3];
  [];
  [37;3;5;7;3;41;13;3;727;3529;3;19;5;3;887;11;3;5;479;3];
  [3;13];
  [61];
  [2467;3;8389;23;3;43;5;3;997;19;3;5;11;3;389];
  [3];
  [29;7;3];
  [5;3;7];
  [3;3109;131;3];
  [71;5;3;79;7;3;5;11;3;53;1459;3;19;107;3;43;5;3;7;47;3;5;113;3;31;7;3;5651;239;3];
  [13;3;67;593;3;7;11;3;1193;5;3];
  [3];
  [5];
  [3001;3;827;5;3];
  [3;5;7;3];
  [];
  [11;3;5;2237;3;277];
  [3;31];
  [];
  [7;3;113;29;3];
  [3;7;13;3;5;149;3;11;7;3;271;19;3];
  [];
  [5;3;37;7;3;5;31;3;7019;1609;3;1399];
  [3;3413;79;3;7;683;3;31;5;3;131;7;3;5;2309;3];
  [];
  [83;3;11;13;3];
  [3;11;5;3;101;577;3;5;2089;3;23;13;3];
  [5;7;3;23];
  [5051;3;7;5;3];
  [3;5];
  [167;37;3];
  [17;3;5;61;3;7];
  [3;397];
  [7;17;3;5;29;3;41;7;3;101];
  [23;3;29];
  [3;19;7;3;5;13;3;7517];
  [13;3389;3;7];
  [5;3;23;17;3;5;19;3;13];
  [3;4177;59;3;313;7;3;2927;5;3;41;11;3;5];
  [2293;5;3];
  [7;3;1279];
  [3;7;5;3;1319;17;3;5;7;3;6761];
  [5;101;3];
  [293;3;19;5;3];
  [3;5;307;3;7;11;3;4373];
  [];
  [19;3;5;11;3;181;7;3;23;59;3;337;5;3;11;13;3;5];
  [3;23;11;3];
  [17;7;3;5];
  [11;3;7;47;3;293;5;3];
  [3;17;281;3;5;9521;3;1373;13;3;7;43;3;4877;5;3;2297;7;3;5];
  [79];
  [5;3;17];
  [3;61];
  [7;5;3;17];
  [971;3;751;431;3;11];
  [3];
  [5;71;3;7];
  [];
  [3;5;13;3;19;7;3];
  [11;179;3;41;5;3;7];
  [7;3;5;2707;3;13;29;3;2029;19;3;37;5;3;7;17;3;5;13;3];
  [3;7;19;3;29;5;3;17;7;3;5;23;3;13];
  [];
  [29;3;6359;7;3;349;5;3;17;7639;3;5;4391;3];
  [3];
  [43;3467;3;419];
  [5;3;43;821;3;5;7;3;313;1543;3];
  [3];
  [];
  [229;3;7;19;3;61;941;3;43;5;3;17;11;3;5;53;3;29;1453;3;4933;101;3;7;5;3;89;929;3;5;7;3];
  [3];
  [5;151;3;251;7;3;181];
  [];
  [3;5;353;3;59;13;3;661;11;3;3907;5;3;7;37;3;5];
  [7];
  [881;3;5];
  [3];
  [31;29;3;5;11;3];
  [2143;3;2927;11;3];
  [3;13;11;3;5;7;3;1669;89;3];
  [101;11;3;31;61;3;7;5;3;13;53;3;5;7;3];
  [5;3;1327;71;3;5;149;3];
  [3;7;23;3];
  [19;5;3;4933];
  [433;3;13;7;3];
  [3];
  [5;163;3;1217;8693;3;11;7993;3;31;5;3;7;317;3;5;47;3;13;7;3];
  [13;3;53;5;3;11;7;3;5;41;3];
  [3;5;5701;3;11;157;3;7;13;3;757;5;3];
  [67;7;3;11;5;3;29];
  [];
  [3;11;29;3;41;5;3];
  [11;13;3;5;7;3;83;37;3];
  [];
  [3;4931;107;3;5];
  [7;613;3;23;157;3;457;5;3];
  [5;3;59];
  [3;373;7;3;83];
  [17;5;3;7;1213;3;5];
  [73;3;19;2659;3;13];
  [3;17;5;3];
  [5;7841;3;7877;89;3;7;19;3;6563;5;3;41;7;3;5;3181;3];
  [7;3;17;5;3];
  [3;5;101;3];
  [];
  [];
  [3;29;8147;3;7;5;3];
  [83;73;3;5;13;3];
  [31;3];
  [3;31;41;3;5;11;3;7;19;3;1699];
  [];
  [5;3;7;11;3;5;23;3;1579;7;3;4831;103;3;11;5;3];
  [3;863;11;3;31;13;3;17;5;3;7;8059;3;5;71;3;59;7;3];
  [13;5;3;6967;7;3;5;2297;3;37;43;3;11;13;3;23;5;3;7];
  [11;3];
  [3;23;5;3;19];
  [5;67;3];
  [373;3];
  [3;5;7;3];
  [59;5081;3;7;5;3;11];
  [1777;3;5;1481;3;11];
  [3;53;47;3;11;5;3;8431;37;3;5;83;3;31];
  [];
  [7;3;11;73;3;19;5;3;181;1583;3;5];
  [3;7];
  [11];
  [5;3;4051;7;3;5;193;3;347;83;3];
  [3;71;479;3;7];
  [1171;5;3;13];
  [79;3;1069;127;3;197;7;3;563;5;3;13];
  [3;43;5;3;67;61;3;5;9391;3];
  [5;7;3;43;23;3;19;71;3;29;5;3];
  [17;3;7;5;3;43;197;3;5;7;3];
  [3;5;4943;3;13;29;3;43;1583;3;7;5;3;23;11;3;5;7;3;67];
  [];
  [];
  [3;4133;13;3];
  [7;59;3;5];
  [443;3;131;17;3;13;5;3;7;11;3;5];
  [3;857;7;3;5;73;3;19;11;3;191];
  [19;31;3;7;17;3;103;5;3;2879;7;3;5;3067;3;1277;1847;3;11;19;3;13;5;3;7;127;3;5;487;3;9341;7;3;23;13;3];
  [5;3;31;13;3;5;11;3;179;197;3;7;19;3];
  [3;101];
  [5527;5;3];
  [7;3;6217;11;3;23;17;3];
  [3;7;5;3;4139;37;3;5;7;3;29];
  [5;11;3;1877;13;3;599;17;3;7;5;3;11];
  [11;3];
  [3;5;181;3;7;3571;3;13;17;3;11;5;3;1861];
  [17;109;3;359;5;3;101];
  [29;3;5];
  [3;17;23;3];
  [13;7;3;5;79;3;11;6353;3];
  [];
  [3];
  [53;547;3;11;7;3;41;5;3;19;103;3;5;37;3];
  [5;3;11];
  [3;11];
  [7;5;3;2203];
  [19;3;3253;53;3;17];
  [3];
  [5;23;3;7];
  [];
  [3;5;61;3;47;7;3;17;73;3;13;5;3;3967];
  [];
  [7;3;5;101;3];
  [3;7;2389;3;509;5;3;37;7;3;5;313;3;227;11;3];
  [131;19;3;5;277;3];
  [41;3;47;7;3;149;5;3;89;7559;3;5;11;3];
  [3;967;37;3;5;199;3;61];
  [31;13;3;67];
  [5;3];
  [3;1697;31;3;13];
  [47;5;3;31;41;3;5;11;3;23;3299;3;13;337;3;7;5;3;11;191;3;5;7;3];
  [];
  [3;199;5;3];
  [5;2851;3;547;7;3;29;43;3];
  [733;3];
  [3;5;11;3;53];
  [7;11;3];
  [11;3;5;13;3;19;23;3;7];
  [3;4349;7;3];
  [769];
  [17;3;7699;19;3];
  [3;23;163;3;5;7;3;11;2221;3];
  [37;17;3];
  [5;3];
  [3;7;17;3;11;223;3;13;5;3;167;73;3;5;4547;3];
  [6073;5;3;11;1181;3;5];
  [3491;3;11;7;3;1279];
  [3;11;5;3;7;13;3;5;337;3;179;7;3;53;2267;3;751;5;3;857;31;3;5;11;3;7;643;3;23;17;3;13;5;3;11;43;3;5;5827;3;59;37;3;631;13;3;7;5;3;19];
  [5;643;3];
  [];
  [3;5;53;3;127;17;3;7;107;3;2767;5;3;3709;7;3;5;3581;3];
  [23;7;3];
  [4649;3;5;193;3];
  [3;13;953;3;43;5;3;19;233;3;5;89;3];
  [19;839;3;5;7;3;43;17;3;13;61;3;127;5;3;41;11;3;5;19;3];
  [4003;3];
  [3];
  [7;41;3;229;23;3;2557;5;3;227;1091;3;5;11;3;1489;29;3;127;67;3;7;5;3;11;6733;3;5;7;3;31;431;3;13;17;3;19;5;3;1321;73;3;5;61;3;29;11;3;239;7;3;17;5;3];
  [5;3;13];
  [3;17;7;3;61;1013;3;71;5;3;13;11;3;5];
  [3049;5;3;7;6761;3;5;37;3;1439;7;3;8513;73;3;19;5;3;13;487;3;5;227;3;7;181;3;17;41;3];
  [13;3;17;31;3;733];
  [3;19;5;3;31;7;3;5;11;3];
  [5];
  [7;3;29;5;3;233;11;3;5;89;3;13;17;3;7;1097;3;11;5;3;6121;7;3;5;13;3;43];
  [3;5];
  [41;13;3;1229;5;3;3467];
  [];
  [3];
  [89;11;3;5;2267;3;17;1361;3;19];
  [11;3;19;61;3;23;5;3];
  [3;37;13;3;5];
  [];
  [5;3;7];
  [3];
  [];
  [509;3;2269;13;3;7];
  [3];
  [5];
  [37;3;11;5;3];
  [3;5;7;3;23];
  [11;19;3;7;5;3;167;9473;3;5;7;3;17];
  [1021;3;5];
  [3];
  [];
  [7;3;103;4817;3];
  [3;7;1669;3;5;13;3];
  [13;23;3;9721;619;3;149;5;3;7;311;3;5;13;3;17;7;3];
  [5;3;3559;7;3;5;211;3;13;19;3;293;29;3;8243;5;3;7;61;3;5;13;3;2237;7;3;11;443;3];
  [3;2089;19;3;7;6779;3];
  [];
  [17;3;31;1051;3;227;7;3;431;5;3;3457;11;3;5];
  [3;13;5;3;29];
  [5;7;3;47;31;3];
  [29;3;7;5;3;19;41;3;5;7;3;7079;37;3;337];
  [3;5;17;3;601];
  [8123];
  [23;3;5;17;3;7;11;3;31;79;3;1231;5;3;2083;13;3;5;67;3;17;523;3;23;53;3;7;5;3];
  [3;41];
  [7];
  [13;3;23;11;3;139;5;3;7;1373;3;5;43;3;11;7;3;29;73;3;19;5;3];
  [3];
  [73;11;3;7];
  [5;3;53;239;3;5;17;3];
  [3];
  [];
  [7;3;1997;137;3;29;23;3;11;5;3;9931];
  [3;7;5;3;13;53;3;5;7;3];
  [5;29;3;227];
  [];
  [3;5;13;3;7];
  [19;4621;3;11;5;3;97];
  [];
  [3;11];
  [11;7;3;5;47;3];
  [];
  [3;43;79;3;5;23;3];
  [3779;9103;3;43;7;3;13;5;3;883;4273;3;5;17;3;19;6971;3;7;11;3;23;5;3;809;7;3;5;31;3;11;47;3;8821;19;3;1979;5;3;7];
  [5;3;73;3919;3;5];
  [3;19;47;3];
  [7;5;3];
  [193;3];
  [3];
  [5;7529;3;7];
  [47;3];
  [3;5;83;3];
  [13;71;3;73;5;3;7;41;3;5;11;3];
  [7;3;5];
  [3;7];
  [103;2467;3;5];
  [19;3;41;7;3;5333;5;3;101;53;3;5];
  [3;13;283;3;5;11;3];
  [107;3209;3];
  [5;3;2141;11;3;5;7;3;8713;29;3;359;59;3;11;5;3;13];
  [3;631;11;3;73;6737;3;7;5;3;19;571;3;5;7;3];
  [863;5;3;19;6173;3;5;13;3;7867;23;3;11;211;3;7;5;3;1447];
  [11;3;7;23;3;313;2843;3];
  [3;29;5;3];
  [5;19;3];
  [13;3];
  [3;5];
  [7];
  [17;3;5];
  [3];
  [79;13;3;5;103;3];
  [];
  [3;11;17;3;5;7;3;1279;167;3;47];
  [11;3049;3];
  [5;3;2543;17;3;5];
  [3;7;13;3;23;277;3;149;5;3;53;563;3;5;107;3];
  [10391;5;3];
  [31;3;29;7;3;13;487;3;47;5;3;1249;3011;3;5;113;3;7;11;3;67;167;3;101;5;3;7321;41;3;5;17;3;137];
  [3;31;5;3;7;17;3;5;2473;3;109;7;3;13;37;3];
  [5;61;3;443;41;3;71;193;3;89;5;3;7;53;3;5;11;3];
  [];
  [3;5;4951;3;31];
  [];
  [];
  [3;113;139;3;37;5;3;31;17;3;5;11;3;19];
  [17;43;3;5;7;3;19];
  [179;3];
  [3;17;367;3;5;43;3;13;11;3;31;19;3;7;5;3;1061];
  [7;4447;3;41;19;3];
  [5;3;17];
  [3];
  [13;5;3;7;11;3;5;23;3;313;7;3];
  [23;3;47;11;3];
  [3];
  [5;11;3;367;349;3;7;461;3;23;5;3;11;7;3;5;41;3;83;19;3];
  [7;3;23;5;3;17;13;3;5;2081;3;11;19;3;7];
  [3;5];
  [47;59;3;1319;5;3;17;37;3;5];
  [263;3;5;7;3;163;2719;3;11;47;3;41;5;3;53;17;3;5;29;3;6199;31;3;211;7;3;1789;5;3;19;11;3;5;83;3];
  [3];
  [4001;67;3;5;7177;3;11;13;3;73];
  [73;3;13;53;3;11;5;3;17];
  [3;19;127;3;5;71;3;7;433;3;13;37;3;1823;5;3;643;17;3;5;19;3;23;13;3;31;11;3;7;5;3;491];
  [];
  [5;3;7;797;3;5;19;3;23;7;3;3023;283;3;83;5;3];
  [3;11;379;3;29;3331;3;1609;5;3;7;3319;3;5];
  [11;5;3;13;7;3;5];
  [29;3;43;79;3;7];
  [3;37;5;3;43;47;3;5;1949;3;73;479;3;7;71;3;19;5;3;13;7;3;5];
  [5;13;3;2153;167;3;43;7;3;19;5;3;17;1193;3;5;127;3;929;11;3;7;9661;3;37;5;3;13;7;3;5;7523;3;199];
  [269;3;19;5;3;59;109;3;5;13;3;7993;23;3];
  [3;5;7;3;13;23;3];
  [];
  [19;3;5;47;3;31;2239;3;373;61;3;7;5;3;17;11;3;5;7;3;13];
  [3;7879;13;3;67;5;3;23;9433;3;5;3389;3;569;11;3;43;167;3;7;5;3;1087;17;3;5;7;3;13;73;3;19;41;3;139;5;3;31;59;3;5;13;3;2731;29;3];
  [23];
  [7;3;8273];
  [3;7;73;3;5;2099;3];
  [293;47;3;19;409;3;1481;5;3;7;11;3;5];
  [5;3];
  [3;173;5879;3;7];
  [];
  [];
  [3;71;5;3;283;11;3;5;673;3;97;4349;3;23;7;3;11;5;3;17];
  [5;7;3;2731;11;3;23;53;3;3803;5;3;73];
  [];
  [3;5;11;3;19;2251;3;13;37;3;7;5;3;11];
  [];
  [11;3;5];
  [3;277;19;3;83;5;3];
  [7];
  [];
  [3;131;7;3;5;2819;3;11;29;3];
  [];
  [5;3;83;109;3;5;13;3;821;139;3;7];
  [3;13;29;3;11;7;3;61;5;3;2099;2371;3;5;13;3;41;19;3;7;4679;3;937;5;3;17;7;3;5;233;3;29;149;3;479];
  [17;5;3;11];
  [7;3;11;19;3;3257;10589;3;113;5;3;593];
  [3;7;5;3;139;347;3;5;7;3;449;191;3];
  [5;449;3];
  [67;3;13;5;3];
  [3;5;23;3;7;67;3];
  [541];
  [13;3;5];
  [3];
  [9929;7;3;5;19;3;31;941;3;47;769;3];
  [71;3;7;631;3;17;5;3;359;7;3;5];
  [3;41;6229;3;5];
  [];
  [5;3;563;29;3;5;73;3;349;13;3];
  [3;29;43;3;13;37;3;17;5;3;157;11;3;5;2063;3];
  [7;5;3];
  [409;3];
  [3];
  [5;5077;3;7;131;3;5381;11;3;17;5;3;71;2273;3;5;1069;3;11];
  [151;3];
  [3;5;227;3;709;7;3];
  [];
  [7;3;5;11;3;79;53;3;19;83;3;17;5;3;7;349;3;5;41;3];
  [3;7;11;3;151;5;3];
  [431;11;3;5];
  [11;3;7393;7;3;97;5;3;29];
  [3;3623;89;3;5;881;3;151;313;3;11;7;3;17;5;3;23;131;3;5;4423;3;13;31;3;7;43;3;227;5;3];
  [];
  [5;3;23;757;3;5;7;3;11;151;3;173;13;3;17;5;3;73;1289;3;5;61;3;19];
  [3;47];
  [101;5;3;37;379;3;5];
  [];
  [3;2311;5;3;11;13;3;5;5351;3;7];
  [5;53;3;11;7;3;1723;19;3;127;5;3;131;13;3;5;229;3;7];
  [17;3;11;5;3;7;23;3;5;2411;3;127;7;3;283;53;3;17;5;3];
  [3;5;71;3;853];
  [7;17;3;43;5;3];
  [89;3;5;31;3;43;13;3;7;73;3;743;5;3];
  [3;13;7;3;31;5;3;43;677;3;5;29;3];
  [];
  [];
  [3];
  [1367;19;3;29;17;3;7;5;3];
  [5;3;13;61;3;5;37;3];
  [3;7;241;3;137;17;3];
  [673;5;3;5923;47;3;5;173;3;7;53;3;769;11;3;37;5;3;13;727;3;5];
  [13;3;1061;7;3;401;17;3;1109;5;3;19;11;3;5;97;3;7];
  [3];
  [5;463;3;13;179;3;41;17;3;2243;5;3;7;2833;3;5;13;3];
  [];
  [3;5;19;3;2861;7129;3;7;11;3];
  [17;7;3;5081;5;3;59;11;3;5;109;3];
  [];
  [3;17;101;3;13;5;3];
  [37];
  [47;3;17;11;3;7;5;3;9283;821;3;5;7;3;11;131;3];
  [3;4363;11;3;5;53;3];
  [7;11;3;17;373;3;23;5;3;113;13;3;5];
  [5;3;67;19;3;5;859;3;7];
  [3;163;7;3;17;113;3;67;5;3;11];
  [];
  [41;3;8369;13;3;17;1303;3;11;5;3;7;73;3;5];
  [3];
  [5;337;3;157];
  [7;3;79;5;3;11;277;3;5];
  [3;5];
  [];
  [53;3;5;7;3;23];
  [3;11];
  [11;491;3;5;31;3;937;29;3;17];
  [];
  [3;2663;4483;3;5;13;3;7;41;3;17];
  [13;7;3;787;919;3;607;5;3];
  [5;3;7;4027;3;5];
  [3];
  [5591;5;3;41;7;3;5;109;3;4049;31;3;17;2971;3;499;5;3;7;107;3;5];
  [61;3;149;229;3;7;13;3;233;5;3;23;7;3;5;11;3;337;193;3;53;17;3;73;5;3;7;6029;3;5];
  [3;13;5;3;23;1907;3;5];
  [5;43;3];
  [];
  [3;5;7;3;4013;43;3;41];
  [71;193;3;7;5;3];
  [257;3;5];
  [3;37;1559;3;10369;5;3;139;11;3;5;43;3;107];
  [157;23;3;5;5791;3;7;11;3];
  [7;3];
  [3;7;29;3;5;11;3;283;7;3;23;727;3;601;5;3;11;43;3;5;41;3;7;79;3];
  [29;17;3;13;11;3;47;5;3;7;107;3;5;67;3;11;7;3;17;37;3];
  [5;3;19;7;3;5];
  [3];
  [5147;5;3];
  [11;3];
  [3;101;5;3;13;59;3;5];
  [5;7;3;281;17;3;89;23;3;11;5;3;13;47;3;5;73;3;71;1277;3;17;7;3;19;5;3;10243;31;3;5;11;3];
  [23;3;7;5;3;839;257;3;5;7;3;1217];
  [3;5;13;3;107;17;3;11;1093;3;7;5;3;29];
  [31;521;3;19;5;3;11;257;3;5;13;3];
  [];
  [3;67;31;3;11;5;3;29;19;3;5;47;3;7];
  [7;19;3;5;109;3;67;7;3;61];
  [];
  [3;11;7;3;5;31;3;397;17;3];
  [11;1667;3;7];
  [5;3];
  [3;17];
  [181;5;3];
  [7;3;17;4211;3];
  [3;7;5;3;41];
  [5;383;3;17;811;3];
  [191;3];
  [3;5];
  [13];
  [3931;3;5];
  [3;3463];
  [];
  [];
  [3;13];
  [23;373;3;383;7;3;37;5;3;13];
  [5;3;277;47;3;5;11;3;17];
  [3;73;199;3;1291;11;3;7817;5;3;2027];
  [7;5;3;83;11;3;5;7;3;17];
  [];
  [3;8111;5;3];
  [5;11;3;7;19;3];
  [11;3];
  [3;5;41;3];
  [89;61;3;13;5;3;7;67;3;5;163;3;17;7;3];
  [7;3;5;727;3;10613;947;3;11];
  [3;7;733;3];
  [19;13;3;5;4957;3;11;7151;3;7;5351;3];
  [2377;3];
  [3;181;619;3;5;19;3];
  [9151];
  [5;3;11;23;3;5;7;3];
  [3;11;13;3;4643;241;3;7;5;3;761];
  [11;5;3;73];
  [17;3;7];
  [3;19;5;3];
  [5;17;3;149;7;3;2657];
  [2543;3;313;5;3;7;19;3;5];
  [3;5;17;3;103;173;3;251];
  [7;2657;3;37;5;3;13;7;3;5;1811;3];
  [43;3;5;17;3];
  [3];
  [2441;1723;3;5;13;3];
  [29;3;19;7823;3];
  [3];
  [];
  [5;3];
  [3;7;37;3;97;13;3];
  [13;5;3];
  [239;3;3067;7;3;59;11;3;13;5;3;37];
  [3];
  [5;23;3;19;11;3;587;5021;3];
  [];
  [3;5;11;3];
  [];
  [11;3;5;41;3;29;347;3;2539;7;3;11;5;3];
  [3;197;53;3];
  [];
  [97;3;13];
  [3];
  [7];
  [5;3];
  [3;43;7;3;11;1019;3];
  [37;5;3;7];
  [1831;3;11;8017;3;43;67;3;31;5;3;7;47;3;5;17;3;89;7;3];
  [3;11;5;3;197;7;3;5;6547;3];
  [5;13;3;439;431;3;7;1381;3;43;5;3;19;7;3;5;17;3;761];
  [7;3;107;5;3;19;59;3;5;13;3;31];
  [3;5];
  [79;151;3;467;5;3;29;113;3;5;19;3;13;23;3;43;7;3;251;5;3;787;239;3;5;13;3;37;137;3;7;67;3];
  [139;3;5;7;3;113;23;3];
  [3;7219;13;3;7;5;3];
  [29;113;3;5;151;3];
  [];
  [3;23;61;3;5;563;3;7;47;3;41];
  [167;7;3;53;101;3;19;5;3];
  [5;3;7;13;3;5];
  [3;10009;9539;3;67;71;3;10133;5;3;7;11;3;5;1381;3];
  [883;5;3];
  [];
  [3];
  [5];
  [41;3;103;5;3;9739;11;3;5;29;3];
  [3;5;7;3];
  [19;6469;3;7;5;3];
  [17;3;5;11;3;593;577;3];
  [3;29;11;3;1483;5;3];
  [13;11;3;5;41;3;7;277;3];
  [7;3;6791;1123;3;4153;5;3;13;691;3;5];
  [3;7;17;3;5];
  [];
  [5;3];
  [3;13;967;3;7;31;3;11;5;3;107;7;3;5;13;3;1093;61;3;5557;19;3];
  [];
  [47;3;173];
  [3;59;5;3;11;17;3;5;31;3;313];
  [5;7;3;11;3049;3];
  [613;3;7;5;3;37;17;3;5;7;3;61;41;3];
  [3;5;73;3;149;109;3;53;4057;3;7;5;3];
  [11;503;3];
  [13;3;5;23;3;7;449;3];
  [3;2113;97;3];
  [7];
  [19;3];
  [3;17;7;3;5;67;3;5237;353;3;71];
  [131;13;3;7;37;3;229;5;3;467;7;3;5];
  [5;3;17;43;3;5;2851;3;859;13;3;7;5503;3;47;5;3;19;7;3;5];
  [3;1511;4373;3;13;7;3;419;5;3;19;17;3;5;11;3;239;13;3;7;31;3;307;5;3;11;7;3;5;19;3];
  [];
  [7;3;53;3677;3];
  [3;7;5;3;17];
  [5;19;3];
  [];
  [3;5;59;3;7;29;3];
  [];
  [];
  [3];
  [127;7;3;5;11;3;13;839;3;167];
  [31;3;7;11;3;271;5;3;17;7;3;5;7103;3;11;23;3];
  [3;31;11;3;5;41;3;89;23;3;7;887;3;11;5;3;109;7;3;5;113;3;13;439;3];
  [10453;11;3];
  [5;3;37;31;3;5;163;3;47;59;3;11;7;3;73;5;3;23;17;3;5;643;3;41];
  [3;719;109;3;31;73;3;13;5;3;11;163;3;5;113;3;29;47;3;19;7;3;167;5;3;37;977;3;5;379;3];
  [7;5;3;23];
  [53;3;139;61;3;19;31;3;7;5;3;17;29;3;5;7;3;4861];
  [3];
  [5;7213;3;7];
  [2287;3;43;5;3;11;29;3;5;31;3;7;1291;3;103;47;3;353;5;3;127;13;3;5];
  [3;5;113;3;11;7;3];
  [113;37;3;11;5;3;7;23;3;5];
  [7;3;5;461;3;89;13;3;43];
  [3;7;5939;3;47;5;3];
  [11;157;3;5];
  [];
  [3;79;1109;3;5;37;3;7603];
  [8681;2153;3;283;19;3;83;5;3];
  [5;3;13];
  [3];
  [109;5;3;1721;5737;3;5;73;3];
  [13;3;7];
  [3;3821;5;3;83;2539;3;5;13;3;7;2297;3];
  [5;179;3;13;7;3];
  [];
  [3;5];
  [7;13;3;8999;5;3];
  [4349;3;5;647;3;2803];
  [3;61;7;3;13;5;3];
  [];
  [79;3;6451];
  [3;19;13;3;5;7;3;1571];
  [83;31;3;37;11;3;7;5;3];
  [5;3;31;11;3;5;19;3];
  [3;7;11;3;311;47;3;23;5;3;1297;71;3;5;29;3];
  [17;5;3;163;31;3;5;2797;3;7;1949;3;11;271;3];
  [11;3;8887;7;3;31];
  [3;17;5;3;7;3083;3;5;29;3;11;7;3;163];
  [5;131;3];
  [61;3;17;5;3;79;7;3;5;443;3;59];
  [3;5;29;3];
  [29;7;3;17;5;3;11;19;3;5;31;3;67;53;3;7];
  [19;3;5];
  [3];
  [227;47;3;5;7;3;23;8629;3];
  [571;3;11;103;3;7;5;3];
  [3;11;7639;3;5;13;3;239];
  [7;2939;3;19];
  [5;3;1039;2549;3;5];
  [3];
  [];
  [43;3;4783;23;3;1301;13;3;17;5;3;7];
  [3;13;5;3];
  [5];
  [7;3;59;5;3;23;43;3;5;2069;3;19;379;3;7;11;3;13;5;3;4871;7;3;5;1753;3;11;113;3;2437;13;3;29;5;3;7;53;3;5;229;3;71;7;3;47];
  [3;5;3821;3;19;2749;3;71;7;3;17;5;3];
  [37];
  [];
  [3];
  [53];
  [13;3;593;41;3;223;5;3];
  [3];
  [31;7;3;13;89;3];
  [5;3;7;53;3;5;11;3;8167;7;3;13;317;3;17;5;3;11;241;3;5];
  [3];
  [];
  [181;3;269;11;3;7];
  [3;113;5;3;13;31;3;5;67;3;277;419;3;7;233;3;17;5;3;2953;7;3;5;577;3;41;1861;3];
  [5;11;3;7219;29;3;31;7;3;823;5;3;11;67;3;5;103;3;1549];
  [11;3;29;5;3];
  [3;5;7;3];
  [173;17;3;7;5;3;19];
  [];
  [3;43;17;3];
  [71;101;3;5;19;3;7;37;3];
  [7;3;5527;13;3;11;5;3];
  [3;7;137;3;5;3517;3;43;7;3;7547;13;3];
  [59];
  [5;3;11;7;3;5;71;3;4751];
  [3;11];
  [11;5;3;2749;13;3;5;23;3;29;59;3;7];
  [23;3;79;2029;3;47;7;3;10663;5;3;67;13;3;5;1553;3;43;173;3;7;11;3;17;5;3];
  [3];
  [5;7;3;29];
  [89;3;7;5;3];
  [3;5;10799;3];
  [13;1487;3;47;5;3];
  [41;3;5;137;3;7];
  [3;17];
  [7;61;3;5;107;3;1117;7;3;11353;17;3;829;5;3];
  [];
  [3;13;7;3;5;1511;3;379;6947;3;359;11;3;149;5;3;7];
  [4339;149;3;7;41;3;199;5;3;13;7;3;5];
  [5;3];
  [3;23;2203;3;17;7;3];
  [];
  [7;3;13;31;3;17;11;3];
  [3;7;5;3;29;11;3;5;7;3;13];
  [5];
  [13;3;71;5;3;337;31;3;5];
  [3;5;11;3;7;23;3;17;13;3;1321;5;3;11;1009;3;5;73;3];
  [151;11;3;13;5;3;7187;163;3;5];
  [11;3;5];
  [3;1201;151;3];
  [23;7;3;5];
  [];
  [3];
  [5897;19;3;5791;7;3;11;5;3];
  [5;3;3187;587;3;5;2089;3];
  [3];
  [7;5;3;11;23;3;5;7;3;151;13;3;17;457;3;107;5;3;19];
  [103;3;11];
  [3;11;5;3;19];
  [5;29;3;7];
  [];
  [3;5;19;3];
  [337;43;3;53;5;3;7];
  [7;3;5;43;3];
  [3;7;181;3];
  [67;41;3;5;13;3;37;43;3;7;23;3;19;5;3;83;7;3;5;5783;3;233;59;3];
  [17;3];
  [3;109];
  [593;17;3;2161;113;3;107;5;3];
  [5;3;113;19;3;5;7;3];
  [3];
  [13;5;3;257;241;3;5];
  [127;3;7;17;3];
  [3];
  [5];
  [109;3];
  [3;5;23;3];
  [7;53;3;59;5;3;257;7;3;5;127;3;449];
  [197;3;5;11;3;683;17;3;7;37;3;23;5;3;11;7;3;5];
  [3;349;7;3;23;5;3;257;131;3;5;2579;3;11;127;3;7;139;3;29;5;3;443;7;3;5;83;3;19;53;3;239;17;3;251;5;3;7;13;3;5];
  [97;11;3;5;1327;3;3449;13;3;83;7;3;11;5;3;101;127;3;5;71;3;19];
  [11;3;13];
  [3];
  [17;1151;3];
  [5;3;43;167;3;5];
  [3;7;61;3;43;19;3;11;5;3;47];
  [];
  [];
  [3;29;5;3;7];
  [5;13;3;11;977;3];
  [];
  [3;5;139;3;13;433;3;7];
  [11;7;3;79;5;3];
  [];
  [3];
  [2153;227;3;5;7;3;17;23;3];
  [23;3;53;97;3;7;5;3;397;1051;3;5;7;3;29;17;3];
  [3];
  [7;983;3];
  [5;3;19;13;3;5];
  [3;59;7;3;47;53;3];
  [31;5;3;7;29;3;5;19;3;17;7;3];
  [19;3;29;307;3;1409;37;3;197;5;3;7;11;3;5];
  [3;6619;5;3;211;7;3;5];
  [5;3319;3;31;13;3;7;557;3;983;5;3];
  [7;3;47;5;3;107;23;3;5;11;3;17;13;3;7];
  [3;5;79;3;67;31;3;13;7;3;19;5;3];
  [61];
  [];
  [3;23;107;3;7;5;3;103;19;3;5;7;3;17;83;3;11;29;3;37;5;3;61;109;3;5;2371;3;41;409;3;13;7;3;73;5;3];
  [13;19;3;5;11;3];
  [53;3;5443;11;3;41;5;3;13;47;3;5;7109;3;11];
  [3];
  [37;7;3];
  [5;3;7;2887;3;5;13;3;139;7;3;11;23;3;10037;5;3];
  [3;13;2423;3;19;23;3;79;5;3;7];
  [239;5;3;29;7;3;5;47;3;11;3119;3;587;5639;3;31;5;3;7;131;3;5;13;3;4603;7;3;1721];
  [17;3;2377];
  [3];
  [5;17;3];
  [];
  [3;5;7;3;11;47;3;887];
  [];
  [13;3;5;17;3;19;263;3;37;53;3;7;5;3;131;197;3;5;7;3;17;3083;3;47;11;3;13;5;3;79];
  [3;11];
  [11;269;3;5;17;3;7;89;3;8893;19;3;2053;5;3;61;13;3;5;223;3;17;11;3;31;103;3;7;5;3;257;6427;3;5;7;3;73;53;3];
  [7;3;1033;19;3];
  [3;7;43;3;5;17;3];
  [];
  [5;3];
  [3;53];
  [967;5;3;233;4201;3;5;17;3];
  [29;3];
  [3;31;5;3;1567;67;3;5;17;3;7019;19;3;6827;7;3;37;5;3;47;109;3;5];
  [5;7;3;173;19;3];
  [2689;3;7;5;3;13;10267;3;5;7;3;101;11;3;293;67;3;397;5;3];
  [3;5;541;3;31;89;3;199];
  [137;73;3;127;5;3;251];
  [4931;3;5;13;3;7;31;3];
  [3;71;83;3;11437;5;3;19;11;3;5;13;3;7;1571;3];
  [7];
  [59;3];
  [3;37;7;3;5;11;3;937];
  [4759];
  [5;3;3163;11;3;5;563;3;1097;23;3;7;13;3;11;5;3;127;7;3;5;173;3;3463;47;3;3529;7321;3;19;5;3;7];
  [3;199;11;3;139;7;3;13;5;3;71;557;3;5;17;3];
  [];
  [7;3;1091;89;3;37];
  [3;7;5;3;23;13;3;5;7;3;11;331;3;47;6277;3;31;5;3;89;19;3;5;163;3;127;29;3;37;7;3;13;5;3;547;139;3;5;103;3;1091;17;3;7;13;3];
  [5;281;3;43];
  [37;3];
  [3;5;647;3;7;191;3;11;101;3];
  [];
  [];
  [3;13];
  [1327;7;3;5;37;3];
  [41;3;7;331;3];
  [3;11;331;3;5;251;3];
  [11;89;3;23;7;3;29;5;3;47;317;3;5;101;3];
  [5;3;13;881;3;5];
  [3;11071;29;3];
  [7;5;3];
  [13;3;2221;149;3;463;229;3;7;5;3;59;739;3;5;7;3;19;11;3];
  [3];
  [5;31;3;7;3221;3];
  [23;3;31;5;3;1987];
  [3;5;131;3;97;7;3;3821;19;3];
  [];
  [7;3;5;53;3;31;181;3;9277;13;3;601;5;3;7;29;3;5];
  [3;7];
  [];
  [];
  [3];
  [];
  [5;3];
  [3;29;19;3;103;11;3;7;5;3;4703;353;3;5;7;3;11;659;3];
  [139;5;3;373;11;3;5;2333;3;53;421;3];
  [97;3;7;11;3;163;73;3;23;5;3;167;113;3;5];
  [3;23;5;3;1367;17;3;5;4793;3;7;13;3;11];
  [5;11;3;107;7;3;13];
  [11;3;211;5;3;7;17;3;5;401;3;11;7;3;13;3701;3;31;5;3;29;1523;3;5;19;3;7;13;3;107];
  [3;5];
  [7];
  [107;3;5;19;3;1021];
  [3];
  [17;1237;3;5;61;3;11;73;3;59;7;3;1213;5;3;13;2699;3;5];
  [9967;3;67];
  [3;17;71;3;5;7;3;23];
  [13;41;3;11;29;3;7;5;3];
  [5;3;11;3467;3;5;47;3;13;37;3];
  [3;7;337;3];
  [11;5;3;17;19;3;5;53;3;7;9091;3];
  [241;3;557;7;3;137;13;3];
  [3;13;5;3;7;41;3;5;73;3];
  [5;2143;3];
  [131;3;1433;5;3;17;7;3;5;43;3;139;229;3;19];
  [3;5;31;3;9587;11657;3;7;3511;3;2243;5;3;23;7;3;5;11;3;8269];
  [19;7;3;31;5;3;17;13;3;5];
  [151;3;5;10301;3];
  [3;79;47;3;3511;5;3;17;3821;3;5;29;3;53;11;3];
  [59];
  [13;3;3967;151;3;7;5;3;17;73;3;5;7;3];
  [3];
  [7;139;3;13];
  [5;3;9679;23;3;5;151;3;7;11;3;13;1201;3];
  [3;19;7;3;233];
  [877;5;3;7;101;3;5;11;3;619;7;3;23;19;3;421;5;3;11;17;3;5];
  [1879;3;61;4091;3;23;11;3;41;5;3;7;2393;3;5;211;3;11;7;3];
  [3];
  [5];
  [7;3;2239;5;3];
  [3;5;11;3;359;269;3;5927;7;3;157;5;3;11];
  [43;11;3;223;5;3;83;103;3;5;13;3;11];
  [11;3;5;7;3;13;37;3];
  [3];
  [7817;509;3;5;761;3;43;19;3;11;10853;3;7;5;3;17];
  [19;3;107;13;3];
  [3;383;251;3;5;271;3;7;2269;3;43;13;3];
  [];
  [5;3;7];
  [3];
  [];
  [3067;3;11];
  [3;11;5;3;563;607;3;5;19;3;509;1063;3;7;37;3;149;5;3;17;7;3;5;11;3;151;227;3];
  [5;19;3];
  [31;3];
  [3;5;7;3];
  [13];
  [449;3;5;31;3];
  [3;41;857;3;19;5;3];
  [];
  [7;3;2633];
  [3;7;19;3;5];
  [71;29;3;353];
  [5;3;709;7;3;5;103;3;37;31;3;113;11;3];
  [3;1319];
  [17;5;3;89;79;3;5;13;3;23;11;3;7;83;3];
  [167;3;13;37;3;19;7;3;337;5;3;227;31;3;5;13;3;821;3257;3;7];
  [3;17;5;3];
  [5;7;3;293;719;3;131;11;3;41;5;3;37;7027;3;5];
  [13;3;7;5;3;1433;11;3;5;7;3];
  [3;5];
  [];
  [];
  [3];
  [7;11;3;5];
  [11;3;47;277;3;17;5;3;7;13;3;5];
  [3;23;7;3;5;1823;3];
  [29];
  [5;3;149];
  [3];
  [47;5;3;167];
  [7;3;241;41;3;11];
  [3;7;5;3;11;23;3;5;7;3];
  [5];
  [43;3;11;5;3];
  [3;5;43;3;7;19;3;23;569;3;17;5;3;29;3347;3;5;67;3];
  [11;31;3;61;5;3;13;41;3;5];
  [1399;3;5;1193;3;37;7;3];
  [3];
  [];
  [37;3;7;29;3;31;5;3;19;7;3;5;13;3;6067;317;3];
  [3;19;179;3;5;47;3;13;71;3;7;23;3;17;5;3;1289;7;3;5;13;3;97;37;3;6121;4363;3;11;5;3;7;593;3;5;10099;3;31;7;3;191];
  [103;127;3];
  [5;3;79;127;3;5;19;3;31];
  [3;307;281;3;4289;13;3];
  [7;5;3];
  [];
  [3;859;5;3;131;101;3;5;233;3;67;11;3;37];
  [5;239;3;7];
  [17;3;19;5;3;499;13;3;5;11;3;7];
  [3;5;3929;3];
  [10303;17;3];
  [7;3;5;23;3];
  [3;7;17;3];
  [73];
  [1543;3;13;7;3;23;5;3];
  [3;43;11;3;5;5189;3];
  [];
  [5;3];
  [3];
  [157;5;3;13];
  [];
  [3;73;5;3;71];
  [5;13;3;197;7;3;11;17;3;3391;5;3];
  [577;3];
  [3;5;89;3;11;149;3];
  [7;1571;3;11;5;3;37;7;3;5;71;3;13];
  [];
  [3;11;7;3];
  [11;37;3;5];
  [1033;3;17];
  [3;11909;1063;3;5;7;3];
  [109;23;3;17;53;3;7;5;3;229];
  [5;3;599;13;3;5;67;3;877];
  [3;7;59;3;17;37;3;179;5;3;23;13;3;5;10957;3;173;11;3;2477;47;3;7;5;3;139];
  [113;5;3;23];
  [89;3;131;7;3;17];
  [3;359;5;3;7;457;3;5];
  [5];
  [4817;3];
  [3;5];
  [];
  [23;3;5;7109;3;8599;29;3;17;7;3;41;5;3;1399;139;3;5;19;3;11;61;3;7;12239;3;109;5;3;991;7;3;5];
  [3];
  [13];
  [29;3;23;71;3;7;5;3;13];
  [3;6899];
  [7;2333;3]].

Lemma octopus_datasetSizes_check :
  check_table 256 16777215 65536 108 octopus_datasetSizes octopus_datasetSizes_certs = true.
Proof. vm_cast_no_check (eq_refl true). Qed.

Lemma octopus_datasetSizes_len : lenN octopus_datasetSizes = 2045.
Proof. vm_compute. reflexivity. Qed.

Lemma octopus_datasetSizes_ok e :
  e < 2045 -> prime_size (4294967296 + 16777216 * e) 256 (nth (N.to_nat e) octopus_datasetSizes 0).
Proof.
  intros H.
  refine (table_prime_size 256 16777215 65536 108 octopus_datasetSizes octopus_datasetSizes_certs 8388608 32768
            _ _ _ _ _ _ octopus_datasetSizes_check e _).
  - reflexivity.
  - reflexivity.
  - discriminate.
  - rewrite octopus_datasetSizes_len. reflexivity.
  - reflexivity.
  - reflexivity.
  - rewrite octopus_datasetSizes_len. exact H.
Qed.

