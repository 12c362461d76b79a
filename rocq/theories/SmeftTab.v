(** GENERATED by tools/gen_smeft.py from wcxf/util/smeftutil.py: the key lists,
    the assignment tables of symmetrize_2 ... symmetrize_9 and the index
    rotations of flavor_rotation, line by line. *)
From Coq Require Import String List.
From Verif Require Import PyBase Tensor SmeftSyntax.
Import ListNotations.
Open Scope string_scope.
Open Scope list_scope.

(** smeftutil.py 7-8 *)
Definition SM_keys : list string :=
  ["g"; "gp"; "gs"; "Lambda"; "m2"; "Gu"; "Gd"; "Ge"; "Theta"; "Thetap"; "Thetas"].
(** smeftutil.py 13-15 *)
Definition WC_keys_0f : list string :=
  ["G"; "Gtilde"; "W"; "Wtilde"; "phi"; "phiBox"; "phiD"; "phiG"; "phiB"; "phiW"; "phiWB"; "phiGtilde"; "phiBtilde"; "phiWtilde"; "phiWtildeB"].
(** smeftutil.py 16-18 *)
Definition WC_keys_2f : list string :=
  ["uphi"; "dphi"; "ephi"; "eW"; "eB"; "uG"; "uW"; "uB"; "dG"; "dW"; "dB"; "phil1"; "phil3"; "phie"; "phiq1"; "phiq3"; "phiu"; "phid"; "phiud"; "llphiphi"].
(** smeftutil.py 19-22 *)
Definition WC_keys_4f : list string :=
  ["ll"; "qq1"; "qq3"; "lq1"; "lq3"; "ee"; "uu"; "dd"; "eu"; "ed"; "ud1"; "ud8"; "le"; "lu"; "ld"; "qe"; "qu1"; "qd1"; "qu8"; "qd8"; "ledq"; "quqd1"; "quqd8"; "lequ1"; "lequ3"; "duql"; "qque"; "qqql"; "duue"].
(** smeftutil.py 26 *)
Definition WC_keys := WC_keys_0f ++ WC_keys_2f ++ WC_keys_4f.
(** smeftutil.py 28-104 *)
Definition C_keys_shape : list (string * shape) :=
  [("g", Sh0);
   ("gp", Sh0);
   ("gs", Sh0);
   ("Lambda", Sh0);
   ("m2", Sh0);
   ("Gu", Sh2);
   ("Gd", Sh2);
   ("Ge", Sh2);
   ("Theta", Sh0);
   ("Thetap", Sh0);
   ("Thetas", Sh0);
   ("G", Sh0);
   ("Gtilde", Sh0);
   ("W", Sh0);
   ("Wtilde", Sh0);
   ("phi", Sh0);
   ("phiBox", Sh0);
   ("phiD", Sh0);
   ("phiG", Sh0);
   ("phiB", Sh0);
   ("phiW", Sh0);
   ("phiWB", Sh0);
   ("phiGtilde", Sh0);
   ("phiBtilde", Sh0);
   ("phiWtilde", Sh0);
   ("phiWtildeB", Sh0);
   ("uphi", Sh2);
   ("dphi", Sh2);
   ("ephi", Sh2);
   ("eW", Sh2);
   ("eB", Sh2);
   ("uG", Sh2);
   ("uW", Sh2);
   ("uB", Sh2);
   ("dG", Sh2);
   ("dW", Sh2);
   ("dB", Sh2);
   ("phil1", Sh2);
   ("phil3", Sh2);
   ("phie", Sh2);
   ("phiq1", Sh2);
   ("phiq3", Sh2);
   ("phiu", Sh2);
   ("phid", Sh2);
   ("phiud", Sh2);
   ("llphiphi", Sh2);
   ("ll", Sh4);
   ("qq1", Sh4);
   ("qq3", Sh4);
   ("lq1", Sh4);
   ("lq3", Sh4);
   ("ee", Sh4);
   ("uu", Sh4);
   ("dd", Sh4);
   ("eu", Sh4);
   ("ed", Sh4);
   ("ud1", Sh4);
   ("ud8", Sh4);
   ("le", Sh4);
   ("lu", Sh4);
   ("ld", Sh4);
   ("qe", Sh4);
   ("qu1", Sh4);
   ("qd1", Sh4);
   ("qu8", Sh4);
   ("qd8", Sh4);
   ("ledq", Sh4);
   ("quqd1", Sh4);
   ("quqd8", Sh4);
   ("lequ1", Sh4);
   ("lequ3", Sh4);
   ("duql", Sh4);
   ("qque", Sh4);
   ("qqql", Sh4);
   ("duue", Sh4)].
(** smeftutil.py 109 *)
Definition symm_keys_0 := WC_keys_0f.
(** smeftutil.py 111 *)
Definition symm_keys_1 : list string := ["uphi"; "dphi"; "ephi"; "eW"; "eB"; "uG"; "uW"; "uB"; "dG"; "dW"; "dB"; "phiud"].
(** smeftutil.py 113 *)
Definition symm_keys_2 : list string := ["phil1"; "phil3"; "phie"; "phiq1"; "phiq3"; "phiu"; "phid"].
(** smeftutil.py 115 *)
Definition symm_keys_3 : list string := ["ledq"; "quqd1"; "quqd8"; "lequ1"; "lequ3"; "duql"; "duue"].
(** smeftutil.py 117 *)
Definition symm_keys_4 : list string := ["ll"; "qq1"; "qq3"; "uu"; "dd"].
(** smeftutil.py 119 *)
Definition symm_keys_5 : list string := ["lq1"; "lq3"; "eu"; "ed"; "ud1"; "ud8"; "le"; "lu"; "ld"; "qe"; "qu1"; "qd1"; "qu8"; "qd8"].
(** smeftutil.py 121 *)
Definition symm_keys_6 : list string := ["ee"].
(** smeftutil.py 123 *)
Definition symm_keys_7 : list string := ["qque"].
(** smeftutil.py 125 *)
Definition symm_keys_8 : list string := ["qqql"].
(** smeftutil.py 127 *)
Definition symm_keys_9 : list string := ["llphiphi"].
(** symmetrize_2, smeftutil.py 130-138 *)
Definition symm_2_tab : list stmt :=
  [SConj [F2; F1] [F1; F2];
   SConj [F3; F1] [F1; F3];
   SConj [F3; F2] [F2; F3];
   SIm0 [F1; F1];
   SIm0 [F2; F2];
   SIm0 [F3; F3]].
(** symmetrize_4, smeftutil.py 140-259 *)
Definition symm_4_tab : list stmt :=
  [SRe [F1; F1; F2; F1] [F1; F1; F1; F2];
   SRe [F1; F1; F3; F1] [F1; F1; F1; F3];
   SRe [F1; F1; F3; F2] [F1; F1; F2; F3];
   SRe [F1; F2; F1; F1] [F1; F1; F1; F2];
   SRe [F1; F3; F1; F1] [F1; F1; F1; F3];
   SRe [F1; F3; F1; F2] [F1; F2; F1; F3];
   SRe [F1; F3; F2; F1] [F1; F2; F3; F1];
   SRe [F2; F1; F1; F1] [F1; F1; F1; F2];
   SRe [F2; F1; F1; F2] [F1; F2; F2; F1];
   SRe [F2; F1; F1; F3] [F1; F2; F3; F1];
   SRe [F2; F1; F2; F1] [F1; F2; F1; F2];
   SRe [F2; F1; F2; F2] [F1; F2; F2; F2];
   SRe [F2; F1; F2; F3] [F1; F2; F3; F2];
   SRe [F2; F1; F3; F1] [F1; F2; F1; F3];
   SRe [F2; F1; F3; F2] [F1; F2; F2; F3];
   SRe [F2; F1; F3; F3] [F1; F2; F3; F3];
   SRe [F2; F2; F1; F1] [F1; F1; F2; F2];
   SRe [F2; F2; F1; F2] [F1; F2; F2; F2];
   SRe [F2; F2; F1; F3] [F1; F3; F2; F2];
   SRe [F2; F2; F2; F1] [F1; F2; F2; F2];
   SRe [F2; F2; F3; F1] [F1; F3; F2; F2];
   SRe [F2; F2; F3; F2] [F2; F2; F2; F3];
   SRe [F2; F3; F1; F1] [F1; F1; F2; F3];
   SRe [F2; F3; F1; F2] [F1; F2; F2; F3];
   SRe [F2; F3; F1; F3] [F1; F3; F2; F3];
   SRe [F2; F3; F2; F1] [F1; F2; F3; F2];
   SRe [F2; F3; F2; F2] [F2; F2; F2; F3];
   SRe [F2; F3; F3; F1] [F1; F3; F3; F2];
   SRe [F3; F1; F1; F1] [F1; F1; F1; F3];
   SRe [F3; F1; F1; F2] [F1; F2; F3; F1];
   SRe [F3; F1; F1; F3] [F1; F3; F3; F1];
   SRe [F3; F1; F2; F1] [F1; F2; F1; F3];
   SRe [F3; F1; F2; F2] [F1; F3; F2; F2];
   SRe [F3; F1; F2; F3] [F1; F3; F3; F2];
   SRe [F3; F1; F3; F1] [F1; F3; F1; F3];
   SRe [F3; F1; F3; F2] [F1; F3; F2; F3];
   SRe [F3; F1; F3; F3] [F1; F3; F3; F3];
   SRe [F3; F2; F1; F1] [F1; F1; F2; F3];
   SRe [F3; F2; F1; F2] [F1; F2; F3; F2];
   SRe [F3; F2; F1; F3] [F1; F3; F3; F2];
   SRe [F3; F2; F2; F1] [F1; F2; F2; F3];
   SRe [F3; F2; F2; F2] [F2; F2; F2; F3];
   SRe [F3; F2; F2; F3] [F2; F3; F3; F2];
   SRe [F3; F2; F3; F1] [F1; F3; F2; F3];
   SRe [F3; F2; F3; F2] [F2; F3; F2; F3];
   SRe [F3; F2; F3; F3] [F2; F3; F3; F3];
   SRe [F3; F3; F1; F1] [F1; F1; F3; F3];
   SRe [F3; F3; F1; F2] [F1; F2; F3; F3];
   SRe [F3; F3; F1; F3] [F1; F3; F3; F3];
   SRe [F3; F3; F2; F1] [F1; F2; F3; F3];
   SRe [F3; F3; F2; F2] [F2; F2; F3; F3];
   SRe [F3; F3; F2; F3] [F2; F3; F3; F3];
   SRe [F3; F3; F3; F1] [F1; F3; F3; F3];
   SRe [F3; F3; F3; F2] [F2; F3; F3; F3];
   SIm0 [F1; F1; F1; F1];
   SIm [F1; F1; F2; F1] true [F1; F1; F1; F2];
   SIm0 [F1; F1; F2; F2];
   SIm [F1; F1; F3; F1] true [F1; F1; F1; F3];
   SIm [F1; F1; F3; F2] true [F1; F1; F2; F3];
   SIm0 [F1; F1; F3; F3];
   SIm [F1; F2; F1; F1] false [F1; F1; F1; F2];
   SIm0 [F1; F2; F2; F1];
   SIm [F1; F3; F1; F1] false [F1; F1; F1; F3];
   SIm [F1; F3; F1; F2] false [F1; F2; F1; F3];
   SIm [F1; F3; F2; F1] true [F1; F2; F3; F1];
   SIm0 [F1; F3; F3; F1];
   SIm [F2; F1; F1; F1] true [F1; F1; F1; F2];
   SIm0 [F2; F1; F1; F2];
   SIm [F2; F1; F1; F3] true [F1; F2; F3; F1];
   SIm [F2; F1; F2; F1] true [F1; F2; F1; F2];
   SIm [F2; F1; F2; F2] true [F1; F2; F2; F2];
   SIm [F2; F1; F2; F3] true [F1; F2; F3; F2];
   SIm [F2; F1; F3; F1] true [F1; F2; F1; F3];
   SIm [F2; F1; F3; F2] true [F1; F2; F2; F3];
   SIm [F2; F1; F3; F3] true [F1; F2; F3; F3];
   SIm0 [F2; F2; F1; F1];
   SIm [F2; F2; F1; F2] false [F1; F2; F2; F2];
   SIm [F2; F2; F1; F3] false [F1; F3; F2; F2];
   SIm [F2; F2; F2; F1] true [F1; F2; F2; F2];
   SIm0 [F2; F2; F2; F2];
   SIm [F2; F2; F3; F1] true [F1; F3; F2; F2];
   SIm [F2; F2; F3; F2] true [F2; F2; F2; F3];
   SIm0 [F2; F2; F3; F3];
   SIm [F2; F3; F1; F1] false [F1; F1; F2; F3];
   SIm [F2; F3; F1; F2] false [F1; F2; F2; F3];
   SIm [F2; F3; F1; F3] false [F1; F3; F2; F3];
   SIm [F2; F3; F2; F1] true [F1; F2; F3; F2];
   SIm [F2; F3; F2; F2] false [F2; F2; F2; F3];
   SIm [F2; F3; F3; F1] true [F1; F3; F3; F2];
   SIm0 [F2; F3; F3; F2];
   SIm [F3; F1; F1; F1] true [F1; F1; F1; F3];
   SIm [F3; F1; F1; F2] false [F1; F2; F3; F1];
   SIm0 [F3; F1; F1; F3];
   SIm [F3; F1; F2; F1] true [F1; F2; F1; F3];
   SIm [F3; F1; F2; F2] true [F1; F3; F2; F2];
   SIm [F3; F1; F2; F3] true [F1; F3; F3; F2];
   SIm [F3; F1; F3; F1] true [F1; F3; F1; F3];
   SIm [F3; F1; F3; F2] true [F1; F3; F2; F3];
   SIm [F3; F1; F3; F3] true [F1; F3; F3; F3];
   SIm [F3; F2; F1; F1] true [F1; F1; F2; F3];
   SIm [F3; F2; F1; F2] false [F1; F2; F3; F2];
   SIm [F3; F2; F1; F3] false [F1; F3; F3; F2];
   SIm [F3; F2; F2; F1] true [F1; F2; F2; F3];
   SIm [F3; F2; F2; F2] true [F2; F2; F2; F3];
   SIm0 [F3; F2; F2; F3];
   SIm [F3; F2; F3; F1] true [F1; F3; F2; F3];
   SIm [F3; F2; F3; F2] true [F2; F3; F2; F3];
   SIm [F3; F2; F3; F3] true [F2; F3; F3; F3];
   SIm0 [F3; F3; F1; F1];
   SIm [F3; F3; F1; F2] false [F1; F2; F3; F3];
   SIm [F3; F3; F1; F3] false [F1; F3; F3; F3];
   SIm [F3; F3; F2; F1] true [F1; F2; F3; F3];
   SIm0 [F3; F3; F2; F2];
   SIm [F3; F3; F2; F3] false [F2; F3; F3; F3];
   SIm [F3; F3; F3; F1] true [F1; F3; F3; F3];
   SIm [F3; F3; F3; F2] true [F2; F3; F3; F3];
   SIm0 [F3; F3; F3; F3]].
(** symmetrize_5, smeftutil.py 262-345 *)
Definition symm_5_tab : list stmt :=
  [SRe [F1; F1; F2; F1] [F1; F1; F1; F2];
   SRe [F1; F1; F3; F1] [F1; F1; F1; F3];
   SRe [F1; F1; F3; F2] [F1; F1; F2; F3];
   SRe [F2; F1; F1; F1] [F1; F2; F1; F1];
   SRe [F2; F1; F1; F2] [F1; F2; F2; F1];
   SRe [F2; F1; F1; F3] [F1; F2; F3; F1];
   SRe [F2; F1; F2; F1] [F1; F2; F1; F2];
   SRe [F2; F1; F2; F2] [F1; F2; F2; F2];
   SRe [F2; F1; F2; F3] [F1; F2; F3; F2];
   SRe [F2; F1; F3; F1] [F1; F2; F1; F3];
   SRe [F2; F1; F3; F2] [F1; F2; F2; F3];
   SRe [F2; F1; F3; F3] [F1; F2; F3; F3];
   SRe [F2; F2; F2; F1] [F2; F2; F1; F2];
   SRe [F2; F2; F3; F1] [F2; F2; F1; F3];
   SRe [F2; F2; F3; F2] [F2; F2; F2; F3];
   SRe [F3; F1; F1; F1] [F1; F3; F1; F1];
   SRe [F3; F1; F1; F2] [F1; F3; F2; F1];
   SRe [F3; F1; F1; F3] [F1; F3; F3; F1];
   SRe [F3; F1; F2; F1] [F1; F3; F1; F2];
   SRe [F3; F1; F2; F2] [F1; F3; F2; F2];
   SRe [F3; F1; F2; F3] [F1; F3; F3; F2];
   SRe [F3; F1; F3; F1] [F1; F3; F1; F3];
   SRe [F3; F1; F3; F2] [F1; F3; F2; F3];
   SRe [F3; F1; F3; F3] [F1; F3; F3; F3];
   SRe [F3; F2; F1; F1] [F2; F3; F1; F1];
   SRe [F3; F2; F1; F2] [F2; F3; F2; F1];
   SRe [F3; F2; F1; F3] [F2; F3; F3; F1];
   SRe [F3; F2; F2; F1] [F2; F3; F1; F2];
   SRe [F3; F2; F2; F2] [F2; F3; F2; F2];
   SRe [F3; F2; F2; F3] [F2; F3; F3; F2];
   SRe [F3; F2; F3; F1] [F2; F3; F1; F3];
   SRe [F3; F2; F3; F2] [F2; F3; F2; F3];
   SRe [F3; F2; F3; F3] [F2; F3; F3; F3];
   SRe [F3; F3; F2; F1] [F3; F3; F1; F2];
   SRe [F3; F3; F3; F1] [F3; F3; F1; F3];
   SRe [F3; F3; F3; F2] [F3; F3; F2; F3];
   SIm0 [F1; F1; F1; F1];
   SIm [F1; F1; F2; F1] true [F1; F1; F1; F2];
   SIm0 [F1; F1; F2; F2];
   SIm [F1; F1; F3; F1] true [F1; F1; F1; F3];
   SIm [F1; F1; F3; F2] true [F1; F1; F2; F3];
   SIm0 [F1; F1; F3; F3];
   SIm [F2; F1; F1; F1] true [F1; F2; F1; F1];
   SIm [F2; F1; F1; F2] true [F1; F2; F2; F1];
   SIm [F2; F1; F1; F3] true [F1; F2; F3; F1];
   SIm [F2; F1; F2; F1] true [F1; F2; F1; F2];
   SIm [F2; F1; F2; F2] true [F1; F2; F2; F2];
   SIm [F2; F1; F2; F3] true [F1; F2; F3; F2];
   SIm [F2; F1; F3; F1] true [F1; F2; F1; F3];
   SIm [F2; F1; F3; F2] true [F1; F2; F2; F3];
   SIm [F2; F1; F3; F3] true [F1; F2; F3; F3];
   SIm0 [F2; F2; F1; F1];
   SIm [F2; F2; F2; F1] true [F2; F2; F1; F2];
   SIm0 [F2; F2; F2; F2];
   SIm [F2; F2; F3; F1] true [F2; F2; F1; F3];
   SIm [F2; F2; F3; F2] true [F2; F2; F2; F3];
   SIm0 [F2; F2; F3; F3];
   SIm [F3; F1; F1; F1] true [F1; F3; F1; F1];
   SIm [F3; F1; F1; F2] true [F1; F3; F2; F1];
   SIm [F3; F1; F1; F3] true [F1; F3; F3; F1];
   SIm [F3; F1; F2; F1] true [F1; F3; F1; F2];
   SIm [F3; F1; F2; F2] true [F1; F3; F2; F2];
   SIm [F3; F1; F2; F3] true [F1; F3; F3; F2];
   SIm [F3; F1; F3; F1] true [F1; F3; F1; F3];
   SIm [F3; F1; F3; F2] true [F1; F3; F2; F3];
   SIm [F3; F1; F3; F3] true [F1; F3; F3; F3];
   SIm [F3; F2; F1; F1] true [F2; F3; F1; F1];
   SIm [F3; F2; F1; F2] true [F2; F3; F2; F1];
   SIm [F3; F2; F1; F3] true [F2; F3; F3; F1];
   SIm [F3; F2; F2; F1] true [F2; F3; F1; F2];
   SIm [F3; F2; F2; F2] true [F2; F3; F2; F2];
   SIm [F3; F2; F2; F3] true [F2; F3; F3; F2];
   SIm [F3; F2; F3; F1] true [F2; F3; F1; F3];
   SIm [F3; F2; F3; F2] true [F2; F3; F2; F3];
   SIm [F3; F2; F3; F3] true [F2; F3; F3; F3];
   SIm0 [F3; F3; F1; F1];
   SIm [F3; F3; F2; F1] true [F3; F3; F1; F2];
   SIm0 [F3; F3; F2; F2];
   SIm [F3; F3; F3; F1] true [F3; F3; F1; F3];
   SIm [F3; F3; F3; F2] true [F3; F3; F2; F3];
   SIm0 [F3; F3; F3; F3]].
(** symmetrize_6, smeftutil.py 348-476 *)
Definition symm_6_tab : list stmt :=
  [SRe [F1; F1; F2; F1] [F1; F1; F1; F2];
   SRe [F1; F1; F3; F1] [F1; F1; F1; F3];
   SRe [F1; F1; F3; F2] [F1; F1; F2; F3];
   SRe [F1; F2; F1; F1] [F1; F1; F1; F2];
   SRe [F1; F2; F2; F1] [F1; F1; F2; F2];
   SRe [F1; F2; F3; F1] [F1; F1; F2; F3];
   SRe [F1; F3; F1; F1] [F1; F1; F1; F3];
   SRe [F1; F3; F1; F2] [F1; F2; F1; F3];
   SRe [F1; F3; F2; F1] [F1; F1; F2; F3];
   SRe [F1; F3; F2; F2] [F1; F2; F2; F3];
   SRe [F1; F3; F3; F1] [F1; F1; F3; F3];
   SRe [F1; F3; F3; F2] [F1; F2; F3; F3];
   SRe [F2; F1; F1; F1] [F1; F1; F1; F2];
   SRe [F2; F1; F1; F2] [F1; F1; F2; F2];
   SRe [F2; F1; F1; F3] [F1; F1; F2; F3];
   SRe [F2; F1; F2; F1] [F1; F2; F1; F2];
   SRe [F2; F1; F2; F2] [F1; F2; F2; F2];
   SRe [F2; F1; F2; F3] [F1; F2; F3; F2];
   SRe [F2; F1; F3; F1] [F1; F2; F1; F3];
   SRe [F2; F1; F3; F2] [F1; F2; F2; F3];
   SRe [F2; F1; F3; F3] [F1; F2; F3; F3];
   SRe [F2; F2; F1; F1] [F1; F1; F2; F2];
   SRe [F2; F2; F1; F2] [F1; F2; F2; F2];
   SRe [F2; F2; F1; F3] [F1; F2; F2; F3];
   SRe [F2; F2; F2; F1] [F1; F2; F2; F2];
   SRe [F2; F2; F3; F1] [F1; F2; F2; F3];
   SRe [F2; F2; F3; F2] [F2; F2; F2; F3];
   SRe [F2; F3; F1; F1] [F1; F1; F2; F3];
   SRe [F2; F3; F1; F2] [F1; F2; F2; F3];
   SRe [F2; F3; F1; F3] [F1; F3; F2; F3];
   SRe [F2; F3; F2; F1] [F1; F2; F3; F2];
   SRe [F2; F3; F2; F2] [F2; F2; F2; F3];
   SRe [F2; F3; F3; F1] [F1; F2; F3; F3];
   SRe [F2; F3; F3; F2] [F2; F2; F3; F3];
   SRe [F3; F1; F1; F1] [F1; F1; F1; F3];
   SRe [F3; F1; F1; F2] [F1; F1; F2; F3];
   SRe [F3; F1; F1; F3] [F1; F1; F3; F3];
   SRe [F3; F1; F2; F1] [F1; F2; F1; F3];
   SRe [F3; F1; F2; F2] [F1; F2; F2; F3];
   SRe [F3; F1; F2; F3] [F1; F2; F3; F3];
   SRe [F3; F1; F3; F1] [F1; F3; F1; F3];
   SRe [F3; F1; F3; F2] [F1; F3; F2; F3];
   SRe [F3; F1; F3; F3] [F1; F3; F3; F3];
   SRe [F3; F2; F1; F1] [F1; F1; F2; F3];
   SRe [F3; F2; F1; F2] [F1; F2; F3; F2];
   SRe [F3; F2; F1; F3] [F1; F2; F3; F3];
   SRe [F3; F2; F2; F1] [F1; F2; F2; F3];
   SRe [F3; F2; F2; F2] [F2; F2; F2; F3];
   SRe [F3; F2; F2; F3] [F2; F2; F3; F3];
   SRe [F3; F2; F3; F1] [F1; F3; F2; F3];
   SRe [F3; F2; F3; F2] [F2; F3; F2; F3];
   SRe [F3; F2; F3; F3] [F2; F3; F3; F3];
   SRe [F3; F3; F1; F1] [F1; F1; F3; F3];
   SRe [F3; F3; F1; F2] [F1; F2; F3; F3];
   SRe [F3; F3; F1; F3] [F1; F3; F3; F3];
   SRe [F3; F3; F2; F1] [F1; F2; F3; F3];
   SRe [F3; F3; F2; F2] [F2; F2; F3; F3];
   SRe [F3; F3; F2; F3] [F2; F3; F3; F3];
   SRe [F3; F3; F3; F1] [F1; F3; F3; F3];
   SRe [F3; F3; F3; F2] [F2; F3; F3; F3];
   SIm0 [F1; F1; F1; F1];
   SIm [F1; F1; F2; F1] true [F1; F1; F1; F2];
   SIm0 [F1; F1; F2; F2];
   SIm [F1; F1; F3; F1] true [F1; F1; F1; F3];
   SIm [F1; F1; F3; F2] true [F1; F1; F2; F3];
   SIm0 [F1; F1; F3; F3];
   SIm [F1; F2; F1; F1] false [F1; F1; F1; F2];
   SIm0 [F1; F2; F2; F1];
   SIm [F1; F2; F3; F1] true [F1; F1; F2; F3];
   SIm [F1; F3; F1; F1] false [F1; F1; F1; F3];
   SIm [F1; F3; F1; F2] false [F1; F2; F1; F3];
   SIm [F1; F3; F2; F1] false [F1; F1; F2; F3];
   SIm [F1; F3; F2; F2] false [F1; F2; F2; F3];
   SIm0 [F1; F3; F3; F1];
   SIm [F1; F3; F3; F2] false [F1; F2; F3; F3];
   SIm [F2; F1; F1; F1] true [F1; F1; F1; F2];
   SIm0 [F2; F1; F1; F2];
   SIm [F2; F1; F1; F3] false [F1; F1; F2; F3];
   SIm [F2; F1; F2; F1] true [F1; F2; F1; F2];
   SIm [F2; F1; F2; F2] true [F1; F2; F2; F2];
   SIm [F2; F1; F2; F3] true [F1; F2; F3; F2];
   SIm [F2; F1; F3; F1] true [F1; F2; F1; F3];
   SIm [F2; F1; F3; F2] true [F1; F2; F2; F3];
   SIm [F2; F1; F3; F3] true [F1; F2; F3; F3];
   SIm0 [F2; F2; F1; F1];
   SIm [F2; F2; F1; F2] false [F1; F2; F2; F2];
   SIm [F2; F2; F1; F3] false [F1; F2; F2; F3];
   SIm [F2; F2; F2; F1] true [F1; F2; F2; F2];
   SIm0 [F2; F2; F2; F2];
   SIm [F2; F2; F3; F1] true [F1; F2; F2; F3];
   SIm [F2; F2; F3; F2] true [F2; F2; F2; F3];
   SIm0 [F2; F2; F3; F3];
   SIm [F2; F3; F1; F1] false [F1; F1; F2; F3];
   SIm [F2; F3; F1; F2] false [F1; F2; F2; F3];
   SIm [F2; F3; F1; F3] false [F1; F3; F2; F3];
   SIm [F2; F3; F2; F1] true [F1; F2; F3; F2];
   SIm [F2; F3; F2; F2] false [F2; F2; F2; F3];
   SIm [F2; F3; F3; F1] true [F1; F2; F3; F3];
   SIm0 [F2; F3; F3; F2];
   SIm [F3; F1; F1; F1] true [F1; F1; F1; F3];
   SIm [F3; F1; F1; F2] true [F1; F1; F2; F3];
   SIm0 [F3; F1; F1; F3];
   SIm [F3; F1; F2; F1] true [F1; F2; F1; F3];
   SIm [F3; F1; F2; F2] true [F1; F2; F2; F3];
   SIm [F3; F1; F2; F3] true [F1; F2; F3; F3];
   SIm [F3; F1; F3; F1] true [F1; F3; F1; F3];
   SIm [F3; F1; F3; F2] true [F1; F3; F2; F3];
   SIm [F3; F1; F3; F3] true [F1; F3; F3; F3];
   SIm [F3; F2; F1; F1] true [F1; F1; F2; F3];
   SIm [F3; F2; F1; F2] false [F1; F2; F3; F2];
   SIm [F3; F2; F1; F3] false [F1; F2; F3; F3];
   SIm [F3; F2; F2; F1] true [F1; F2; F2; F3];
   SIm [F3; F2; F2; F2] true [F2; F2; F2; F3];
   SIm0 [F3; F2; F2; F3];
   SIm [F3; F2; F3; F1] true [F1; F3; F2; F3];
   SIm [F3; F2; F3; F2] true [F2; F3; F2; F3];
   SIm [F3; F2; F3; F3] true [F2; F3; F3; F3];
   SIm0 [F3; F3; F1; F1];
   SIm [F3; F3; F1; F2] false [F1; F2; F3; F3];
   SIm [F3; F3; F1; F3] false [F1; F3; F3; F3];
   SIm [F3; F3; F2; F1] true [F1; F2; F3; F3];
   SIm0 [F3; F3; F2; F2];
   SIm [F3; F3; F2; F3] false [F2; F3; F3; F3];
   SIm [F3; F3; F3; F1] true [F1; F3; F3; F3];
   SIm [F3; F3; F3; F2] true [F2; F3; F3; F3];
   SIm0 [F3; F3; F3; F3]].
(** symmetrize_7, smeftutil.py 479-508 *)
Definition symm_7_tab : list stmt :=
  [SCopy [F2; F1; F1; F1] [F1; F2; F1; F1];
   SCopy [F2; F1; F1; F2] [F1; F2; F1; F2];
   SCopy [F2; F1; F1; F3] [F1; F2; F1; F3];
   SCopy [F2; F1; F2; F1] [F1; F2; F2; F1];
   SCopy [F2; F1; F2; F2] [F1; F2; F2; F2];
   SCopy [F2; F1; F2; F3] [F1; F2; F2; F3];
   SCopy [F2; F1; F3; F1] [F1; F2; F3; F1];
   SCopy [F2; F1; F3; F2] [F1; F2; F3; F2];
   SCopy [F2; F1; F3; F3] [F1; F2; F3; F3];
   SCopy [F3; F1; F1; F1] [F1; F3; F1; F1];
   SCopy [F3; F1; F1; F2] [F1; F3; F1; F2];
   SCopy [F3; F1; F1; F3] [F1; F3; F1; F3];
   SCopy [F3; F1; F2; F1] [F1; F3; F2; F1];
   SCopy [F3; F1; F2; F2] [F1; F3; F2; F2];
   SCopy [F3; F1; F2; F3] [F1; F3; F2; F3];
   SCopy [F3; F1; F3; F1] [F1; F3; F3; F1];
   SCopy [F3; F1; F3; F2] [F1; F3; F3; F2];
   SCopy [F3; F1; F3; F3] [F1; F3; F3; F3];
   SCopy [F3; F2; F1; F1] [F2; F3; F1; F1];
   SCopy [F3; F2; F1; F2] [F2; F3; F1; F2];
   SCopy [F3; F2; F1; F3] [F2; F3; F1; F3];
   SCopy [F3; F2; F2; F1] [F2; F3; F2; F1];
   SCopy [F3; F2; F2; F2] [F2; F3; F2; F2];
   SCopy [F3; F2; F2; F3] [F2; F3; F2; F3];
   SCopy [F3; F2; F3; F1] [F2; F3; F3; F1];
   SCopy [F3; F2; F3; F2] [F2; F3; F3; F2];
   SCopy [F3; F2; F3; F3] [F2; F3; F3; F3]].
(** symmetrize_8, smeftutil.py 511-537 *)
Definition symm_8_tab : list stmt :=
  [SCopy [F2; F1; F1; F1] [F1; F1; F2; F1];
   SCopy [F2; F1; F1; F2] [F1; F1; F2; F2];
   SCopy [F2; F1; F1; F3] [F1; F1; F2; F3];
   SCopy [F2; F2; F1; F1] [F1; F2; F2; F1];
   SCopy [F2; F2; F1; F2] [F1; F2; F2; F2];
   SCopy [F2; F2; F1; F3] [F1; F2; F2; F3];
   SCopy [F3; F1; F1; F1] [F1; F1; F3; F1];
   SCopy [F3; F1; F1; F2] [F1; F1; F3; F2];
   SCopy [F3; F1; F1; F3] [F1; F1; F3; F3];
   SLin [F3; F1; F2; F1] [(false, [F2; F3; F1; F1]); (false, [F2; F1; F3; F1]); (true, [F1; F3; F2; F1])];
   SLin [F3; F1; F2; F2] [(false, [F2; F3; F1; F2]); (false, [F2; F1; F3; F2]); (true, [F1; F3; F2; F2])];
   SLin [F3; F1; F2; F3] [(false, [F2; F3; F1; F3]); (false, [F2; F1; F3; F3]); (true, [F1; F3; F2; F3])];
   SLin [F3; F2; F1; F1] [(false, [F1; F3; F2; F1]); (false, [F1; F2; F3; F1]); (true, [F2; F3; F1; F1])];
   SLin [F3; F2; F1; F2] [(false, [F1; F3; F2; F2]); (false, [F1; F2; F3; F2]); (true, [F2; F3; F1; F2])];
   SLin [F3; F2; F1; F3] [(false, [F1; F3; F2; F3]); (false, [F1; F2; F3; F3]); (true, [F2; F3; F1; F3])];
   SCopy [F3; F2; F2; F1] [F2; F2; F3; F1];
   SCopy [F3; F2; F2; F2] [F2; F2; F3; F2];
   SCopy [F3; F2; F2; F3] [F2; F2; F3; F3];
   SCopy [F3; F3; F1; F1] [F1; F3; F3; F1];
   SCopy [F3; F3; F1; F2] [F1; F3; F3; F2];
   SCopy [F3; F3; F1; F3] [F1; F3; F3; F3];
   SCopy [F3; F3; F2; F1] [F2; F3; F3; F1];
   SCopy [F3; F3; F2; F2] [F2; F3; F3; F2];
   SCopy [F3; F3; F2; F3] [F2; F3; F3; F3]].
(** symmetrize_9, smeftutil.py 540-545 *)
Definition symm_9_tab : list stmt :=
  [SCopy [F2; F1] [F1; F2];
   SCopy [F3; F1] [F1; F3];
   SCopy [F3; F2] [F2; F3]].
(** flavor_rotation, smeftutil.py 580-675: for each operator, in order, the rotation
    matrices of its indices.  [R2 L R]: [C.T-contracted with L, R]; [R4 B D A X] are the
    einsum operands in source order (second, fourth, first, third index). *)
Definition rot_tab : list (string * rot) :=
  [("G", RNone);
   ("Gtilde", RNone);
   ("W", RNone);
   ("Wtilde", RNone);
   ("phi", RNone);
   ("phiBox", RNone);
   ("phiD", RNone);
   ("phiG", RNone);
   ("phiB", RNone);
   ("phiW", RNone);
   ("phiWB", RNone);
   ("phiGtilde", RNone);
   ("phiBtilde", RNone);
   ("phiWtilde", RNone);
   ("phiWtildeB", RNone);
   ("ephi", R2 (Lf, true) (Ef, false));
   ("eW", R2 (Lf, true) (Ef, false));
   ("eB", R2 (Lf, true) (Ef, false));
   ("uphi", R2 (Qf, true) (Uf, false));
   ("uW", R2 (Qf, true) (Uf, false));
   ("uB", R2 (Qf, true) (Uf, false));
   ("uG", R2 (Qf, true) (Uf, false));
   ("dphi", R2 (Qf, true) (Df, false));
   ("dW", R2 (Qf, true) (Df, false));
   ("dB", R2 (Qf, true) (Df, false));
   ("dG", R2 (Qf, true) (Df, false));
   ("phil1", R2 (Lf, true) (Lf, false));
   ("phil3", R2 (Lf, true) (Lf, false));
   ("phiq1", R2 (Qf, true) (Qf, false));
   ("phiq3", R2 (Qf, true) (Qf, false));
   ("llphiphi", R2 (Lf, false) (Lf, false));
   ("phie", R2 (Ef, true) (Ef, false));
   ("phiu", R2 (Uf, true) (Uf, false));
   ("phid", R2 (Df, true) (Df, false));
   ("phiud", R2 (Uf, true) (Df, false));
   ("ll", R4 (Lf, false) (Lf, false) (Lf, true) (Lf, true));
   ("ee", R4 (Ef, false) (Ef, false) (Ef, true) (Ef, true));
   ("le", R4 (Lf, false) (Ef, false) (Lf, true) (Ef, true));
   ("qq1", R4 (Qf, false) (Qf, false) (Qf, true) (Qf, true));
   ("qq3", R4 (Qf, false) (Qf, false) (Qf, true) (Qf, true));
   ("dd", R4 (Df, false) (Df, false) (Df, true) (Df, true));
   ("uu", R4 (Uf, false) (Uf, false) (Uf, true) (Uf, true));
   ("ud8", R4 (Uf, false) (Df, false) (Uf, true) (Df, true));
   ("ud1", R4 (Uf, false) (Df, false) (Uf, true) (Df, true));
   ("qu1", R4 (Qf, false) (Uf, false) (Qf, true) (Uf, true));
   ("qu8", R4 (Qf, false) (Uf, false) (Qf, true) (Uf, true));
   ("qd1", R4 (Qf, false) (Df, false) (Qf, true) (Df, true));
   ("qd8", R4 (Qf, false) (Df, false) (Qf, true) (Df, true));
   ("quqd1", R4 (Uf, false) (Df, false) (Qf, true) (Qf, true));
   ("quqd8", R4 (Uf, false) (Df, false) (Qf, true) (Qf, true));
   ("lq1", R4 (Lf, false) (Qf, false) (Lf, true) (Qf, true));
   ("lq3", R4 (Lf, false) (Qf, false) (Lf, true) (Qf, true));
   ("ld", R4 (Lf, false) (Df, false) (Lf, true) (Df, true));
   ("lu", R4 (Lf, false) (Uf, false) (Lf, true) (Uf, true));
   ("qe", R4 (Qf, false) (Ef, false) (Qf, true) (Ef, true));
   ("ed", R4 (Ef, false) (Df, false) (Ef, true) (Df, true));
   ("eu", R4 (Ef, false) (Uf, false) (Ef, true) (Uf, true));
   ("ledq", R4 (Ef, false) (Qf, false) (Lf, true) (Df, true));
   ("lequ1", R4 (Ef, false) (Uf, false) (Lf, true) (Qf, true));
   ("lequ3", R4 (Ef, false) (Uf, false) (Lf, true) (Qf, true));
   ("duql", R4 (Uf, false) (Lf, false) (Df, false) (Qf, false));
   ("qque", R4 (Qf, false) (Ef, false) (Qf, false) (Uf, false));
   ("qqql", R4 (Qf, false) (Lf, false) (Qf, false) (Qf, false));
   ("duue", R4 (Uf, false) (Ef, false) (Df, false) (Uf, false))].
