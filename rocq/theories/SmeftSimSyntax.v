(** Syntax of the tables in SmeftSimTab.v. *)
From Coq Require Import String List NArith.
Import ListNotations.

(** What a row of smeftsim_card_fill holds before formatting, for a coefficient
    W and the cutoff scale L:
    abs(W) * L**2, abs(W * L**2), angle(W), W * L**2, L. *)
Inductive vkind := VAbs | VAbsAll | VAngle | VRaw | VLambda.
(** [[i, ..., value, label]]; [r_name] is the name of the coefficient. *)
Record row := Row { r_ix : list N; r_kind : vkind; r_name : string; r_label : string }.
