(** What C82 means: the plan read from the answer of the deployment step. *)
From Verif Require Import Base Dict.

(** the decision is yes, or no *)
Definition yes {K} `{EqB K} (d : dict K Z) (k : K) : Prop := dget d k = Some 1%Z.
Definition no {K} `{EqB K} (d : dict K Z) (k : K) : Prop := dget d k = Some 0%Z.
