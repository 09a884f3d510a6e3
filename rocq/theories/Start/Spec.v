(** What is said about the initialization of a BMI instance *)
From Coq Require Import String ZArith.
From stdpp Require Import prelude strings.
From Verif.Yaml Require Import Model.
Local Open Scope Z_scope.

Section spec.
  Context {D : Type}.
  Definition counts (cs : list (call D)) : list Z := omap (fun c => match c with YSetGridCellCount n => Some n | _ => None end) cs.
  Definition threads (cs : list (call D)) : list Z := omap (fun c => match c with YThreadCount n => Some n | _ => None end) cs.
  (** [p] is the part of the calls up to the first place where there was one of each kind; all, if there is none. *)
  Definition looked_at (cs p : list (call D)) : Prop :=
    (p = cs /\ (forall q c r, cs = q ++ c :: r -> counts q = [] \/ threads q = [])) \/
    (exists q c r, p = q ++ [c] /\ cs = q ++ c :: r /\ (counts q = [] \/ threads q = []) /\ counts p <> [] /\ threads p <> []).
End spec.
