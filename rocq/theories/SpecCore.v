(* SpecCore.v -- vocabulary for the statements about Gran plots, solvers and
   calibration (C25-C45). *)
From Coq Require Import Reals.
From Verif Require Export SpecConvert.
Open Scope R_scope.

(* point i is marked as used *)
Definition used_at (u : list bool) (i : nat) : Prop := nth_error u i = Some true.

(* how many points are marked as used *)
Definition n_used (u : list bool) : nat := length (filter (fun b => b) u).

Definition is_max (mx : R) (l : list R) : Prop := In mx l /\ forall v, In v l -> v <= mx.
