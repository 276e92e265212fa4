(* SpecPlot.v -- what a figure must show, in words that do not depend on the plotting functions *)
From Coq Require Import List Permutation.
From Verif Require Import SpecDataset Plot.

(* the points whose flag is set, and the others, in their order *)
Definition flagged {A} (G : list bool) (pts : list A) : list A := map snd (filter (fun gp => fst gp) (combine G pts)).
Definition unflagged {A} (G : list bool) (pts : list A) : list A := map snd (filter (fun gp => negb (fst gp)) (combine G pts)).

(* every point of pts is drawn once: the flagged ones filled, the others open *)
Definition drawn_once {A} (G : list bool) (pts : list (A * A)) (marks : list (mark A)) : Prop :=
  marks = [Unused (unflagged G pts); Used (flagged G pts)] /\
  Permutation (flagged G pts ++ unflagged G pts) pts.

Section Spec.
Context {T : Type} `{Num T}.

(* the points (titrant mass in g, y) of a titration table: one for each row of the table *)
Definition points_of (t : titration T) (y : list T) (pts : list (T * T)) : Prop :=
  exists tm, dget "titrant_mass" (ti_table t) = Some tm /\ length pts = length tm /\ length y = length tm /\
    forall i m v, nth_error tm i = Some m -> nth_error y i = Some v -> nth_error pts i = Some (m ⊗ nofQ 1000, v).

(* a figure that can be drawn, and one that stops with an AttributeError or another exception *)
Definition can_draw {A} (x : res A) : Prop := exists f, x = Ok f.
Definition cannot_draw {A} (x : res A) : Prop := exists e, x = Err e.
Definition no_attribute {A} (x : res A) : Prop := exists k, x = Err (AttributeError k).
End Spec.

Section SpecData.
Context {T : Type} `{Num T}.

(* the points of a dataset plot: one for each row, x the analysis number or the chosen column, y the column yvar *)
Definition analyses (ds : frame T) (xvar : option string) (yvar : string) (pts : list (val T * val T)) : Prop :=
  length pts = n_rows ds /\
  forall i x y, nth_error pts i = Some (x, y) ->
    value ds i yvar = Some y /\ match xvar with None => x = VInt (Z.of_nat i) | Some c => value ds i c = Some x end.

(* which analyses are good references: all of them where the column is missing *)
Definition good_flags (ds : frame T) (G : list bool) : Prop :=
  length G = n_rows ds /\
  forall i b, nth_error G i = Some b ->
    if mem_str "reference_good" (f_cols ds) then value ds i "reference_good" = Some (VBool b) else b = true.
End SpecData.
