(* SpecLoss.v -- vocabulary for the statements about the DIC loss model (C76-C80, C90).
   Nothing here refers to the model. *)
From Coq Require Import Reals Sorted.
From Verif Require Export XR.
Open Scope list_scope.
Open Scope R_scope.

(* the titrant masses 0, step, 2 step, ... *)
Definition grid (step : R) (n : nat) : list R := map (fun i => INR i * step) (seq 0 n).

(* sum of squares *)
Definition sumsq (l : list R) : R := fold_right (fun x s => x ^ 2 + s) 0 l.

(* x lies between y1 and y2 *)
Definition between (x y1 y2 : R) : Prop := Rmin y1 y2 <= x <= Rmax y1 y2.

(* What is assumed of an interpolator [f xs ys x] for increasing knots xs (PCHIP, the
   shape-preserving cubic interpolator of scipy, has these properties, and so has piecewise linear
   interpolation): it passes through the data, it stays between neighbouring data, and it
   reproduces straight lines. *)
Record shape_preserving (f : list R -> list R -> R -> R) : Prop := {
  sp_knots : forall xs ys i x y, StronglySorted Rlt xs -> length ys = length xs ->
    nth_error xs i = Some x -> nth_error ys i = Some y -> f xs ys x = y;
  sp_between : forall xs ys i x1 x2 y1 y2 x, StronglySorted Rlt xs -> length ys = length xs ->
    nth_error xs i = Some x1 -> nth_error xs (S i) = Some x2 ->
    nth_error ys i = Some y1 -> nth_error ys (S i) = Some y2 ->
    x1 <= x <= x2 -> between (f xs ys x) y1 y2;
  sp_lines : forall xs a b lo hi x, StronglySorted Rlt xs ->
    nth_error xs 0 = Some lo -> nth_error xs (pred (length xs)) = Some hi -> lo <= x <= hi ->
    f xs (map (fun x => a * x + b) xs) x = a * x + b
}.
