(* XR.v -- extended reals: exact real arithmetic plus +inf, -inf and nan with
   the IEEE-754 / numpy special-case rules.

   Simplifications with respect to binary64: no rounding, no overflow or
   underflow, zero has no sign (x / 0 takes the sign of x). *)
From Coq Require Import Reals Qreals.
From Verif Require Export Num.
Open Scope R_scope.

Inductive xr : Type :=
| Fin (r : R)
| PInf
| NInf
| NaN.

Definition rltb (a b : R) : bool := if Rlt_dec a b then true else false.
Definition rleb (a b : R) : bool := if Rle_dec a b then true else false.
Definition reqb (a b : R) : bool := if Req_EM_T a b then true else false.

Definition x_add (x y : xr) : xr :=
  match x, y with
  | NaN, _ | _, NaN => NaN
  | Fin a, Fin b => Fin (a + b)
  | PInf, NInf | NInf, PInf => NaN
  | PInf, _ | _, PInf => PInf
  | NInf, _ | _, NInf => NInf
  end.

Definition x_opp (x : xr) : xr :=
  match x with Fin a => Fin (- a) | PInf => NInf | NInf => PInf | NaN => NaN end.

Definition x_sub (x y : xr) : xr :=
  match x, y with Fin a, Fin b => Fin (a - b) | _, _ => x_add x (x_opp y) end.

(* sign of a finite real as an infinity times it: r * inf *)
Definition inf_times (r : R) : xr :=
  if rltb 0 r then PInf else if rltb r 0 then NInf else NaN.

Definition x_mul (x y : xr) : xr :=
  match x, y with
  | NaN, _ | _, NaN => NaN
  | Fin a, Fin b => Fin (a * b)
  | PInf, PInf | NInf, NInf => PInf
  | PInf, NInf | NInf, PInf => NInf
  | PInf, Fin b => inf_times b
  | Fin a, PInf => inf_times a
  | NInf, Fin b => inf_times (- b)
  | Fin a, NInf => inf_times (- a)
  end.

Definition x_div (x y : xr) : xr :=
  match x, y with
  | NaN, _ | _, NaN => NaN
  | Fin a, Fin b => if reqb b 0 then inf_times a else Fin (a / b)
  | Fin _, _ => Fin 0
  | PInf, Fin b => if rltb b 0 then NInf else PInf
  | NInf, Fin b => if rltb b 0 then PInf else NInf
  | _, _ => NaN
  end.

Definition x_exp (x : xr) : xr :=
  match x with Fin a => Fin (exp a) | PInf => PInf | NInf => Fin 0 | NaN => NaN end.
Definition x_ln (x : xr) : xr :=
  match x with
  | Fin a => if rltb 0 a then Fin (ln a) else if reqb a 0 then NInf else NaN
  | PInf => PInf | NInf => NaN | NaN => NaN
  end.
Definition log10R (a : R) : R := ln a / ln 10.
Definition x_log10 (x : xr) : xr :=
  match x with
  | Fin a => if rltb 0 a then Fin (log10R a) else if reqb a 0 then NInf else NaN
  | PInf => PInf | NInf => NaN | NaN => NaN
  end.
Definition pow10R (a : R) : R := exp (a * ln 10).
Definition x_pow10 (x : xr) : xr :=
  match x with Fin a => Fin (pow10R a) | PInf => PInf | NInf => Fin 0 | NaN => NaN end.
Definition x_sqrt (x : xr) : xr :=
  match x with
  | Fin a => if rltb a 0 then NaN else Fin (sqrt a)
  | PInf => PInf | NInf => NaN | NaN => NaN
  end.
(* Simplification: a negative Python float ** 1.5 is a complex number; nan here *)
Definition x_pow15 (x : xr) : xr :=
  match x with
  | Fin a => if rltb a 0 then NaN else Fin (a * sqrt a)
  | PInf => PInf | NInf => NaN | NaN => NaN
  end.
Definition x_pow (x : xr) (n : nat) : xr :=
  match x with
  | Fin a => Fin (a ^ n)
  | NaN => match n with O => Fin 1 | _ => NaN end
  | PInf => match n with O => Fin 1 | _ => PInf end
  | NInf => match n with O => Fin 1 | _ => if Nat.even n then PInf else NInf end
  end.

Definition x_ltb (x y : xr) : bool :=
  match x, y with
  | Fin a, Fin b => rltb a b
  | NInf, Fin _ | NInf, PInf | Fin _, PInf => true
  | _, _ => false
  end.
Definition x_eqb (x y : xr) : bool :=
  match x, y with
  | Fin a, Fin b => reqb a b
  | NInf, NInf | PInf, PInf => true
  | _, _ => false
  end.
Definition x_leb (x y : xr) : bool := x_ltb x y || x_eqb x y.
Definition x_isnan (x : xr) : bool := match x with NaN => true | _ => false end.
Definition x_isfinite (x : xr) : bool := match x with Fin _ => true | _ => false end.

(* nearest integer to a real, ties to even *)
Definition round_even (y : R) : Z :=
  let f := Int_part y in
  let d := y - IZR f in
  if Rlt_dec d (/ 2) then f
  else if Rlt_dec (/ 2) d then (f + 1)%Z
  else if Z.even f then f else (f + 1)%Z.

Definition x_round (d : nat) (x : xr) : Z :=
  match x with Fin a => round_even (a * 10 ^ d) | _ => 0%Z end.

Global Instance NumXR : Num xr := {|
  nofQ := fun q => Fin (Q2R q);
  nnan := NaN;
  ninf := PInf;
  nadd := x_add;
  nsub := x_sub;
  nmul := x_mul;
  ndiv := x_div;
  nopp := x_opp;
  nexp := x_exp;
  nln := x_ln;
  nlog10 := x_log10;
  npow10 := x_pow10;
  nsqrt := x_sqrt;
  npow15 := x_pow15;
  npow := x_pow;
  nltb := x_ltb;
  nleb := x_leb;
  neqb := x_eqb;
  nisnan := x_isnan;
  nisfinite := x_isfinite;
  nround := x_round
|}.
