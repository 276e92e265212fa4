(* SFNum.v -- the model's numbers as IEEE-754 binary64 (Python floats, numpy float64).

   Basic arithmetic, square root and comparisons are those of Coq's SpecFloat,
   which is computable and correctly rounded to nearest even.  The elementary
   functions are not correctly rounded by any standard, so they are parameters
   (a record [libm]). *)
From Coq Require Import Floats.SpecFloat ZArith QArith.
From Verif Require Export Num.

Definition sf := spec_float.

Record libm := {
  lm_exp : sf -> sf;
  lm_ln : sf -> sf;
  lm_log10 : sf -> sf;
  lm_pow10 : sf -> sf;            (* 10.0 ** x *)
  lm_pow15 : sf -> sf;            (* x ** 1.5 *)
  lm_powi : sf -> nat -> sf       (* x ** n for n <> 2; numpy computes x ** 2 as x * x *)
}.

Definition sf_add : sf -> sf -> sf := SFadd 53 1024.
Definition sf_sub : sf -> sf -> sf := SFsub 53 1024.
Definition sf_mul : sf -> sf -> sf := SFmul 53 1024.
Definition sf_div : sf -> sf -> sf := SFdiv 53 1024.
Definition sf_sqrt : sf -> sf := SFsqrt 53 1024.
Definition sf_ofZ (z : Z) : sf := binary_normalize 53 1024 z 0 false.

(* A decimal literal num/den.  Correctly rounded when num and den are below 2^53,
   as in every literal of calkulate. *)
Definition sf_ofQ (q : Q) : sf := sf_div (sf_ofZ (Qnum q)) (sf_ofZ (Zpos (Qden q))).

Definition sf_isnan (x : sf) : bool := match x with S754_nan => true | _ => false end.
Definition sf_isfinite (x : sf) : bool :=
  match x with S754_zero _ | S754_finite _ _ _ => true | _ => false end.

(* nearest integer to a / b, ties to even; b > 0 *)
Definition zround (a b : Z) : Z :=
  let q := (a / b)%Z in
  let r := (a mod b)%Z in
  if (2 * r <? b)%Z then q else if (b <? 2 * r)%Z then (q + 1)%Z
  else if Z.even q then q else (q + 1)%Z.

Definition sf_round (d : nat) (x : sf) : Z :=
  match x with
  | S754_finite s m e =>
      let a := ((if s then Zneg m else Zpos m) * 10 ^ Z.of_nat d)%Z in
      if (0 <=? e)%Z then (a * 2 ^ e)%Z else zround a (2 ^ (- e))
  | _ => 0%Z
  end.

#[export] Instance Num_sf (lm : libm) : Num sf := {
  nofQ := sf_ofQ;
  nnan := S754_nan;
  ninf := S754_infinity false;
  nadd := sf_add;
  nsub := sf_sub;
  nmul := sf_mul;
  ndiv := sf_div;
  nopp := SFopp;
  nexp := lm_exp lm;
  nln := lm_ln lm;
  nlog10 := lm_log10 lm;
  npow10 := lm_pow10 lm;
  nsqrt := sf_sqrt;
  npow15 := lm_pow15 lm;
  npow := fun x n => match n with 2%nat => sf_mul x x | _ => lm_powi lm x n end;
  nltb := SFltb;
  nleb := SFleb;
  neqb := SFeqb;
  nisnan := sf_isnan;
  nisfinite := sf_isfinite;
  nround := sf_round
}.
