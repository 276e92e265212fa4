(* PropDilution64.v -- C118: dilution with the numbers the program computes with (binary64) *)
From Coq Require Import Reals Floats.SpecFloat ZArith Lia Lra.
From Flocq Require Import Core BinarySingleNaN Plus_error Relative.
From Verif Require Import Core SFNum PropDrift.
Open Scope string_scope.
Open Scope list_scope.

#[local] Instance Hprec' : FLX.Prec_gt_0 53 := eq_refl _.
#[local] Instance Hmax' : Prec_lt_emax 53 1024 := eq_refl _.

(* SpecFloat's division is Flocq's *)
Lemma div_equiv (x y : binary_float 53 1024) : sf_div (B2SF x) (B2SF y) = B2SF (Bdiv mode_NE x y).
Proof.
  case x as [sx|sx| |sx mx ex Bx]; case y as [sy|sy| |sy my ey By]; try (reflexivity || (simpl; now case Bool.eqb)).
  unfold sf_div. simpl. rewrite B2SF_SF2B.
  set (melz := SFdiv_core_binary _ _ _ _ _ _). case melz as [[mz ez] lz]. apply binary_round_aux_equiv.
Qed.

(* rounding of the reals to binary64 *)
Notation rnd := (round radix2 (FLT_exp (SpecFloat.emin 53 1024) 53) ZnearestE).
Lemma rnd_mono x y : (x <= y)%R -> (rnd x <= rnd y)%R.
Proof. apply round_le; [apply FLT_exp_valid; exact Hprec'|apply valid_rnd_N]. Qed.
Lemma fmt_real x : finite64 x -> generic_format radix2 (FLT_exp (SpecFloat.emin 53 1024) 53) (real_of x).
Proof.
  intros F. destruct (finite64_B x F) as (b & -> & _). unfold real_of. rewrite SF2R_B2SF. apply (generic_format_B2R 53 1024 b).
Qed.
Lemma rnd_id x : finite64 x -> rnd (real_of x) = real_of x.
Proof. intros F. apply round_generic; [apply valid_rnd_N|]. now apply fmt_real. Qed.
Lemma rnd_bpow e : (-1000 <= e)%Z -> rnd (bpow radix2 e) = bpow radix2 e.
Proof.
  intros L. apply round_generic; [apply valid_rnd_N|]. apply generic_format_bpow.
  unfold FLT_exp, SpecFloat.emin. lia.
Qed.
Lemma rnd_1 : rnd 1%R = 1%R.
Proof. change 1%R with (bpow radix2 0). apply rnd_bpow. lia. Qed.
Lemma rnd_0 : rnd 0%R = 0%R.
Proof. apply round_0. apply valid_rnd_N. Qed.

Lemma add_is_rnd x y : finite64 x -> finite64 y -> (Rabs (real_of x) + Rabs (real_of y) <= bpow radix2 1001)%R ->
  finite64 (sf_add x y) /\ real_of (sf_add x y) = rnd (real_of x + real_of y)%R.
Proof.
  intros Fx Fy L. destruct (finite64_B x Fx) as (bx & -> & Hx). destruct (finite64_B y Fy) as (by_ & -> & Hy).
  unfold real_of in *. rewrite !SF2R_B2SF in *. rewrite add_equiv.
  assert (C := Bplus_correct 53 1024 Hprec' Hmax' mode_NE bx by_ Hx Hy). cbn [round_mode] in C.
  change (SpecFloat.fexp 53 1024) with (FLT_exp (SpecFloat.emin 53 1024) 53) in C.
  assert (Lt : (Rabs (rnd (B2R bx + B2R by_)) < bpow radix2 1024)%R).
  { apply Rle_lt_trans with (bpow radix2 1001); [|apply bpow_lt; lia].
    apply abs_round_le_generic; [apply FLT_exp_valid; exact Hprec'|apply valid_rnd_N| |].
    - apply generic_format_bpow. unfold FLT_exp, SpecFloat.emin. lia.
    - eapply Rle_trans; [apply Rabs_triang|exact L]. }
  rewrite (Rlt_bool_true _ _ Lt) in C. destruct C as (C1 & C2 & _).
  split; [apply finite64_of_B; exact C2|]. rewrite SF2R_B2SF. exact C1.
Qed.

Lemma div_is_rnd x y : finite64 x -> finite64 y -> (real_of y <> 0)%R -> (Rabs (real_of x / real_of y) <= 1)%R ->
  finite64 (sf_div x y) /\ real_of (sf_div x y) = rnd (real_of x / real_of y)%R.
Proof.
  intros Fx Fy N L. destruct (finite64_B x Fx) as (bx & -> & Hx). destruct (finite64_B y Fy) as (by_ & -> & Hy).
  unfold real_of in *. rewrite !SF2R_B2SF in *. rewrite div_equiv.
  assert (C := Bdiv_correct 53 1024 Hprec' Hmax' mode_NE bx by_ N). cbn [round_mode] in C.
  change (SpecFloat.fexp 53 1024) with (FLT_exp (SpecFloat.emin 53 1024) 53) in C.
  assert (Lt : (Rabs (rnd (B2R bx / B2R by_)) < bpow radix2 1024)%R).
  { apply Rle_lt_trans with (bpow radix2 0); [|apply bpow_lt; lia].
    apply abs_round_le_generic; [apply FLT_exp_valid; exact Hprec'|apply valid_rnd_N| |exact L].
    apply generic_format_bpow. unfold FLT_exp, SpecFloat.emin. lia. }
  rewrite (Rlt_bool_true _ _ Lt) in C. destruct C as (C1 & C2 & _).
  split; [apply finite64_of_B; rewrite C2; exact Hx|]. rewrite SF2R_B2SF. exact C1.
Qed.

(* the factor: two roundings *)
Lemma factor_rounded lm M m : finite64 M -> finite64 m -> (0 < real_of M)%R -> (0 <= real_of m)%R ->
  (real_of m + real_of M <= bpow radix2 1001)%R ->
  let f := @get_dilution_factor sf (Num_sf lm) m M in
  let s := rnd (real_of m + real_of M)%R in
  finite64 f /\ real_of f = rnd (real_of M / s)%R /\ (real_of M <= s)%R /\ (real_of m <= s)%R.
Proof.
  intros FM Fm PM Pm L f s.
  destruct (add_is_rnd m M Fm FM) as (Fs & Es).
  { rewrite !Rabs_right by lra. exact L. }
  fold s in Es.
  assert (LM : (real_of M <= s)%R).
  { unfold s. rewrite <- (rnd_id M FM) at 1. apply rnd_mono. lra. }
  assert (Lm : (real_of m <= s)%R).
  { unfold s. rewrite <- (rnd_id m Fm) at 1. apply rnd_mono. lra. }
  unfold f, get_dilution_factor. cbn [ndiv nadd Num_sf].
  destruct (div_is_rnd M (sf_add m M) FM Fs) as (Ff & Ef).
  - rewrite Es. lra.
  - rewrite Es, Rabs_right.
    + apply Rmult_le_reg_r with s; [lra|]. field_simplify; lra.
    + apply Rle_ge, Rmult_le_pos; [lra|]. left. apply Rinv_0_lt_compat. lra.
  - rewrite Es in Ef. auto.
Qed.

Lemma rel_div x : (bpow radix2 (-1022) <= Rabs x)%R -> exists d, (Rabs d <= eps64)%R /\ rnd x = (x * (1 + d))%R.
Proof.
  intros L. destruct (relative_error_N_FLT_ex radix2 (SpecFloat.emin 53 1024) 53 eq_refl (fun x => negb (Z.even x)) x) as (d & B & E).
  - exact L.
  - exists d. split; [|exact E]. eapply Rle_trans; [exact B|]. unfold eps64. cbn. lra.
Qed.

(** C118: the dilution factor in binary64.  Inputs are any finite binary64 numbers, with M + m not astronomically large. *)
Theorem C118_factor_in_binary64 : forall (lm : libm) (M m : sf),
  finite64 M -> finite64 m -> (0 < real_of M)%R -> (0 <= real_of m)%R ->
  (real_of m + real_of M <= powerRZ 2 1001)%R ->
  let f := @get_dilution_factor sf (Num_sf lm) m M in
  let exact := (real_of M / (real_of M + real_of m))%R in
  finite64 f /\ (0 <= real_of f <= 1)%R /\
  (real_of m = 0 -> real_of f = 1)%R /\
  (powerRZ 2 (-1000) <= exact -> 0 < real_of f /\ Rabs (real_of f - exact) <= 3 * eps64 * exact)%R /\
  (forall m', finite64 m' -> (real_of m <= real_of m')%R -> (real_of m' + real_of M <= powerRZ 2 1001)%R ->
     (real_of (@get_dilution_factor sf (Num_sf lm) m' M) <= real_of f)%R).
Proof.
  intros lm M m FM Fm PM Pm L f exact.
  change (powerRZ 2) with (powerRZ (IZR radix2)) in *. rewrite <- !bpow_powerRZ in *.
  destruct (factor_rounded lm M m FM Fm PM Pm L) as (Ff & Ef & LM & Lm). fold f in Ff, Ef.
  set (s := rnd (real_of m + real_of M)%R) in *.
  assert (Ps : (0 < s)%R) by lra.
  assert (I := Rinv_0_lt_compat s Ps).
  split; [exact Ff|]. split; [|split; [|split]].
  - rewrite Ef. split.
    + rewrite <- rnd_0. apply rnd_mono. apply Rmult_le_pos; lra.
    + rewrite <- rnd_1. apply rnd_mono. apply Rmult_le_reg_r with s; [exact Ps|].
      unfold Rdiv. rewrite Rmult_assoc, Rinv_l by lra. lra.
  - intros Z. rewrite Ef. unfold s. rewrite Z, Rplus_0_l, (rnd_id M FM).
    unfold Rdiv. rewrite Rinv_r by lra. apply rnd_1.
  - intros B.
    destruct (add_error m M Fm FM) as (_ & d1 & B1 & E1).
    { rewrite !Rabs_right by lra. exact L. }
    destruct (add_is_rnd m M Fm FM) as (_ & Es).
    { rewrite !Rabs_right by lra. exact L. }
    fold s in Es. rewrite Es in E1.
    assert (Ue : (0 < eps64 < /1000)%R) by (unfold eps64; lra).
    apply Rabs_le_inv in B1.
    assert (Q : (real_of M / s = exact / (1 + d1))%R).
    { rewrite E1. unfold exact. field. split; lra. }
    assert (P0 := bpow_gt_0 radix2 (-1001)).
    assert (P1 : (bpow radix2 (-1000) = 2 * bpow radix2 (-1001))%R).
    { change 2%R with (bpow radix2 1). rewrite <- bpow_plus. reflexivity. }
    assert (Pe : (0 < exact)%R) by lra.
    assert (Qb : (exact <= 2 * (exact / (1 + d1)))%R).
    { apply Rmult_le_reg_r with (1 + d1)%R; [lra|]. field_simplify; [nra|lra]. }
    destruct (rel_div (real_of M / s)) as (d2 & B2 & E2).
    { rewrite Q, Rabs_right by lra. apply Rle_trans with (bpow radix2 (-1001)); [apply bpow_le; lia|lra]. }
    rewrite Ef, E2, Q. apply Rabs_le_inv in B2. split.
    + apply Rmult_lt_0_compat; lra.
    + replace (exact / (1 + d1) * (1 + d2) - exact)%R with (exact * ((d2 - d1) / (1 + d1)))%R by (field; lra).
      rewrite Rabs_mult, (Rabs_right exact) by lra. rewrite (Rmult_comm exact). apply Rmult_le_compat_r; [lra|].
      apply Rabs_le. split; apply Rmult_le_reg_r with (1 + d1)%R; try lra; field_simplify; nra.
  - intros m' Fm' Le L'.
    destruct (factor_rounded lm M m' FM Fm' PM ltac:(lra) L') as (_ & Ef' & LM' & _).
    rewrite Ef, Ef'. apply rnd_mono. unfold Rdiv. apply Rmult_le_compat_l; [lra|].
    apply Rinv_le; [exact Ps|]. unfold s. apply rnd_mono. lra.
Qed.
Print Assumptions C118_factor_in_binary64.

(* 1 kg of analyte and 1/8 kg of titrant *)
Definition kg (m : positive) (e : Z) : sf := SpecFloat.binary_normalize 53 1024 (Zpos m) e false.
Example C118_nonvacuous :
  finite64 (kg 1 0) /\ finite64 (kg 1 (-3)) /\
  (0 < real_of (kg 1 0))%R /\ (0 <= real_of (kg 1 (-3)))%R /\
  (real_of (kg 1 (-3)) + real_of (kg 1 0) <= powerRZ 2 1001)%R /\
  (powerRZ 2 (-1000) <= real_of (kg 1 0) / (real_of (kg 1 0) + real_of (kg 1 (-3))))%R.
Proof.
  assert (E1 : real_of (kg 1 0) = 1%R) by (vm_compute; lra).
  assert (E8 : real_of (kg 1 (-3)) = (/8)%R) by (vm_compute; lra).
  rewrite E1, E8. replace (1 / (1 + /8))%R with (8/9)%R by field.
  change (powerRZ 2) with (powerRZ (IZR radix2)). rewrite <- !bpow_powerRZ.
  assert (bpow radix2 (-1000) <= bpow radix2 (-1))%R by (apply bpow_le; lia).
  assert (bpow radix2 1 <= bpow radix2 1001)%R by (apply bpow_le; lia).
  assert (A : bpow radix2 (-1) = (/2)%R) by (cbn; lra). assert (B : bpow radix2 1 = 2%R) by (cbn; lra).
  rewrite A in H. rewrite B in H0. set (x := bpow radix2 (-1000)) in *. set (y := bpow radix2 1001) in *.
  repeat split; try reflexivity; lra.
Qed.

(* with 2^-60 kg of titrant the factor is 1: over the reals it would be less *)
Example C118_tiny_addition_is_lost : forall lm,
  real_of (@get_dilution_factor sf (Num_sf lm) (kg 1 (-60)) (kg 1 0)) = 1%R.
Proof. intros lm. vm_compute. lra. Qed.

(* ------------------------------------------------------------------ *)
(** * Diluted totals *)

Lemma mul_equiv (x y : binary_float 53 1024) : sf_mul (B2SF x) (B2SF y) = B2SF (Bmult mode_NE x y).
Proof.
  case x as [sx|sx| |sx mx ex Bx]; case y as [sy|sy| |sy my ey By]; try (reflexivity || (simpl; now case Bool.eqb)).
  unfold sf_mul. simpl. rewrite B2SF_SF2B. apply binary_round_aux_equiv.
Qed.

Lemma mul_is_rnd x y : finite64 x -> finite64 y -> (Rabs (real_of x * real_of y) <= Rabs (real_of x))%R ->
  finite64 (sf_mul x y) /\ real_of (sf_mul x y) = rnd (real_of x * real_of y)%R.
Proof.
  intros Fx Fy L. assert (Gx := fmt_real x Fx). destruct (finite64_B x Fx) as (bx & -> & Hx). destruct (finite64_B y Fy) as (by_ & -> & Hy).
  unfold real_of in *. rewrite !SF2R_B2SF in *. rewrite mul_equiv.
  assert (C := Bmult_correct 53 1024 Hprec' Hmax' mode_NE bx by_). cbn [round_mode] in C.
  change (SpecFloat.fexp 53 1024) with (FLT_exp (SpecFloat.emin 53 1024) 53) in C.
  assert (Lt : (Rabs (rnd (B2R bx * B2R by_)) < bpow radix2 1024)%R).
  { apply Rle_lt_trans with (Rabs (B2R bx)); [|apply abs_B2R_lt_emax].
    apply abs_round_le_generic; [apply FLT_exp_valid; exact Hprec'|apply valid_rnd_N| |exact L].
    apply generic_format_abs. exact Gx. }
  rewrite (Rlt_bool_true _ _ Lt) in C. destruct C as (C1 & C2 & _).
  split; [apply finite64_of_B; rewrite C2, Hx, Hy; reflexivity|]. rewrite SF2R_B2SF. exact C1.
Qed.

(* a total times a factor in [0, 1] *)
Lemma diluted_value v f : finite64 v -> finite64 f -> (0 <= real_of f <= 1)%R ->
  finite64 (sf_mul v f) /\ (Rabs (real_of (sf_mul v f)) <= Rabs (real_of v))%R /\
  (0 <= real_of v -> 0 <= real_of (sf_mul v f))%R /\
  (forall f', finite64 f' -> (0 <= real_of f' <= real_of f)%R -> (0 <= real_of v)%R ->
     (real_of (sf_mul v f') <= real_of (sf_mul v f))%R).
Proof.
  intros Fv Ff B.
  assert (L : forall f', (0 <= real_of f' <= 1)%R -> (Rabs (real_of v * real_of f') <= Rabs (real_of v))%R).
  { intros f' B'. rewrite Rabs_mult, (Rabs_right (real_of f')) by lra. assert (P := Rabs_pos (real_of v)). nra. }
  destruct (mul_is_rnd v f Fv Ff (L f B)) as (Fm & Em). split; [exact Fm|]. split; [|split].
  - rewrite Em. apply abs_round_le_generic; [apply FLT_exp_valid; exact Hprec'|apply valid_rnd_N| |exact (L f B)].
    apply generic_format_abs. now apply fmt_real.
  - intros P. rewrite Em, <- rnd_0. apply rnd_mono. apply Rmult_le_pos; lra.
  - intros f' Ff' B' P. destruct (mul_is_rnd v f' Fv Ff' (L f' ltac:(lra))) as (_ & Em').
    rewrite Em, Em'. apply rnd_mono. apply Rmult_le_compat_l; lra.
Qed.

(** A table of totals that are numbers, and its dilution at the titrant masses [ms]. *)
Definition scalars (totals : dict sf) : dict (nd sf) := map (fun kv => (fst kv, NdS (snd kv))) totals.

Theorem C118_totals_in_binary64 : forall (lm : libm) (totals : dict sf) (ms : list sf) (M : sf),
  finite64 M -> (0 < real_of M)%R ->
  Forall (fun m => finite64 m /\ (0 <= real_of m)%R /\ (real_of m + real_of M <= powerRZ 2 1001)%R) ms ->
  Forall (fun kv => finite64 (snd kv)) totals ->
  exists diluted, @dilute_totals sf (Num_sf lm) (scalars totals) ms M = Ok diluted /\
    Forall2 (fun before after =>
      fst after = fst before /\
      exists vs, snd after = NdA vs /\ length vs = length ms /\
        (forall i v, nth_error vs i = Some v ->
           finite64 v /\ (Rabs (real_of v) <= Rabs (real_of (snd before)))%R /\
           (0 <= real_of (snd before) -> 0 <= real_of v)%R /\
           (forall m, nth_error ms i = Some m -> real_of m = 0%R -> real_of v = real_of (snd before)) /\
           (forall j v' m m', nth_error vs j = Some v' -> nth_error ms i = Some m -> nth_error ms j = Some m' ->
              (real_of m <= real_of m')%R -> (0 <= real_of (snd before))%R -> (real_of v' <= real_of v)%R)))
      totals diluted.
Proof.
  intros lm totals ms M FM PM Hm Ht. unfold dilute_totals.
  set (df := @dilution_factors sf (Num_sf lm) ms M).
  assert (Hf : forall i m, nth_error ms i = Some m ->
    finite64 m /\ (0 <= real_of m)%R /\ (real_of m + real_of M <= powerRZ 2 1001)%R).
  { intros i m E. apply nth_error_In in E. rewrite Forall_forall in Hm. now apply Hm. }
  induction Ht as [|[k v] totals Fv Ht IH].
  - exists []. split; [reflexivity|constructor].
  - destruct IH as (diluted & E & F2). cbn [snd] in Fv.
    exists ((k, NdA (map (fun f => sf_mul v f) df)) :: diluted). split.
    + unfold scalars, dmapM in *. cbn [map mapM fst snd nd_map2 bind]. rewrite E. reflexivity.
    + constructor; [|exact F2]. cbn [fst snd]. split; [reflexivity|].
      exists (map (fun f => sf_mul v f) df). split; [reflexivity|]. split; [unfold df, dilution_factors; now rewrite !map_length|].
      assert (At : forall i w, nth_error (map (fun f => sf_mul v f) df) i = Some w ->
        exists m, nth_error ms i = Some m /\ w = sf_mul v (@get_dilution_factor sf (Num_sf lm) m M)).
      { intros i w E1. unfold df, dilution_factors in E1. rewrite map_map in E1. rewrite nth_error_map in E1.
        destruct (nth_error ms i) as [m|]; [|discriminate]. exists m. split; [reflexivity|]. cbn [option_map] in E1. symmetry. now injection E1. }
      intros i w Ew. destruct (At i w Ew) as (m & Em & ->). destruct (Hf i m Em) as (Fm & Pm & Lm).
      destruct (C118_factor_in_binary64 lm M m FM Fm PM Pm Lm) as (Ff & Bf & One & _ & Mono).
      destruct (diluted_value v _ Fv Ff Bf) as (Fw & Aw & Pw & Mw).
      split; [exact Fw|]. split; [exact Aw|]. split; [exact Pw|]. split.
      * intros m0 E0 Z. rewrite Em in E0. injection E0 as <-.
        destruct (mul_is_rnd v _ Fv Ff) as (_ & Er); [rewrite (One Z), Rmult_1_r; lra|].
        rewrite Er, (One Z), Rmult_1_r. now apply rnd_id.
      * intros j w' m0 m' Ew' E0 E' Le Pv. rewrite Em in E0. injection E0 as <-.
        destruct (At j w' Ew') as (m1 & E1 & ->). rewrite E' in E1. injection E1 as <-.
        destruct (Hf j m' E') as (Fm' & Pm' & Lm').
        destruct (C118_factor_in_binary64 lm M m' FM Fm' PM Pm' Lm') as (Ff' & Bf' & _ & _ & _).
        apply Mw; [exact Ff'| |exact Pv]. split; [apply Bf'|]. now apply Mono.
Qed.
Print Assumptions C118_totals_in_binary64.

(* two totals, three additions *)
Example C118_totals_nonvacuous :
  let totals := [("total_sulfate", kg 1 (-5)); ("total_borate", kg 1 (-11))] in
  let ms := [kg 1 (-10); kg 1 (-9); kg 3 (-10)] in
  Forall (fun m => finite64 m /\ (0 <= real_of m)%R /\ (real_of m + real_of (kg 1 0) <= powerRZ 2 1001)%R) ms /\
  Forall (fun kv : string * sf => finite64 (snd kv)) totals.
Proof.
  assert (B : (2 <= powerRZ 2 1001)%R).
  { change (powerRZ 2) with (powerRZ (IZR radix2)). rewrite <- bpow_powerRZ. change 2%R with (bpow radix2 1) at 1. apply bpow_le. lia. }
  assert (E1 : real_of (kg 1 0) = 1%R) by (vm_compute; lra).
  assert (Ea : real_of (kg 1 (-10)) = (/1024)%R) by (vm_compute; lra).
  assert (Eb : real_of (kg 1 (-9)) = (/512)%R) by (vm_compute; lra).
  assert (Ec : real_of (kg 3 (-10)) = (3/1024)%R) by (vm_compute; lra).
  cbv zeta. set (p := powerRZ 2 1001) in *. split.
  - repeat apply Forall_cons; try apply Forall_nil; rewrite E1, ?Ea, ?Eb, ?Ec; repeat split; try reflexivity; lra.
  - repeat apply Forall_cons; try apply Forall_nil; repeat split; reflexivity.
Qed.
