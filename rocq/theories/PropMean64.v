(* PropMean64.v -- C135: the means the program reports, with the numbers it computes with (binary64) *)
From Coq Require Import Reals Floats.SpecFloat ZArith Lia Lra.
From Flocq Require Import Core BinarySingleNaN Plus_error Relative.
From Verif Require Import Core Dataset SpecDataset SFNum PropDrift PropDilution64 PropBatch PropCases PropPure PropCalHistory.
Open Scope string_scope.
Open Scope list_scope.

#[local] Existing Instance PropDilution64.Hprec'.
#[local] Existing Instance PropDilution64.Hmax'.

(** The exact sum and mean of binary64 numbers. *)
Definition exact_sum (l : list sf) : R := fold_right Rplus 0%R (map real_of l).
Definition exact_mean (l : list sf) : R := (exact_sum l / INR (length l))%R.
(* ordinary numbers: finite and no larger than B, which is neither astronomically large nor small; not too many of them *)
Definition ordinary_numbers (B : R) (l : list sf) : Prop :=
  l <> [] /\ Forall (fun x => finite64 x /\ (Rabs (real_of x) <= B)%R) l /\
  (powerRZ 2 (-1000) <= B <= powerRZ 2 900)%R /\ (INR (length l) <= powerRZ 2 40)%R.

(* ------------------------------------------------------------------ *)
(** * Arithmetic *)

Lemma pow2 z : powerRZ 2 z = bpow radix2 z.
Proof. change (powerRZ 2) with (powerRZ (IZR radix2)). symmetry. apply bpow_powerRZ. Qed.

Lemma div_is_rnd_big x y : finite64 x -> finite64 y -> (real_of y <> 0)%R -> (Rabs (real_of x / real_of y) <= bpow radix2 1001)%R ->
  finite64 (sf_div x y) /\ real_of (sf_div x y) = rnd (real_of x / real_of y)%R.
Proof.
  intros Fx Fy N L. destruct (finite64_B x Fx) as (bx & -> & Hx). destruct (finite64_B y Fy) as (by_ & -> & Hy).
  unfold real_of in *. rewrite !SF2R_B2SF in *. rewrite div_equiv.
  assert (C := Bdiv_correct 53 1024 Hprec' Hmax' mode_NE bx by_ N). cbn [round_mode] in C.
  change (SpecFloat.fexp 53 1024) with (FLT_exp (SpecFloat.emin 53 1024) 53) in C.
  assert (Lt : (Rabs (rnd (B2R bx / B2R by_)) < bpow radix2 1024)%R).
  { apply Rle_lt_trans with (bpow radix2 1001); [|apply bpow_lt; lia].
    apply abs_round_le_generic; [apply FLT_exp_valid; exact Hprec'|apply valid_rnd_N| |exact L].
    apply generic_format_bpow. unfold FLT_exp, SpecFloat.emin. lia. }
  rewrite (Rlt_bool_true _ _ Lt) in C. destruct C as (C1 & C2 & _).
  split; [apply finite64_of_B; rewrite C2; exact Hx|]. rewrite SF2R_B2SF. exact C1.
Qed.

Lemma rnd_error x : (Rabs (rnd x - x) <= eps64 * Rabs x + bpow radix2 (-1074))%R.
Proof.
  destruct (error_N_FLT radix2 (SpecFloat.emin 53 1024) 53 eq_refl (fun x => negb (Z.even x)) x) as (d & t & Bd & Bt & _ & E).
  change ZnearestE with (Znearest (fun x => negb (Z.even x))). rewrite E. replace (x * (1 + d) + t - x)%R with (d * x + t)%R by ring.
  eapply Rle_trans; [apply Rabs_triang|]. apply Rplus_le_compat.
  - rewrite Rabs_mult. apply Rmult_le_compat_r; [apply Rabs_pos|]. eapply Rle_trans; [exact Bd|]. unfold eps64. cbn. lra.
  - eapply Rle_trans; [exact Bt|]. change (SpecFloat.emin 53 1024) with (-1074)%Z. assert (P := bpow_gt_0 radix2 (-1074)). lra.
Qed.

(* whole numbers up to 2^53 are binary64 numbers *)
Lemma ofZ_exact n : (Z.abs n <= 2 ^ 53)%Z -> finite64 (sf_ofZ n) /\ real_of (sf_ofZ n) = IZR n.
Proof.
  intros L. unfold sf_ofZ. rewrite (binary_normalize_equiv n 0 false).
  assert (C := binary_normalize_correct 53 1024 Hprec' Hmax' mode_NE n 0 false). cbn [round_mode] in C.
  change (SpecFloat.fexp 53 1024) with (FLT_exp (SpecFloat.emin 53 1024) 53) in C.
  assert (V : F2R (Float radix2 n 0) = IZR n). { unfold F2R. cbn. ring. }
  assert (G : rnd (F2R (Float radix2 n 0)) = IZR n).
  { rewrite <- V. apply round_generic; [apply valid_rnd_N|].
    destruct (Z.eq_dec (Z.abs n) (2 ^ 53)) as [Q|Q].
    - rewrite V. assert (A : IZR (Z.abs n) = bpow radix2 53) by (rewrite Q; reflexivity).
      assert (Gb : generic_format radix2 (FLT_exp (SpecFloat.emin 53 1024) 53) (bpow radix2 53)) by (apply generic_format_bpow; unfold FLT_exp, SpecFloat.emin; lia).
      rewrite <- A, abs_IZR in Gb. unfold Rabs in Gb. destruct (Rcase_abs (IZR n)); [|exact Gb].
      rewrite <- (Ropp_involutive (IZR n)). now apply generic_format_opp.
    - apply generic_format_FLT. exists (Float radix2 n 0); [reflexivity|cbn; lia|cbn; unfold SpecFloat.emin; lia]. }
  rewrite G in C. rewrite Rlt_bool_true in C.
  2: { rewrite <- abs_IZR. apply Rle_lt_trans with (bpow radix2 53); [|apply bpow_lt; lia]. change (bpow radix2 53) with (IZR (2 ^ 53)). now apply IZR_le. }
  destruct C as (C1 & C2 & _). split; [apply finite64_of_B; exact C2|]. unfold real_of. rewrite SF2R_B2SF. exact C1.
Qed.

Lemma count_exact (lm : libm) n : (INR n <= powerRZ 2 40)%R ->
  finite64 (nofZ (H := Num_sf lm) (Z.of_nat n)) /\ real_of (nofZ (H := Num_sf lm) (Z.of_nat n)) = INR n.
Proof.
  rewrite pow2. intros L. assert (Lz : (Z.of_nat n <= 2 ^ 40)%Z). { apply le_IZR. rewrite <- INR_IZR_INZ. exact L. }
  destruct (ofZ_exact (Z.of_nat n)) as (F & E); [lia|]. destruct (ofZ_exact 1) as (F1 & E1); [lia|].
  change (nofZ (H := Num_sf lm) (Z.of_nat n)) with (sf_div (sf_ofZ (Z.of_nat n)) (sf_ofZ 1)).
  destruct (div_is_rnd_big _ _ F F1) as (Fd & Ed).
  - rewrite E1. lra.
  - rewrite E, E1, <- INR_IZR_INZ. unfold Rdiv. rewrite Rinv_1, Rmult_1_r, Rabs_right by (apply Rle_ge, pos_INR).
    eapply Rle_trans; [exact L|]. apply bpow_le. lia.
  - split; [exact Fd|]. rewrite Ed, E1. unfold Rdiv. rewrite Rinv_1, Rmult_1_r, rnd_id by exact F. rewrite E. symmetry. apply INR_IZR_INZ.
Qed.

(* the error of a running sum: k terms have been added to acc, whose exact value is s *)
Lemma running_sum (lm : libm) B : (0 <= B <= bpow radix2 900)%R -> forall l acc s k,
  (INR (k + length l) <= bpow radix2 40)%R -> Forall (fun x => finite64 x /\ (Rabs (real_of x) <= B)%R) l ->
  finite64 acc -> (Rabs s <= INR k * B)%R -> (Rabs (real_of acc - s) <= INR k * INR k * eps64 * B)%R ->
  let t := fold_left (nadd (Num := Num_sf lm)) l acc in
  finite64 t /\ (Rabs (s + exact_sum l) <= INR (k + length l) * B)%R /\
  (Rabs (real_of t - (s + exact_sum l)) <= INR (k + length l) * INR (k + length l) * eps64 * B)%R.
Proof.
  intros HB. induction l as [|x l IH]; intros acc s k Lk F Fa Hs Ha; cbv zeta.
  - unfold exact_sum. cbn [map fold_right fold_left length]. rewrite Rplus_0_r, Nat.add_0_r. auto.
  - inversion F as [|? ? [Fx Bx] F']. subst. clear F. cbn [fold_left]. cbn [length] in Lk |- *. rewrite Nat.add_succ_r in Lk |- *.
    assert (Pk := pos_INR k).
    assert (Lk' : (INR k + 1 <= bpow radix2 40)%R). { rewrite <- S_INR. eapply Rle_trans; [apply le_INR|exact Lk]. lia. }
    assert (K40 : (bpow radix2 40 = 1099511627776)%R) by (cbn; lra).
    assert (Ke : (0 <= INR k * eps64 <= 1)%R). { unfold eps64. lra. }
    assert (Aa : (Rabs (real_of acc) <= 2 * INR k * B)%R).
    { replace (real_of acc) with (s + (real_of acc - s))%R by ring. eapply Rle_trans; [apply Rabs_triang|].
      assert (INR k * INR k * eps64 * B <= INR k * B)%R; [|lra]. replace (INR k * INR k * eps64 * B)%R with (INR k * eps64 * (INR k * B))%R by ring.
      assert (0 <= INR k * B)%R by (apply Rmult_le_pos; lra). nra. }
    destruct (add_error acc x Fa Fx) as (Fs & d & Bd & Ed).
    { apply Rle_trans with ((2 * INR k + 1) * B)%R; [lra|]. apply Rle_trans with (bpow radix2 42 * bpow radix2 900)%R.
      - apply Rmult_le_compat; try lra. replace (bpow radix2 42) with (4 * bpow radix2 40)%R by (cbn; lra). lra.
      - rewrite <- bpow_plus. apply bpow_le. lia. }
    change (nadd (Num := Num_sf lm) acc x) with (sf_add acc x).
    assert (E : exact_sum (x :: l) = (real_of x + exact_sum l)%R) by reflexivity. rewrite E, <- Rplus_assoc.
    change (S (k + length l)) with (S k + length l)%nat.
    apply IH; [exact Lk|exact F'|exact Fs| |].
    + rewrite S_INR. eapply Rle_trans; [apply Rabs_triang|]. lra.
    + rewrite Ed, S_INR. replace ((real_of acc + real_of x) * (1 + d) - (s + real_of x))%R with ((real_of acc - s) + d * (real_of acc + real_of x))%R by ring.
      eapply Rle_trans; [apply Rabs_triang|]. rewrite Rabs_mult.
      assert (As : (Rabs (real_of acc + real_of x) <= (2 * INR k + 1) * B)%R) by (eapply Rle_trans; [apply Rabs_triang|]; lra).
      assert (Rabs d * Rabs (real_of acc + real_of x) <= eps64 * ((2 * INR k + 1) * B))%R by (apply Rmult_le_compat; auto using Rabs_pos).
      lra.
Qed.

Lemma sum_is_exact_enough (lm : libm) B l : ordinary_numbers B l ->
  let s := nsum (H := Num_sf lm) l in
  finite64 s /\ (Rabs (exact_sum l) <= INR (length l) * B)%R /\ (Rabs (real_of s - exact_sum l) <= INR (length l) * INR (length l) * eps64 * B)%R.
Proof.
  intros (_ & F & Hb & Hn). rewrite !pow2 in *. assert (P := bpow_gt_0 radix2 (-1000)).
  assert (Z : finite64 (n0 (H := Num_sf lm)) /\ real_of (n0 (H := Num_sf lm)) = 0%R).
  { split; [split; vm_compute; reflexivity|]. vm_compute. reflexivity. }
  destruct Z as [Zf Zr].
  destruct (running_sum lm B ltac:(lra) l _ 0%R 0%nat Hn F Zf) as (A1 & A2 & A3).
  - rewrite Rabs_R0. cbn. lra.
  - rewrite Zr, Rminus_0_r, Rabs_R0. cbn. lra.
  - rewrite Rplus_0_l in A2, A3. auto.
Qed.

(* the mean of n ordinary numbers is right up to (n + 3) rounding errors *)
Theorem C135_mean_in_binary64 : forall (lm : libm) B l, ordinary_numbers B l ->
  let m := nmean (H := Num_sf lm) l in
  finite64 m /\ (Rabs (real_of m - exact_mean l) <= (INR (length l) + 3) * eps64 * B)%R.
Proof.
  intros lm B l O m. destruct (sum_is_exact_enough lm B l O) as (Fs & Ae & Es). set (s := nsum (H := Num_sf lm) l) in *.
  destruct O as (Nl & _ & Hb & Hn). destruct (count_exact lm (length l) Hn) as (Fn & En). rewrite !pow2 in *.
  assert (Pb := bpow_gt_0 radix2 (-1000)).
  assert (Pn : (1 <= INR (length l))%R). { change 1%R with (INR 1). apply le_INR. destruct l; [now destruct Nl|cbn; lia]. }
  set (n := INR (length l)) in *.
  assert (K40 : (bpow radix2 40 = 1099511627776)%R) by (cbn; lra). assert (Ue : (0 < eps64 < / 1000)%R) by (unfold eps64; lra).
  assert (Ne : (n * eps64 <= 1)%R) by (unfold eps64; lra).
  assert (In : (0 < / n)%R) by (apply Rinv_0_lt_compat; lra).
  assert (Q : (Rabs (real_of s / n - exact_mean l) <= n * eps64 * B)%R).
  { unfold exact_mean. fold n. replace (real_of s / n - exact_sum l / n)%R with ((real_of s - exact_sum l) * / n)%R by (field; lra).
    rewrite Rabs_mult, (Rabs_right (/ n)) by lra. apply Rmult_le_reg_r with n; [lra|]. rewrite Rmult_assoc, Rinv_l by lra. lra. }
  assert (Am : (Rabs (exact_mean l) <= B)%R).
  { unfold exact_mean. fold n. unfold Rdiv. rewrite Rabs_mult, (Rabs_right (/ n)) by lra. apply Rmult_le_reg_r with n; [lra|]. rewrite Rmult_assoc, Rinv_l by lra. lra. }
  assert (Aq : (Rabs (real_of s / n) <= 2 * B)%R).
  { replace (real_of s / n)%R with (exact_mean l + (real_of s / n - exact_mean l))%R by ring. eapply Rle_trans; [apply Rabs_triang|].
    assert (n * eps64 * B <= 1 * B)%R by (apply Rmult_le_compat_r; lra). lra. }
  destruct (div_is_rnd_big s (nofZ (H := Num_sf lm) (Z.of_nat (length l))) Fs Fn) as (Fm & Em).
  - rewrite En. lra.
  - rewrite En. eapply Rle_trans; [exact Aq|]. apply Rle_trans with (2 * bpow radix2 900)%R; [lra|]. change 2%R with (bpow radix2 1) at 1. rewrite <- bpow_plus. apply bpow_le. lia.
  - change (nmean (H := Num_sf lm) l) with (sf_div s (nofZ (H := Num_sf lm) (Z.of_nat (length l)))) in m. fold m in Fm, Em. split; [exact Fm|].
    rewrite En in Em. rewrite Em. replace (rnd (real_of s / n) - exact_mean l)%R with ((rnd (real_of s / n) - real_of s / n) + (real_of s / n - exact_mean l))%R by ring.
    eapply Rle_trans; [apply Rabs_triang|]. assert (R := rnd_error (real_of s / n)).
    assert (Tiny : (bpow radix2 (-1074) <= eps64 * B)%R).
    { apply Rle_trans with (bpow radix2 (-53) * bpow radix2 (-1000))%R; [rewrite <- bpow_plus; apply bpow_le; lia|].
      apply Rmult_le_compat; try lra; [left; apply bpow_gt_0|]. unfold eps64. cbn. lra. }
    assert (eps64 * Rabs (real_of s / n) <= eps64 * (2 * B))%R by (apply Rmult_le_compat_l; lra). lra.
Qed.

(* ... so it lies between the smallest and the largest of them, up to the same error *)
Lemma mean_between l lo hi : l <> [] -> (forall x, In x l -> (lo <= real_of x <= hi)%R) -> (lo <= exact_mean l <= hi)%R.
Proof.
  intros Nl P. assert (S : (INR (length l) * lo <= exact_sum l <= INR (length l) * hi)%R).
  { clear Nl. unfold exact_sum. induction l as [|x l IH]; [cbn; lra|]. cbn [map fold_right length]. rewrite S_INR.
    specialize (IH (fun y I => P y (or_intror I))). specialize (P x (or_introl eq_refl)). lra. }
  assert (Pn : (1 <= INR (length l))%R). { change 1%R with (INR 1). apply le_INR. destruct l; [now destruct Nl|cbn; lia]. }
  assert (In : (0 < / INR (length l))%R) by (apply Rinv_0_lt_compat; lra).
  unfold exact_mean, Rdiv. split; apply Rmult_le_reg_r with (INR (length l)); try lra; rewrite Rmult_assoc, Rinv_l by lra; lra.
Qed.

(* ------------------------------------------------------------------ *)
(** * What the user gets *)

(* calibrate, run in binary64: the molinity a row gets is the mean of its batch's references up to rounding *)
Theorem C135_batch_molinity_in_binary64 : forall (lm : libm) (e : env sf) kw ds ds' i b B,
  is_table ds -> all_cells ds "reference_good" (fun v => is_null (H := Num_sf lm) v \/ exists g, v = VBool g) ->
  calibrate (H := Num_sf lm) e kw ds = Ok ds' -> value ds' i "analysis_batch" = Some b ->
  let refs := batch_references (H := Num_sf lm) ds' b in
  let error := ((INR (length refs) + 3) * eps64 * B)%R in
  ordinary_numbers B refs ->
  exists m, value ds' i "titrant_molinity" = Some (VNum m) /\ finite64 m /\
    (Rabs (real_of m - exact_mean refs) <= error)%R /\
    (forall lo hi, (forall x, In x refs -> lo <= real_of x <= hi) -> lo - error <= real_of m <= hi + error)%R.
Proof.
  intros lm e kw ds ds' i b B W F E Vb refs error O.
  assert (Li : (i < n_rows ds')%nat).
  { unfold value in Vb. unfold n_rows. apply nth_error_Some. intros N. unfold row in *. rewrite N in Vb. discriminate. }
  destruct (C53_batch_mean (H := Num_sf lm) e kw ds ds' eq_refl W F E i Li) as (b' & Vb' & _ & Vm).
  rewrite Vb in Vb'. apply some_inj in Vb'. subst b'.
  destruct (C135_mean_in_binary64 lm B refs O) as (Fm & Em).
  exists (nmean (H := Num_sf lm) refs). split; [exact Vm|]. split; [exact Fm|]. split; [exact Em|].
  intros lo hi P. assert (M := mean_between refs lo hi (proj1 O) P). apply Rabs_le_inv in Em. fold error in Em. lra.
Qed.

(* one reference: its own molinity, exactly *)
Theorem C135_one_reference_in_binary64 : forall (lm : libm) (e : env sf) kw ds ds' i b x,
  is_table ds -> all_cells ds "reference_good" (fun v => is_null (H := Num_sf lm) v \/ exists g, v = VBool g) ->
  calibrate (H := Num_sf lm) e kw ds = Ok ds' -> value ds' i "analysis_batch" = Some b ->
  batch_references (H := Num_sf lm) ds' b = [x] -> finite64 x -> (Rabs (real_of x) <= powerRZ 2 1000)%R ->
  exists m, value ds' i "titrant_molinity" = Some (VNum m) /\ finite64 m /\ real_of m = real_of x.
Proof.
  intros lm e kw ds ds' i b x W F E Vb Br Fx Lx. rewrite pow2 in Lx.
  assert (Li : (i < n_rows ds')%nat).
  { unfold value in Vb. unfold n_rows. apply nth_error_Some. intros N. unfold row in *. rewrite N in Vb. discriminate. }
  destruct (C53_batch_mean (H := Num_sf lm) e kw ds ds' eq_refl W F E i Li) as (b' & Vb' & _ & Vm).
  rewrite Vb in Vb'. apply some_inj in Vb'. subst b'. rewrite Br in Vm. eexists. split; [exact Vm|].
  change (nmean (H := Num_sf lm) [x]) with (sf_div (sf_add (n0 (H := Num_sf lm)) x) (nofZ (H := Num_sf lm) (Z.of_nat 1))).
  assert (Z : finite64 (n0 (H := Num_sf lm)) /\ real_of (n0 (H := Num_sf lm)) = 0%R) by (split; [split; vm_compute; reflexivity|vm_compute; reflexivity]).
  destruct Z as [Zf Zr]. assert (L1 : (bpow radix2 1000 <= bpow radix2 1001)%R) by (apply bpow_le; lia).
  destruct (add_is_rnd _ x Zf Fx) as (Fs & Es). { rewrite Zr, Rabs_R0. lra. } rewrite Zr, Rplus_0_l, (rnd_id x Fx) in Es.
  destruct (count_exact lm 1) as (Fn & En). { rewrite pow2. cbn. lra. }
  destruct (div_is_rnd_big _ _ Fs Fn) as (Fd & Ed).
  - rewrite En. cbn. lra.
  - rewrite En, Es. cbn [INR]. unfold Rdiv. rewrite Rinv_1, Rmult_1_r. lra.
  - split; [exact Fd|]. rewrite Ed, En, Es. cbn [INR]. unfold Rdiv. rewrite Rinv_1, Rmult_1_r. now apply rnd_id.
Qed.

(* pH mode, run in binary64: the alkalinity is the mean of the estimates at the points used, up to rounding *)
Theorem C135_alkalinity_in_binary64 : forall (lm : libm) c tm pH temps M totals ks pmin pmax n r B,
  solve_pH (H := Num_sf lm) c tm pH temps M totals ks pmin pmax n = Ok r ->
  let used := mask (sp_used r) (sp_alkalinity_all r) in
  let error := ((INR (length used) + 3) * eps64 * B)%R in
  ordinary_numbers B used ->
  finite64 (sp_alkalinity r) /\ (Rabs (real_of (sp_alkalinity r) - exact_mean used) <= error)%R /\
  (forall lo hi, (forall x, In x used -> lo <= real_of x <= hi) -> lo - error <= real_of (sp_alkalinity r) <= hi + error)%R.
Proof.
  intros lm c tm pH temps M totals ks pmin pmax n r B E used error O.
  assert (A : sp_alkalinity r = nmean (H := Num_sf lm) used).
  { unfold solve_pH in E. destruct (negb _); [discriminate|]. destruct (assert_ _); cbn [bind] in E; [|discriminate].
    destruct (alkalinity_all _ _ _ _ _ _ _) as [l|]; cbn [bind] in E; [|discriminate]. unfold used. injection E as <-. reflexivity. }
  destruct (C135_mean_in_binary64 lm B used O) as (Fm & Em). rewrite A. split; [exact Fm|]. split; [exact Em|].
  intros lo hi P. assert (Q := mean_between used lo hi (proj1 O) P). apply Rabs_le_inv in Em. fold error in Em. lra.
Qed.

(* ------------------------------------------------------------------ *)
(** * Three references that agree on 0.1 *)

Definition three_refs : frame sf := {| f_cols := dkeys (late_row (VInt 1)); f_rows := [late_row (VInt 1); late_row (VInt 1); late_row (VInt 1)] |}.

Definition tenth : sf := sf_ofQ 0.1.

(* the mean of three equal molinities is another number: 0.10000000000000002 *)
Example C135_nonvacuous : exists ds', is_table three_refs /\
  all_cells three_refs "reference_good" (fun v => is_null (H := Num_sf flm) v \/ exists g, v = VBool g) /\
  calibrate (H := Num_sf flm) fenv [] three_refs = Ok ds' /\ value ds' 0 "analysis_batch" = Some (VInt 0) /\
  batch_references (H := Num_sf flm) ds' (VInt 0) = [tenth; tenth; tenth] /\
  ordinary_numbers 1 [tenth; tenth; tenth] /\
  exists m, value ds' 0 "titrant_molinity" = Some (VNum m) /\ real_of m <> real_of tenth.
Proof.
  destruct (calibrate (H := Num_sf flm) fenv [] three_refs) as [d|] eqn:E; [|vm_compute in E; discriminate].
  exists d. split; [split; [repeat constructor; cbn; intuition discriminate|]; intros r [<-|[<-|[<-|[]]]]; reflexivity|].
  split; [intros r v [<-|[<-|[<-|[]]]] G; discriminate|]. split; [reflexivity|].
  assert (X : after (calibrate (H := Num_sf flm) fenv [] three_refs)
     (fun d => (value d 0 "analysis_batch", batch_references (H := Num_sf flm) d (VInt 0), value d 0 "titrant_molinity")) =
     Some (Some (VInt 0), [tenth; tenth; tenth], Some (VNum (nmean (H := Num_sf flm) [tenth; tenth; tenth])))) by (vm_compute; reflexivity).
  rewrite E in X. cbn [after] in X. apply some_inj in X. apply pair_equal_spec in X. destruct X as [X X3]. apply pair_equal_spec in X. destruct X as [X1 X2].
  split; [exact X1|]. split; [exact X2|]. split.
  - split; [discriminate|]. split; [|split].
    + assert (T : finite64 tenth /\ (Rabs (real_of tenth) <= 1)%R).
      { split; [split; vm_compute; reflexivity|]. apply Rabs_le. unfold tenth. vm_compute real_of. lra. }
      repeat (apply Forall_cons; [exact T|]). apply Forall_nil.
    + rewrite !pow2. change 1%R with (bpow radix2 0). split; apply bpow_le; lia.
    + rewrite pow2. cbn. lra.
  - eexists. split; [exact X3|]. vm_compute. lra.
Qed.

Example C135_one_nonvacuous : exists ds', is_table (late_table (VInt 1)) /\
  calibrate (H := Num_sf flm) fenv [] (late_table (VInt 1)) = Ok ds' /\ value ds' 0 "analysis_batch" = Some (VInt 0) /\
  batch_references (H := Num_sf flm) ds' (VInt 0) = [tenth] /\ finite64 tenth /\ (Rabs (real_of tenth) <= powerRZ 2 1000)%R.
Proof.
  destruct (calibrate (H := Num_sf flm) fenv [] (late_table (VInt 1))) as [d|] eqn:E; [|vm_compute in E; discriminate].
  exists d. split; [apply late_is_table|]. split; [reflexivity|].
  assert (X : after (calibrate (H := Num_sf flm) fenv [] (late_table (VInt 1)))
     (fun d => (value d 0 "analysis_batch", batch_references (H := Num_sf flm) d (VInt 0))) = Some (Some (VInt 0), [tenth])) by (vm_compute; reflexivity).
  rewrite E in X. cbn [after] in X. apply some_inj in X. apply pair_equal_spec in X. destruct X as [X1 X2].
  split; [exact X1|]. split; [exact X2|]. split; [split; vm_compute; reflexivity|].
  rewrite pow2. apply Rle_trans with (bpow radix2 0); [|apply bpow_le; lia]. apply Rabs_le. unfold tenth. vm_compute real_of. cbn. lra.
Qed.

Definition whole (z : Z) : sf := sf_ofZ z.
(* two of three points are used *)
Example C135_alkalinity_nonvacuous : exists r,
  solve_pH (H := Num_sf flm) (whole 1) [whole 0; whole 1; whole 2] [whole 3; whole 4; whole 5] [] (whole 1) [] [("k_water", NdS (whole 1))] (whole 3) (whole 4) (whole 1) = Ok r /\
  length (mask (sp_used r) (sp_alkalinity_all r)) = 2%nat /\ ordinary_numbers (powerRZ 2 40) (mask (sp_used r) (sp_alkalinity_all r)).
Proof.
  destruct (solve_pH (H := Num_sf flm) (whole 1) [whole 0; whole 1; whole 2] [whole 3; whole 4; whole 5] [] (whole 1) [] [("k_water", NdS (whole 1))] (whole 3) (whole 4) (whole 1)) as [r|] eqn:E; [|vm_compute in E; discriminate].
  exists r. split; [reflexivity|].
  assert (X : after (solve_pH (H := Num_sf flm) (whole 1) [whole 0; whole 1; whole 2] [whole 3; whole 4; whole 5] [] (whole 1) [] [("k_water", NdS (whole 1))] (whole 3) (whole 4) (whole 1))
    (fun r => mask (sp_used r) (sp_alkalinity_all r)) = Some [S754_finite false 5726623061333333 (-31); S754_finite false 4563402752000000 (-29)]) by (vm_compute; reflexivity).
  rewrite E in X. cbn [after] in X. apply some_inj in X. rewrite X. split; [reflexivity|]. split; [discriminate|]. rewrite !pow2. split; [|split].
  - assert (K : (bpow radix2 40 = 1099511627776)%R) by (cbn; lra). rewrite K.
    repeat (apply Forall_cons; [split; [split; vm_compute; reflexivity|]; apply Rabs_le; vm_compute real_of; lra|]). apply Forall_nil.
  - split; apply bpow_le; lia.
  - cbn. lra.
Qed.
