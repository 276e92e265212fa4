(* PropOffset64.v -- C59 with the numbers the program computes with (binary64) *)
From Coq Require Import Reals Floats.SpecFloat ZArith Lia Lra.
From Flocq Require Import Core BinarySingleNaN Plus_error Relative.
From Verif Require Import Core Dataset SpecDataset SFNum PropDrift PropDilution64 DictLemmas TableProofs DatasetProofs RowProofs CalProofs PropTables PropCases PropPure PropCalHistory PropMean64.
Open Scope string_scope.
Open Scope list_scope.

#[local] Existing Instance PropDilution64.Hprec'.
#[local] Existing Instance PropDilution64.Hmax'.

Lemma sub_equiv (x y : binary_float 53 1024) : sf_sub (B2SF x) (B2SF y) = B2SF (Bminus mode_NE x y).
Proof.
  case x as [sx|sx| |sx mx ex Bx]; case y as [sy|sy| |sy my ey By];
  [now (trivial || simpl; case Bool.eqb).. | ].
  cbn [B2SF sf_sub SFsub Bminus]. unfold sf_sub, SFsub. cbv zeta.
  etransitivity; [|apply PropDrift.binary_normalize_equiv]. f_equal. unfold Fplus_naive. destruct sy; cbn [negb cond_Zopp]; lia.
Qed.

Lemma sub_is_rnd x y : finite64 x -> finite64 y -> (Rabs (real_of x) + Rabs (real_of y) <= bpow radix2 1001)%R ->
  finite64 (sf_sub x y) /\ real_of (sf_sub x y) = rnd (real_of x - real_of y)%R.
Proof.
  intros Fx Fy L. destruct (finite64_B x Fx) as (bx & -> & Hx). destruct (finite64_B y Fy) as (by_ & -> & Hy).
  unfold real_of in *. rewrite !SF2R_B2SF in *. rewrite sub_equiv.
  assert (C := Bminus_correct 53 1024 Hprec' Hmax' mode_NE bx by_ Hx Hy). cbn [round_mode] in C.
  change (SpecFloat.fexp 53 1024) with (FLT_exp (SpecFloat.emin 53 1024) 53) in C.
  assert (Lt : (Rabs (rnd (B2R bx - B2R by_)) < bpow radix2 1024)%R).
  { apply Rle_lt_trans with (bpow radix2 1001); [|apply bpow_lt; lia].
    apply abs_round_le_generic; [apply FLT_exp_valid; exact Hprec'|apply valid_rnd_N| |].
    - apply generic_format_bpow. unfold FLT_exp, SpecFloat.emin. lia.
    - unfold Rminus. eapply Rle_trans; [apply Rabs_triang|]. rewrite Rabs_Ropp. exact L. }
  rewrite (Rlt_bool_true _ _ Lt) in C. destruct C as (C1 & C2 & _).
  split; [apply finite64_of_B; exact C2|]. rewrite SF2R_B2SF. exact C1.
Qed.

Lemma sub_zero x y : finite64 x -> finite64 y -> rnd (real_of x - real_of y)%R = 0%R -> real_of x = real_of y.
Proof.
  intros Fx Fy Z. destruct (Req_dec (real_of x - real_of y) 0) as [E|N]; [lra|]. exfalso. revert Z.
  exact (round_plus_neq_0 radix2 (FLT_exp (SpecFloat.emin 53 1024) 53) ZnearestE _ _ (fmt_real x Fx) (generic_format_opp _ _ _ (fmt_real y Fy)) N).
Qed.

Lemma sub_relative x y : finite64 x -> finite64 y -> (Rabs (rnd (real_of x - real_of y) - (real_of x - real_of y)) <= eps64 * Rabs (real_of x - real_of y))%R.
Proof.
  intros Fx Fy.
  destruct (FLT_plus_error_N_ex radix2 (SpecFloat.emin 53 1024) 53 (fun x => negb (Z.even x)) (real_of x) (- real_of y)%R
    (fmt_real x Fx) (generic_format_opp _ _ _ (fmt_real y Fy))) as (d & Bd & Ed).
  change ZnearestE with (Znearest (fun x => negb (Z.even x))). unfold Rminus at 2. rewrite Ed.
  replace ((real_of x + - real_of y) * (1 + d) - (real_of x - real_of y))%R with (d * (real_of x - real_of y))%R by ring.
  rewrite Rabs_mult. apply Rmult_le_compat_r; [apply Rabs_pos|]. eapply Rle_trans; [exact Bd|]. rewrite u_ro_eps. unfold eps64. lra.
Qed.

(* Run in binary64, alkalinity_offset is measured minus certified up to one rounding; it is zero exactly when the two are
   equal, and otherwise has the right sign. *)
Theorem C59_offset_in_binary64 : forall (lm : libm) (e : env sf) kw ds ds' i a v c, is_table ds ->
  solve (H := Num_sf lm) e kw ds = Ok ds' ->
  value ds' i "alkalinity" = Some (VNum a) -> value ds' i "alkalinity_certified" = Some v -> ~ is_null (H := Num_sf lm) v -> as_num (H := Num_sf lm) v = Ok c ->
  finite64 a -> finite64 c -> (Rabs (real_of a) + Rabs (real_of c) <= powerRZ 2 1001)%R ->
  exists o, value ds' i "alkalinity_offset" = Some (VNum o) /\ finite64 o /\
    (Rabs (real_of o - (real_of a - real_of c)) <= eps64 * Rabs (real_of a - real_of c))%R /\
    (real_of o = 0 <-> real_of a = real_of c)%R /\ (0 < real_of o <-> real_of c < real_of a)%R /\ (real_of o < 0 <-> real_of a < real_of c)%R.
Proof.
  intros lm e kw ds ds' i a v c W E Va Vc Nv Ac Fa Fc L. rewrite pow2 in L.
  assert (Li : (i < n_rows ds')%nat).
  { unfold value in Va. unfold n_rows. apply nth_error_Some. now destruct (nth_error (f_rows ds') i). }
  assert (W' := wff_solve (H := Num_sf lm) e kw ds ds' W E).
  assert (Ic : In "alkalinity_certified" (f_cols ds)).
  { unfold value in Vc. destruct (nth_error (f_rows ds') i) as [r|] eqn:R; [|discriminate].
    assert (I : In "alkalinity_certified" (f_cols ds')).
    { rewrite <- (proj2 W' r) by (now apply nth_error_In in R). apply dget_in_keys, dmem_true_get. eauto. }
    apply solve_inv in E. destruct E as (_ & Cc & _). rewrite Cc in I. apply mem_str_spec in I. rewrite mem_solve_cols, mem_prep_cols in I.
    apply mem_str_spec. destruct (mem_str "alkalinity_certified" (f_cols ds)); [reflexivity|discriminate]. }
  destruct (proj1 (C59_offset (H := Num_sf lm) e kw ds ds' W E) Ic) as [_ X]. destruct (X i Li) as (a' & v' & c' & A' & V & _ & N & X').
  rewrite Va in A'. injection A' as <-. rewrite Vc in V. injection V as <-.
  unfold is_null in Nv. destruct (isnull v); [now destruct Nv|]. rewrite Ac in N. injection N as <-.
  assert (Na : nisnan (Num := Num_sf lm) a = false). { destruct Fa as [_ Fa]. now destruct a. }
  rewrite Na in X'. change (nsub (Num := Num_sf lm) a c) with (sf_sub a c) in X'.
  destruct (sub_is_rnd a c Fa Fc L) as (Fo & Eo). exists (sf_sub a c). split; [exact X'|]. split; [exact Fo|]. rewrite Eo.
  split; [now apply sub_relative|].
  assert (Z : real_of a = real_of c -> rnd (real_of a - real_of c)%R = 0%R). { intros Q. rewrite Q, Rminus_diag_eq by reflexivity. apply rnd_0. }
  assert (Up : (real_of c < real_of a -> 0 < rnd (real_of a - real_of c))%R).
  { intros Q. assert (G : (0 <= rnd (real_of a - real_of c))%R) by (rewrite <- rnd_0; apply rnd_mono; lra).
    destruct G as [G|G]; [exact G|]. symmetry in G. apply sub_zero in G; [lra|exact Fa|exact Fc]. }
  assert (Dn : (real_of a < real_of c -> rnd (real_of a - real_of c) < 0)%R).
  { intros Q. assert (G : (rnd (real_of a - real_of c) <= 0)%R) by (rewrite <- rnd_0; apply rnd_mono; lra).
    destruct G as [G|G]; [exact G|]. apply sub_zero in G; [lra|exact Fa|exact Fc]. }
  destruct (Rtotal_order (real_of a) (real_of c)) as [Q|[Q|Q]].
  - specialize (Dn Q). lra.
  - specialize (Z Q). lra.
  - specialize (Up Q). lra.
Qed.

(* one reference, certified value 1 *)
Example C59_binary64_nonvacuous : exists ds ds' a, is_table ds /\ solve (H := Num_sf flm) fenv [] ds = Ok ds' /\
  value ds' 0 "alkalinity" = Some (VNum a) /\ value ds' 0 "alkalinity_certified" = Some (VInt 1) /\
  as_num (H := Num_sf flm) (VInt 1) = Ok (sf_div (sf_ofZ 1) (sf_ofZ 1)) /\ finite64 a /\ (Rabs (real_of a) + Rabs (real_of (sf_div (sf_ofZ 1) (sf_ofZ 1))) <= powerRZ 2 1001)%R /\
  (real_of a <> 1)%R.
Proof.
  destruct (calibrate_only (H := Num_sf flm) fenv [] (late_table (VInt 1))) as [d|] eqn:E; [|vm_compute in E; discriminate].
  assert (W : is_table d) by (eapply wff_calibrate_only; [apply late_is_table|exact E]).
  destruct (solve (H := Num_sf flm) fenv [] d) as [d'|] eqn:E'.
  2: { exfalso. assert (X : after (calibrate (H := Num_sf flm) fenv [] (late_table (VInt 1))) (fun _ => tt) = Some tt) by (vm_compute; reflexivity).
       unfold calibrate in X. rewrite E in X. cbn [bind] in X. rewrite E' in X. discriminate. }
  assert (X : after (calibrate (H := Num_sf flm) fenv [] (late_table (VInt 1))) (fun d => (value d 0 "alkalinity", value d 0 "alkalinity_certified")) = Some (Some (VNum (S754_finite false 7741429453425154 (-32))), Some (VInt 1))) by (vm_compute; reflexivity).
  unfold calibrate in X. rewrite E in X. cbn [bind] in X. rewrite E' in X. cbn [after] in X. apply some_inj in X. apply pair_equal_spec in X. destruct X as [X1 X2].
  exists d, d', (S754_finite false 7741429453425154 (-32)). split; [exact W|]. split; [exact E'|]. split; [exact X1|]. split; [exact X2|]. split; [reflexivity|].
  assert (One : real_of (sf_div (sf_ofZ 1) (sf_ofZ 1)) = 1%R) by (vm_compute; lra). rewrite One.
  assert (A : real_of (S754_finite false 7741429453425154 (-32)) = (7741429453425154 / 4294967296)%R) by (vm_compute; lra). rewrite A.
  split; [split; vm_compute; reflexivity|]. split; [|lra].
  rewrite pow2. apply Rle_trans with (bpow radix2 40); [|apply bpow_le; lia]. rewrite !Rabs_right by lra. assert (K : (bpow radix2 40 = 1099511627776)%R) by (cbn; lra). rewrite K. lra.
Qed.
