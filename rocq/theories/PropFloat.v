(* PropFloat.v -- C43: calibration in double precision *)
From Coq Require Import Floats.SpecFloat ZArith.
From Verif Require Export Core SFNum.
From Verif Require PropCalibrate.
Open Scope list_scope.

Definition sfz (z : Z) : sf := sf_ofZ z.
(* an optimiser that only evaluates the starting point *)
Definition stop_now_sf : strategy sf := {| s_next := fun _ => None; s_max := 0; s_pick := fun _ => 0%nat |}.

(* The titration has two points of pH 0.  10.0 ** -0.0 is exactly 1.0 in every C library;
   no other value of an elementary function is needed.
   The sulfate total 0.1 becomes 0.6 and then 0.09999999999999998. *)
Theorem C43_totals_drift_refuted : forall lm,
  lm_pow10 lm (S754_zero true) = sfz 1 ->
  exists (st : strategy sf) cert tm pH temps M totals ks pmin pmax init n titrant_totals totals' o,
    @calibrate_pH_gran sf (Num_sf lm) st cert tm pH temps M totals ks pmin pmax init n titrant_totals = (totals', Ok o) /\
    totals' <> totals.
Proof.
  intros lm Hp.
  exists stop_now_sf, (sfz 2), [sfz 1; sfz 3], [S754_zero false; S754_zero false], [], (sfz 1),
    [("total_sulfate", NdA [sf_ofQ 0.1; sf_ofQ 0.1])], [], (sfz (-1)), (sfz 1), (sfz 1), (sfz 1),
    [("titrant_total_sulfate", VNum (sfz 1))].
  assert (Hg : forall t, exists r,
     @solve_pH_gran sf (Num_sf lm) (sfz 1) [sfz 1; sfz 3] [S754_zero false; S754_zero false] [] (sfz 1) t [] (sfz (-1)) (sfz 1) (sfz 1) = Ok r /\
     sg_alkalinity r = sfz (-1000000)).
  { intros t. unfold solve_pH_gran. cbn [length Nat.eqb negb map2].
    change (@npow10 sf (Num_sf lm) (@nopp sf (Num_sf lm) (S754_zero false))) with (lm_pow10 lm (S754_zero true)). rewrite Hp.
    destruct lm as [e l l10 p10 p15 pi]. clear Hp.
    match goal with |- context [linregress ?x ?y] => set (lr := linregress x y) end.
    vm_compute in lr. subst lr. cbn [bind].
    match goal with |- context [assert_ ?b] => replace b with true by (vm_compute; reflexivity) end. cbn [assert_ bind].
    eexists. split; [reflexivity|]. cbn [sg_alkalinity lr_intercept lr_slope]. vm_compute. reflexivity. }
  unfold calibrate_pH_gran, least_squares. cbn [existsb lsqfun_calibrate].
  match goal with |- context [@add_titrant_totals ?ty ?nn ?a ?b ?c ?d ?e ?f] =>
    let v := eval vm_compute in (@add_titrant_totals ty nn a b c d e f) in
    replace (@add_titrant_totals ty nn a b c d e f) with v by (vm_compute; reflexivity) end.
  change (orb (@nisnan sf (Num_sf lm) (sfz 1)) false) with false. cbv beta iota.
  match goal with |- context [@solve_pH_gran _ _ _ _ _ _ _ ?t] => destruct (Hg t) as [r [Hr1 Hr2]] end.
  rewrite Hr1. cbn [bind]. rewrite Hr2.
  match goal with |- context [@add_titrant_totals ?ty ?nn ?a ?b ?c ?d ?e ?f] =>
    let v := eval vm_compute in (@add_titrant_totals ty nn a b c d e f) in
    replace (@add_titrant_totals ty nn a b c d e f) with v by (vm_compute; reflexivity) end.
  match goal with |- context [forallb ?f ?l] => replace (forallb f l) with true by (vm_compute; reflexivity) end.
  cbn [s_max stop_now_sf lsq_loop]. eexists. eexists. split; [reflexivity|].
  intros E. apply (f_equal (fun d => match d with (_, NdA (S754_finite _ m _ :: _)) :: _ => m | _ => 1%positive end)) in E.
  vm_compute in E. discriminate.
Qed.

(** The part of C43 that holds: without titrant totals nothing is written, in binary64 too. *)
Theorem C43_no_titrant_totals_partial : forall lm st cert tm ms temps M totals ks ai ei double pmin pmax c0 n,
  fst (@calibrate_emf sf (Num_sf lm) st cert tm ms temps M totals ks ai ei double pmin pmax c0 n []) = totals /\
  fst (@calibrate_pH sf (Num_sf lm) st cert tm ms temps M totals ks pmin pmax c0 n []) = totals /\
  fst (@calibrate_pH_gran sf (Num_sf lm) st cert tm ms temps M totals ks pmin pmax c0 n []) = totals.
Proof. intros lm. exact (@PropCalibrate.C44_no_titrant_totals_partial sf (Num_sf lm)). Qed.

(* a C library with 10.0 ** -0.0 = 1.0, so that the titration of C43_totals_drift_refuted runs *)
Definition unit_libm : libm :=
  {| lm_exp := fun _ => sfz 1; lm_ln := fun _ => sfz 0; lm_log10 := fun _ => sfz 0; lm_pow10 := fun _ => sfz 1;
     lm_pow15 := fun _ => sfz 1; lm_powi := fun _ _ => sfz 1 |}.

Example C43_nonvacuous :
  lm_pow10 unit_libm (S754_zero true) = sfz 1 /\
  exists o, @calibrate_pH_gran sf (Num_sf unit_libm) stop_now_sf (sfz 2) [sfz 1; sfz 3]
    [S754_zero false; S754_zero false] [] (sfz 1) [("total_sulfate", NdA [sf_ofQ 0.1; sf_ofQ 0.1])] []
    (sfz (-1)) (sfz 1) (sfz 1) (sfz 1) [] = ([("total_sulfate", NdA [sf_ofQ 0.1; sf_ofQ 0.1])], Ok o).
Proof. split; [reflexivity|]. eexists. vm_compute. reflexivity. Qed.

Print Assumptions C43_totals_drift_refuted.
Print Assumptions C43_no_titrant_totals_partial.
