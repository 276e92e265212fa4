(* PropConvert.v -- properties C01-C11 and C87 (convert.py) *)
From Coq Require Import Reals Qreals Lra.
From Verif Require Import SpecConvert ConvertProofs Core.
Open Scope R_scope.

Lemma shaped_fit n d : shaped n d -> all_fit n d = true.
Proof.
  intros Hs. unfold all_fit. apply forallb_forall. intros [k v] Hin. specialize (Hs _ _ Hin).
  destruct v as [x|l]; cbn in *; [reflexivity|]. apply orb_true_iff. rewrite !Nat.eqb_eq. assumption.
Qed.

(* ---------------------------------------------------------------- C01 *)

Theorem C01_emf_pH_mutually_inverse : forall E E0 pH h t : R,
  -273.15 < t ->
  pH_to_emf (emf_to_pH (Fin E) (Fin E0) (Fin t)) (Fin E0) (Fin t) = Fin E /\
  emf_to_pH (pH_to_emf (Fin pH) (Fin E0) (Fin t)) (Fin E0) (Fin t) = Fin pH /\
  h_to_emf (emf_to_h (Fin E) (Fin E0) (Fin t)) (Fin E0) (Fin t) = Fin E /\
  (0 < h -> emf_to_h (h_to_emf (Fin h) (Fin E0) (Fin t)) (Fin E0) (Fin t) = Fin h).
Proof.
  intros E E0 pH h t Ht. repeat split.
  - apply pH_emf_pH; assumption.
  - apply emf_pH_emf; assumption.
  - apply h_emf_h; assumption.
  - intros Hh. apply emf_h_emf; assumption.
Qed.
Example C01_nonvacuous :
  emf_to_pH (pH_to_emf (Fin 8.1) (Fin 650) (Fin 25)) (Fin 650) (Fin 25) = Fin 8.1.
Proof. destruct (C01_emf_pH_mutually_inverse 0 650 8.1 1 25) as [_ [E _]]; [q2r; lra|exact E]. Qed.
Print Assumptions C01_emf_pH_mutually_inverse.

(* Below absolute zero is excluded by more than form: exactly at -273.15 the
   conversion is not invertible. *)
Theorem C01_refuted_at_absolute_zero : exists E E0 : R,
  pH_to_emf (emf_to_pH (Fin E) (Fin E0) (Fin (-273.15))) (Fin E0) (Fin (-273.15)) <> Fin E.
Proof.
  exists 1, 0. unfold emf_to_pH, emf_to_h, pH_to_emf, h_to_emf, absolute_zero. rewrite fin_q, fin_add.
  replace (-273.15 + Q2R 273.15) with 0 by (q2r; lra).
  unfold faraday, ideal_gas. rewrite !fin_q, fin_sub, !fin_mul, Rmult_0_r.
  replace ((1 - 0) * Q2R 96.4853365) with 96.4853365 by (q2r; lra).
  cbn [ndiv NumXR x_div]. rewrite reqb_true by reflexivity. unfold inf_times.
  rewrite rltb_true by (q2r; lra). cbn. unfold inf_times at 1.
  rewrite rltb_true by (q2r; lra). cbn. unfold inf_times. rewrite !rltb_false by lra.
  cbn. discriminate.
Qed.

(* The conversion is the Nernst equation. *)
Theorem C01_nernst : forall E E0 t : R, -273.15 < t ->
  emf_to_h (Fin E) (Fin E0) (Fin t) = Fin (nernst_h E E0 t) /\
  emf_to_pH (Fin E) (Fin E0) (Fin t) = Fin (pH_of_h (nernst_h E E0 t)).
Proof.
  intros E E0 t Ht. unfold pH_of_h, nernst_h. rewrite emf_to_pH_fin, emf_to_h_fin by assumption.
  rewrite ln_exp. split; reflexivity.
Qed.
Print Assumptions C01_nernst.

(* ---------------------------------------------------------------- C02 *)

Theorem C02_pH_decreasing_and_offset_free : forall E1 E2 E0 d t : R,
  -273.15 < t -> E1 < E2 ->
  exists p1 p2 h1 h2,
    emf_to_pH (Fin E1) (Fin E0) (Fin t) = Fin p1 /\
    emf_to_pH (Fin E2) (Fin E0) (Fin t) = Fin p2 /\
    emf_to_h (Fin E1) (Fin E0) (Fin t) = Fin h1 /\
    emf_to_h (Fin E2) (Fin E0) (Fin t) = Fin h2 /\
    p2 < p1 /\ 0 < h1 < h2 /\
    emf_to_pH (Fin (E1 + d)) (Fin (E0 + d)) (Fin t) = Fin p1 /\
    emf_to_h (Fin (E1 + d)) (Fin (E0 + d)) (Fin t) = Fin h1.
Proof.
  intros E1 E2 E0 d t Ht HE.
  eexists _, _, _, _. split; [apply emf_to_pH_fin; assumption|]. split; [apply emf_to_pH_fin; assumption|].
  split; [apply emf_to_h_fin; assumption|]. split; [apply emf_to_h_fin; assumption|].
  split; [eapply emf_lt_pH; try apply emf_to_pH_fin; eassumption|]. split; [split|split].
  - apply exp_pos.
  - apply exp_increasing. pos_consts t Ht.
    assert (0 < Fcst / (Rcst * TK t)) by (apply Rdiv_lt_0_compat; nra).
    unfold Rdiv. rewrite !Rmult_assoc. apply Rmult_lt_compat_r; [assumption|lra].
  - rewrite emf_to_pH_fin by assumption. do 2 f_equal. f_equal. f_equal. f_equal. ring.
  - rewrite emf_to_h_fin by assumption. do 2 f_equal. f_equal. f_equal. ring.
Qed.
Example C02_nonvacuous : -273.15 < 25 /\ 300 < 400.
Proof. split; q2r; lra. Qed.
Print Assumptions C02_pH_decreasing_and_offset_free.

(* ---------------------------------------------------------------- C03 *)

Theorem C03_f_factor_is_emf0_shift : forall E E0 t f : R,
  -273.15 < t -> 0 < f ->
  exists d h, f_to_demf0 (Fin f) (Fin t) = Fin d /\
    emf_to_h (Fin E) (Fin E0) (Fin t) = Fin h /\
    emf_to_h (Fin E) (Fin (E0 - d)) (Fin t) = Fin (f * h).
Proof.
  intros E E0 t f Ht Hf.
  assert (exists d, f_to_demf0 (Fin f) (Fin t) = Fin d) as [d Hd].
  { unfold f_to_demf0, absolute_zero, faraday, ideal_gas. rewrite fin_ln by assumption. xsimp.
    rewrite fin_div by (q2r; lra). eauto. }
  exists d. eexists. split; [assumption|]. split; [apply emf_to_h_fin; assumption|].
  eapply f_demf0; try eassumption. apply emf_to_h_fin; assumption.
Qed.
Example C03_nonvacuous : -273.15 < 20 /\ 0 < 1.1.
Proof. split; q2r; lra. Qed.
Print Assumptions C03_f_factor_is_emf0_shift.

(* ---------------------------------------------------------------- C04 *)

(* the product of the factors of successive additions, each to what is then in the cell *)
Fixpoint successive_dilution (M : R) (additions : list R) : xr :=
  match additions with
  | [] => Fin 1
  | m :: ms => nmul (get_dilution_factor (Fin m) (Fin M)) (successive_dilution (M + m) ms)
  end.

Theorem C04_dilution_factor : forall M m : R, 0 < M -> 0 <= m ->
  exists f, get_dilution_factor (Fin m) (Fin M) = Fin f /\
    0 < f <= 1 /\ (f = 1 <-> m = 0) /\
    (forall m' f', m < m' -> get_dilution_factor (Fin m') (Fin M) = Fin f' -> f' < f).
Proof.
  intros M m HM Hm. exists (M / (m + M)). split; [apply df_fin; lra|].
  assert (Hp : 0 < m + M) by lra. split; [split|split].
  - apply Rdiv_lt_0_compat; assumption.
  - apply Rmult_le_reg_r with (m + M); [assumption|]. unfold Rdiv. rewrite Rmult_assoc, Rinv_l by lra. lra.
  - split; intros E.
    + apply (f_equal (fun x => x * (m + M))) in E. unfold Rdiv in E. rewrite Rmult_assoc, Rinv_l in E by lra. lra.
    + subst m. field. lra.
  - intros m' f' Hlt. rewrite df_fin by lra. intros [= <-].
    apply Rmult_lt_compat_l; [assumption|]. apply Rinv_lt_contravar; [|lra].
    apply Rmult_lt_0_compat; lra.
Qed.
Example C04_nonvacuous : 0 < 0.1 /\ 0 <= 0.002.
Proof. split; q2r; lra. Qed.
Print Assumptions C04_dilution_factor.

Theorem C04_dilution_composes : forall (additions : list R) (M : R),
  0 < M -> Forall (fun m => 0 <= m) additions ->
  successive_dilution M additions = get_dilution_factor (Fin (Rsum additions)) (Fin M).
Proof.
  induction additions as [|m ms IH]; intros M HM Hms; cbn [successive_dilution].
  - unfold Rsum; cbn [fold_right]. rewrite df_fin by lra. f_equal. field. lra.
  - inversion Hms as [|? ? Hm Hms']; subst. rewrite IH by (assumption || lra).
    assert (Hs : 0 <= Rsum ms).
    { clear IH Hms. induction ms as [|x ms IH]; [cbn; lra|]. rewrite Rsum_cons. inversion Hms'; subst.
      specialize (IH H2). lra. }
    rewrite Rsum_cons, !df_fin, fin_mul by lra. f_equal. field. lra.
Qed.
Example C04_composes_example :
  successive_dilution 0.1 [0.001; 0.002; 0.003] = get_dilution_factor (Fin (0.001 + (0.002 + (0.003 + 0)))) (Fin 0.1).
Proof. rewrite C04_dilution_composes; [reflexivity|q2r; lra|repeat constructor; q2r; lra]. Qed.
Print Assumptions C04_dilution_composes.

(* ---------------------------------------------------------------- C05 *)

Theorem C05_dilution_conserves_moles : forall (totals : dict (nd xr)) (tm : list R) (M : R),
  masses_ok tm M -> shaped (length tm) totals ->
  exists d', dilute_totals totals (map Fin tm) (Fin M) = Ok d' /\
    dkeys d' = dkeys totals /\
    forall k i m c, nth_error tm i = Some m -> holds totals k i c ->
      exists c', holds d' k i c' /\ c' * (m + M) = c * M.
Proof.
  intros totals tm M [HM Htm] Hs. apply shaped_fit in Hs.
  destruct (dilute_totals_total totals (map Fin tm) (Fin M)) as [d' Hd'].
  { rewrite map_length; assumption. }
  exists d'. split; [assumption|]. destruct (dilute_totals_moles _ _ _ _ HM Htm Hs Hd') as [Hk Hg].
  split; [assumption|]. intros k i m c Hm [v [Hv Hc]].
  destruct (Hg _ _ _ _ _ Hv Hm Hc) as [v' [c' [Hv' [Hc' E]]]].
  exists c'. split; [exists v'; auto|assumption].
Qed.
Example C05_nonvacuous :
  let totals := [("dic", NdS (Fin 0.002)); ("total_sulfate", NdA [Fin 0.028; Fin 0.027])] in
  masses_ok [0; 0.001] 0.1 /\ shaped 2 totals /\ holds totals "total_sulfate" 1 0.027.
Proof.
  cbn zeta. repeat split.
  - q2r; lra.
  - repeat constructor; q2r; lra.
  - intros k v [[= <- <-]|[[= <- <-]|[]]]; cbn; auto.
  - eexists; split; reflexivity.
Qed.
Print Assumptions C05_dilution_conserves_moles.

Theorem C05_H2SO4_adds_exactly_the_sulfate : forall (totals : dict (nd xr)) (c0 : R) (tm : list R) (M : R),
  masses_ok tm M -> shaped (length tm) totals ->
  exists d', dilute_totals_H2SO4 totals (Fin c0) (map Fin tm) (Fin M) = Ok d' /\
    dkeys d' = dkeys totals /\
    forall k i m c, nth_error tm i = Some m -> holds totals k i c ->
      exists c', holds d' k i c' /\
        c' * (m + M) = c * M + (if String.eqb k "total_sulfate" then c0 * m else 0).
Proof.
  intros totals c0 tm M [HM Htm] Hs. apply shaped_fit in Hs.
  destruct (dilute_H2SO4_spec totals (Fin c0) (map Fin tm) (Fin M)) as [d' [Hd' [Hk Hg]]].
  { rewrite map_length; assumption. }
  exists d'. split; [assumption|]. split; [assumption|]. intros k i m c Hm [v [Hv Hc]].
  destruct (Hg _ _ Hv) as [l' [Hl' [Hlen Hn]]].
  specialize (Hn i (Fin m) (nth_error_map_fin _ _ _ Hm)).
  pose proof (Forall_nth_error _ _ _ _ Htm Hm) as Hpos. cbn in Hpos. rewrite Hc in Hn.
  destruct (String.eqb k "total_sulfate").
  - exists ((c * M + c0 * m) / (M + m)). split.
    + exists (NdA l'). split; [assumption|]. apply nd_at_nth. rewrite Hn. xsimp. rewrite fin_div by lra. reflexivity.
    + field. lra.
  - exists (c * (M / (m + M))). split.
    + exists (NdA l'). split; [assumption|]. apply nd_at_nth. rewrite Hn. rewrite df_fin, fin_mul by lra. reflexivity.
    + field. lra.
Qed.
Print Assumptions C05_H2SO4_adds_exactly_the_sulfate.

(* ---------------------------------------------------------------- C06 *)

Lemma C06_aux :
  forall (totals d1 d2 d3 : dict (nd xr)) (c0 : R) (tm : list R) (M : R),
  masses_ok tm M -> shaped (length tm) totals -> wfd totals ->
  (forall i, (i < length tm)%nat -> exists c, holds totals "total_sulfate" i c) ->
  dilute_totals totals (map Fin tm) (Fin M) = Ok d1 ->
  add_titrant_totals d1 (map Fin tm) (Fin M) (Fin c0) (Fin 0) [("titrant_total_sulfate", VInt 1)] = (d2, Ok tt) ->
  dilute_totals_H2SO4 totals (Fin c0) (map Fin tm) (Fin M) = Ok d3 ->
  d2 = d3.
Proof.
  intros totals d1 d2 d3 c0 tm M [HM Htm] Hs Hwf Hsulf H1 H2 H3. apply shaped_fit in Hs.
  assert (Hs' : all_fit (length (map Fin tm)) totals = true) by (rewrite map_length; assumption).
  destruct (dilute_totals_spec _ _ _ _ Hs' H1) as [Hk1 Hg1].
  destruct (dilute_H2SO4_spec totals (Fin c0) (map Fin tm) (Fin M) Hs') as [d3' [H3' [Hk3 Hg3]]].
  rewrite H3' in H3. injection H3 as ->.
  cbn [add_titrant_totals] in H2. change (sdrop 8 "titrant_total_sulfate") with "total_sulfate" in H2.
  change (startswith "titrant_total_sulfate" "titrant_total_") with true in H2. cbn [assert_ bind] in H2.
  unfold dgetE in H2. destruct (dget "total_sulfate" d1) as [v1|] eqn:Ev1; cbn [of_opt bind] in H2; [|congruence].
  cbn [as_num bind] in H2.
  destruct (dget "total_sulfate" totals) as [v|] eqn:Ev.
  2:{ rewrite (dget_keys_none _ _ _ Hk1 Ev) in Ev1. discriminate. }
  destruct (Hg1 _ _ Ev) as [l1 [El1 [Len1 N1]]]. rewrite Ev1 in El1. injection El1 as ->.
  rewrite map_length in Len1. unfold nd_iadd, titrant_addition in H2. rewrite !map_length, Len1, Nat.eqb_refl in H2.
  match type of H2 with context [map2 nadd l1 ?a] => set (addl := a) in H2 end.
  assert (Hal : length addl = length tm) by (unfold addl; rewrite !map_length; reflexivity).
  injection H2 as <-.
  assert (Hm1 : dmem "total_sulfate" d1 = true) by (unfold dmem; rewrite Ev1; reflexivity).
  assert (Hkeys : dkeys d3 = dkeys (dset "total_sulfate" (NdA (map2 nadd l1 addl)) d1)).
  { rewrite dkeys_dset_mem by assumption. congruence. }
  symmetry. apply dict_ext; [|assumption|].
  { unfold wfd. rewrite dkeys_dset_mem by assumption. rewrite Hk1. assumption. }
  intros k Hk. rewrite dget_dset. rewrite dkeys_dset_mem in Hk by assumption. rewrite Hk1 in Hk.
  apply dget_in_keys in Hk. apply dmem_true_get in Hk as [w Hw].
  destruct (Hg3 _ _ Hw) as [l3 [El3 [Len3 N3]]]. rewrite map_length in Len3.
  destruct (String.eqb_spec k "total_sulfate") as [->|Hne].
  - assert (w = v) by congruence. subst w. rewrite El3. do 2 f_equal. apply list_ext.
    + rewrite map2_length; congruence.
    + intros i x Hx. change (nth_error (map2 nadd l1 addl) i = Some x) in Hx.
      assert (Hi : (i < length tm)%nat).
      { assert (nth_error (map2 nadd l1 addl) i <> None) by congruence.
        apply nth_error_Some in H. rewrite map2_length in H; lia. }
      destruct (nth_error tm i) as [m|] eqn:Em; [|apply nth_error_None in Em; lia].
      pose proof (Forall_nth_error _ _ _ _ Htm Em) as Hpos. cbn in Hpos.
      destruct (Hsulf i Hi) as [c [v0 [Hv0 Hc]]]. assert (v0 = v) by congruence. subst v0.
      pose proof (nth_error_map_fin _ _ _ Em) as Em'.
      rewrite (N3 _ _ Em'). cbn [String.eqb Ascii.eqb Bool.eqb] in *. rewrite Hc.
      erewrite nth_error_map2 in Hx.
      2:{ apply (N1 _ _ Em'). }
      2:{ unfold addl. rewrite nth_error_map, Em'. reflexivity. }
      rewrite Hc in Hx. rewrite <- Hx. f_equal.
      rewrite df_fin by lra. xsimp. rewrite !fin_div by lra. xsimp. f_equal. field. lra.
  - rewrite El3. destruct (Hg1 _ _ Hw) as [l1' [El1' [Len1' N1']]]. rewrite El1'. do 2 f_equal. symmetry. apply list_ext.
    + rewrite map_length in Len1'. congruence.
    + intros i x Hx.
      assert (Hi : (i < length tm)%nat).
      { assert (nth_error l3 i <> None) by congruence. apply nth_error_Some in H. lia. }
      destruct (nth_error tm i) as [m|] eqn:Em; [|apply nth_error_None in Em; lia].
      pose proof (nth_error_map_fin _ _ _ Em) as Em'.
      rewrite (N1' _ _ Em'). rewrite (N3 _ _ Em') in Hx.
      revert Hx. destruct (String.eqb_spec k "total_sulfate"); congruence.
Qed.

Theorem C06_H2SO4_is_dilution_plus_titrant_sulfate :
  forall (totals : dict (nd xr)) (c0 : R) (tm : list R) (M : R),
  masses_ok tm M -> shaped (length tm) totals -> wfd totals ->
  dmem "total_sulfate" totals = true ->
  (forall i, (i < length tm)%nat -> exists c, holds totals "total_sulfate" i c) ->
  exists d1 d2,
    dilute_totals totals (map Fin tm) (Fin M) = Ok d1 /\
    add_titrant_totals d1 (map Fin tm) (Fin M) (Fin c0) (Fin 0) [("titrant_total_sulfate", VInt 1)]
      = (d2, Ok tt) /\
    dilute_totals_H2SO4 totals (Fin c0) (map Fin tm) (Fin M) = Ok d2.
Proof.
  intros totals c0 tm M Hm Hs Hwf Hmem Hsulf.
  pose proof (shaped_fit _ _ Hs) as Hfit.
  assert (Hfit' : all_fit (length (map Fin tm)) totals = true) by (rewrite map_length; assumption).
  destruct (dilute_totals_total totals (map Fin tm) (Fin M) Hfit') as [d1 H1].
  destruct (dilute_H2SO4_spec totals (Fin c0) (map Fin tm) (Fin M) Hfit') as [d3 [H3 _]].
  destruct (dilute_totals_spec _ _ _ _ Hfit' H1) as [Hk1 Hg1].
  apply dmem_true_get in Hmem as [v Hv]. destruct (Hg1 _ _ Hv) as [l1 [Hl1 [Len1 _]]].
  assert (exists d2, add_titrant_totals d1 (map Fin tm) (Fin M) (Fin c0) (Fin 0)
            [("titrant_total_sulfate", VInt 1)] = (d2, Ok tt)) as [d2 H2].
  { cbn [add_titrant_totals]. change (sdrop 8 "titrant_total_sulfate") with "total_sulfate".
    change (startswith "titrant_total_sulfate" "titrant_total_") with true. cbn [assert_ bind].
    unfold dgetE. rewrite Hl1. cbn [of_opt bind as_num].
    unfold nd_iadd, titrant_addition. rewrite !map_length in *. rewrite Len1, Nat.eqb_refl. eauto. }
  exists d1, d2. split; [assumption|]. split; [assumption|].
  rewrite H3. f_equal. symmetry. eapply C06_aux; eassumption.
Qed.
Example C06_nonvacuous :
  let totals := [("dic", NdS (Fin 0.002)); ("total_sulfate", NdS (Fin 0.028))] in
  masses_ok [0; 0.001] 0.1 /\ shaped 2 totals /\ wfd totals /\ dmem "total_sulfate" totals = true /\
  (forall i, (i < 2)%nat -> exists c, holds totals "total_sulfate" i c).
Proof.
  cbn zeta. repeat split.
  - q2r; lra.
  - repeat constructor; q2r; lra.
  - intros k v [[= <- <-]|[[= <- <-]|[]]]; cbn; auto.
  - unfold wfd; cbn. repeat constructor; cbn; intuition discriminate.
  - intros i _. exists 0.028. eexists; split; reflexivity.
Qed.
Print Assumptions C06_H2SO4_is_dilution_plus_titrant_sulfate.

(* ---------------------------------------------------------------- C07 *)

Theorem C07_pyco2_dilutes_exactly_the_ten_salts :
  forall (totals : dict (nd xr)) (tm : list R) (M : R),
  masses_ok tm M -> shaped (length tm) totals ->
  exists d', dilute_totals_pyco2 totals (map Fin tm) (Fin M) = Ok d' /\
    dkeys d' = dkeys totals /\
    (forall k, ~ In k pyco2_salts -> dget k d' = dget k totals) /\
    (forall k i m c, In k pyco2_salts -> nth_error tm i = Some m -> holds totals k i c ->
       holds d' k i (c * (M / (m + M)))).
Proof.
  intros totals tm M [HM Htm] Hs. apply shaped_fit in Hs.
  assert (Hs' : all_fit (length (map Fin tm)) totals = true) by (rewrite map_length; assumption).
  destruct (dilute_keys_spec pyco2_salts totals (map Fin tm) (Fin M) Hs') as [d' [Hd' [Hk Hg]]].
  exists d'. split; [exact Hd'|]. split; [exact Hk|]. split.
  - intros k Hni. destruct (dget k totals) as [v|] eqn:Ev.
    + destruct (Hg _ _ Ev) as [v' [Hv' [E _]]]. rewrite Hv', E by assumption. reflexivity.
    + apply (dget_keys_none _ _ _ Hk Ev).
  - intros k i m c Hin Hm [v [Hv Hc]]. destruct (Hg _ _ Hv) as [v' [Hv' [_ E]]].
    destruct (E Hin) as [l' [-> [_ N]]]. exists (NdA l'). split; [assumption|].
    apply nd_at_nth. rewrite (N i (Fin m) (nth_error_map_fin _ _ _ Hm)), Hc.
    pose proof (Forall_nth_error _ _ _ _ Htm Hm) as Hpos. cbn in Hpos.
    rewrite df_fin, fin_mul by lra. reflexivity.
Qed.
Example C07_nonvacuous :
  let totals := [("Sal", NdS (Fin 35)); ("TB", NdS (Fin 0.0004))] in
  masses_ok [0.001] 0.1 /\ shaped 1 totals /\ holds totals "TB" 0 0.0004 /\
  In "TB" pyco2_salts /\ ~ In "Sal" pyco2_salts.
Proof.
  cbn zeta. repeat split.
  - q2r; lra.
  - repeat constructor; q2r; lra.
  - intros k v [[= <- <-]|[[= <- <-]|[]]]; cbn; auto.
  - eexists; split; reflexivity.
  - cbn; auto.
  - cbn. intuition discriminate.
Qed.
Print Assumptions C07_pyco2_dilutes_exactly_the_ten_salts.

(* ---------------------------------------------------------------- C08 *)

(* Full statement: every substance emitted by totals_to_pyco2 other than salinity
   is diluted by dilute_totals_pyco2.  False for the extra acids (and calcium):
   the emitted key "total_alpha" is not the key "alpha" that is diluted. *)
Theorem C08_refuted : exists (totals : dict (nd xr)) (sal c m M : R) (d' : dict (nd xr)),
  masses_ok [m] M /\ 0 < m /\ 0 < c /\
  holds totals "total_alpha" 0 c /\
  holds (totals_to_pyco2 totals (Fin sal)) "total_alpha" 0 c /\
  dilute_totals_pyco2 (totals_to_pyco2 totals (Fin sal)) [Fin m] (Fin M) = Ok d' /\
  holds d' "total_alpha" 0 c /\ c * (m + M) <> c * M.
Proof.
  exists [("total_alpha", NdS (Fin 1))], 35, 1, 1, 1. eexists.
  split; [split; [lra|repeat constructor; lra]|]. split; [lra|]. split; [lra|].
  split; [eexists; split; reflexivity|]. split; [eexists; split; reflexivity|].
  split; [unfold dilute_totals_pyco2, totals_to_pyco2, pyco2_to_calk__totals; cbn; reflexivity|].
  split; [eexists; split; reflexivity|lra].
Qed.
Print Assumptions C08_refuted.

Lemma totals_to_pyco2_shaped n totals sal : shaped n totals -> shaped n (totals_to_pyco2 totals sal).
Proof.
  intros Hs k v Hin.
  assert (Hval : forall c, match (match dget c totals with Some v => v | None => NdS n0 end) with
                     NdS _ => True | NdA l => length l = n \/ length l = 1%nat end).
  { intros c. destruct (dget c totals) as [w|] eqn:Ew; [|exact I]. apply dget_in in Ew. exact (Hs _ _ Ew). }
  cbn in Hin. repeat destruct Hin as [Hin|Hin]; try (injection Hin as <- <-; apply Hval || exact I).
  destruct Hin.
Qed.

Theorem C08_seven_salts_partial :
  forall (totals : dict (nd xr)) (sal : R) (tm : list R) (M : R),
  masses_ok tm M -> shaped (length tm) totals ->
  (* values are carried over unchanged, absent ones are zero *)
  (forall calk pyco2, In (calk, pyco2) salt_names ->
     dget pyco2 (totals_to_pyco2 totals (Fin sal)) =
     Some (match dget calk totals with Some v => v | None => NdS (Fin 0) end)) /\
  dget "Sal" (totals_to_pyco2 totals (Fin sal)) = Some (NdS (Fin sal)) /\
  (* and each of the seven named salts is diluted *)
  exists d', dilute_totals_pyco2 (totals_to_pyco2 totals (Fin sal)) (map Fin tm) (Fin M) = Ok d' /\
    dget "Sal" d' = Some (NdS (Fin sal)) /\
    forall calk pyco2 i m c, In (calk, pyco2) salt_names -> nth_error tm i = Some m ->
      holds totals calk i c -> holds d' pyco2 i (c * (M / (m + M))).
Proof.
  intros totals sal tm M Hm Hs.
  assert (Hcarry : forall calk pyco2, In (calk, pyco2) salt_names ->
     dget pyco2 (totals_to_pyco2 totals (Fin sal)) =
     Some (match dget calk totals with Some v => v | None => NdS (Fin 0) end)).
  { rewrite <- fin_n0. intros calk pyco2 Hin. cbn in Hin.
    repeat destruct Hin as [Hin|Hin]; try (injection Hin as <- <-; reflexivity). destruct Hin. }
  split; [exact Hcarry|]. split; [reflexivity|].
  destruct (C07_pyco2_dilutes_exactly_the_ten_salts _ _ _ Hm (totals_to_pyco2_shaped _ _ (Fin sal) Hs))
    as [d' [Hd' [Hk [Hother Hdil]]]].
  exists d'. split; [assumption|]. split.
  { rewrite Hother; [reflexivity|]. cbn. intuition discriminate. }
  intros calk pyco2 i m c Hin Hi [v [Hv Hc]]. apply Hdil; [|assumption|].
  - cbn in Hin. repeat destruct Hin as [Hin|Hin]; try (injection Hin as <- <-; cbn; tauto). destruct Hin.
  - exists v. split; [rewrite (Hcarry calk pyco2 Hin), Hv; reflexivity|assumption].
Qed.
Example C08_partial_nonvacuous :
  let totals := [("total_borate", NdS (Fin 0.0004))] in
  masses_ok [0.001] 0.1 /\ shaped 1 totals /\ holds totals "total_borate" 0 0.0004.
Proof.
  cbn zeta. repeat split; try (q2r; lra).
  - repeat constructor; q2r; lra.
  - intros k v [[= <- <-]|[]]; cbn; auto.
  - eexists; split; reflexivity.
Qed.
Print Assumptions C08_seven_salts_partial.

(* ---------------------------------------------------------------- C87 *)

Theorem C87_pyco2_H2SO4 :
  forall (totals : dict (nd xr)) (c0 : R) (tm : list R) (M : R),
  masses_ok tm M -> shaped (length tm) totals ->
  (dget "TSO4" totals = None ->
     dilute_totals_pyco2_H2SO4 totals (Fin c0) (map Fin tm) (Fin M) = Err (KeyError "TSO4")) /\
  (dmem "TSO4" totals = true ->
   exists d', dilute_totals_pyco2_H2SO4 totals (Fin c0) (map Fin tm) (Fin M) = Ok d' /\
    dkeys d' = dkeys totals /\
    (forall k, ~ In k pyco2_salts -> dget k d' = dget k totals) /\
    (forall k i m c, In k pyco2_salts -> nth_error tm i = Some m -> holds totals k i c ->
       exists c', holds d' k i c' /\
         c' * (m + M) = c * M + (if String.eqb k "TSO4" then c0 * m else 0))).
Proof.
  intros totals c0 tm M [HM Htm] Hs. apply shaped_fit in Hs.
  assert (Hs' : all_fit (length (map Fin tm)) totals = true) by (rewrite map_length; assumption).
  destruct (dilute_keys_spec pyco2_H2SO4_diluted_keys totals (map Fin tm) (Fin M) Hs') as [d1 [Hd1 [Hk Hg]]].
  unfold dilute_totals_pyco2_H2SO4. rewrite Hd1. cbn [bind]. unfold dgetE. split.
  - intros Hn. rewrite (dget_keys_none _ _ _ Hk Hn). reflexivity.
  - intros Hmem. apply dmem_true_get in Hmem as [v Hv].
    destruct (Hg _ _ Hv) as [v1 [Hv1 [E _]]].
    assert (Hni : ~ In "TSO4" pyco2_H2SO4_diluted_keys) by (cbn; intuition discriminate).
    specialize (E Hni). subst v1. rewrite Hv1. cbn [of_opt bind].
    destruct (mix_step v (Fin c0) (map Fin tm) (Fin M)) as [l1 [l2 [E1 [E2 [L N]]]]].
    { eapply all_fit_get; eassumption. }
    rewrite E1. cbn [bind]. rewrite E2. cbn [bind]. eexists. split; [reflexivity|].
    assert (Hm1 : dmem "TSO4" d1 = true) by (unfold dmem; rewrite Hv1; reflexivity).
    split; [rewrite dkeys_dset_mem by assumption; assumption|]. split.
    + intros k Hnk. rewrite dget_dset_other.
      2:{ intros ->. apply Hnk. cbn; tauto. }
      destruct (dget k totals) as [w|] eqn:Ew; [|apply (dget_keys_none _ _ _ Hk Ew)].
      destruct (Hg _ _ Ew) as [w' [Hw' [E _]]]. rewrite Hw', E; [reflexivity|].
      intros Hin. apply Hnk. cbn in Hin |- *. tauto.
    + intros k i m c Hin Hm [w [Hw Hc]].
      pose proof (Forall_nth_error _ _ _ _ Htm Hm) as Hpos. cbn in Hpos.
      pose proof (nth_error_map_fin _ _ _ Hm) as Hm'.
      destruct (String.eqb_spec k "TSO4") as [->|Hne].
      * assert (w = v) by congruence. subst w. exists ((c * M + c0 * m) / (M + m)). split; [|field; lra].
        exists (NdA l2). split; [apply dget_dset_same|]. apply nd_at_nth.
        rewrite (N i (Fin m) Hm'), Hc. xsimp. rewrite fin_div by lra. reflexivity.
      * destruct (Hg _ _ Hw) as [w' [Hw' [_ E]]].
        destruct E as [l' [-> [_ N']]].
        { cbn in Hin |- *. intuition congruence. }
        exists (c * (M / (m + M))). split; [|field; lra].
        exists (NdA l'). split; [rewrite dget_dset_other by assumption; assumption|].
        apply nd_at_nth. rewrite (N' i (Fin m) Hm'), Hc. rewrite df_fin, fin_mul by lra. reflexivity.
Qed.
Example C87_nonvacuous :
  let totals := [("TSO4", NdS (Fin 0.028)); ("TB", NdS (Fin 0.0004))] in
  masses_ok [0.001] 0.1 /\ shaped 1 totals /\ dmem "TSO4" totals = true /\ holds totals "TSO4" 0 0.028.
Proof.
  cbn zeta. repeat split; try (q2r; lra).
  - repeat constructor; q2r; lra.
  - intros k v [[= <- <-]|[[= <- <-]|[]]]; cbn; auto.
  - eexists; split; reflexivity.
Qed.
Print Assumptions C87_pyco2_H2SO4.
