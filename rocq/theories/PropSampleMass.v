(* PropSampleMass.v -- C132: how an error in the mass of the sample reaches the alkalinity *)
From Coq Require Import Reals Lra Lia List.
From Verif Require Import Files DictLemmas SettingsProofs TableProofs PropModes PropSupplied PropTemperature PropSampleVolume PropTitrantDensity ConvertProofs.
From Verif Require Import XR XRLemmas SpecConvert SpecCore SpecSimulate SimProofs SolveProofs PropSolve PropMonotone Witness PropSulfuric PropTransfer.
Import ListNotations.
Open Scope R_scope.
Open Scope string_scope.
Open Scope list_scope.

(* ------------------------------------------------------------------ *)
(** * Vocabulary *)

(* hydroxide in the mixture at point i, if its H+ content is h *)
Definition hydroxide (ks : dict (nd xr)) (i : nat) (h : R) : R :=
  match dget "k_water" (slice_at ks i) with Some (Fin w) => w / h | _ => 0 end.
(* moles of acid added up to each point, less the free acid in the titrant's share of the mixture *)
Definition acid_consumed (c n : R) (ks : dict (nd xr)) (tm pH : list R) : list R :=
  map (fun i => let h := h_of (nth i pH 0) in nth i tm 0 * (c * n + hydroxide ks i h - h)) (seq 0 (length tm)).
(* mean over the points used *)
Definition mean_used (used : list bool) (x : list R) : R := fold_right Rplus 0 (mask used x) / INR (n_used used).

(* ------------------------------------------------------------------ *)
(** * Loading *)

Lemma mass_load (e : env xr) f s kw M' cv t ks cv' t' ks' :
  undiluted kw -> load e f s kw = Ok (cv, (t, ks)) -> load e f s (dset "analyte_mass" (VNum (Fin M')) kw) = Ok (cv', (t', ks')) ->
  cv_titrant_mass cv' = cv_titrant_mass cv /\ cv_measurement cv' = cv_measurement cv /\ cv_temperature cv' = cv_temperature cv /\
  cv_analyte_mass cv' = Fin M' /\ ks' = ks /\
  exists t0, dilute_totals (dmap NdS t0) (cv_titrant_mass cv) (cv_analyte_mass cv) = Ok t /\
    dilute_totals (dmap NdS t0) (cv_titrant_mass cv) (Fin M') = Ok t'.
Proof.
  intros U L L'. unfold load in L, L'.
  assert (F : full_name f (dset "analyte_mass" (VNum (Fin M')) kw) = full_name f kw).
  { unfold full_name. now rewrite dget_dset_other by discriminate. }
  rewrite F in L'. destruct (full_name f kw) as [nm|]; [cbn [bind] in L, L'|discriminate].
  rewrite (sample_out keys_read_dat), (sample_out keys_totals_ks), (PropTitrantDensity.gkf_in keys_cau) in L' by ((cbn; tauto) || reflexivity).
  destruct (read_dat e nm _) as [d|]; [cbn [bind] in L, L'|discriminate].
  destruct d as [dd|]; [|discriminate].
  set (K := get_kwargs_for keys_cau kw None) in *. set (K2 := get_kwargs_for keys_totals_ks kw None) in *.
  assert (A : forall cv0, amount_units_dat (Dat dd) s K = Ok cv0 -> forall cv1, amount_units_dat (Dat dd) s (dset "analyte_mass" (VNum (Fin M')) K) = Ok cv1 ->
    cv_titrant_mass cv1 = cv_titrant_mass cv0 /\ cv_measurement cv1 = cv_measurement cv0 /\ cv_temperature cv1 = cv_temperature cv0 /\
    cv_analyte_mass cv1 = Fin M' /\ cv_salinity cv1 = cv_salinity cv0).
  { intros cv0 E0 cv1 E1. unfold amount_units_dat, amount_units in E0, E1.
    rewrite check_kwargs_dset in E1 by (cbn; tauto). rewrite (kwarg_dset_other "temperature_override") in E1 by discriminate.
    assert (TM : cau_titrant_mass (dd_titrant_amount dd) (dset "analyte_mass" (VNum (Fin M')) K) = cau_titrant_mass (dd_titrant_amount dd) K).
    { unfold cau_titrant_mass.
      rewrite !(kwarg_dset_other "titrant_amount_unit"), !(kwarg_dset_other "titrant_density"), !(kwarg_dset_other "titrant"),
        !(kwarg_dset_other "molinity_HCl"), !(kwarg_dset_other "molinity_NaCl"), !(kwarg_dset_other "molinity_H2SO4") by discriminate. reflexivity. }
    rewrite TM in E1. clear TM.
    destruct (check_kwargs keys_cau K); [cbn [bind] in E0, E1|discriminate].
    destruct (match kwarg "temperature_override" VNone K with VNone => Ok (dd_temperature dd) | _ => _ end) as [ts|]; [cbn [bind] in E0, E1|discriminate].
    destruct (cau_titrant_mass _ K) as [tm|]; [cbn [bind] in E0, E1|discriminate].
    unfold cau_analyte_mass at 1 in E1. rewrite kwarg_dset_same in E1. cbn [isnull as_num bind nisnan NumXR x_isnan] in E1.
    destruct (cau_analyte_mass ts s K) as [M|]; [cbn [bind] in E0|discriminate].
    apply ok_inj in E0. apply ok_inj in E1. subst cv0 cv1. repeat split; reflexivity. }
  destruct (amount_units_dat (Dat dd) s K) as [cv0|] eqn:E0; [cbn [bind] in L|discriminate].
  destruct (amount_units_dat (Dat dd) s (dset _ _ K)) as [cv1|] eqn:E1; [cbn [bind] in L'|discriminate].
  destruct (A _ eq_refl _ eq_refl) as (A1 & A2 & A3 & A4 & A5).
  destruct (totals_ks e cv0 K2) as [tk|] eqn:T0; [cbn [bind] in L|discriminate].
  destruct (totals_ks e cv1 K2) as [tk'|] eqn:T1; [cbn [bind] in L'|discriminate].
  apply ok_inj in L. apply pair_inj in L. destruct L as [-> ->]. apply ok_inj in L'. apply pair_inj in L'. destruct L' as [-> ->].
  do 4 (split; [assumption|]). unfold totals_ks in T0, T1. rewrite A5, A1, A3, A4 in T1.
  destruct (get_totals e (cv_salinity cv) _) as [[t0 tp0]|]; [cbn [bind] in T0, T1|discriminate].
  assert (Ud : match dget "dilute_totals_for_ks" K2 with Some v => truthy v | None => false end = false).
  { unfold K2. rewrite dget_gkf by (cbn; tauto). unfold undiluted in U. destruct (dget _ kw); [exact U|reflexivity]. }
  rewrite Ud in T0, T1.
  destruct (dilute_totals _ _ (cv_analyte_mass cv)) as [d0|] eqn:D0; [cbn [bind] in T0|discriminate].
  destruct (dilute_totals _ _ (Fin M')) as [d1|] eqn:D1; [cbn [bind] in T1|discriminate].
  destruct (get_k_constants e _ _ _) as [k0|]; [cbn [bind] in T0, T1|discriminate].
  apply ok_inj in T0. apply pair_inj in T0. destruct T0 as [-> ->]. apply ok_inj in T1. apply pair_inj in T1. destruct T1 as [-> ->].
  split; [reflexivity|]. exists t0. split; [exact D0|exact D1].
Qed.

(* ------------------------------------------------------------------ *)
(** * Dilution with two sample masses *)

Lemma mul_fin_l (x : xr) q r : 0 < q -> (x ⊗ Fin q)%num = Fin r -> exists y, x = Fin y /\ r = y * q.
Proof.
  intros Q E. destruct x as [y| | |]; cbn in E; unfold x_mul, inf_times, rltb, reqb in E;
    repeat match type of E with context [match ?t with _ => _ end] => destruct t end; try discriminate E.
  apply fin_inj in E. exists y. auto.
Qed.

Lemma scalars_fit n (d : dict xr) : all_fit n (dmap NdS d) = true.
Proof. unfold all_fit, dmap. apply forallb_forall. intros x I. apply in_map_iff in I as (y & <- & _). reflexivity. Qed.

Lemma sliced t0 tm M t i m k : 0 < M -> Forall (fun m => 0 <= m) tm ->
  dilute_totals (dmap NdS t0) (map Fin tm) (Fin M) = Ok t -> nth_error tm i = Some m ->
  dget k (slice_at t i) = match dget k t0 with Some x => Some (x ⊗ Fin (M / (m + M)))%num | None => None end.
Proof.
  intros HM Ht D Em. destruct (dilute_totals_spec _ _ _ _ (scalars_fit _ _) D) as [K G].
  assert (Hm : 0 <= m) by (eapply Forall_nth_error in Ht; eassumption).
  rewrite dget_slice. destruct (dget k t0) as [x|] eqn:Ex.
  - destruct (G k (NdS x)) as (l & El & Ll & P); [now rewrite dget_dmap, Ex|].
    rewrite El. f_equal. apply nd_at_nth. rewrite (P i (Fin m)) by now apply nth_error_map_fin.
    cbn [nd_at]. now rewrite df_fin by lra.
  - assert (N : dget k t = None); [|now rewrite N]. apply (dget_keys_none k (dmap NdS t0) t); [exact K|]. now rewrite dget_dmap, Ex.
Qed.

Lemma contrR_scale s t kk h q : contrR s (q * t) kk h = q * contrR s t kk h.
Proof.
  destruct s; destruct kk as [|k1 [|k2 [|k3 [|k4 kk]]]]; cbn [contrR]; try destruct (pK_low _); unfold Rdiv; ring.
Qed.

Lemma alkR_scale (t t' ks : dict xr) h q :
  (forall k, match dget k t with Some x => exists y, x = Fin y /\ dget k t' = Some (Fin (q * y)) | None => dget k t' = None end) ->
  alkR t' ks 3 h = (waterR ks h - h) + q * (alkR t ks 3 h - (waterR ks h - h)).
Proof.
  intros P. unfold alkR.
  assert (E : forall l, Rsum (map (fun s => contr t' ks s h) l) = q * Rsum (map (fun s => contr t ks s h) l)).
  { induction l as [|s l IH]; cbn [map]; [unfold Rsum; cbn; ring|]. rewrite !Rsum_cons, IH.
    assert (C : contr t' ks s h = q * contr t ks s h); [|rewrite C; ring].
    unfold contr. specialize (P (s_name s)). destruct (dget (s_name s) t) as [x|].
    - destruct P as (y & -> & ->). destruct (get_ks s ks); [|ring]. cbn [unfin]. apply contrR_scale.
    - rewrite P. ring. }
  rewrite E. ring.
Qed.

Lemma hydroxide_water ks i h : pos_constants (slice_at ks i) -> hydroxide ks i h = waterR (slice_at ks i) h.
Proof.
  intros P. unfold hydroxide, waterR. destruct (dget "k_water" (slice_at ks i)) as [w|] eqn:E; [|reflexivity].
  destruct (P _ _ E) as (r & -> & _). reflexivity.
Qed.

Lemma nth_error_seq0 n i : (i < n)%nat -> nth_error (seq 0 n) i = Some i.
Proof.
  intros L. rewrite (nth_error_nth' _ 0%nat) by now rewrite seq_length. now rewrite seq_nth.
Qed.

Lemma mass_slope c tm pH temps M M' t0 t t' ks pmin pmax n r r' :
  masses_ok tm M -> 0 < M' -> sane (length tm) t ks -> (0 < n_used (sp_used r))%nat ->
  dilute_totals (dmap NdS t0) (map Fin tm) (Fin M) = Ok t -> dilute_totals (dmap NdS t0) (map Fin tm) (Fin M') = Ok t' ->
  solve_pH (Fin c) (map Fin tm) (map Fin pH) temps (Fin M) t ks (Fin pmin) (Fin pmax) (Fin n) = Ok r ->
  solve_pH (Fin c) (map Fin tm) (map Fin pH) temps (Fin M') t' ks (Fin pmin) (Fin pmax) (Fin n) = Ok r' ->
  sp_used r' = sp_used r /\ length pH = length tm /\ length (sp_used r) = length tm /\
  exists a a', sp_alkalinity r = Fin a /\ sp_alkalinity r' = Fin a' /\
    a' - a = 1000000 * (1 / M' - 1 / M) * mean_used (sp_used r) (acid_consumed c n ks tm pH).
Proof.
  intros Hok HM' Hs Hn D D' Hr Hr'. destruct Hok as [HM Ht].
  apply solve_pH_inv in Hr as [Hl [_ [Hu [Hall [Ha _]]]]]. apply solve_pH_inv in Hr' as [_ [_ [Hu' [Hall' [Ha' _]]]]]. rewrite !map_length in Hl.
  assert (lt_of : forall i (p : R) (l : list R), nth_error l i = Some p -> length l = length tm -> (i < length tm)%nat).
  { intros i p l E <-. apply nth_error_Some. congruence. }
  set (q := fun m => (M' / (m + M')) / (M / (m + M))).
  assert (Sc : forall i m, nth_error tm i = Some m -> forall k,
    match dget k (slice_at t i) with Some x => exists y, x = Fin y /\ 0 <= y /\ dget k (slice_at t' i) = Some (Fin (q m * y)) | None => dget k (slice_at t' i) = None end).
  { intros i m Em k. assert (Hm : 0 <= m) by (eapply Forall_nth_error in Ht; eassumption).
    assert (0 < M / (m + M)) by (apply Rdiv_lt_0_compat; lra). assert (0 < M' / (m + M')) by (apply Rdiv_lt_0_compat; lra).
    rewrite (sliced t0 tm M' t' i m k HM' Ht D' Em).
    destruct (dget k (slice_at t i)) as [x|] eqn:Ex.
    - destruct (Hs i (lt_of _ _ _ Em eq_refl)) as [Nn _]. destruct (Nn _ _ Ex) as (y & -> & Hy). exists y. split; [reflexivity|]. split; [exact Hy|].
      rewrite (sliced t0 tm M t i m k HM Ht D Em) in Ex. destruct (dget k t0) as [z|]; [|discriminate]. apply some_inj in Ex.
      apply mul_fin_l in Ex as (z0 & -> & ->); [|assumption]. rewrite fin_mul. do 2 f_equal. unfold q. field. lra.
    - rewrite (sliced t0 tm M t i m k HM Ht D Em) in Ex. destruct (dget k t0); [discriminate|reflexivity]. }
  assert (Hs' : sane (length tm) t' ks).
  { intros i Li. split; [|apply Hs; exact Li]. intros k v E. destruct (nth_error tm i) as [m|] eqn:Em; [|apply nth_error_None in Em; lia].
    assert (Hm : 0 <= m) by (eapply Forall_nth_error in Ht; eassumption).
    specialize (Sc i m Em k). destruct (dget k (slice_at t i)) as [x|]; [|congruence]. destruct Sc as (y & _ & Hy & E'). rewrite E in E'. apply some_inj in E'. subst v.
    eexists. split; [reflexivity|]. apply Rmult_le_pos; [|exact Hy]. left. unfold q. repeat apply Rdiv_lt_0_compat; lra. }
  destruct (all_finite _ _ _ _ _ _ _ _ (conj HM Ht) Hl (fun i p E => Hs i (lt_of _ _ _ E Hl)) Hall) as [est [Ee [Le Hpt]]].
  destruct (all_finite _ _ _ _ _ _ _ _ (conj HM' Ht) Hl (fun i p E => Hs' i (lt_of _ _ _ E Hl)) Hall') as [est' [Ee' [Le' Hpt']]].
  rewrite <- Hu in Hu'. rewrite Hu' in Ha'. split; [exact Hu'|]. split; [exact Hl|].
  assert (Hlu : length (sp_used r) = length tm) by (rewrite Hu; unfold in_window; rewrite !map_length; assumption). split; [exact Hlu|].
  assert (Hne : forall l : list R, length l = length tm -> mask (sp_used r) l <> []).
  { intros l L E0. pose proof (mask_count (sp_used r) l) as X. rewrite E0 in X. cbn in X.
    specialize (X ltac:(congruence)). change (count_true (sp_used r)) with (n_used (sp_used r)) in X. lia. }
  rewrite Ee, mask_map, nmean_fin in Ha by now apply Hne. rewrite Ee', mask_map, nmean_fin in Ha' by now apply Hne.
  eexists. eexists. split; [exact Ha|]. split; [exact Ha'|].
  assert (Lx : length (acid_consumed c n ks tm pH) = length tm) by (unfold acid_consumed; now rewrite map_length, seq_length).
  assert (L : Rsum (mask (sp_used r) est') - Rsum (mask (sp_used r) est) = 1000000 * (1 / M' - 1 / M) * Rsum (mask (sp_used r) (acid_consumed c n ks tm pH))).
  { apply masked_linear; try congruence. intros i v v' x V V' Exi.
    assert (Hlt : (i < length tm)%nat) by (rewrite <- Le; apply nth_error_Some; rewrite V; discriminate).
    destruct (nth_error tm i) as [m|] eqn:Em; [|apply nth_error_None in Em; lia].
    destruct (nth_error pH i) as [p|] eqn:Ep; [|apply nth_error_None in Ep; lia].
    assert (Hm : 0 <= m) by (eapply Forall_nth_error in Ht; eassumption).
    assert (x = m * (c * n + hydroxide ks i (h_of p) - h_of p)) as ->.
    { unfold acid_consumed in Exi. rewrite nth_error_map, nth_error_seq0 in Exi by exact Hlt. cbn [option_map] in Exi. apply some_inj in Exi. rewrite <- Exi.
      now rewrite (nth_error_nth _ _ 0 Em), (nth_error_nth _ _ 0 Ep). }
    destruct (Hs i Hlt) as [Nn Pk]. destruct (Hs' i Hlt) as [Nn' _].
    destruct (Hpt i p m Ep Em) as (s & Es & Ns). destruct (Hpt' i p m Ep Em) as (s' & Es' & Ns').
    apply alkalinity_is in Es; [|assumption..]. apply alkalinity_is in Es'; [|assumption..]. apply fin_inj in Es. apply fin_inj in Es'.
    assert (Ak := alkR_scale (slice_at t i) (slice_at t' i) (slice_at ks i) (pow10R (- p)) (q m)).
    rewrite <- Es, <- Es' in Ak.
    assert (Ak' : s' = (waterR (slice_at ks i) (pow10R (- p)) - pow10R (- p)) + q m * (s - (waterR (slice_at ks i) (pow10R (- p)) - pow10R (- p)))).
    { apply Ak. intros k. specialize (Sc i m Em k). destruct (dget k (slice_at t i)); [|exact Sc]. destruct Sc as (y & Y & _ & Y'). exists y. split; assumption. }
    clear Ak. rewrite hydroxide_water by exact Pk. change (pow10R (- p)) with (h_of p) in Ak'.
    rewrite Ns in V. rewrite Ns' in V'. apply some_inj in V. apply some_inj in V'. clear Es Es'. subst v v'. rewrite Ak'. clear Ak'. unfold q. field. repeat split; lra. }
  unfold Rmean, mean_used. rewrite !mask_count by congruence. change (count_true (sp_used r)) with (n_used (sp_used r)).
  assert (I0 : 0 < INR (n_used (sp_used r))) by now apply lt_0_INR.
  change (fold_right Rplus 0 (mask (sp_used r) (acid_consumed c n ks tm pH))) with (Rsum (mask (sp_used r) (acid_consumed c n ks tm pH))).
  replace (Rsum (mask (sp_used r) est') / INR (n_used (sp_used r)) - Rsum (mask (sp_used r) est) / INR (n_used (sp_used r)))
    with ((Rsum (mask (sp_used r) est') - Rsum (mask (sp_used r) est)) / INR (n_used (sp_used r))) by (field; lra).
  rewrite L. field. lra.
Qed.

(* ------------------------------------------------------------------ *)
(** * The theorems *)

(* The same file solved with two sample masses: the alkalinities differ by the difference of the inverse masses,
   multiplied by the acid consumed by the sample, averaged over the points used.  The points used are the same. *)
Theorem C132_mass_error : forall (e : env xr) f c s kw r r' tm pH M M' pmin pmax n,
  mode_is kw "ph" -> no_titrant_totals kw -> undiluted kw -> window kw (Fin pmin) (Fin pmax) (Fin n) ->
  files_solve e f (VNum (Fin c)) s kw = Ok (SrPh r) -> sound_run r tm pH M ->
  0 < M' -> files_solve e f (VNum (Fin c)) s (dset "analyte_mass" (VNum (Fin M')) kw) = Ok (SrPh r') ->
  sp_used r' = sp_used r /\
  exists a a', sp_alkalinity r = Fin a /\ sp_alkalinity r' = Fin a' /\
    a' - a = 1000000 * (1 / M' - 1 / M) * mean_used (sp_used r) (acid_consumed c n (sp_k_constants r) tm pH).
Proof.
  intros e f c s kw r r' tm pH M M' pmin pmax n Hm Nt Ud W E (H1 & H2 & H3 & H4 & H5 & H6) HM' E'.
  set (kw' := dset "analyte_mass" (VNum (Fin M')) kw) in *.
  assert (Ko : forall k, k <> "analyte_mass" -> dget k kw' = dget k kw) by (intros k Nk; unfold kw'; now rewrite dget_dset_other).
  assert (Hm' : mode_is kw' "ph") by (unfold mode_is in *; now rewrite Ko by discriminate).
  assert (Nt' : no_titrant_totals kw') by (intros k I; rewrite Ko; [now apply Nt|intros ->; revert I; apply mem_str_false; reflexivity]).
  assert (W' : window kw' (Fin pmin) (Fin pmax) (Fin n)) by (unfold window, number in *; now rewrite !Ko by discriminate).
  destruct (ph_inv e f (VNum (Fin c)) s kw r (Fin c) _ _ _ Hm Nt eq_refl W E) as (cv & t & ks & L & Q).
  destruct (ph_inv e f (VNum (Fin c)) s kw' r' (Fin c) _ _ _ Hm' Nt' eq_refl W' E') as (cv' & t' & ks' & L' & Q').
  unfold kw' in L'. rewrite wm_dset in L' by discriminate.
  assert (Ud' : undiluted (without_mode kw)) by (unfold undiluted in *; now rewrite dget_wm).
  destruct (mass_load e f s _ M' _ _ _ _ _ _ Ud' L L') as (A1 & A2 & A3 & A4 & -> & t0 & D & D').
  rewrite A1, A2, A3, A4 in Q'.
  destruct (fields _ _ _ _ _ _ _ _ _ _ _ Q) as (F1 & F2 & F3 & F4 & F5).
  rewrite F1 in H1. rewrite F2 in H2. rewrite F3 in H3. rewrite F4, F5 in H5. rewrite F5. rewrite H1, H2, H3 in Q. rewrite H1, H2 in Q'. rewrite H1, H3 in D. rewrite H1 in D'.
  destruct (mass_slope _ _ _ _ _ _ _ _ _ _ _ _ _ _ _ H4 HM' H5 H6 D D' Q Q') as (U & _ & _ & X). split; [exact U|exact X].
Qed.

Lemma masked_sum_pos u (x : list R) : length x = length u ->
  (forall i v, used_at u i -> nth_error x i = Some v -> 0 <= v) -> (exists i v, used_at u i /\ nth_error x i = Some v /\ 0 < v) -> 0 < Rsum (mask u x).
Proof.
  assert (Z : forall u (x : list R), length x = length u -> (forall i v, used_at u i -> nth_error x i = Some v -> 0 <= v) -> 0 <= Rsum (mask u x)).
  { clear. induction u as [|b u IH]; intros [|v x] L P; try discriminate; [unfold Rsum; cbn; lra|].
    assert (0 <= Rsum (mask u x)) by (apply IH; [now injection L|intros i w Hu Hw; exact (P (S i) w Hu Hw)]).
    destruct b; cbn [mask]; [|assumption]. rewrite Rsum_cons. pose proof (P 0%nat v eq_refl eq_refl). lra. }
  revert x. induction u as [|b u IH]; intros [|v x] L P (i & w & Hu & Hw & Pw); try discriminate; [destruct i; discriminate Hw|].
  assert (P' : forall i v, used_at u i -> nth_error x i = Some v -> 0 <= v) by (intros j y Hj Hy; exact (P (S j) y Hj Hy)).
  assert (L' : length x = length u) by now injection L.
  destruct i as [|i].
  - unfold used_at in Hu. cbn in Hu, Hw. apply some_inj in Hu. apply some_inj in Hw. subst b w. cbn [mask]. rewrite Rsum_cons. pose proof (Z u x L' P'). lra.
  - assert (0 < Rsum (mask u x)) by (apply IH; [exact L'|exact P'|exists i, w; auto]).
    destruct b; cbn [mask]; [|assumption]. rewrite Rsum_cons. pose proof (P 0%nat v eq_refl eq_refl). lra.
Qed.

(* A sample taken to be heavier than it is comes out less alkaline, as long as the acid is stronger than the mixtures
   it makes. *)
Theorem C132_heavier_is_less_alkaline : forall (e : env xr) f c s kw r r' tm pH M M' pmin pmax n,
  mode_is kw "ph" -> no_titrant_totals kw -> undiluted kw -> window kw (Fin pmin) (Fin pmax) (Fin n) ->
  files_solve e f (VNum (Fin c)) s kw = Ok (SrPh r) -> sound_run r tm pH M ->
  M < M' -> files_solve e f (VNum (Fin c)) s (dset "analyte_mass" (VNum (Fin M')) kw) = Ok (SrPh r') ->
  (forall i p, used_at (sp_used r) i -> nth_error pH i = Some p -> h_of p < c * n) ->
  (exists i m, used_at (sp_used r) i /\ nth_error tm i = Some m /\ 0 < m) ->
  exists a a', sp_alkalinity r = Fin a /\ sp_alkalinity r' = Fin a' /\ a' < a.
Proof.
  intros e f c s kw r r' tm pH M M' pmin pmax n Hm Nt Ud W E S HM' E' St (i & m & Ui & Em & Pm).
  assert (S0 := S). destruct S as (H1 & H2 & H3 & [HM Ht] & H5 & H6).
  destruct (C132_mass_error e f c s kw r r' tm pH M M' pmin pmax n Hm Nt Ud W E S0 ltac:(lra) E') as (_ & a & a' & A & A' & D).
  exists a, a'. split; [exact A|]. split; [exact A'|].
  destruct (ph_inv e f (VNum (Fin c)) s kw r (Fin c) _ _ _ Hm Nt eq_refl W E) as (cv & t & ks & L & Q).
  destruct (fields _ _ _ _ _ _ _ _ _ _ _ Q) as (F1 & F2 & F3 & F4 & F5).
  rewrite F1 in H1. rewrite F2 in H2. rewrite H1, H2 in Q. apply solve_pH_inv in Q as [Hl [_ [Hu _]]]. rewrite !map_length in Hl.
  assert (Hlu : length (sp_used r) = length tm) by (rewrite Hu; unfold in_window; rewrite !map_length; assumption).
  assert (B : 0 < Rsum (mask (sp_used r) (acid_consumed c n (sp_k_constants r) tm pH))).
  { assert (V : forall j x m p, nth_error (acid_consumed c n (sp_k_constants r) tm pH) j = Some x -> nth_error tm j = Some m -> nth_error pH j = Some p ->
      exists w, 0 <= w /\ x = m * (c * n + w - h_of p)).
    { intros j x m0 p Ex Em0 Ep. assert (Lj : (j < length tm)%nat) by (apply nth_error_Some; congruence).
      unfold acid_consumed in Ex. rewrite nth_error_map, nth_error_seq0 in Ex by exact Lj. cbn [option_map] in Ex. apply some_inj in Ex. rewrite <- Ex.
      rewrite (nth_error_nth _ _ 0 Em0), (nth_error_nth _ _ 0 Ep). exists (hydroxide (sp_k_constants r) j (h_of p)). split; [|reflexivity].
      unfold hydroxide. destruct (dget "k_water" _) as [[w| | |]|] eqn:G; try lra. destruct (H5 j Lj) as [_ Pk]. destruct (Pk _ _ G) as (w0 & X & Pw). apply fin_inj in X. subst w0.
      left. apply Rdiv_lt_0_compat; [exact Pw|]. unfold h_of, Rpower. apply exp_pos. }
    assert (Lx : length (acid_consumed c n (sp_k_constants r) tm pH) = length tm) by (unfold acid_consumed; now rewrite map_length, seq_length).
    assert (At : forall j, (j < length tm)%nat -> exists x m p, nth_error (acid_consumed c n (sp_k_constants r) tm pH) j = Some x /\ nth_error tm j = Some m /\ nth_error pH j = Some p).
    { intros j Lj. destruct (nth_error tm j) as [m0|] eqn:Em0; [|apply nth_error_None in Em0; lia].
      destruct (nth_error pH j) as [p|] eqn:Ep; [|apply nth_error_None in Ep; lia].
      destruct (nth_error (acid_consumed c n (sp_k_constants r) tm pH) j) as [x|] eqn:Ex; [eauto 8|apply nth_error_None in Ex; lia]. }
    apply masked_sum_pos; [congruence| |].
    - intros j x Uj Ex. assert (Lj : (j < length tm)%nat) by (rewrite <- Lx; apply nth_error_Some; congruence).
      destruct (At j Lj) as (x0 & m0 & p & Ex0 & Em0 & Ep). rewrite Ex in Ex0. apply some_inj in Ex0. subst x0.
      destruct (V j x m0 p Ex Em0 Ep) as (w & Pw & ->). specialize (St j p Uj Ep).
      assert (0 <= m0) by (eapply Forall_nth_error in Ht; eassumption). apply Rmult_le_pos; lra.
    - assert (Li : (i < length tm)%nat) by (apply nth_error_Some; congruence).
      destruct (At i Li) as (x0 & m0 & p & Ex0 & Em0 & Ep). rewrite Em in Em0. apply some_inj in Em0. subst m0.
      exists i, x0. split; [exact Ui|]. split; [exact Ex0|]. destruct (V i x0 m p Ex0 Em Ep) as (w & Pw & ->). specialize (St i p Ui Ep).
      apply Rmult_lt_0_compat; lra. }
  assert (I0 : 0 < INR (n_used (sp_used r))) by now apply lt_0_INR.
  assert (B' : 0 < mean_used (sp_used r) (acid_consumed c n (sp_k_constants r) tm pH)) by (unfold mean_used; apply Rdiv_lt_0_compat; assumption).
  assert (1 / M' < 1 / M) by (unfold Rdiv; rewrite !Rmult_1_l; apply Rinv_lt_contravar; nra). nra.
Qed.

(* ------------------------------------------------------------------ *)
(** * A case *)

Example C132_nonvacuous : exists r r',
  mode_is (sec_kw 1) "ph" /\ no_titrant_totals (sec_kw 1) /\ undiluted (sec_kw 1) /\ window (sec_kw 1) (Fin 3) (Fin 4) (Fin 1) /\
  files_solve sec_env (VStr "gen.dat") (VNum (Fin 0.1)) (VInt 35) (sec_kw 1) = Ok (SrPh r) /\ sound_run r [0; 1] [3.5; 3.6] 1 /\
  dset "analyte_mass" (VNum (Fin 2)) (sec_kw 1) = sec_kw 2 /\
  files_solve sec_env (VStr "gen.dat") (VNum (Fin 0.1)) (VInt 35) (sec_kw 2) = Ok (SrPh r') /\
  (forall i p, used_at (sp_used r) i -> nth_error [3.5; 3.6] i = Some p -> h_of p < 0.1 * 1) /\
  used_at (sp_used r) 1 /\ nth_error [0; 1] 1 = Some 1 /\
  exists a a', sp_alkalinity r = Fin a /\ sp_alkalinity r' = Fin a' /\ a' < a.
Proof.
  destruct (sec_solved 1 0.1 Rlt_0_1) as (r & R & Sr & U). destruct (sec_solved 2 0.1 ltac:(lra)) as (r' & R' & _).
  assert (Wi : window (sec_kw 1) (Fin 3) (Fin 4) (Fin 1)).
  { repeat split; unfold number; cbn [sec_kw dget String.eqb Ascii.eqb Bool.eqb]; symmetry; apply fin_Z. }
  assert (Nt : no_titrant_totals (sec_kw 1)).
  { intros k I. cbn in I. destruct I as [<-|[<-|[<-|[]]]]; reflexivity. }
  assert (Mi : mode_is (sec_kw 1) "ph") by reflexivity.
  assert (St : forall i p, used_at (sp_used r) i -> nth_error [3.5; 3.6] i = Some p -> h_of p < 0.1 * 1).
  { intros i p _ E. assert (3 < p) by (destruct i as [|[|[|i]]]; cbn in E; try discriminate E; apply some_inj in E; lra).
    assert (T : h_of p < Rpower 10 (- (1))) by (apply Rpower_lt; lra).
    rewrite Rpower_Ropp, Rpower_1 in T by lra. lra. }
  exists r, r'. repeat (split; [first [assumption|exact I|reflexivity]|]). rewrite U.
  split; [reflexivity|]. split; [reflexivity|].
  refine (C132_heavier_is_less_alkaline sec_env (VStr "gen.dat") 0.1 (VInt 35) (sec_kw 1) r r' [0; 1] [3.5; 3.6] 1 2 3 4 1 Mi Nt I Wi R Sr _ R' St _).
  - lra.
  - exists 1%nat, 1. rewrite U. repeat split. lra.
Qed.

