(* PropSulfuric.v -- C122: titrations with sulfuric acid *)
From Coq Require Import Reals Lra Lia List.
From Verif Require Import Files DictLemmas SettingsProofs TableProofs PropSupplied PropReference PropModes PropTitrantShare PropCalibrate.
From Verif Require Import XR XRLemmas SpecConvert SpecCore SpecSimulate SimProofs SolveProofs PropSolve PropMonotone Witness.
Import ListNotations.
Open Scope R_scope.
Open Scope string_scope.
Open Scope list_scope.

(* ------------------------------------------------------------------ *)
(** * Vocabulary *)

(* each mole of sulfuric acid brings two protons and one sulfate *)
Definition sulfuric (kw : kwargs xr) : kwargs xr := dset "titrant_normality" (VInt 2) (dset "titrant_total_sulfate" (VInt 1) kw).
(* nothing is said about this, except perhaps the name of the acid *)
Definition only_named (kw : kwargs xr) : Prop :=
  dget "titrant_normality" kw = None /\ forall k, In k titrant_can_bring -> dget ("titrant_" ++ k)%string kw = None.

(* The measured pH is that of a sample of alkalinity A titrated with c mol/kg of sulfuric acid: at each point
   in the pH range the solution holds the diluted sample (the totals that the solver reports if nothing is
   said about the acid), the sulfate of the acid, and an alkalinity lowered by two protons per mole. *)
Definition sulfuric_titration (r : ph_result xr) (tm pH : list R) (M c pmin pmax A : R) : Prop :=
  forall i p m, nth_error pH i = Some p -> nth_error tm i = Some m -> pmin <= p <= pmax ->
    exists s, dget "total_sulfate" (slice_at (sp_totals r) i) = Some (Fin s) /\
      alkalinity (Fin p) (dset "total_sulfate" (Fin (s + m * c / (m + M))) (slice_at (sp_totals r) i)) (slice_at (sp_k_constants r) i) 3
        = Ok (Fin ((M * A - 2 * m * c) / (M + m))).

(* ------------------------------------------------------------------ *)
(** * Proofs *)

Lemma sulfate_effect totals ks t ds h : pos_constants ks -> 0 < h -> 0 <= ds ->
  dget "total_sulfate" totals = Some (Fin t) ->
  let a := alkR totals ks 3 h in let a' := alkR (dset "total_sulfate" (Fin (t + ds)) totals) ks 3 h in
  a - ds <= a' /\ (0 < ds -> a - ds < a').
Proof.
  intros Hk Hh Hd Ht a a'.
  assert (O : forall s, s_name s <> "total_sulfate" -> contr (dset "total_sulfate" (Fin (t + ds)) totals) ks s h = contr totals ks s h).
  { intros s N. unfold contr. now rewrite dget_dset_other. }
  assert (E : a' - a = contr (dset "total_sulfate" (Fin (t + ds)) totals) ks Sulfate h - contr totals ks Sulfate h).
  { unfold a, a', alkR. cbn [substs Z.eqb Pos.eqb]. cbn. unfold Rsum. cbn. rewrite !O by discriminate. lra. }
  assert (C : contr (dset "total_sulfate" (Fin (t + ds)) totals) ks Sulfate h - contr totals ks Sulfate h >= - ds /\
              (0 < ds -> contr (dset "total_sulfate" (Fin (t + ds)) totals) ks Sulfate h - contr totals ks Sulfate h > - ds)).
  { unfold contr. change (s_name Sulfate) with "total_sulfate". rewrite dget_dset_same, Ht. cbn [unfin].
    destruct (get_ks Sulfate ks) as [kk|] eqn:G; [|lra].
    destruct (get_ks_fin Sulfate ks kk (pos_ok _ Hk) G) as [_ P].
    destruct (map unfin kk) as [|k [|? ?]]; cbn [contrR]; try lra. inversion P as [|? ? Pk _]; subst.
    assert (F : h / (k + h) < 1) by (apply (Rmult_lt_reg_r (k + h)); [lra|]; unfold Rdiv; rewrite Rmult_assoc, Rinv_l by lra; lra).
    assert (D : (t + ds) * h / (k + h) - t * h / (k + h) = ds * (h / (k + h))) by (field; lra).
    split; intros; nra. }
  lra.
Qed.

Section Runs.
Variables (c M pmin pmax : R) (tm pH : list R) (temps : list xr) (totals totals' ks : dict (nd xr)) (r r' : ph_result xr).
Hypothesis Hok : masses_ok tm M.
Hypothesis Hs : sane (length tm) totals ks.
Hypothesis Hr : solve_pH (Fin c) (map Fin tm) (map Fin pH) temps (Fin M) totals ks (Fin pmin) (Fin pmax) (Fin 1) = Ok r.
Hypothesis Hr' : solve_pH (Fin c) (map Fin tm) (map Fin pH) temps (Fin M) totals' ks (Fin pmin) (Fin pmax) (Fin 2) = Ok r'.
Hypothesis Hc : 0 < c.
Hypothesis Ht : forall i m, nth_error tm i = Some m -> exists s, dget "total_sulfate" (slice_at totals i) = Some (Fin s) /\
  slice_at totals' i = dset "total_sulfate" (Fin (s + m * c / (m + M))) (slice_at totals i).

Lemma mpos i m : nth_error tm i = Some m -> 0 <= m.
Proof. intros E. destruct Hok as [_ F]. eapply Forall_nth_error in F; eassumption. Qed.

Lemma sane' : sane (length tm) totals' ks.
Proof.
  intros i L. destruct (nth_error tm i) as [m|] eqn:Em; [|apply nth_error_None in Em; lia].
  destruct (Hs i L) as [N P]. split; [|exact P]. destruct (Ht i m Em) as (s & Gs & ->).
  intros k v G. rewrite dget_dset in G. destruct (String.eqb_spec k "total_sulfate") as [->|]; [|now apply (N k)].
  injection G as <-. eexists. split; [reflexivity|]. destruct (N _ _ Gs) as (s0 & E0 & P0). injection E0 as <-.
  pose proof (mpos i m Em). destruct Hok as [HM _].
  assert (0 <= m * c / (m + M)) by (apply Rmult_le_pos; [nra|left; apply Rinv_0_lt_compat; lra]). lra.
Qed.

Lemma below : (exists i p m, nth_error pH i = Some p /\ pmin <= p <= pmax /\ nth_error tm i = Some m /\ 0 < m) ->
  exists a a', sp_alkalinity r = Fin a /\ sp_alkalinity r' = Fin a' /\ a < a'.
Proof.
  intros (i0 & p0 & m0 & Hp0 & Hin0 & Hm0 & Pm0).
  apply solve_pH_inv in Hr as [Hl [_ [Hu [Hall [Ha _]]]]]. apply solve_pH_inv in Hr' as [Hl' [_ [Hu' [Hall' [Ha' _]]]]].
  rewrite !map_length in Hl, Hl'.
  assert (lt_of : forall i (p : R) (l : list R), nth_error l i = Some p -> length l = length tm -> (i < length tm)%nat).
  { intros i p l E <-. apply nth_error_Some. congruence. }
  destruct (all_finite _ _ _ _ _ _ _ _ Hok Hl (fun i p E => Hs i (lt_of _ _ _ E Hl)) Hall) as [est [Ee [Hle1 Hpt]]].
  destruct (all_finite _ _ _ _ _ _ _ _ Hok Hl (fun i p E => sane' i (lt_of _ _ _ E Hl)) Hall') as [est' [Ee' [Hle2 Hpt']]].
  rewrite <- Hu in Hu'. rewrite Hu' in Ha'.
  assert (Hlu : length (sp_used r) = length tm) by (rewrite Hu; unfold in_window; rewrite !map_length; assumption).
  assert (Hu0 : used_at (sp_used r) i0).
  { rewrite Hu. apply window_used. exists p0. split; [apply nth_error_map_fin; assumption|assumption]. }
  assert (Hn : (0 < n_used (sp_used r))%nat).
  { unfold used_at in Hu0. clear - Hu0. revert i0 Hu0. generalize (sp_used r). unfold n_used.
    induction l as [|b u IH]; intros [|i] Hi; try discriminate Hi.
    - injection Hi as ->. cbn. lia.
    - destruct b; cbn [filter length]; [lia|]. eapply IH. exact Hi. }
  assert (Hne : forall e : list R, length e = length tm -> mask (sp_used r) e <> []).
  { intros e He E0. pose proof (mask_count (sp_used r) e) as X. rewrite E0 in X. cbn in X.
    specialize (X ltac:(congruence)). change (count_true (sp_used r)) with (n_used (sp_used r)) in X. lia. }
  rewrite Ee, mask_map, nmean_fin in Ha by now apply Hne.
  rewrite Ee', mask_map, nmean_fin in Ha' by now apply Hne.
  exists (Rmean (mask (sp_used r) est)), (Rmean (mask (sp_used r) est')).
  split; [exact Ha|]. split; [exact Ha'|].
  assert (PT : forall i p m, nth_error pH i = Some p -> nth_error tm i = Some m ->
    exists v v', nth_error est i = Some v /\ nth_error est' i = Some v' /\ v <= v' /\ (0 < m -> v < v')).
  { intros i p m Ep Em. destruct (Hpt i p m Ep Em) as [s [Es En]]. destruct (Hpt' i p m Ep Em) as [s' [Es' En']].
    exists (1000000 * (s * (m + M) + m * c * 1) / M), (1000000 * (s' * (m + M) + m * c * 2) / M).
    split; [exact En|]. split; [exact En'|].
    destruct (Hs i (lt_of _ _ _ Ep Hl)) as [N P]. destruct (sane' i (lt_of _ _ _ Ep Hl)) as [N' _].
    pose proof (alkalinity_is _ _ _ _ _ N P Es) as A. pose proof (alkalinity_is _ _ _ _ _ N' P Es') as A'.
    apply fin_inj in A. apply fin_inj in A'.
    destruct (Ht i m Em) as (t & Gt & Q). rewrite Q in A'. pose proof (mpos i m Em) as Pm. destruct Hok as [HM _].
    assert (Pd : 0 <= m * c / (m + M)) by (apply Rmult_le_pos; [nra|left; apply Rinv_0_lt_compat; lra]).
    destruct (sulfate_effect (slice_at totals i) (slice_at ks i) t (m * c / (m + M)) (pow10R (- p)) P (pow10R_pos _) Pd Gt) as [B1 B2].
    cbv zeta in B1, B2. rewrite <- A, <- A' in B1, B2.
    assert (X : (m * c / (m + M)) * (m + M) = m * c) by (field; lra).
    assert (HiM : 0 < / M) by now apply Rinv_0_lt_compat.
    split.
    - unfold Rdiv. apply Rmult_le_compat_r; [lra|]. nra.
    - intros Pm'. unfold Rdiv. apply Rmult_lt_compat_r; [lra|].
      assert (0 < m * c / (m + M)) by (apply Rmult_lt_0_compat; [nra|apply Rinv_0_lt_compat; lra]). specialize (B2 H). nra. }
  destruct (masked_mean_le (sp_used r) est est') as [_ G2]; [congruence..|assumption| |].
  { intros i v v' Hui Hv Hv'. rewrite Hu in Hui. apply window_used in Hui as [p [Hp Hin]].
    rewrite nth_error_map in Hp. destruct (nth_error pH i) as [q|] eqn:Ep; [|discriminate].
    destruct (nth_error tm i) as [m|] eqn:Em; [|apply nth_error_None in Em; pose proof (lt_of _ _ _ Ep Hl); lia].
    destruct (PT i q m Ep Em) as (w & w' & W & W' & L & _). congruence. }
  apply G2. destruct (PT i0 p0 m0 Hp0 Hm0) as (w & w' & W & W' & _ & L). exists i0, w, w'. auto.
Qed.
End Runs.

Lemma wm_dset k (v : val xr) kw : k <> "solve_mode" -> without_mode (dset k v kw) = dset k v (without_mode kw).
Proof.
  intros N. unfold without_mode. induction kw as [|[a w] d IH]; cbn.
  - destruct (String.eqb_spec k "solve_mode"); [contradiction|reflexivity].
  - destruct (String.eqb_spec k a) as [<-|Na]; cbn.
    + destruct (String.eqb_spec k "solve_mode"); [contradiction|]. cbn. now rewrite String.eqb_refl.
    + destruct (String.eqb_spec a "solve_mode"); cbn; [exact IH|]. destruct (String.eqb_spec k a); [contradiction|]. now rewrite IH.
Qed.
Lemma gkf_out keys k (v : val xr) kw : mem_str k keys = false -> get_kwargs_for keys (dset k v kw) None = get_kwargs_for keys kw None.
Proof. intros M. now apply (filter_dset (fun k => mem_str k keys)). Qed.
Lemma load_out (e : env xr) f s k v kw : mem_str k loading_keys = false -> load e f s (dset k v kw) = load e f s kw.
Proof.
  intros M. apply mem_str_false in M. unfold loading_keys in M. rewrite !in_app_iff in M.
  assert (K : mem_str k keys_read_dat = false /\ mem_str k keys_cau = false /\ mem_str k keys_totals_ks = false)
    by (repeat split; apply mem_str_false; tauto).
  destruct K as (K1 & K2 & K3). unfold load, full_name.
  rewrite dget_dset_other by (intros <-; apply M; cbn; tauto). now rewrite !gkf_out.
Qed.

Lemma named_titrant (kw : kwargs xr) : only_named kw -> get_kwargs_for keys_titrant_totals (without_mode kw) None = [].
Proof.
  intros [_ P]. unfold get_kwargs_for. apply filter_nil_iff. intros [k v] I. cbn [fst].
  destruct (mem_str k keys_titrant_totals) eqn:M; [|reflexivity]. exfalso. apply mem_str_spec in M.
  assert (Nm : k <> "solve_mode") by (intros ->; revert M; apply mem_str_false; reflexivity).
  assert (J : In k (dkeys (without_mode kw))) by exact (in_map fst _ _ I).
  apply dget_in_keys in J. unfold dmem in J. rewrite PropSupplied.dget_wm in J by assumption.
  cbn in M. destruct M as [<-|[<-|[<-|[]]]].
  - pose proof (P "total_sulfate") as Q. cbn [append] in Q. rewrite Q in J; [discriminate|cbn; tauto].
  - pose proof (P "total_phosphate") as Q. cbn [append] in Q. rewrite Q in J; [discriminate|cbn; tauto].
  - pose proof (P "total_fluoride") as Q. cbn [append] in Q. rewrite Q in J; [discriminate|cbn; tauto].
Qed.

Lemma ok_inj {A} (x y : A) : Ok x = Ok y -> x = y.
Proof. now intros [= ->]. Qed.

Lemma some_inj {A} (x y : A) : Some x = Some y -> x = y.
Proof. now intros [= ->]. Qed.

Lemma cons_not_nil {A} (x : A) l : x :: l = [] -> False.
Proof. discriminate. Qed.

Lemma pair_inj {A B} (a a' : A) (b b' : B) : (a, b) = (a', b') -> a = a' /\ b = b'.
Proof. intros E. now inversion E. Qed.

Lemma two_runs (e : env xr) f c s kw r r' pmin pmax :
  mode_is kw "ph" -> only_named kw -> number kw "pH_min" (nofZ 3) pmin -> number kw "pH_max" (nofZ 4) pmax ->
  files_solve e f (VNum c) s kw = Ok (SrPh r) -> files_solve e f (VNum c) s (sulfuric kw) = Ok (SrPh r') ->
  exists plain, let tm := sp_titrant_mass r in let M := sp_analyte_mass r in
    dget "total_sulfate" (sp_totals r) = Some (NdA plain) /\ length plain = length tm /\
    solve_pH c tm (sp_pH r) (sp_temperature r) M (sp_totals r) (sp_k_constants r) pmin pmax (nofZ 1) = Ok r /\
    solve_pH c tm (sp_pH r) (sp_temperature r) M
      (dset "total_sulfate" (NdA (map2 nadd plain (titrant_addition tm M c n0 (nofZ 1)))) (sp_totals r)) (sp_k_constants r) pmin pmax (nofZ 2) = Ok r'.
Proof.
  intros Hm On Pmin Pmax E E'.
  assert (On' := On). destruct On' as [Nn _].
  assert (Hm' : mode_is (sulfuric kw) "ph").
  { unfold mode_is, sulfuric in *. now rewrite !dget_dset_other by discriminate. }
  destruct (C50_mode_selects_solver e f (VNum c) s kw "ph" (SrPh r) Hm E) as (cv & t & ks & mol & t1 & L & Cm & (tt0 & _ & _) & _).
  clear tt0. cbn [as_num] in Cm. injection Cm as <-.
  assert (LS : load e f s (without_mode (sulfuric kw)) = Ok (cv, (t, ks))).
  { unfold sulfuric. rewrite !wm_dset by discriminate. rewrite !load_out by reflexivity. exact L. }
  assert (TS : get_kwargs_for keys_titrant_totals (without_mode (sulfuric kw)) None = [("titrant_total_sulfate", VInt 1)]).
  { unfold sulfuric. rewrite !wm_dset by discriminate. rewrite gkf_out by reflexivity. pose proof (named_titrant kw On) as Z.
    unfold get_kwargs_for in Z |- *. clear - Z. induction (without_mode kw) as [|[a w] d IH]; [reflexivity|].
    cbn [filter fst] in Z. cbn [dset]. destruct (mem_str a keys_titrant_totals) eqn:Ma; [exfalso; exact (cons_not_nil _ _ Z)|].
    destruct (String.eqb_spec "titrant_total_sulfate" a) as [<-|N]; [exfalso; exact (eq_true_false_abs _ (eq_refl true : mem_str "titrant_total_sulfate" keys_titrant_totals = true) Ma)|].
    cbn [filter fst]. rewrite Ma. now apply IH. }
  unfold files_solve in E, E'. rewrite L in E. rewrite LS in E'. cbn [bind as_num] in E, E'.
  rewrite (named_titrant kw On) in E. rewrite TS in E'. cbn [add_titrant_totals bind] in E.
  destruct (mode_wm kw "ph" Hm) as (x & Ex & Lx). destruct (mode_wm _ _ Hm') as (x' & Ex' & Lx').
  unfold dispatch_solve in E, E'. rewrite Ex in E. cbn [bind] in E. rewrite Lx in E. cbn [String.eqb Ascii.eqb Bool.eqb] in E.
  cbn [add_titrant_totals] in E'.
  change (assert_ (startswith "titrant_total_sulfate" "titrant_total_")) with (Ok tt) in E'. cbn [bind] in E'.
  change (sdrop 8 "titrant_total_sulfate") with "total_sulfate" in E'.
  unfold dgetE, of_opt in E'. destruct (dget "total_sulfate" t) as [v|] eqn:Gv; cbn [bind] in E'; [|discriminate].
  assert (TK : exists kw0, totals_ks e cv kw0 = Ok (t, ks)).
  { unfold load in L. destruct (full_name f _) as [fn|]; cbn [bind] in L; [|discriminate].
    destruct (read_dat e fn _) as [dd|]; cbn [bind] in L; [|discriminate].
    destruct (amount_units_dat dd s _) as [cv0|]; cbn [bind] in L; [|discriminate].
    destruct (totals_ks e cv0 _) as [tk|] eqn:A; cbn [bind] in L; [|discriminate].
    apply ok_inj in L. destruct (pair_inj _ _ _ _ L) as [<- ->]. eexists. exact A. }
  destruct TK as (kw0 & TK). destruct (totals_arrays _ _ _ _ _ _ _ TK Gv) as (plain & -> & Lp).
  cbn [as_num bind nd_iadd] in E'.
  assert (La : length (titrant_addition (cv_titrant_mass cv) (cv_analyte_mass cv) c n0 (nofZ 1 : xr)) = length (cv_titrant_mass cv)) by apply map_length.
  rewrite La, Lp, Nat.eqb_refl in E'. cbn [bind] in E'.
  rewrite Ex' in E'. cbn [bind] in E'. rewrite Lx' in E'. cbn [String.eqb Ascii.eqb Bool.eqb] in E'.
  assert (NUM : forall k d y (kw1 : kwargs xr), number kw k (nofZ d) y -> kwarg k (VInt d) kw1 = kwarg k (VInt d) kw -> as_num (kwarg k (VInt d) kw1) = Ok y).
  { intros k d y kw1 N ->. unfold number, kwarg in *. destruct (dget k kw); [exact N|]. cbn [as_num]. now rewrite N. }
  assert (CALL : forall t' kw1 n q, call_solve_pH c (cv_titrant_mass cv) (cv_measurement cv) (cv_temperature cv) (cv_analyte_mass cv) t' ks
      (get_kwargs_for keys_solve_pH (without_mode kw1) None) = Ok q ->
      (forall k, In k ["pH_min"; "pH_max"] -> dget k kw1 = dget k kw) -> as_num (kwarg "titrant_normality" (VInt 1) kw1) = Ok n ->
      solve_pH c (cv_titrant_mass cv) (cv_measurement cv) (cv_temperature cv) (cv_analyte_mass cv) t' ks pmin pmax n = Ok q).
  { intros t' kw1 n q C D N. unfold call_solve_pH in C. rewrite check_gkf in C. cbn [bind] in C.
    rewrite !kwarg_gkf in C by (cbn; tauto). rewrite !kwarg_wm in C by discriminate.
    rewrite (NUM "pH_min" 3%Z pmin kw1) in C by (try exact Pmin; unfold kwarg; now rewrite D by (cbn; tauto)). cbn [bind] in C.
    rewrite (NUM "pH_max" 4%Z pmax kw1) in C by (try exact Pmax; unfold kwarg; now rewrite D by (cbn; tauto)). cbn [bind] in C.
    rewrite N in C. exact C. }
  destruct (call_solve_pH _ _ _ _ _ t ks _) as [q|] eqn:C in E; cbn [bind] in E; [|discriminate]. apply ok_inj in E. injection E as ->.
  destruct (call_solve_pH _ _ _ _ _ _ ks _) as [q'|] eqn:C' in E'; cbn [bind] in E'; [|discriminate]. apply ok_inj in E'. injection E' as ->.
  apply (CALL t kw (nofZ 1) r) in C; [|reflexivity|unfold kwarg; now rewrite Nn].
  apply (CALL _ (sulfuric kw) (nofZ 2) r') in C'.
  2:{ intros k I. unfold sulfuric. rewrite !dget_dset_other; [reflexivity|..]; intros ->; cbn in I; intuition discriminate. }
  2:{ unfold kwarg, sulfuric. now rewrite dget_dset_same. }
  assert (F : sp_titrant_mass r = cv_titrant_mass cv /\ sp_pH r = cv_measurement cv /\ sp_temperature r = cv_temperature cv /\
    sp_analyte_mass r = cv_analyte_mass cv /\ sp_totals r = t /\ sp_k_constants r = ks).
  { clear - C. unfold solve_pH in C. destruct (negb _); [discriminate|]. inv_binds C. apply ok_inj in C. subst r. repeat split; reflexivity. }
  destruct F as (-> & -> & -> & -> & -> & ->). exists plain. cbv zeta. auto.
Qed.

Lemma sulfate_at c tm M plain t i m : nth_error tm i = Some m -> 0 < M -> 0 <= m ->
  dget "total_sulfate" t = Some (NdA plain) -> length plain = length (map Fin tm) ->
  forall s, dget "total_sulfate" (slice_at t i) = Some (Fin s) ->
  slice_at (dset "total_sulfate" (NdA (map2 nadd plain (titrant_addition (map Fin tm) (Fin M) (Fin c) n0 (nofZ 1)))) t) i
    = dset "total_sulfate" (Fin (s + m * c / (m + M))) (slice_at t i).
Proof.
  intros Em HM Hm G Lp s Gs. unfold slice_at in Gs |- *. rewrite dmap_dset. f_equal.
  rewrite dget_dmap, G in Gs. apply some_inj in Gs.
  rewrite fin_n0, fin_Z.
  assert (Add : nth_error (titrant_addition (map Fin tm) (Fin M) (Fin c) (Fin 0) (Fin 1)) i = Some (Fin (m * (c - 0) * 1 / (m + M))))
    by (apply PropCalibrate.addition_at; assumption).
  change (IZR 1) with 1.
  rewrite (PropCalibrate.nd_iadd_at (NdA plain) (NdA (map2 nadd plain (titrant_addition (map Fin tm) (Fin M) (Fin c) (Fin 0) (Fin 1)))) _ i _ s) with (2 := Add); [|..]; [| |exact Gs].
  2:{ cbn [nd_iadd]. replace (length plain =? _)%nat with true; [reflexivity|]. symmetry. apply Nat.eqb_eq. unfold titrant_addition. now rewrite map_length. }
  rewrite fin_add. f_equal. field. lra.
Qed.

(* ------------------------------------------------------------------ *)
(** * C122: results with sulfuric acid *)

(* With titrant_normality = 2 and titrant_total_sulfate = 1, titrating with sulfuric acid gives the
   alkalinity of the sample. *)
Theorem C122_sulfuric_settings_partial (e : env xr) f c s kw r r' tm pH M pmin pmax A :
  mode_is kw "ph" -> only_named kw -> number kw "pH_min" (nofZ 3) (Fin pmin) -> number kw "pH_max" (nofZ 4) (Fin pmax) ->
  files_solve e f (VNum (Fin c)) s kw = Ok (SrPh r) ->
  files_solve e f (VNum (Fin c)) s (sulfuric kw) = Ok (SrPh r') ->
  sp_titrant_mass r = map Fin tm -> sp_pH r = map Fin pH -> sp_analyte_mass r = Fin M -> masses_ok tm M ->
  (exists i p, nth_error pH i = Some p /\ pmin <= p <= pmax) ->
  sulfuric_titration r tm pH M c pmin pmax A ->
  sp_alkalinity r' = Fin (1000000 * A) /\ sp_alkalinity_std r' = Fin 0.
Proof.
  intros Hm On P1 P2 E E' Tm Ph Ma Ok W S.
  destruct (two_runs e f (Fin c) s kw r r' _ _ Hm On P1 P2 E E') as (plain & Gp & Lp & _ & R'). cbv zeta in R'.
  rewrite Tm, Ph, Ma, (fin_Z 2) in R'. rewrite Tm in Lp. apply (C30_solve_pH_exact _ _ _ _ _ _ _ _ _ _ _ A Ok R' W).
  intros i p m Hp Hi Hin. destruct (S i p m Hp Hi Hin) as (x & Gx & Ax).
  rewrite (sulfate_at c tm M plain (sp_totals r) i m Hi (proj1 Ok)) with (s := x); try assumption.
  - rewrite Ax. do 2 f_equal. f_equal. lra.
  - destruct Ok as [_ F]. eapply Forall_nth_error in F; eassumption.
Qed.

(* Without them -- whatever the titrant is said to be -- the reported alkalinity is lower. *)
Theorem C122_name_alone_is_too_low (e : env xr) f c s kw r r' tm pH M pmin pmax :
  mode_is kw "ph" -> only_named kw -> number kw "pH_min" (nofZ 3) (Fin pmin) -> number kw "pH_max" (nofZ 4) (Fin pmax) ->
  files_solve e f (VNum (Fin c)) s kw = Ok (SrPh r) ->
  files_solve e f (VNum (Fin c)) s (sulfuric kw) = Ok (SrPh r') ->
  sp_titrant_mass r = map Fin tm -> sp_pH r = map Fin pH -> sp_analyte_mass r = Fin M -> masses_ok tm M -> 0 < c ->
  sane (length tm) (sp_totals r) (sp_k_constants r) ->
  (exists i p m, nth_error pH i = Some p /\ pmin <= p <= pmax /\ nth_error tm i = Some m /\ 0 < m) ->
  exists a a', sp_alkalinity r = Fin a /\ sp_alkalinity r' = Fin a' /\ a < a'.
Proof.
  intros Hm On P1 P2 E E' Tm Ph Ma Ok Hc S W.
  destruct (two_runs e f (Fin c) s kw r r' _ _ Hm On P1 P2 E E') as (plain & Gp & Lp & R & R'). cbv zeta in R, R'.
  rewrite Tm, Ph, Ma, (fin_Z 2) in R'. rewrite Tm, Ph, Ma, (fin_Z 1) in R. rewrite Tm in Lp.
  eapply (below c M pmin pmax tm pH _ _ _ _ r r' Ok S R R' Hc); [|exact W].
  intros i m Hi. assert (L : (i < length tm)%nat) by (apply nth_error_Some; congruence).
  destruct (S i L) as [N _].
  assert (Gx : exists x, dget "total_sulfate" (slice_at (sp_totals r) i) = Some (Fin x)).
  { unfold slice_at in N |- *. specialize (N "total_sulfate"). rewrite dget_dmap, Gp in N |- *. destruct (N _ eq_refl) as (x & -> & _). eauto. }
  destruct Gx as (x & Gx). exists x. split; [exact Gx|]. apply sulfate_at; try assumption; [exact (proj1 Ok)|].
  destruct Ok as [_ F]. eapply Forall_nth_error in F; eassumption.
Qed.

(* ------------------------------------------------------------------ *)
(** * A concrete case: one used point, after adding 1 kg of 1 mol/kg acid to 1 kg of sample *)

Definition acid_kw : kwargs xr :=
  [("analyte_mass", VNum (Fin 1)); ("titrant_amount_unit", VStr "kg"); ("titrant", VStr "H2SO4"); ("solve_mode", VStr "pH");
   ("pH_min", VNum (Fin 3.55))].

Lemma acid_load : exists t ks, load tiny_env (VStr "gen.dat") (VInt 35) (without_mode acid_kw) = Ok (tiny_cv, (t, ks)) /\
  sane 2 t ks /\ (exists y z, dget "total_sulfate" t = Some (NdA [y; z])) /\
  (exists l, alkalinity_arr [dec 35 (-1); dec 36 (-1)] t ks 3 = Ok l) /\
  (forall y z, exists l, alkalinity_arr [dec 35 (-1); dec 36 (-1)] (dset "total_sulfate" (NdA [y; z]) t) ks 3 = Ok l).
Proof.
  unfold load. change (full_name _ _) with (Ok "gen.dat" : res string). cbn [bind].
  change (get_kwargs_for keys_read_dat (without_mode acid_kw) None) with ([] : kwargs xr). rewrite gen_read. cbn [bind].
  change (amount_units_dat (Dat tiny_dd) (VInt 35) (get_kwargs_for keys_cau (without_mode acid_kw) None)) with (Ok tiny_cv). cbn [bind].
  change (get_kwargs_for keys_totals_ks (without_mode acid_kw) None) with ([] : kwargs xr).
  unfold totals_ks, get_totals, get_k_constants, copy_if_pos.
  cbn [filter get_kwargs_for check_kwargs forallb bind kwarg dget as_num].
  rewrite gt00, ne31. eexists. eexists. split; [reflexivity|].
  split; [|split; [eexists; eexists; reflexivity|split; [eexists; reflexivity|intros; eexists; reflexivity]]].
  assert (D : dilution_factors (cv_titrant_mass tiny_cv) (cv_analyte_mass tiny_cv) = map Fin [1 / (0 + 1); 1 / (1 + 1)]).
  { cbn [tiny_cv cv_titrant_mass cv_analyte_mass]. rewrite mass_dec, ConvertProofs.df_list by (repeat constructor; lra). reflexivity. }
  rewrite D. cbn [fst snd]. rewrite fin_Z, fin_q. rewrite !fin_mul.
  intros i Li. split.
  - intros k v G. unfold slice_at in G. rewrite dget_dmap in G. cbn [dget map] in G.
    repeat (destruct (String.eqb k _); [apply some_inj in G; destruct i as [|[|i]]; [| |lia]; cbn in G; subst v; eexists; (split; [reflexivity|lra])|]).
    discriminate.
  - intros k v G. unfold slice_at in G. rewrite dget_dmap in G. cbn in G.
    repeat (destruct (String.eqb k _); [apply some_inj in G; cbn in G; subst v; eexists; (split; [reflexivity|lra])|]).
    discriminate.
Qed.

Example C122_nonvacuous : exists r r' A,
  mode_is acid_kw "ph" /\ only_named acid_kw /\ number acid_kw "pH_min" (nofZ 3) (Fin 3.55) /\ number acid_kw "pH_max" (nofZ 4) (Fin 4) /\
  files_solve tiny_env (VStr "gen.dat") (VNum (Fin 1)) (VInt 35) acid_kw = Ok (SrPh r) /\
  files_solve tiny_env (VStr "gen.dat") (VNum (Fin 1)) (VInt 35) (sulfuric acid_kw) = Ok (SrPh r') /\
  sp_titrant_mass r = map Fin [0; 1] /\ sp_pH r = map Fin [3.5; 3.6] /\ sp_analyte_mass r = Fin 1 /\ masses_ok [0; 1] 1 /\
  sane 2 (sp_totals r) (sp_k_constants r) /\ sulfuric_titration r [0; 1] [3.5; 3.6] 1 1 3.55 4 A.
Proof.
  destruct acid_load as (t & ks & L & S & (y & z & G) & (l & Al) & Al').
  assert (LS : load tiny_env (VStr "gen.dat") (VInt 35) (without_mode (sulfuric acid_kw)) = Ok (tiny_cv, (t, ks))).
  { unfold sulfuric. rewrite !wm_dset by discriminate. rewrite !load_out by reflexivity. exact L. }
  assert (P4 : number acid_kw "pH_max" (nofZ 4) (Fin 4)) by (unfold number; cbn [acid_kw dget String.eqb Ascii.eqb Bool.eqb]; symmetry; apply fin_Z).
  assert (LT : nltb (Fin 3.55) (nofZ 4 : xr) = true).
  { rewrite fin_Z. cbn. unfold rltb. destruct (Rlt_dec _ _) as [|N]; [reflexivity|]. exfalso; apply N. lra. }
  assert (R : exists r, files_solve tiny_env (VStr "gen.dat") (VNum (Fin 1)) (VInt 35) acid_kw = Ok (SrPh r) /\
    sp_titrant_mass r = cv_titrant_mass tiny_cv /\ sp_pH r = cv_measurement tiny_cv /\ sp_analyte_mass r = Fin 1 /\ sp_totals r = t /\ sp_k_constants r = ks).
  { unfold files_solve. rewrite L. cbn [bind as_num].
    change (get_kwargs_for keys_titrant_totals (without_mode acid_kw) None) with ([] : kwargs xr). cbn [add_titrant_totals bind].
    unfold dispatch_solve. change (as_str (mode_of acid_kw)) with (Ok "pH" : res string). cbn [bind]. change (lower "pH") with "ph". cbn [String.eqb Ascii.eqb Bool.eqb].
    change (get_kwargs_for keys_solve_pH (without_mode acid_kw) None) with ([("pH_min", VNum (Fin 3.55))] : kwargs xr).
    unfold call_solve_pH, kwarg. cbn [check_kwargs forallb fst mem_str existsb keys_solve_pH String.eqb Ascii.eqb Bool.eqb orb andb bind dget as_num].
    unfold solve_pH. cbn [tiny_cv cv_titrant_mass cv_measurement cv_temperature cv_analyte_mass length Nat.eqb negb].
    rewrite LT. cbn [assert_ bind]. unfold alkalinity_all, default_opt_pH_scale. rewrite Al. cbn [bind].
    eexists. split; [reflexivity|]. repeat split; reflexivity. }
  destruct R as (r & E & Tm & Ph & Ma & Tt & Tk).
  assert (R' : exists r', files_solve tiny_env (VStr "gen.dat") (VNum (Fin 1)) (VInt 35) (sulfuric acid_kw) = Ok (SrPh r') ).
  { unfold files_solve. rewrite LS. cbn [bind as_num].
    change (get_kwargs_for keys_titrant_totals (without_mode (sulfuric acid_kw)) None) with ([("titrant_total_sulfate", VInt 1)] : kwargs xr).
    cbn [add_titrant_totals]. change (assert_ (startswith "titrant_total_sulfate" "titrant_total_")) with (Ok tt). cbn [bind].
    change (sdrop 8 "titrant_total_sulfate") with "total_sulfate". unfold dgetE. rewrite G. cbn [of_opt as_num bind nd_iadd].
    unfold titrant_addition at 1. rewrite map_length. cbn [tiny_cv cv_titrant_mass length Nat.eqb bind titrant_addition map map2].
    unfold dispatch_solve. change (as_str (mode_of (sulfuric acid_kw))) with (Ok "pH" : res string). cbn [bind]. change (lower "pH") with "ph". cbn [String.eqb Ascii.eqb Bool.eqb].
    change (get_kwargs_for keys_solve_pH (without_mode (sulfuric acid_kw)) None) with ([("pH_min", VNum (Fin 3.55)); ("titrant_normality", VInt 2)] : kwargs xr).
    unfold call_solve_pH, kwarg. cbn [check_kwargs forallb fst mem_str existsb keys_solve_pH String.eqb Ascii.eqb Bool.eqb orb andb bind dget as_num].
    unfold solve_pH. cbn [tiny_cv cv_titrant_mass cv_measurement cv_temperature cv_analyte_mass length Nat.eqb negb].
    rewrite LT. cbn [assert_ bind]. unfold alkalinity_all, default_opt_pH_scale.
    match goal with |- context [alkalinity_arr _ (dset _ (NdA [?a; ?b]) _) _ _] => destruct (Al' a b) as (l' & ->) end. cbn [bind].
    eexists. reflexivity. }
  destruct R' as (r' & E').
  assert (Ok2 : masses_ok [0; 1] 1) by (split; [lra|repeat constructor; lra]).
  assert (Tm' : sp_titrant_mass r = map Fin [0; 1]) by (rewrite Tm; exact mass_dec).
  assert (Ph' : sp_pH r = map Fin [3.5; 3.6]) by (rewrite Ph; exact pH_dec).
  assert (On : only_named acid_kw).
  { split; [reflexivity|]. intros k I. cbn in I. destruct I as [<-|[<-|[<-|[]]]]; reflexivity. }
  assert (Mi : mode_is acid_kw "ph") by reflexivity.
  assert (P3 : number acid_kw "pH_min" (nofZ 3) (Fin 3.55)) by reflexivity.
  rewrite <- Tt, <- Tk in S.
  (* there is one used point, so there is an alkalinity for which the measured pH is right *)
  destruct (two_runs _ _ _ _ _ r r' _ _ Mi On P3 P4 E E') as (plain & Gp & Lp & _ & Q'). cbv zeta in Q'.
  rewrite Tm', Ph', Ma, (fin_Z 2) in Q'. rewrite Tm' in Lp.
  assert (Ht : forall i m, nth_error [0; 1] i = Some m -> exists s, dget "total_sulfate" (slice_at (sp_totals r) i) = Some (Fin s) /\
    slice_at (dset "total_sulfate" (NdA (map2 nadd plain (titrant_addition (map Fin [0; 1]) (Fin 1) (Fin 1) n0 (nofZ 1)))) (sp_totals r)) i
      = dset "total_sulfate" (Fin (s + m * 1 / (m + 1))) (slice_at (sp_totals r) i)).
  { intros i m Hi. assert (Li : (i < 2)%nat) by (change 2%nat with (length [0; 1]); apply nth_error_Some; congruence).
    destruct (S i Li) as [N _].
    assert (Gx : exists x, dget "total_sulfate" (slice_at (sp_totals r) i) = Some (Fin x)).
    { unfold slice_at in N |- *. specialize (N "total_sulfate"). rewrite dget_dmap, Gp in N |- *. destruct (N _ eq_refl) as (x & -> & _). eauto. }
    destruct Gx as (x & Gx). exists x. split; [exact Gx|]. apply sulfate_at; try assumption; [lra|].
    destruct Ok2 as [_ F]. eapply Forall_nth_error in F; eassumption. }
  pose proof (sane' 1 1 [0; 1] _ _ _ Ok2 S Rlt_0_1 Ht) as S'.
  apply solve_pH_inv in Q' as [_ [_ [_ [Hall _]]]].
  assert (S2 : forall i p, nth_error [3.5; 3.6] i = Some p -> (i < length [0; 1])%nat) by (intros [|[|[|i]]] p Ei; cbn in *; try lia; discriminate).
  destruct (all_finite _ [0; 1] [3.5; 3.6] _ _ _ _ _ Ok2 eq_refl (fun i p Ei => S' i (S2 i p Ei)) Hall) as (est & _ & _ & Hpt).
  destruct (Hpt 1%nat 3.6 1 eq_refl eq_refl) as (a & Ea & _). destruct (Ht 1%nat 1 eq_refl) as (x & Gx & Qx). rewrite Qx in Ea.
  exists r, r', (2 * a + 2).
  split; [exact Mi|]. split; [exact On|]. split; [exact P3|]. split; [exact P4|]. split; [exact E|]. split; [exact E'|].
  split; [exact Tm'|]. split; [exact Ph'|]. split; [exact Ma|]. split; [exact Ok2|]. split; [exact S|].
  intros i p m Hp Hi Hin. destruct i as [|[|i]].
  - cbn in Hp. apply some_inj in Hp. lra.
  - cbn in Hp, Hi. apply some_inj in Hp. apply some_inj in Hi. subst p m. exists x. split; [exact Gx|]. rewrite Ea. do 2 f_equal. field.
  - exfalso. destruct i; discriminate Hi.
Qed.

Print Assumptions C122_sulfuric_settings_partial.
Print Assumptions C122_name_alone_is_too_low.
