(* PropAccuracy.v -- C126: how accurate the alkalinity is if the readings are rounded *)
From Coq Require Import Reals Qreals Lra Lia List.
From Verif Require Import Files DictLemmas SettingsProofs TableProofs PropSupplied PropReference PropModes PropTitrantShare PropCalibrate PropWhichFile SpecText PropText.
From Verif Require Import XR XRLemmas SpecConvert SpecCore SpecSimulate SimProofs SolveProofs PropSolve PropMonotone Witness PropSulfuric.
From Verif Require Import PropSensitive.
Import ListNotations.
Open Scope R_scope.
Open Scope string_scope.
Open Scope list_scope.

(* ------------------------------------------------------------------ *)
(** * Readings with errors *)

(* Every reading inside the window is within d of the true pH, which is that of a sample of alkalinity A with
   the acid added so far: the result is within d times the largest capacity of a used point, per kg of sample. *)
Theorem C126_accuracy : forall c tm pH temps M totals ks pmin pmax n r A d B,
  masses_ok tm M -> sane (length tm) totals ks ->
  solve_pH (Fin c) (map Fin tm) (map Fin pH) temps (Fin M) totals ks (Fin pmin) (Fin pmax) (Fin n) = Ok r ->
  (exists i p, nth_error pH i = Some p /\ pmin <= p <= pmax) ->
  (forall i p m, nth_error pH i = Some p -> nth_error tm i = Some m -> pmin <= p <= pmax ->
     exists q, Rabs (p - q) <= d /\
       alkalinity (Fin q) (slice_at totals i) (slice_at ks i) 3 = Ok (Fin ((M * A - m * c * n) / (M + m))) /\
       (1 + m / M) * capacity (slice_at totals i) (slice_at ks i) (Rmin p q) (Rmax p q) <= B) ->
  exists a, sp_alkalinity r = Fin a /\ Rabs (a - 1000000 * A) <= 1000000 * ln 10 * d * B.
Proof.
  intros c tm pH temps M totals ks pmin pmax n r A d B Hok Hs Hr Hex Hd.
  apply solve_pH_inv in Hr as [Hl [_ [Hu [Hall [Ha _]]]]]. rewrite !map_length in Hl.
  assert (lt_of : forall i (p : R) (l : list R), nth_error l i = Some p -> length l = length tm -> (i < length tm)%nat).
  { intros i p l E <-. apply nth_error_Some. congruence. }
  destruct (all_finite _ _ _ _ _ _ _ _ Hok Hl (fun i p E => Hs i (lt_of _ _ _ E Hl)) Hall) as [est [Ee [Hle1 Hpt]]].
  assert (Hlu : length (sp_used r) = length tm) by (rewrite Hu; unfold in_window; rewrite !map_length; assumption).
  destruct Hex as (i0 & p0 & Hp0 & Hin0).
  assert (Hu0 : used_at (sp_used r) i0).
  { rewrite Hu. apply window_used. exists p0. split; [apply nth_error_map_fin; assumption|assumption]. }
  assert (Hn : (0 < n_used (sp_used r))%nat).
  { unfold used_at in Hu0. clear - Hu0. revert i0 Hu0. generalize (sp_used r). unfold n_used.
    induction l as [|b u IH]; intros [|i] Hi; try discriminate Hi.
    - injection Hi as ->. cbn. lia.
    - destruct b; cbn [filter length]; [lia|]. eapply IH. exact Hi. }
  assert (Hne : mask (sp_used r) est <> []).
  { intros E0. pose proof (mask_count (sp_used r) est) as X. rewrite E0 in X. cbn in X.
    specialize (X ltac:(congruence)). change (count_true (sp_used r)) with (n_used (sp_used r)) in X. lia. }
  rewrite Ee, mask_map, nmean_fin in Ha by exact Hne.
  exists (Rmean (mask (sp_used r) est)). split; [exact Ha|].
  assert (HM : 0 < M) by apply Hok. pose proof ln10_pos as L10.
  assert (Close : forall i v v', used_at (sp_used r) i -> nth_error (map (fun _ => 1000000 * A) est) i = Some v -> nth_error est i = Some v' ->
    Rabs (v' - v) <= 1000000 * ln 10 * d * B).
  { intros i v v' Hui Hv Hv'. rewrite nth_error_map, Hv' in Hv. cbn in Hv. apply some_inj in Hv. subst v.
    rewrite Hu in Hui. apply window_used in Hui as [p [Hp Hin]].
    rewrite nth_error_map in Hp. destruct (nth_error pH i) as [p1|] eqn:Ep; [|discriminate]. injection Hp as ->.
    assert (Hlt : (i < length tm)%nat) by (eapply lt_of; eassumption).
    destruct (nth_error tm i) as [m|] eqn:Em; [|apply nth_error_None in Em; lia].
    destruct (Hpt i p m Ep Em) as [s [Es En]]. rewrite En in Hv'. apply some_inj in Hv'. subst v'.
    destruct (Hd i p m Ep Em Hin) as (q & Dq & Eq & DB).
    assert (Hm0 : 0 <= m) by (destruct Hok as [_ F]; eapply Forall_nth_error in F; eassumption).
    destruct (Hs i Hlt) as [Ht Hk].
    set (cap := capacity (slice_at totals i) (slice_at ks i) (Rmin p q) (Rmax p q)) in *.
    set (s0 := (M * A - m * c * n) / (M + m)) in *.
    assert (C : Rabs (s - s0) <= ln 10 * Rabs (p - q) * cap).
    { destruct (Rle_or_lt p q) as [L|L].
      - destruct (C125_buffering_limits_alkalinity p q _ _ 3 _ _ Ht Hk L Es Eq) as (X & Y & E1 & E2 & Bd).
        apply fin_inj in E1. apply fin_inj in E2. subst X Y. unfold cap. rewrite Rmin_left, Rmax_right by exact L.
        rewrite !Rabs_left1 by lra. lra.
      - destruct (C125_buffering_limits_alkalinity q p _ _ 3 _ _ Ht Hk (Rlt_le _ _ L) Eq Es) as (X & Y & E1 & E2 & Bd).
        apply fin_inj in E1. apply fin_inj in E2. subst X Y. unfold cap. rewrite Rmin_right, Rmax_left by lra.
        rewrite !Rabs_right by lra. lra. }
    assert (C0 : 0 <= cap).
    { unfold cap, capacity. apply Rplus_le_le_0_compat; [apply Rplus_le_le_0_compat|].
      - left. apply h_of_pos.
      - unfold content. pose proof (h_of_pos (Rmax p q)) as Y. destruct (dget "k_water" (slice_at ks i)) as [w|] eqn:Ew; [|unfold Rdiv; lra].
        destruct (Hk _ _ Ew) as (k & -> & K0). left. apply Rdiv_lt_0_compat; assumption.
      - unfold buffering. cbn [map fst snd]. rewrite !Rsum_cons.
        repeat (apply Rplus_le_le_0_compat; [apply term_nonneg; [exact Ht|lra]|]). unfold Rsum; cbn. lra. }
    assert (K1 : 0 <= 1 + m / M) by (assert (0 <= m / M) by (apply Rmult_le_pos; [exact Hm0|left; now apply Rinv_0_lt_compat]); lra).
    replace (1000000 * (s * (m + M) + m * c * n) / M - 1000000 * A) with (1000000 * (1 + m / M) * (s - s0)) by (unfold s0; field; lra).
    rewrite Rabs_mult, (Rabs_right (1000000 * (1 + m / M))) by lra.
    apply (Rle_trans _ (1000000 * (1 + m / M) * (ln 10 * d * cap))).
    - apply Rmult_le_compat_l; [lra|]. eapply Rle_trans; [exact C|]. apply Rmult_le_compat_r; [exact C0|]. apply Rmult_le_compat_l; lra.
    - replace (1000000 * (1 + m / M) * (ln 10 * d * cap)) with (1000000 * ln 10 * d * ((1 + m / M) * cap)) by ring.
      apply Rmult_le_compat_l; [|exact DB]. pose proof (Rabs_pos (p - q)). apply Rmult_le_pos; lra. }
  assert (Lm : length (map (fun _ : R => 1000000 * A) est) = length (sp_used r)) by (rewrite map_length; congruence).
  assert (B0 : 0 <= 1000000 * ln 10 * d * B).
  { assert (Hlt : (i0 < length tm)%nat) by (eapply lt_of; eassumption).
    destruct (nth_error est i0) as [v'|] eqn:Ev'; [|apply nth_error_None in Ev'; lia].
    eapply Rle_trans; [apply Rabs_pos|]. apply (Close i0 (1000000 * A) v' Hu0); [rewrite nth_error_map, Ev'; reflexivity|exact Ev']. }
  pose proof (masked_close (sp_used r) _ est _ Lm ltac:(congruence) B0 Close) as Y.
  assert (Cn : forall u (l : list R), length l = length u -> Rsum (mask u (map (fun _ => 1000000 * A) l)) = INR (n_used u) * (1000000 * A)).
  { induction u as [|b u IH]; intros [|x l] L; try discriminate.
    - unfold Rsum; cbn. lra.
    - cbn [map mask]. destruct b; [|now apply IH; injection L].
      change (n_used (true :: u)) with (S (n_used u)). rewrite S_INR, Rsum_cons, IH by now injection L. lra. }
  rewrite Cn in Y by congruence.
  unfold Rmean. rewrite !mask_count by congruence. change (count_true (sp_used r)) with (n_used (sp_used r)).
  assert (I0 : 0 < INR (n_used (sp_used r))) by now apply lt_0_INR.
  replace (Rsum (mask (sp_used r) est) / INR (n_used (sp_used r)) - 1000000 * A)
    with ((Rsum (mask (sp_used r) est) - INR (n_used (sp_used r)) * (1000000 * A)) * / INR (n_used (sp_used r))) by (field; lra).
  rewrite Rabs_mult, (Rabs_right (/ _)) by (left; now apply Rinv_0_lt_compat).
  apply (Rmult_le_reg_r (INR (n_used (sp_used r)))); [exact I0|]. rewrite Rmult_assoc, Rinv_l, Rmult_1_r by lra. lra.
Qed.

(* ------------------------------------------------------------------ *)
(** * Readings written to a file *)

(* how a file is read is left to the defaults *)
Definition default_reading (kw : kwargs xr) : Prop := forall k, In k keys_read_dat -> dget k kw = None.

Lemma pH_run (e : env xr) f c s kw r cm pmin pmax n :
  mode_is kw "ph" -> as_num c = Ok cm -> window kw pmin pmax n -> files_solve e f c s kw = Ok (SrPh r) ->
  solve_pH cm (sp_titrant_mass r) (sp_pH r) (sp_temperature r) (sp_analyte_mass r) (sp_totals r) (sp_k_constants r) pmin pmax n = Ok r /\
  exists cv tk, load e f s (without_mode kw) = Ok (cv, tk) /\ sp_pH r = cv_measurement cv.
Proof.
  intros Hm Ec (W1 & W2 & W3) E.
  destruct (C50_mode_selects_solver e f c s kw "ph" _ Hm E) as (cv & t & ks & mol & t1 & L & Cm & _ & S).
  rewrite Ec in Cm. apply ok_inj in Cm. subst mol.
  unfold solved_as in S. cbv zeta in S. destruct S as (p1 & p2 & n1 & (V1 & V2 & V3) & r0 & Er & Q).
  injection Er as <-.
  assert (U : forall k d x y, number kw k d x -> number kw k d y -> x = y).
  { intros k d x y. unfold number. destruct (dget k kw) as [v|]; [|congruence]. intros X Y. rewrite X in Y. now apply ok_inj in Y. }
  rewrite (U _ _ _ _ W1 V1), (U _ _ _ _ W2 V2), (U _ _ _ _ W3 V3).
  assert (F : sp_titrant_mass r = cv_titrant_mass cv /\ sp_pH r = cv_measurement cv /\ sp_temperature r = cv_temperature cv /\
    sp_analyte_mass r = cv_analyte_mass cv /\ sp_totals r = t1 /\ sp_k_constants r = ks).
  { clear - Q. unfold solve_pH in Q. destruct (negb _); [discriminate|]. inv_binds Q. apply ok_inj in Q. subst r. repeat split; reflexivity. }
  destruct F as (-> & F2 & -> & -> & -> & ->). rewrite F2. split; [exact Q|]. eauto.
Qed.

(* The file was written by write_dat with dm decimals for the readings, from the true pH of a titration of a sample of
   alkalinity A: solving it gives A to within half a unit of the last decimal times the largest capacity of a used point. *)
Theorem C126_written_file : forall before after path line0 line1 amounts truth temps mode da dm dt (e : env xr) name kw c s cm r tm M pmin pmax n A B,
  (2 <= length amounts)%nat -> length truth = length amounts -> length temps = length amounts ->
  one_line line0 -> one_line line1 -> mode = ModeX \/ mode = ModeW ->
  write_dat before path amounts (map Fin truth) temps line0 line1 mode da dm dt = (after, Ok tt) ->
  e_file e path = after path -> located kw name path -> default_reading kw ->
  mode_is kw "ph" -> as_num c = Ok (Fin cm) -> window kw (Fin pmin) (Fin pmax) (Fin n) ->
  files_solve e (VStr name) c s kw = Ok (SrPh r) ->
  sp_titrant_mass r = map Fin tm -> sp_analyte_mass r = Fin M -> masses_ok tm M ->
  sane (length tm) (sp_totals r) (sp_k_constants r) ->
  (exists i q, nth_error (sp_pH r) i = Some (Fin q) /\ pmin <= q <= pmax) ->
  (forall i p q m, nth_error truth i = Some p -> nth_error (sp_pH r) i = Some (Fin q) -> nth_error tm i = Some m -> pmin <= q <= pmax ->
     alkalinity (Fin p) (slice_at (sp_totals r) i) (slice_at (sp_k_constants r) i) 3 = Ok (Fin ((M * A - m * cm * n) / (M + m))) /\
     (1 + m / M) * capacity (slice_at (sp_totals r) i) (slice_at (sp_k_constants r) i) (Rmin q p) (Rmax q p) <= B) ->
  exists a, sp_alkalinity r = Fin a /\ Rabs (a - 1000000 * A) <= 1000000 * ln 10 * (/ 2 * / 10 ^ dm) * B.
Proof.
  intros before after path line0 line1 amounts truth temps mode da dm dt e name kw c s cm r tm M pmin pmax n A B
    L2 Lt Lte O0 O1 Md W F Loc Df Hm Ec Wi E Tm Ma Hok Hs Hex Hd.
  destruct (pH_run e _ c s kw r (Fin cm) _ _ _ Hm Ec Wi E) as (Q & cv & tk & Ld & Ph).
  assert (K0 : get_kwargs_for keys_read_dat (without_mode kw) None = []).
  { unfold get_kwargs_for. apply filter_nil_iff. intros [k v] I. cbn [fst].
    destruct (mem_str k keys_read_dat) eqn:X; [|reflexivity]. exfalso. apply mem_str_spec in X.
    assert (Nm : k <> "solve_mode") by (intros ->; revert X; apply mem_str_false; reflexivity).
    assert (J : In k (dkeys (without_mode kw))) by exact (in_map fst _ _ I).
    apply dget_in_keys in J. unfold dmem in J. rewrite PropModes.dget_wm in J by exact Nm. rewrite (Df k X) in J. discriminate. }
  destruct (C65_write_then_read before path line0 line1 amounts (map Fin truth) temps mode da dm dt after e [] L2
    ltac:(now rewrite map_length) Lte O0 O1 Md W F (or_introl eq_refl)) as (dd & Rd & _ & Cm & _).
  assert (Em : cv_measurement cv = dd_measurement dd).
  { unfold load in Ld.
    assert (Fn : full_name (VStr name) (without_mode kw) = Ok path).
    { transitivity (full_name (VStr name) kw); [|now apply located_join]. unfold full_name. now rewrite PropModes.dget_wm. }
    rewrite Fn in Ld. cbn [bind] in Ld. rewrite K0, Rd in Ld. cbn [bind amount_units_dat] in Ld.
    unfold amount_units in Ld. destruct (check_kwargs keys_cau _); cbn [bind] in Ld; [|discriminate].
    destruct (match kwarg "temperature_override" _ _ with VNone => _ | _ => _ end) as [tp|]; cbn [bind] in Ld; [|discriminate].
    destruct (cau_titrant_mass _ _); cbn [bind] in Ld; [|discriminate].
    destruct (cau_analyte_mass _ _ _); cbn [bind] in Ld; [|discriminate].
    destruct (totals_ks e _ _); cbn [bind] in Ld; [|discriminate].
    apply ok_inj in Ld. apply pair_inj in Ld. destruct Ld as [<- _]. reflexivity. }
  (* all readings are finite *)
  assert (Fi : exists pH, sp_pH r = map Fin pH /\ length pH = length truth /\
     forall i q p, nth_error pH i = Some q -> nth_error truth i = Some p -> Rabs (q - p) <= / 2 * / 10 ^ dm).
  { rewrite Ph, Em. clear - Cm. revert Cm. generalize (dd_measurement dd). induction truth as [|x l IH]; intros y C; inversion C; subst.
    - exists []. repeat split. intros [|i]; discriminate.
    - destruct (IH _ H3) as (pH & -> & Lp & X). destruct H1 as (q & -> & Q). exists (q :: pH). cbn. split; [reflexivity|]. split; [now rewrite Lp|].
      intros [|i] a b Ea Eb; cbn in Ea, Eb; [|now apply (X i)]. apply some_inj in Ea. apply some_inj in Eb. subst. exact Q. }
  destruct Fi as (pH & Ep & Lp & Cl). rewrite Ep, Tm, Ma in Q.
  apply (C126_accuracy cm tm pH (sp_temperature r) M (sp_totals r) (sp_k_constants r) pmin pmax n r A (/ 2 * / 10 ^ dm) B Hok Hs Q).
  - destruct Hex as (i & q & Hq & Hin). rewrite Ep, nth_error_map in Hq. destruct (nth_error pH i) as [q0|] eqn:Z; [|discriminate].
    cbn in Hq. apply some_inj in Hq. apply fin_inj in Hq. subst q0. eauto.
  - intros i q m Hq Hmi Hin.
    destruct (nth_error truth i) as [p|] eqn:Zp.
    2:{ apply nth_error_None in Zp. assert (i < length pH)%nat by (apply nth_error_Some; congruence). lia. }
    exists p. split; [exact (Cl i q p Hq Zp)|]. apply (Hd i p q m Zp); try assumption. rewrite Ep, nth_error_map, Hq. reflexivity.
Qed.

(* ------------------------------------------------------------------ *)
(** * A file for which this holds *)

Lemma abs_in x d : Rabs x <= d -> - d <= x <= d.
Proof. unfold Rabs. destruct (Rcase_abs x); lra. Qed.

Definition acc_text : string := dat_text 3 3 3 line0_default line1_default [Fin 1; Fin 2] (map Fin [3.5; 4.5]) [Fin 25; Fin 25].
Definition acc_env : env xr := {| e_file := fs_write (fun _ => None) "x.dat" acc_text; e_excel := e_excel tiny_env; e_salts := e_salts tiny_env;
  e_equil := e_equil tiny_env; e_sys_salt := e_sys_salt tiny_env; e_strat := e_strat tiny_env |}.
Definition acc_kw : kwargs xr := [("analyte_mass", VNum (Fin 1)); ("titrant_amount_unit", VStr "kg"); ("solve_mode", VStr "pH")].

Definition acc_cv (a b p q : R) (t : list xr) : Converted xr :=
  {| cv_titrant_mass := [Fin a; Fin b]; cv_measurement := [Fin p; Fin q]; cv_temperature := t; cv_analyte_mass := Fin 1; cv_salinity := VInt 35 |}.

Lemma acc_tk a b p q t : 0 <= a -> 0 <= b -> exists tt ks, totals_ks acc_env (acc_cv a b p q t) [] = Ok (tt, ks) /\ sane 2 tt ks /\
  (exists l, alkalinity_arr [Fin p; Fin q] tt ks 3 = Ok l) /\ (forall x, exists s, alkalinity (Fin x) (slice_at tt 0) (slice_at ks 0) 3 = Ok s).
Proof.
  intros Ha Hb.
  unfold totals_ks, get_totals, get_k_constants, copy_if_pos.
  cbn [filter get_kwargs_for check_kwargs forallb bind kwarg dget as_num acc_env e_salts e_equil e_sys_salt tiny_env].
  rewrite gt00, ne31. eexists. eexists. split; [reflexivity|]. split; [|split; [eexists; reflexivity|intros x; eexists; reflexivity]].
  assert (D : dilution_factors (cv_titrant_mass (acc_cv a b p q t)) (cv_analyte_mass (acc_cv a b p q t)) = map Fin [1 / (a + 1); 1 / (b + 1)]).
  { cbn [acc_cv cv_titrant_mass cv_analyte_mass]. change [Fin a; Fin b] with (map Fin [a; b]). rewrite ConvertProofs.df_list; [reflexivity|lra|]. repeat (apply Forall_cons; [assumption|]); apply Forall_nil. }
  rewrite D. cbn [fst snd]. rewrite fin_Z, fin_q. rewrite !fin_mul.
  assert (0 < 1 / (a + 1)) by (apply Rdiv_lt_0_compat; lra). assert (0 < 1 / (b + 1)) by (apply Rdiv_lt_0_compat; lra).
  intros i Li. split.
  - intros k v G. unfold slice_at in G. rewrite dget_dmap in G. cbn [dget map] in G.
    repeat (destruct (String.eqb k _); [apply some_inj in G; destruct i as [|[|i]]; [| |lia]; cbn in G; subst v; eexists; (split; [reflexivity|nra])|]).
    discriminate.
  - intros k v G. unfold slice_at in G. rewrite dget_dmap in G. cbn in G.
    repeat (destruct (String.eqb k _); [apply some_inj in G; cbn in G; subst v; eexists; (split; [reflexivity|lra])|]).
    discriminate.
Qed.

Example C126_nonvacuous : exists r tm A B,
  write_dat (fun _ => None) "x.dat" [Fin 1; Fin 2] (map Fin [3.5; 4.5]) [Fin 25; Fin 25] line0_default line1_default ModeX 3 3 3
    = (e_file acc_env, Ok tt) /\
  located acc_kw "x.dat" "x.dat" /\ default_reading acc_kw /\ mode_is acc_kw "ph" /\ window acc_kw (Fin 3) (Fin 4) (Fin 1) /\
  files_solve acc_env (VStr "x.dat") (VNum (Fin 1)) (VInt 35) acc_kw = Ok (SrPh r) /\
  sp_titrant_mass r = map Fin tm /\ sp_analyte_mass r = Fin 1 /\ masses_ok tm 1 /\ sane (length tm) (sp_totals r) (sp_k_constants r) /\
  (exists i q, nth_error (sp_pH r) i = Some (Fin q) /\ 3 <= q <= 4) /\
  (forall i p q m, nth_error [3.5; 4.5] i = Some p -> nth_error (sp_pH r) i = Some (Fin q) -> nth_error tm i = Some m -> 3 <= q <= 4 ->
     alkalinity (Fin p) (slice_at (sp_totals r) i) (slice_at (sp_k_constants r) i) 3 = Ok (Fin ((1 * A - m * 1 * 1) / (1 + m))) /\
     (1 + m / 1) * capacity (slice_at (sp_totals r) i) (slice_at (sp_k_constants r) i) (Rmin q p) (Rmax q p) <= B) /\
  exists a, sp_alkalinity r = Fin a /\ Rabs (a - 1000000 * A) <= 1000000 * ln 10 * (/ 2 * / 10 ^ 3) * B.
Proof.
  assert (W : write_dat (fun _ => None) "x.dat" [Fin 1; Fin 2] (map Fin [3.5; 4.5]) [Fin 25; Fin 25] line0_default line1_default ModeX 3 3 3
    = (e_file acc_env, Ok tt)) by reflexivity.
  destruct (C65_write_then_read _ _ _ _ [Fin 1; Fin 2] (map Fin [3.5; 4.5]) [Fin 25; Fin 25] ModeX 3 3 3 _ acc_env [] ltac:(cbn; lia) eq_refl eq_refl
    (proj1 default_headers) (proj2 default_headers) (or_introl eq_refl) W eq_refl (or_introl eq_refl)) as (dd & Rd & Ca & Cm & Ct).
  assert (two : forall x y l, Forall2 (written_close 3) [Fin x; Fin y] l -> exists a b, l = [Fin a; Fin b] /\ Rabs (a - x) <= /2 * / 10 ^ 3 /\ Rabs (b - y) <= /2 * / 10 ^ 3).
  { intros x y l F. inversion F as [|? ? ? ? F1 F2]; subst. inversion F2 as [|? ? ? ? F3 F4]; subst. inversion F4; subst.
    destruct F1 as (a & -> & A1). destruct F3 as (b & -> & B1). eauto. }
  destruct (two _ _ _ Ca) as (a & b & Ea & A1 & B1). destruct (two _ _ _ Cm) as (p & q & Em & P1 & Q1).
  assert (T3 : / 2 * / 10 ^ 3 = 1 / 2000) by field.
  rewrite T3 in A1, B1, P1, Q1. apply abs_in in A1. apply abs_in in B1. apply abs_in in P1. apply abs_in in Q1.
  destruct (acc_tk a b p q (dd_temperature dd) ltac:(lra) ltac:(lra)) as (tt' & ks & Tk & S & (l & Al) & Al').
  assert (L : load acc_env (VStr "x.dat") (VInt 35) (without_mode acc_kw) = Ok (acc_cv a b p q (dd_temperature dd), (tt', ks))).
  { unfold load. change (full_name _ _) with (Ok "x.dat" : res string). cbn [bind].
    change (get_kwargs_for keys_read_dat (without_mode acc_kw) None) with ([] : kwargs xr). rewrite Rd. cbn [bind].
    assert (Ec : amount_units_dat (Dat dd) (VInt 35) (get_kwargs_for keys_cau (without_mode acc_kw) None) = Ok (acc_cv a b p q (dd_temperature dd))).
    { change (get_kwargs_for keys_cau (without_mode acc_kw) None) with ([("analyte_mass", VNum (Fin 1)); ("titrant_amount_unit", VStr "kg")] : kwargs xr).
      destruct dd as [da dm dt]. cbn [dd_titrant_amount dd_measurement dd_temperature] in *. subst da dm. reflexivity. }
    rewrite Ec. cbn [bind]. change (get_kwargs_for keys_totals_ks (without_mode acc_kw) None) with ([] : kwargs xr). rewrite Tk. reflexivity. }
  assert (LT : nltb (nofZ 3 : xr) (nofZ 4) = true).
  { rewrite !fin_Z. cbn. unfold rltb. destruct (Rlt_dec _ _) as [|N]; [reflexivity|]. exfalso; apply N. lra. }
  assert (R : exists r, files_solve acc_env (VStr "x.dat") (VNum (Fin 1)) (VInt 35) acc_kw = Ok (SrPh r) /\
    sp_titrant_mass r = [Fin a; Fin b] /\ sp_pH r = [Fin p; Fin q] /\ sp_analyte_mass r = Fin 1 /\ sp_totals r = tt' /\ sp_k_constants r = ks).
  { unfold files_solve. rewrite L. cbn [bind as_num].
    change (get_kwargs_for keys_titrant_totals (without_mode acc_kw) None) with ([] : kwargs xr). cbn [add_titrant_totals bind].
    unfold dispatch_solve. change (as_str (mode_of acc_kw)) with (Ok "pH" : res string). cbn [bind]. change (lower "pH") with "ph". cbn [String.eqb Ascii.eqb Bool.eqb].
    change (get_kwargs_for keys_solve_pH (without_mode acc_kw) None) with ([] : kwargs xr).
    unfold call_solve_pH, kwarg. cbn [check_kwargs forallb bind dget as_num].
    unfold solve_pH. cbn [acc_cv cv_titrant_mass cv_measurement cv_temperature cv_analyte_mass length Nat.eqb negb].
    rewrite LT. cbn [assert_ bind]. unfold alkalinity_all, default_opt_pH_scale. rewrite Al. cbn [bind].
    eexists. split; [reflexivity|]. repeat split; reflexivity. }
  destruct R as (r & E & Tm & Ph & Ma & Tt & Tks). rewrite <- Tt, <- Tks in S.
  assert (Hok : masses_ok [a; b] 1) by (split; [lra|repeat constructor; lra]).
  assert (Wi : window acc_kw (Fin 3) (Fin 4) (Fin 1)) by (repeat split; unfold number; cbn [acc_kw dget String.eqb Ascii.eqb Bool.eqb]; symmetry; apply fin_Z).
  assert (Df : default_reading acc_kw).
  { intros k I. cbn in I. repeat (destruct I as [<-|I]; [reflexivity|]). destruct I. }
  destruct (S 0%nat ltac:(lia)) as [S1 S2].
  (* the alkalinity at the true pH of the only used point *)
  assert (As : exists s, alkalinity (Fin 3.5) (slice_at (sp_totals r) 0) (slice_at (sp_k_constants r) 0) 3 = Ok (Fin s)).
  { rewrite Tt in S1 |- *. rewrite Tks in S2 |- *. destruct (Al' 3.5) as (x & Ex).
    destruct (C125_buffering_limits_alkalinity 3.5 3.5 _ _ 3 _ _ S1 S2 (Rle_refl _) Ex Ex) as (X & _ & E1 & _). exists X. now rewrite Ex, E1. }
  destruct As as (s & As).
  exists r, [a; b], (s * (1 + a) + a), ((1 + a / 1) * capacity (slice_at (sp_totals r) 0) (slice_at (sp_k_constants r) 0) (Rmin p 3.5) (Rmax p 3.5)).
  assert (Hex : exists i q0, nth_error (sp_pH r) i = Some (Fin q0) /\ 3 <= q0 <= 4) by (exists 0%nat, p; rewrite Ph; split; [reflexivity|lra]).
  match goal with |- _ /\ _ /\ _ /\ _ /\ _ /\ _ /\ _ /\ _ /\ _ /\ _ /\ _ /\ ?H /\ _ => assert (Hd : H) end.
  { intros [|[|i]] p0 q0 m Hp Hq Hm Hin; rewrite Ph in Hq; cbn in Hp, Hq, Hm; try (destruct i; discriminate).
    - apply some_inj in Hp, Hq, Hm. apply fin_inj in Hq. subst. split; [|apply Rle_refl].
      rewrite As. f_equal. f_equal. field. lra.
    - apply some_inj in Hq. apply fin_inj in Hq. subst. lra. }
  assert (Lo : located acc_kw "x.dat" "x.dat") by (left; split; reflexivity).
  assert (Mi : mode_is acc_kw "ph") by reflexivity.
  repeat (split; [first [exact W|exact E|exact Lo|exact Mi|assumption|reflexivity|exact Hok]|]).
  apply (C126_written_file (fun _ => None) _ "x.dat" line0_default line1_default [Fin 1; Fin 2] [3.5; 4.5] [Fin 25; Fin 25] ModeX 3 3 3 acc_env "x.dat" acc_kw
    (VNum (Fin 1)) (VInt 35) 1 r [a; b] 1 3 4 1 _ _ ltac:(cbn; lia) eq_refl eq_refl (proj1 default_headers) (proj2 default_headers) (or_introl eq_refl) W eq_refl); try assumption; reflexivity.
Qed.

