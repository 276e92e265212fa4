(* PropTransfer.v -- C127: how errors in the titrant molinity and in the certified value reach the samples *)
From Coq Require Import Reals Qreals Lra Lia List.
From Verif Require Import Files DictLemmas SettingsProofs TableProofs PropSupplied PropReference PropModes PropCalibrate PropCases.
From Verif Require Import XR XRLemmas SpecConvert SpecCore SpecSimulate SimProofs SolveProofs PropSolve PropMonotone Witness PropSulfuric.
Import ListNotations.
Open Scope R_scope.
Open Scope string_scope.
Open Scope list_scope.

(* kg of acid per kg of sample, averaged over the points used *)
Definition acid_ratio (used : list bool) (tm : list R) (M : R) : R :=
  fold_right Rplus 0 (mask used tm) / INR (n_used used) / M.

(* a solved pH titration with finite data, a composition that makes sense and at least one point in the window *)
Definition sound_run (r : ph_result xr) (tm pH : list R) (M : R) : Prop :=
  sp_titrant_mass r = map Fin tm /\ sp_pH r = map Fin pH /\ sp_analyte_mass r = Fin M /\ masses_ok tm M /\
  sane (length tm) (sp_totals r) (sp_k_constants r) /\ (0 < n_used (sp_used r))%nat.

Lemma no_titrant (kw tt : kwargs xr) : no_titrant_totals kw -> titrant_given kw tt -> tt = [].
Proof.
  intros N G. destruct tt as [|[k v] l]; [reflexivity|exfalso]. specialize (G k). cbn [dget] in G. rewrite String.eqb_refl in G.
  destruct (mem_str k _) eqn:Mk in G; [|discriminate]. apply mem_str_spec in Mk. rewrite N in G; [discriminate|]. cbn in Mk |- *. tauto.
Qed.

Lemma number_unique (kw : kwargs xr) k d x y : number kw k d x -> number kw k d y -> x = y.
Proof. unfold number. destruct (dget k kw) as [v|]; [|congruence]. intros X Y. rewrite X in Y. now apply ok_inj in Y. Qed.

Lemma ph_inv (e : env xr) f c s kw r cm pmin pmax n :
  mode_is kw "ph" -> no_titrant_totals kw -> as_num c = Ok cm -> window kw pmin pmax n -> files_solve e f c s kw = Ok (SrPh r) ->
  exists cv t ks, load e f s (without_mode kw) = Ok (cv, (t, ks)) /\
    solve_pH cm (cv_titrant_mass cv) (cv_measurement cv) (cv_temperature cv) (cv_analyte_mass cv) t ks pmin pmax n = Ok r.
Proof.
  intros Hm Nt Ec (W1 & W2 & W3) E.
  destruct (C50_mode_selects_solver e f c s kw "ph" _ Hm E) as (cv & t & ks & mol & t1 & L & Cm & (tt & G & At) & S).
  rewrite Ec in Cm. apply ok_inj in Cm. subst mol. apply no_titrant in G; [|exact Nt]. subst tt. cbn in At. apply pair_inj in At. destruct At as [<- _].
  unfold solved_as in S. cbv zeta in S. destruct S as (p1 & p2 & n1 & (V1 & V2 & V3) & r0 & Er & Q). injection Er as <-.
  exists cv, t, ks. split; [exact L|].
  now rewrite (number_unique _ _ _ _ _ W1 V1), (number_unique _ _ _ _ _ W2 V2), (number_unique _ _ _ _ _ W3 V3).
Qed.

Lemma fields c tm pH temps M t ks pmin pmax n (r : ph_result xr) : solve_pH c tm pH temps M t ks pmin pmax n = Ok r ->
  sp_titrant_mass r = tm /\ sp_pH r = pH /\ sp_analyte_mass r = M /\ sp_totals r = t /\ sp_k_constants r = ks.
Proof. unfold solve_pH. destruct (negb _); [discriminate|]. intros Q. inv_binds Q. apply ok_inj in Q. subst r. repeat split; reflexivity. Qed.

Lemma masked_linear u (l l' x : list R) k : length l = length u -> length l' = length u -> length x = length u ->
  (forall i v v' y, nth_error l i = Some v -> nth_error l' i = Some v' -> nth_error x i = Some y -> v' - v = k * y) ->
  Rsum (mask u l') - Rsum (mask u l) = k * Rsum (mask u x).
Proof.
  revert l l' x. induction u as [|b u IH]; intros [|v l] [|v' l'] [|y x] L L' Lx P; try discriminate.
  - unfold Rsum; cbn. ring.
  - assert (R : Rsum (mask u l') - Rsum (mask u l) = k * Rsum (mask u x)).
    { apply IH; [now injection L|now injection L'|now injection Lx|]. intros i. exact (P (S i)). }
    destruct b; cbn [mask]; [|exact R]. rewrite !Rsum_cons. pose proof (P 0%nat _ _ _ eq_refl eq_refl eq_refl). lra.
Qed.

Lemma slope c c' tm pH temps M totals ks pmin pmax n r r' :
  masses_ok tm M -> sane (length tm) totals ks -> (0 < n_used (sp_used r))%nat ->
  solve_pH (Fin c) (map Fin tm) (map Fin pH) temps (Fin M) totals ks (Fin pmin) (Fin pmax) (Fin n) = Ok r ->
  solve_pH (Fin c') (map Fin tm) (map Fin pH) temps (Fin M) totals ks (Fin pmin) (Fin pmax) (Fin n) = Ok r' ->
  exists a a', sp_alkalinity r = Fin a /\ sp_alkalinity r' = Fin a' /\ a' - a = 1000000 * n * (c' - c) * acid_ratio (sp_used r) tm M.
Proof.
  intros Hok Hs Hn Hr Hr'.
  apply solve_pH_inv in Hr as [Hl [_ [Hu [Hall [Ha _]]]]]. apply solve_pH_inv in Hr' as [_ [_ [Hu' [Hall' [Ha' _]]]]]. rewrite !map_length in Hl.
  assert (lt_of : forall i (p : R) (l : list R), nth_error l i = Some p -> length l = length tm -> (i < length tm)%nat).
  { intros i p l E <-. apply nth_error_Some. congruence. }
  destruct (all_finite _ _ _ _ _ _ _ _ Hok Hl (fun i p E => Hs i (lt_of _ _ _ E Hl)) Hall) as [est [Ee [Le Hpt]]].
  destruct (all_finite _ _ _ _ _ _ _ _ Hok Hl (fun i p E => Hs i (lt_of _ _ _ E Hl)) Hall') as [est' [Ee' [Le' Hpt']]].
  rewrite <- Hu in Hu'. rewrite Hu' in Ha'.
  assert (Hlu : length (sp_used r) = length tm) by (rewrite Hu; unfold in_window; rewrite !map_length; assumption).
  assert (Hne : forall l : list R, length l = length tm -> mask (sp_used r) l <> []).
  { intros l L E0. pose proof (mask_count (sp_used r) l) as X. rewrite E0 in X. cbn in X.
    specialize (X ltac:(congruence)). change (count_true (sp_used r)) with (n_used (sp_used r)) in X. lia. }
  rewrite Ee, mask_map, nmean_fin in Ha by now apply Hne. rewrite Ee', mask_map, nmean_fin in Ha' by now apply Hne.
  eexists. eexists. split; [exact Ha|]. split; [exact Ha'|].
  assert (HM : 0 < M) by apply Hok.
  assert (L : Rsum (mask (sp_used r) est') - Rsum (mask (sp_used r) est) = 1000000 * n * (c' - c) / M * Rsum (mask (sp_used r) tm)).
  { apply masked_linear; try congruence. intros i v v' m V V' Em.
    assert (Hlt : (i < length tm)%nat) by (apply nth_error_Some; congruence).
    destruct (nth_error pH i) as [p|] eqn:Ep; [|apply nth_error_None in Ep; lia].
    destruct (Hpt i p m Ep Em) as (x & Ex & Nx). destruct (Hpt' i p m Ep Em) as (x' & Ex' & Nx').
    rewrite Ex in Ex'. apply ok_inj in Ex'. apply fin_inj in Ex'. subst x'.
    rewrite Nx in V. rewrite Nx' in V'. apply some_inj in V. apply some_inj in V'. subst. field. lra. }
  unfold Rmean, acid_ratio. rewrite !mask_count by congruence. change (count_true (sp_used r)) with (n_used (sp_used r)).
  assert (I0 : 0 < INR (n_used (sp_used r))) by now apply lt_0_INR.
  change (fold_right Rplus 0 (mask (sp_used r) tm)) with (Rsum (mask (sp_used r) tm)).
  replace (Rsum (mask (sp_used r) est') / INR (n_used (sp_used r)) - Rsum (mask (sp_used r) est) / INR (n_used (sp_used r)))
    with ((Rsum (mask (sp_used r) est') - Rsum (mask (sp_used r) est)) / INR (n_used (sp_used r))) by (field; lra).
  rewrite L. field. lra.
Qed.

(* The same file solved with two molinities: the alkalinities differ by the difference of the molinities (times the
   normality), multiplied by the acid added per kg of sample, averaged over the points used. *)
Theorem C127_molinity_error : forall (e : env xr) f s kw c c' r r' tm pH M pmin pmax n,
  mode_is kw "ph" -> no_titrant_totals kw -> window kw (Fin pmin) (Fin pmax) (Fin n) ->
  files_solve e f (VNum (Fin c)) s kw = Ok (SrPh r) -> files_solve e f (VNum (Fin c')) s kw = Ok (SrPh r') ->
  sound_run r tm pH M ->
  exists a a', sp_alkalinity r = Fin a /\ sp_alkalinity r' = Fin a' /\
    a' - a = 1000000 * n * (c' - c) * acid_ratio (sp_used r) tm M.
Proof.
  intros e f s kw c c' r r' tm pH M pmin pmax n Hm Nt W E E' (H1 & H2 & H3 & H4 & H5 & H6).
  destruct (ph_inv e f (VNum (Fin c)) s kw r (Fin c) _ _ _ Hm Nt eq_refl W E) as (cv & t & ks & L & Q).
  destruct (ph_inv e f (VNum (Fin c')) s kw r' (Fin c') _ _ _ Hm Nt eq_refl W E') as (cv' & t' & ks' & L' & Q').
  rewrite L in L'. apply ok_inj in L'. apply pair_inj in L'. destruct L' as [<- L']. apply pair_inj in L'. destruct L' as [<- <-].
  destruct (fields _ _ _ _ _ _ _ _ _ _ _ Q) as (F1 & F2 & F3 & F4 & F5).
  rewrite F1 in H1. rewrite F2 in H2. rewrite F3 in H3. rewrite F4, F5 in H5. rewrite H1, H2, H3 in Q, Q'.
  exact (slope _ _ _ _ _ _ _ _ _ _ _ _ _ H4 H5 H6 Q Q').
Qed.

(* A reference calibrated against two certified values, and a sample solved with the two molinities found: what the
   certified values differ by reaches the sample, multiplied by the ratio of the acid used per kg of sample and per kg
   of reference. *)
Theorem C127_certified_error : forall (e : env xr) f s kw x x' o o' c c' q tm pH M pmin pmax n
    g s2 kw2 r r' tm2 pH2 M2 pmin2 pmax2 n2,
  (* the reference *)
  mode_is kw "ph" -> no_titrant_totals kw -> default_logic kw -> window kw (Fin pmin) (Fin pmax) (Fin n) ->
  files_calibrate e f (VNum (Fin x)) s kw = Ok o -> or_x o = [Fin c] -> or_fun o = [Fin 0] ->
  files_calibrate e f (VNum (Fin x')) s kw = Ok o' -> or_x o' = [Fin c'] -> or_fun o' = [Fin 0] ->
  files_solve e f (VNum (Fin c)) s kw = Ok (SrPh q) -> sound_run q tm pH M ->
  (* the sample *)
  mode_is kw2 "ph" -> no_titrant_totals kw2 -> window kw2 (Fin pmin2) (Fin pmax2) (Fin n2) ->
  files_solve e g (VNum (Fin c)) s2 kw2 = Ok (SrPh r) -> files_solve e g (VNum (Fin c')) s2 kw2 = Ok (SrPh r') -> sound_run r tm2 pH2 M2 ->
  exists a a', sp_alkalinity r = Fin a /\ sp_alkalinity r' = Fin a' /\
    (a' - a) * (n * acid_ratio (sp_used q) tm M) = (x' - x) * (n2 * acid_ratio (sp_used r) tm2 M2).
Proof.
  intros e f s kw x x' o o' c c' q tm pH M pmin pmax n g s2 kw2 r r' tm2 pH2 M2 pmin2 pmax2 n2
    Hm Nt Dl W C X F C' X' F' Q Sq Hm2 Nt2 W2 E E' Sr.
  destruct (C60_file_solved_at_certified e f _ s kw o C F Dl (or_introl Nt)) as (m & sr & y & Xo & Cy & Es & Ay).
  destruct (C60_file_solved_at_certified e f _ s kw o' C' F' Dl (or_introl Nt)) as (m' & sr' & y' & Xo' & Cy' & Es' & Ay').
  assert (m = Fin c) as -> by (rewrite X in Xo; now injection Xo). assert (m' = Fin c') as -> by (rewrite X' in Xo'; now injection Xo').
  cbn [as_num] in Cy, Cy'. apply ok_inj in Cy. apply ok_inj in Cy'. apply fin_inj in Cy. apply fin_inj in Cy'. subst y y'.
  rewrite Q in Es. apply ok_inj in Es. subst sr. cbn [sr_alkalinity] in Ay.
  assert (Q' : exists q', sr' = SrPh q').
  { destruct (C50_mode_selects_solver e f _ s kw "ph" _ Hm Es') as (? & ? & ? & ? & ? & _ & _ & _ & S). unfold solved_as in S. cbv zeta in S.
    destruct S as (? & ? & ? & _ & r0 & -> & _). eauto. }
  destruct Q' as (q' & ->). cbn [sr_alkalinity] in Ay'.
  destruct (C127_molinity_error e f s kw c c' q q' tm pH M pmin pmax n Hm Nt W Q Es' Sq) as (b & b' & B & B' & Db).
  rewrite Ay in B. rewrite Ay' in B'. apply fin_inj in B. apply fin_inj in B'. subst b b'.
  destruct (C127_molinity_error e g s2 kw2 c c' r r' tm2 pH2 M2 pmin2 pmax2 n2 Hm2 Nt2 W2 E E' Sr) as (a & a' & A & A' & Da).
  exists a, a'. split; [exact A|]. split; [exact A'|]. rewrite Da, Db. ring.
Qed.

(* ------------------------------------------------------------------ *)
(** * Gran alkalinities *)

Lemma phgran_inv (e : env xr) f c s kw r cm :
  mode_is kw "ph_gran" -> no_titrant_totals kw -> as_num c = Ok cm -> files_solve e f c s kw = Ok (SrPhGran r) ->
  exists cv t ks pmin pmax n, load e f s (without_mode kw) = Ok (cv, (t, ks)) /\ window kw pmin pmax n /\
    solve_pH_gran cm (cv_titrant_mass cv) (cv_measurement cv) (cv_temperature cv) (cv_analyte_mass cv) t ks pmin pmax n = Ok r.
Proof.
  intros Hm Nt Ec E.
  destruct (C50_mode_selects_solver e f c s kw "ph_gran" _ Hm E) as (cv & t & ks & mol & t1 & L & Cm & (tt & G & At) & S).
  rewrite Ec in Cm. apply ok_inj in Cm. subst mol. apply no_titrant in G; [|exact Nt]. subst tt. cbn in At. apply pair_inj in At. destruct At as [<- _].
  unfold solved_as in S. cbv zeta in S. destruct S as (p1 & p2 & n1 & V & r0 & Er & Q). injection Er as <-.
  exists cv, t, ks, p1, p2, n1. auto.
Qed.

Lemma proportional (k : R) (ix N M : xr) c c' a a' :
  Fin k ⊗ (ix ⊗ Fin c ⊗ N ⊘ M) = Fin a -> Fin k ⊗ (ix ⊗ Fin c' ⊗ N ⊘ M) = Fin a' -> exists q, a = q * c /\ a' = q * c'.
Proof.
  intros E E'.
  assert (P : forall d b, Fin k ⊗ (ix ⊗ Fin d ⊗ N ⊘ M) = Fin b -> exists i n, ix = Fin i /\ N = Fin n /\
    ((exists m, M = Fin m /\ m <> 0 /\ b = k * (i * d * n / m)) \/ ((M = PInf \/ M = NInf) /\ b = 0))).
  { clear. intros d b E.
    assert (Pm : forall x y z, nmul x y = Fin z -> exists a b, x = Fin a /\ y = Fin b /\ z = a * b).
    { intros x y z H. destruct x, y; cbn in H; unfold x_mul, inf_times, rltb, reqb in H;
        repeat match type of H with context [match ?t with _ => _ end] => destruct t end; try discriminate H; apply fin_inj in H; subst; eauto 8. }
    apply Pm in E as (k0 & y & Ek & E & ->). apply fin_inj in Ek. subst k0.
    assert (Pd : forall x M z, ndiv x M = Fin z -> exists a, x = Fin a /\ ((exists m, M = Fin m /\ m <> 0 /\ z = a / m) \/ ((M = PInf \/ M = NInf) /\ z = 0))).
    { clear. intros x M z H. destruct x, M; cbn in H; unfold x_div, inf_times, rltb, reqb in H;
        repeat match type of H with context [Req_EM_T ?a ?b] => destruct (Req_EM_T a b) | context [match ?t with _ => _ end] => destruct t end;
        try discriminate H; apply fin_inj in H; subst.
      all: eexists; (split; [reflexivity|]). all: first [left; eexists; repeat split; (assumption || reflexivity)|right; split; [tauto|reflexivity]]. }
    apply Pd in E as (u & E & D). apply Pm in E as (v & n & E & -> & ->). apply Pm in E as (i & d' & -> & Ed & ->). apply fin_inj in Ed. subst d'.
    exists i, n. split; [reflexivity|]. split; [reflexivity|].
    destruct D as [(m & -> & Nz & ->)|(I & ->)]; [left; exists m; auto|right; split; [exact I|ring]]. }
  destruct (P _ _ E) as (i & n & -> & -> & D). destruct (P _ _ E') as (i' & n' & Ei & En & D').
  apply fin_inj in Ei. apply fin_inj in En. subst i' n'.
  destruct D as [(m & -> & Nz & ->)|(I & ->)].
  - destruct D' as [(m' & Em & _ & ->)|([I|I] & _)]; [|discriminate I..]. apply fin_inj in Em. subst m'.
    exists (k * i * n / m). split; field; exact Nz.
  - destruct D' as [(m' & Em & _)|(_ & ->)]; [destruct I; subst; discriminate|]. exists 0. split; ring.
Qed.

Lemma gran_ratio (e : env xr) f s kw c c' r r' a a' :
  mode_is kw "ph_gran" -> no_titrant_totals kw ->
  files_solve e f (VNum (Fin c)) s kw = Ok (SrPhGran r) -> files_solve e f (VNum (Fin c')) s kw = Ok (SrPhGran r') ->
  sg_alkalinity r = Fin a -> sg_alkalinity r' = Fin a' -> exists q, a = q * c /\ a' = q * c'.
Proof.
  intros Hm Nt E E' A A'.
  destruct (phgran_inv e f (VNum (Fin c)) s kw r (Fin c) Hm Nt eq_refl E) as (cv & t & ks & p1 & p2 & n & L & (W1 & W2 & W3) & Q).
  destruct (phgran_inv e f (VNum (Fin c')) s kw r' (Fin c') Hm Nt eq_refl E') as (cv' & t' & ks' & p1' & p2' & n' & L' & (W1' & W2' & W3') & Q').
  rewrite L in L'. apply ok_inj in L'. apply pair_inj in L'. destruct L' as [<- L']. apply pair_inj in L'. destruct L' as [<- <-].
  rewrite <- (number_unique _ _ _ _ _ W1 W1'), <- (number_unique _ _ _ _ _ W2 W2'), <- (number_unique _ _ _ _ _ W3 W3') in Q'.
  unfold solve_pH_gran in Q, Q'. destruct (negb _); [discriminate|].
  inv_binds Q. inv_binds Q'. apply ok_inj in Q. apply ok_inj in Q'. subst r r'. cbn [sg_alkalinity] in A, A'.
  rewrite fin_q in A, A'. exact (proportional _ _ _ _ _ _ _ _ A A').
Qed.

(* Solved by a Gran plot in pH, an error of the certified value reaches every sample in proportion, whatever its
   titration looks like. *)
Theorem C127_gran_certified_error : forall (e : env xr) f s kw x x' o o' c c' g s2 kw2 r r' a a',
  mode_is kw "ph_gran" -> no_titrant_totals kw -> default_logic kw ->
  files_calibrate e f (VNum (Fin x)) s kw = Ok o -> or_x o = [Fin c] -> or_fun o = [Fin 0] ->
  files_calibrate e f (VNum (Fin x')) s kw = Ok o' -> or_x o' = [Fin c'] -> or_fun o' = [Fin 0] ->
  mode_is kw2 "ph_gran" -> no_titrant_totals kw2 ->
  files_solve e g (VNum (Fin c)) s2 kw2 = Ok (SrPhGran r) -> files_solve e g (VNum (Fin c')) s2 kw2 = Ok (SrPhGran r') ->
  sg_alkalinity r = Fin a -> sg_alkalinity r' = Fin a' -> a' * x = a * x'.
Proof.
  intros e f s kw x x' o o' c c' g s2 kw2 r r' a a' Hm Nt Dl C X F C' X' F' Hm2 Nt2 E E' A A'.
  destruct (C60_file_solved_at_certified e f _ s kw o C F Dl (or_introl Nt)) as (m & sr & y & Xo & Cy & Es & Ay).
  destruct (C60_file_solved_at_certified e f _ s kw o' C' F' Dl (or_introl Nt)) as (m' & sr' & y' & Xo' & Cy' & Es' & Ay').
  assert (m = Fin c) as -> by (rewrite X in Xo; now injection Xo). assert (m' = Fin c') as -> by (rewrite X' in Xo'; now injection Xo').
  cbn [as_num] in Cy, Cy'. apply ok_inj in Cy. apply ok_inj in Cy'. apply fin_inj in Cy. apply fin_inj in Cy'. subst y y'.
  assert (G : forall h m0 sr0, files_solve e h m0 s kw = Ok sr0 -> exists q, sr0 = SrPhGran q).
  { intros h m0 sr0 Es0. destruct (C50_mode_selects_solver e h _ s kw "ph_gran" _ Hm Es0) as (? & ? & ? & ? & ? & _ & _ & _ & S). unfold solved_as in S. cbv zeta in S.
    destruct S as (? & ? & ? & _ & r0 & -> & _). eauto. }
  destruct (G _ _ _ Es) as (q & ->). destruct (G _ _ _ Es') as (q' & ->). cbn [sr_alkalinity] in Ay, Ay'.
  destruct (gran_ratio e f s kw c c' q q' x x' Hm Nt Es Es' Ay Ay') as (k1 & -> & ->).
  destruct (gran_ratio e g s2 kw2 c c' r r' a a' Hm2 Nt2 E E' A A') as (k2 & -> & ->). ring.
Qed.

(* ------------------------------------------------------------------ *)
(** * A calibration that responds to the certified value *)

(* one secant step from the start and no more *)
Definition secant : strategy xr :=
  {| s_next := fun h => match h with [([Fin x], [Fin y])] => Some [Fin (x - y / 500000)] | _ => None end; s_pick := fun _ => 1%nat; s_max := 5 |}.
Definition sec_env : env xr := {| e_file := e_file tiny_env; e_excel := e_excel tiny_env; e_salts := e_salts tiny_env;
  e_equil := e_equil tiny_env; e_sys_salt := e_sys_salt tiny_env; e_strat := secant |}.
(* M kg of sample *)
Definition sec_kw (M : R) : kwargs xr := [("analyte_mass", VNum (Fin M)); ("titrant_amount_unit", VStr "kg"); ("solve_mode", VStr "pH")].
Definition sec_cv (M : R) : Converted xr :=
  {| cv_titrant_mass := map Fin [0; 1]; cv_measurement := map Fin [3.5; 3.6]; cv_temperature := cv_temperature tiny_cv; cv_analyte_mass := Fin M; cv_salinity := VInt 35 |}.

Lemma sec_load M : 0 < M -> exists t ks, load sec_env (VStr "gen.dat") (VInt 35) (without_mode (sec_kw M)) = Ok (sec_cv M, (t, ks)) /\
  sane 2 t ks /\ exists l, alkalinity_arr (map Fin [3.5; 3.6]) t ks 3 = Ok l.
Proof.
  intros HM. unfold load. change (full_name _ _) with (Ok "gen.dat" : res string). cbn [bind].
  change (get_kwargs_for keys_read_dat (without_mode (sec_kw M)) None) with ([] : kwargs xr).
  change (read_dat sec_env "gen.dat" []) with (read_dat tiny_env "gen.dat" []). rewrite gen_read. cbn [bind].
  assert (Ec : amount_units_dat (Dat tiny_dd) (VInt 35) (get_kwargs_for keys_cau (without_mode (sec_kw M)) None) = Ok (sec_cv M)).
  { transitivity (Ok {| cv_titrant_mass := cv_titrant_mass tiny_cv; cv_measurement := cv_measurement tiny_cv; cv_temperature := cv_temperature tiny_cv;
      cv_analyte_mass := Fin M; cv_salinity := VInt 35 |}); [reflexivity|]. unfold sec_cv. cbn [tiny_cv cv_titrant_mass cv_measurement]. now rewrite mass_dec, pH_dec. }
  rewrite Ec. cbn [bind]. change (get_kwargs_for keys_totals_ks (without_mode (sec_kw M)) None) with ([] : kwargs xr).
  unfold totals_ks, get_totals, get_k_constants, copy_if_pos.
  cbn [filter get_kwargs_for check_kwargs forallb bind kwarg dget as_num sec_env e_salts e_equil e_sys_salt tiny_env].
  rewrite gt00, ne31. eexists. eexists. split; [reflexivity|]. split; [|eexists; reflexivity].
  assert (D : dilution_factors (cv_titrant_mass (sec_cv M)) (cv_analyte_mass (sec_cv M)) = map Fin [M / (0 + M); M / (1 + M)]).
  { cbn [sec_cv cv_titrant_mass cv_analyte_mass]. rewrite ConvertProofs.df_list; [reflexivity|exact HM|repeat constructor; lra]. }
  rewrite D. cbn [fst snd]. rewrite fin_Z, fin_q. rewrite !fin_mul.
  assert (0 < M / (0 + M)) by (apply Rdiv_lt_0_compat; lra). assert (0 < M / (1 + M)) by (apply Rdiv_lt_0_compat; lra).
  intros i Li. split.
  - intros k v G. unfold slice_at in G. rewrite dget_dmap in G. cbn [dget map] in G.
    repeat (destruct (String.eqb k _); [apply some_inj in G; destruct i as [|[|i]]; [| |lia]; cbn in G; subst v; eexists; (split; [reflexivity|nra])|]).
    discriminate.
  - intros k v G. unfold slice_at in G. rewrite dget_dmap in G. cbn in G.
    repeat (destruct (String.eqb k _); [apply some_inj in G; cbn in G; subst v; eexists; (split; [reflexivity|lra])|]).
    discriminate.
Qed.

Lemma sec_solved M c : 0 < M -> exists r, files_solve sec_env (VStr "gen.dat") (VNum (Fin c)) (VInt 35) (sec_kw M) = Ok (SrPh r) /\
  sound_run r [0; 1] [3.5; 3.6] M /\ sp_used r = [true; true].
Proof.
  intros HM. destruct (sec_load M HM) as (t & ks & L & S & l & Al).
  assert (LT : nltb (nofZ 3 : xr) (nofZ 4) = true).
  { rewrite !fin_Z. cbn. unfold rltb. destruct (Rlt_dec _ _) as [|N]; [reflexivity|]. exfalso; apply N. lra. }
  assert (U : in_window (nofZ 3) (nofZ 4) (map Fin [3.5; 3.6]) = [true; true]).
  { rewrite <- pH_dec, !fin_Z. apply tiny_window; lra. }
  unfold files_solve. rewrite L. cbn [bind as_num].
  change (get_kwargs_for keys_titrant_totals (without_mode (sec_kw M)) None) with ([] : kwargs xr). cbn [add_titrant_totals bind].
  unfold dispatch_solve. change (as_str (mode_of (sec_kw M))) with (Ok "pH" : res string). cbn [bind]. change (lower "pH") with "ph". cbn [String.eqb Ascii.eqb Bool.eqb].
  change (get_kwargs_for keys_solve_pH (without_mode (sec_kw M)) None) with ([] : kwargs xr).
  unfold call_solve_pH, kwarg. cbn [check_kwargs forallb bind dget as_num].
  unfold solve_pH. cbn [sec_cv cv_titrant_mass cv_measurement cv_temperature cv_analyte_mass].
  rewrite !map_length. cbn [length Nat.eqb negb]. rewrite LT. cbn [assert_ bind]. unfold alkalinity_all, default_opt_pH_scale. rewrite Al. cbn [bind].
  eexists. split; [reflexivity|]. unfold sound_run. cbn [sp_titrant_mass sp_pH sp_analyte_mass sp_totals sp_k_constants sp_used]. rewrite U.
  split; [|reflexivity]. split; [reflexivity|]. split; [reflexivity|]. split; [reflexivity|]. split; [split; [exact HM|repeat constructor; lra]|].
  split; [exact S|]. cbn. lia.
Qed.

Example C127_nonvacuous x x' : exists o o' c c' q r r',
  mode_is (sec_kw 1) "ph" /\ no_titrant_totals (sec_kw 1) /\ default_logic (sec_kw 1) /\ window (sec_kw 1) (Fin 3) (Fin 4) (Fin 1) /\
  files_calibrate sec_env (VStr "gen.dat") (VNum (Fin x)) (VInt 35) (sec_kw 1) = Ok o /\ or_x o = [Fin c] /\ or_fun o = [Fin 0] /\
  files_calibrate sec_env (VStr "gen.dat") (VNum (Fin x')) (VInt 35) (sec_kw 1) = Ok o' /\ or_x o' = [Fin c'] /\ or_fun o' = [Fin 0] /\
  files_solve sec_env (VStr "gen.dat") (VNum (Fin c)) (VInt 35) (sec_kw 1) = Ok (SrPh q) /\ sound_run q [0; 1] [3.5; 3.6] 1 /\
  mode_is (sec_kw 2) "ph" /\ no_titrant_totals (sec_kw 2) /\ window (sec_kw 2) (Fin 3) (Fin 4) (Fin 1) /\
  files_solve sec_env (VStr "gen.dat") (VNum (Fin c)) (VInt 35) (sec_kw 2) = Ok (SrPh r) /\
  files_solve sec_env (VStr "gen.dat") (VNum (Fin c')) (VInt 35) (sec_kw 2) = Ok (SrPh r') /\ sound_run r [0; 1] [3.5; 3.6] 2 /\
  exists a a', sp_alkalinity r = Fin a /\ sp_alkalinity r' = Fin a' /\ a' - a = (x' - x) / 2.
Proof.
  assert (Wi : forall M, window (sec_kw M) (Fin 3) (Fin 4) (Fin 1)).
  { intros M. repeat split; unfold number; cbn [sec_kw dget String.eqb Ascii.eqb Bool.eqb]; symmetry; apply fin_Z. }
  assert (Nt : forall M, no_titrant_totals (sec_kw M)).
  { intros M k I. cbn in I. destruct I as [<-|[<-|[<-|[]]]]; reflexivity. }
  assert (Mi : forall M, mode_is (sec_kw M) "ph") by reflexivity.
  assert (Dl : default_logic (sec_kw 1)) by (left; reflexivity).
  (* the alkalinity of the reference as a function of the molinity *)
  assert (Al : exists b, forall t ks, load sec_env (VStr "gen.dat") (VInt 35) (without_mode (sec_kw 1)) = Ok (sec_cv 1, (t, ks)) -> forall c, exists r,
    solve_pH (Fin c) (map Fin [0; 1]) (map Fin [3.5; 3.6]) (cv_temperature tiny_cv) (Fin 1) t ks (nofZ 3) (nofZ 4) (nofZ 1) = Ok r /\ sp_alkalinity r = Fin (500000 * c + b)).
  { destruct (sec_solved 1 0 Rlt_0_1) as (r0 & E0 & S0 & U0).
    destruct (C127_molinity_error sec_env _ _ (sec_kw 1) 0 0 r0 r0 _ _ _ _ _ _ (Mi 1) (Nt 1) (Wi 1) E0 E0 S0) as (b & _ & B & _).
    exists b. intros t ks L c. destruct (sec_solved 1 c Rlt_0_1) as (r & E & S & U).
    destruct (C127_molinity_error sec_env _ _ (sec_kw 1) 0 c r0 r _ _ _ _ _ _ (Mi 1) (Nt 1) (Wi 1) E0 E S0) as (b1 & b' & B1 & B' & D).
    rewrite B in B1. apply fin_inj in B1. subst b1.
    destruct (ph_inv sec_env _ (VNum (Fin c)) _ (sec_kw 1) r (Fin c) _ _ _ (Mi 1) (Nt 1) eq_refl (Wi 1) E) as (cv & t' & ks' & L' & Q).
    rewrite L in L'. apply ok_inj in L'. apply pair_inj in L'. destruct L' as [<- L']. apply pair_inj in L'. destruct L' as [<- <-].
    rewrite !fin_Z. exists r. split; [exact Q|]. rewrite B'. f_equal. rewrite U0 in D. unfold acid_ratio, n_used in D. cbn in D. lra. }
  destruct Al as (b & Al).
  assert (Ca : forall y, files_calibrate sec_env (VStr "gen.dat") (VNum (Fin y)) (VInt 35) (sec_kw 1) =
    Ok {| or_x := [Fin (0.1 - (500000 * 0.1 + b - y) / 500000)]; or_fun := [Fin 0] |}).
  { intros y. destruct (sec_load 1 Rlt_0_1) as (t & ks & L & _). specialize (Al t ks L).
    unfold files_calibrate. rewrite L. cbn [bind as_num]. unfold dispatch_calibrate. change (as_str (mode_of (sec_kw 1))) with (Ok "pH" : res string). cbn [bind].
    change (lower "pH") with "ph". cbn [String.eqb Ascii.eqb Bool.eqb].
    replace (get_kwargs_for keys_calibrate_pH _ None) with ([] : kwargs xr) by reflexivity.
    unfold call_calibrate_pH. cbn [kwarg dget as_num bind titrant_totals_of filter check_kwargs forallb].
    replace (nofQ 0.1 : xr) with (Fin 0.1) by (cbn; f_equal; unfold Q2R; cbn; lra).
    destruct (Al 0.1) as (r & Er & Ar). destruct (Al (0.1 - (500000 * 0.1 + b - y) / 500000)) as (r2 & Er2 & Ar2).
    unfold calibrate_pH, least_squares. cbn [existsb nisnan NumXR x_isnan orb lsqfun_calibrate sec_cv cv_titrant_mass cv_measurement cv_temperature cv_analyte_mass].
    cbn [sec_env e_strat]. rewrite add_nothing. cbn [tiny_cv cv_temperature] in Er, Er2 |- *. rewrite Er. cbn [bind]. rewrite add_nothing, Ar.
    rewrite fin_sub. cbn [forallb nisfinite NumXR x_isfinite andb secant s_max s_next lsq_loop].
    cbn [lsqfun_calibrate]. rewrite add_nothing, Er2. cbn [bind]. rewrite add_nothing, Ar2, fin_sub.
    cbn [app secant s_next lsq_loop s_pick nth fst snd].
    replace (500000 * (0.1 - (500000 * 0.1 + b - y) / 500000) + b - y) with 0 by field. reflexivity. }
  destruct (sec_solved 1 (0.1 - (500000 * 0.1 + b - x) / 500000) Rlt_0_1) as (q & Q & Sq & _).
  destruct (sec_solved 2 (0.1 - (500000 * 0.1 + b - x) / 500000) ltac:(lra)) as (r & R & Sr & U).
  destruct (sec_solved 2 (0.1 - (500000 * 0.1 + b - x') / 500000) ltac:(lra)) as (r' & R' & _).
  do 4 eexists. exists q, r, r'.
  repeat (split; [first [apply Mi|apply Nt|exact Dl|apply Wi|apply Ca|reflexivity|exact Q|exact Sq|exact R|exact R'|exact Sr]|]).
  destruct (C127_certified_error sec_env (VStr "gen.dat") (VInt 35) (sec_kw 1) x x' _ _ _ _ q [0; 1] [3.5; 3.6] 1 3 4 1 (VStr "gen.dat") (VInt 35) (sec_kw 2)
    r r' [0; 1] [3.5; 3.6] 2 3 4 1 (Mi 1) (Nt 1) Dl (Wi 1) (Ca x) eq_refl eq_refl (Ca x') eq_refl eq_refl Q Sq (Mi 2) (Nt 2) (Wi 2) R R' Sr) as (a & a' & A & A' & D).
  exists a, a'. split; [exact A|]. split; [exact A'|]. rewrite U in D.
  assert (Uq : sp_used q = [true; true]). { destruct (sec_solved 1 (0.1 - (500000 * 0.1 + b - x) / 500000) Rlt_0_1) as (q0 & Q0 & _ & Uq). rewrite Q in Q0. injection Q0 as <-. exact Uq. }
  rewrite Uq in D. unfold acid_ratio, n_used in D. cbn in D. lra.
Qed.

(* the same with Gran plots *)
Definition g35 : R := Rpower 10 (- (3.5)).
Definition g36 : R := Rpower 10 (- (3.6)).
Definition gslope (M : R) : R := (1 + M) * g36 - M * g35.
Definition galk (M : R) : R := - 1000000 * g35 / gslope M.

Lemma gslope_pos M : 0 < M <= 2 -> 0 < gslope M.
Proof.
  intros B. unfold gslope.
  assert (P : 0 < g36) by (unfold g36, Rpower; apply exp_pos).
  assert (E : g35 = Rpower 10 0.1 * g36) by (unfold g35, g36; rewrite <- Rpower_plus; f_equal; lra).
  assert (T : Rpower 10 0.1 < 1.5).
  { destruct (Rlt_or_le (Rpower 10 0.1) 1.5) as [|N]; [assumption|exfalso].
    assert (Q : Rpower 10 0.1 ^ 10 = 10).
    { rewrite <- Rpower_pow by (unfold Rpower; apply exp_pos). rewrite Rpower_mult. replace (0.1 * INR 10) with 1 by (cbn; lra). apply Rpower_1. lra. }
    pose proof (pow_incr 1.5 (Rpower 10 0.1) 10 ltac:(lra)) as I. rewrite Q in I. cbn in I. lra. }
  rewrite E. assert (M * Rpower 10 0.1 < 1 + M) by nra. nra.
Qed.

Definition gsec_env : env xr := {| e_file := e_file tiny_env; e_excel := e_excel tiny_env; e_salts := e_salts tiny_env;
  e_equil := e_equil tiny_env; e_sys_salt := e_sys_salt tiny_env;
  e_strat := {| s_next := fun h => match h with [([Fin x], [Fin y])] => Some [Fin (x - y / galk 1)] | _ => None end; s_pick := fun _ => 1%nat; s_max := 5 |} |}.
Definition gsec_kw (M : R) : kwargs xr := [("analyte_mass", VNum (Fin M)); ("titrant_amount_unit", VStr "kg"); ("solve_mode", VStr "pH_gran")].

Lemma gsec_run M c t ks : 0 < M <= 2 -> c <> 0 -> exists r,
  solve_pH_gran (Fin c) (map Fin [0; 1]) (map Fin [3.5; 3.6]) (cv_temperature tiny_cv) (Fin M) t ks (nofZ 3) (nofZ 4) (nofZ 1) = Ok r /\
  sg_alkalinity r = Fin (galk M * c).
Proof.
  intros B Nc. pose proof (gslope_pos M B) as Sp. rewrite !fin_Z.
  destruct (C34_pH_gran_exact c [0; 1] [3.5; 3.6] (cv_temperature tiny_cv) M t ks 3 4 1 (- g35 / gslope M * c) (gslope M / c)) as (r & E & A).
  - reflexivity.
  - lra.
  - lra.
  - unfold Rdiv. apply Rmult_integral_contrapositive_currified; [lra|now apply Rinv_neq_0_compat].
  - lra.
  - exists 0%nat, 1%nat, 3.5, 3.6, 0, 1. repeat split; try reflexivity; lra.
  - intros [|[|i]] p m Hp Hm _; [| |destruct i; discriminate]; cbn [nth_error] in Hp, Hm; apply some_inj in Hp; apply some_inj in Hm; subst p m; unfold gran_value.
    + change (Rpower 10 (- (3.5))) with g35. field. lra.
    + change (Rpower 10 (- (3.6))) with g36. replace ((1 + M) * g36) with (gslope M + M * g35) by (unfold gslope; ring). field. lra.
  - exists r. split; [exact E|]. rewrite A. f_equal. unfold galk. field. lra.
Qed.

Lemma gsec_load M : 0 < M -> exists t ks, load gsec_env (VStr "gen.dat") (VInt 35) (without_mode (gsec_kw M)) = Ok (sec_cv M, (t, ks)).
Proof.
  intros HM. destruct (sec_load M HM) as (t & ks & L & _). exists t, ks. rewrite <- L. reflexivity.
Qed.

Example C127_gran_nonvacuous x x' : x <> 0 -> x' <> 0 -> exists o o' c c' r r' a a',
  mode_is (gsec_kw 1) "ph_gran" /\ no_titrant_totals (gsec_kw 1) /\ default_logic (gsec_kw 1) /\
  files_calibrate gsec_env (VStr "gen.dat") (VNum (Fin x)) (VInt 35) (gsec_kw 1) = Ok o /\ or_x o = [Fin c] /\ or_fun o = [Fin 0] /\
  files_calibrate gsec_env (VStr "gen.dat") (VNum (Fin x')) (VInt 35) (gsec_kw 1) = Ok o' /\ or_x o' = [Fin c'] /\ or_fun o' = [Fin 0] /\
  mode_is (gsec_kw 2) "ph_gran" /\ no_titrant_totals (gsec_kw 2) /\
  files_solve gsec_env (VStr "gen.dat") (VNum (Fin c)) (VInt 35) (gsec_kw 2) = Ok (SrPhGran r) /\
  files_solve gsec_env (VStr "gen.dat") (VNum (Fin c')) (VInt 35) (gsec_kw 2) = Ok (SrPhGran r') /\
  sg_alkalinity r = Fin a /\ sg_alkalinity r' = Fin a' /\ a <> 0 /\ a' * x = a * x'.
Proof.
  intros X X'.
  assert (Nt : forall M, no_titrant_totals (gsec_kw M)).
  { intros M k I. cbn in I. destruct I as [<-|[<-|[<-|[]]]]; reflexivity. }
  assert (Mi : forall M, mode_is (gsec_kw M) "ph_gran") by reflexivity.
  assert (Dl : default_logic (gsec_kw 1)) by (left; reflexivity).
  assert (G : forall M, 0 < M <= 2 -> galk M <> 0).
  { intros M B. pose proof (gslope_pos M B). unfold galk. assert (0 < g35) by (unfold g35, Rpower; apply exp_pos).
    intros Z. apply (f_equal (fun z => z * gslope M)) in Z. unfold Rdiv in Z. rewrite Rmult_assoc, Rinv_l in Z by lra. lra. }
  pose proof (G 1 ltac:(lra)) as G1.
  assert (Ca : forall y, y <> 0 -> files_calibrate gsec_env (VStr "gen.dat") (VNum (Fin y)) (VInt 35) (gsec_kw 1) = Ok {| or_x := [Fin (y / galk 1)]; or_fun := [Fin 0] |}).
  { intros y Y. destruct (gsec_load 1 Rlt_0_1) as (t & ks & L).
    unfold files_calibrate. rewrite L. cbn [bind as_num]. unfold dispatch_calibrate. change (as_str (mode_of (gsec_kw 1))) with (Ok "pH_gran" : res string). cbn [bind].
    change (lower "pH_gran") with "ph_gran". cbn [String.eqb Ascii.eqb Bool.eqb].
    replace (get_kwargs_for keys_calibrate_pH_gran _ None) with ([] : kwargs xr) by reflexivity.
    unfold call_calibrate_pH_gran. cbn [kwarg dget as_num bind titrant_totals_of filter check_kwargs forallb].
    replace (nofQ 0.1 : xr) with (Fin 0.1) by (cbn; f_equal; unfold Q2R; cbn; lra).
    destruct (gsec_run 1 0.1 t ks ltac:(lra) ltac:(lra)) as (r & Er & Ar).
    assert (Yk : y / galk 1 <> 0) by (unfold Rdiv; apply Rmult_integral_contrapositive_currified; [exact Y|now apply Rinv_neq_0_compat]).
    destruct (gsec_run 1 (y / galk 1) t ks ltac:(lra) Yk) as (r2 & Er2 & Ar2).
    unfold calibrate_pH_gran, least_squares. cbn [existsb nisnan NumXR x_isnan orb lsqfun_calibrate sec_cv cv_titrant_mass cv_measurement cv_temperature cv_analyte_mass].
    cbn [gsec_env e_strat]. rewrite add_nothing. cbn [tiny_cv cv_temperature] in Er, Er2 |- *. rewrite Er. cbn [bind]. rewrite add_nothing, Ar.
    rewrite fin_sub. cbn [forallb nisfinite NumXR x_isfinite andb s_max s_next lsq_loop].
    replace (0.1 - (galk 1 * 0.1 - y) / galk 1) with (y / galk 1) by (field; exact G1).
    cbn [lsqfun_calibrate]. rewrite add_nothing, Er2. cbn [bind]. rewrite add_nothing, Ar2, fin_sub.
    cbn [app s_next lsq_loop s_pick nth fst snd].
    replace (galk 1 * (y / galk 1) - y) with 0 by (field; exact G1). reflexivity. }
  assert (Sv : forall c, c <> 0 -> exists r, files_solve gsec_env (VStr "gen.dat") (VNum (Fin c)) (VInt 35) (gsec_kw 2) = Ok (SrPhGran r) /\ sg_alkalinity r = Fin (galk 2 * c)).
  { intros c C. destruct (gsec_load 2 ltac:(lra)) as (t & ks & L). destruct (gsec_run 2 c t ks ltac:(lra) C) as (r & Er & Ar). exists r. split; [|exact Ar].
    unfold files_solve. rewrite L. cbn [bind as_num].
    change (get_kwargs_for keys_titrant_totals (without_mode (gsec_kw 2)) None) with ([] : kwargs xr). cbn [add_titrant_totals bind].
    unfold dispatch_solve. change (as_str (mode_of (gsec_kw 2))) with (Ok "pH_gran" : res string). cbn [bind]. change (lower "pH_gran") with "ph_gran". cbn [String.eqb Ascii.eqb Bool.eqb].
    replace (get_kwargs_for keys_solve_pH_gran _ None) with ([] : kwargs xr) by reflexivity.
    unfold call_solve_pH_gran, kwarg. cbn [check_kwargs forallb bind dget as_num sec_cv cv_titrant_mass cv_measurement cv_temperature cv_analyte_mass].
    cbn [tiny_cv cv_temperature] in Er |- *. rewrite Er. reflexivity. }
  assert (Ne : forall y, y <> 0 -> y / galk 1 <> 0) by (intros y Y; unfold Rdiv; apply Rmult_integral_contrapositive_currified; [exact Y|now apply Rinv_neq_0_compat]).
  destruct (Sv _ (Ne x X)) as (r & R & A). destruct (Sv _ (Ne x' X')) as (r' & R' & A').
  do 4 eexists. exists r, r'. do 2 eexists.
  repeat (split; [first [apply Mi|apply Nt|exact Dl|apply (Ca x X)|apply (Ca x' X')|reflexivity|exact R|exact R'|exact A|exact A']|]).
  split; [|exact (C127_gran_certified_error gsec_env _ _ (gsec_kw 1) x x' _ _ _ _ _ _ (gsec_kw 2) r r' _ _ (Mi 1) (Nt 1) Dl (Ca x X) eq_refl eq_refl
    (Ca x' X') eq_refl eq_refl (Mi 2) (Nt 2) R R' A A')].
  apply Rmult_integral_contrapositive_currified; [apply G; lra|now apply Ne].
Qed.
