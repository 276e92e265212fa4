(* PropSharp.v -- C08, C73, C80, C84: exactly when the refuted claims fail *)
From Coq Require Import Reals Lra.
From Verif Require Import XR XRLemmas SpecConvert ConvertProofs Core Metadata DictLemmas DatasetProofs TextProofs SpecMetadata PropDataset PropConvert PropMetadata Loss SpecLoss PropLoss PropFindings PropCalibrate Dataset Witness PropGranReported.
From Coq Require Import String List.
Import ListNotations.
Open Scope R_scope.
Open Scope string_scope.
Open Scope list_scope.

(** The three other substances are emitted but are never diluted, whatever the titration. *)
Theorem C08_other_three_never_diluted : forall (totals : dict (nd xr)) (sal : R) (tm : list R) (M : R) k,
  masses_ok tm M -> shaped (length tm) totals -> In k ["total_alpha"; "total_beta"; "total_calcium"] ->
  exists k' d', dget k' (totals_to_pyco2 totals (Fin sal)) = Some (match dget k totals with Some v => v | None => NdS (Fin 0) end) /\
    dilute_totals_pyco2 (totals_to_pyco2 totals (Fin sal)) (map Fin tm) (Fin M) = Ok d' /\
    forall i m c, nth_error tm i = Some m -> holds totals k i c ->
      holds d' k' i c /\ (0 < m -> c <> 0 -> ~ holds d' k' i (c * (M / (m + M)))).
Proof.
  intros totals sal tm M k Hm Hs Hk.
  assert (X : exists k', ~ In k' pyco2_salts /\
     dget k' (totals_to_pyco2 totals (Fin sal)) = Some (match dget k totals with Some v => v | None => NdS (Fin 0) end)).
  { rewrite <- fin_n0. destruct Hk as [<-|[<-|[<-|[]]]].
    - exists "total_alpha". split; [cbn; intuition discriminate|reflexivity].
    - exists "total_beta". split; [cbn; intuition discriminate|reflexivity].
    - exists "total_calcium". split; [cbn; intuition discriminate|reflexivity]. }
  destruct X as (k' & Hn & Hg).
  destruct (C07_pyco2_dilutes_exactly_the_ten_salts _ _ _ Hm (totals_to_pyco2_shaped _ _ (Fin sal) Hs)) as [d' [Hd [_ [Ho _]]]].
  exists k', d'. split; [exact Hg|]. split; [exact Hd|]. intros i m c Hi (v & Hv & Hc).
  assert (Hh : holds d' k' i c) by (exists v; split; [rewrite (Ho _ Hn), Hg, Hv; reflexivity|exact Hc]).
  split; [exact Hh|]. intros Hpos Hne (w & Hw & Hwc). destruct Hh as (u & Hu & Huc). rewrite Hu in Hw. injection Hw as <-.
  rewrite Huc in Hwc. apply fin_inj in Hwc. destruct Hm as [HM _].
  assert (E : c * (m + M) = c * M) by (rewrite Hwc at 1; field; lra). apply Hne. nra.
Qed.

Example C08_other_three_nonvacuous :
  let totals := [("total_calcium", NdS (Fin 0.01))] in
  masses_ok [0.001] 0.1 /\ shaped 1 totals /\ holds totals "total_calcium" 0 0.01.
Proof.
  split; [split; [lra|repeat constructor; lra]|]. split; [intros k v [E|[]]; injection E as <- <-; exact I|].
  eexists. split; reflexivity.
Qed.

Lemma some_eq {A} (x y : A) : Some x = Some y -> x = y.
Proof. now injection 1. Qed.

Section P.
Context {T : Type} `{Num T}.

(** Two CRM rows share a file name exactly when batch and bottle read the same run together. *)
Theorem C73_collide_exactly : forall show fmt (ds ds' : frame T) i j b n b' n',
  get_VINDTA_filenames show fmt ds = Ok ds' -> crm_row ds i b n -> crm_row ds j b' n' ->
  (value ds' i "file_name" = value ds' j "file_name" <-> (b ++ n = b' ++ n')%string).
Proof.
  intros show fmt ds ds' i j b n b' n' E B B'.
  destruct (crm_result show _ ds ds' i b n E B) as (r & r' & cert & R & R' & C & ->).
  destruct (crm_result show _ ds ds' j b' n' E B') as (q & q' & cert' & Q & Q' & C' & ->).
  rewrite (value_at _ _ _ _ R'), (value_at _ _ _ _ Q').
  rewrite !(dget_dset_other "file_name"), !dget_dset_same by discriminate.
  rewrite ?dget_dset_other, ?dget_dset_same by discriminate.
  split; intros K.
  - injection K as K. rewrite <- !sapp_assoc in K. apply sapp_inv_tail in K. exact K.
  - do 2 f_equal. unfold crm_name. rewrite <- (sapp_assoc b n), <- (sapp_assoc b' n'), K. reflexivity.
Qed.
End P.

(** The first forecast fCO2 is always computed with the pH and constants it was started from, and
    so is too low by a definite amount whenever the pH falls. *)
Theorem C80_first_step_uses_start : forall T (HT : Num T) k ms pHs k0s k1s k2s dlt x pH0 a0 b0 c0 M step air dic delta,
  dic_loss_model_future k ms pHs k0s k1s k2s dlt x pH0 a0 b0 c0 M step air = Ok (dic, delta) ->
  exists x0, nth_error dic 0 = Some x0 /\ nth_error delta 0 = Some (get_fCO2_from_dic_pH x0 pH0 a0 b0 c0 ⊖ air)%num.
Proof.
  intros T HT k ms pHs k0s k1s k2s dlt x pH0 a0 b0 c0 M step air dic delta E. unfold dic_loss_model_future in E.
  destruct (negb _) eqn:L; [discriminate|]. destruct ms as [|m0 ms]; [discriminate|].
  apply PropLoss.ok_inj in E. cbn [future_steps] in E.
  destruct (tl (combine (combine (combine pHs k0s) k1s) k2s)) as [|[[[p a] b] c] q]; [destruct ms|destruct ms].
  all: match type of E with
    | (?a, ?b) = _ => assert (E1 : dic = a) by (now apply (f_equal fst) in E); assert (E2 : delta = b) by (now apply (f_equal snd) in E)
    | (let (_, _) := ?t in _) = _ => destruct t as [u v]; 
        pose proof (f_equal fst E) as E1; pose proof (f_equal snd E) as E2; cbn [fst snd] in E1, E2; symmetry in E1, E2
    end; rewrite E1, E2; eexists; split; reflexivity.
Qed.

Theorem C80_first_step_too_low : forall k ms p pHs k0s k1s k2s dlt x pH0 a b c M step air dic delta x0,
  dic_loss_model_future k ms (Fin p :: pHs) k0s k1s k2s dlt x (Fin pH0) (Fin a) (Fin b) (Fin c) M step (Fin air) = Ok (dic, delta) ->
  nth_error dic 0 = Some (Fin x0) -> 0 < x0 -> 0 < a -> 0 < b -> 0 < c -> p < pH0 ->
  exists d d', nth_error delta 0 = Some (Fin d) /\
    get_fCO2_from_dic_pH (Fin x0) (Fin p) (Fin a) (Fin b) (Fin c) = Fin d' /\ d < d' - air.
Proof.
  intros k ms p pHs k0s k1s k2s dlt x pH0 a b c M step air dic delta x0 E Hx Px Pa Pb Pc Hp.
  destruct (C80_first_step_uses_start _ _ _ _ _ _ _ _ _ _ _ _ _ _ _ _ _ _ _ E) as (y & Hy & Hd).
  rewrite Hx in Hy. apply some_eq in Hy. subst y.
  destruct (C78_fCO2_equilibrium x0 pH0 a b c Pa Pb Pc) as (f & Ef & _).
  destruct (C78_fCO2_equilibrium x0 p a b c Pa Pb Pc) as (f' & Ef' & _).
  pose proof (C78_fCO2_falls_with_pH x0 p pH0 a b c f' f Px Pa Pb Pc Hp Ef' Ef).
  exists (f - air), f'. rewrite Hd, Ef, fin_sub. split; [reflexivity|]. split; [exact Ef'|lra].
Qed.

(* ------------------------------------------------------------------ *)
(** * C84 *)

Definition all_finite (x : list xr) : Prop := Forall (fun v => exists r, v = Fin r) x.

Lemma loop_finite {S} st (f : S -> list xr -> S * res (list xr)) : finite_points st -> forall k s h s' h',
  Forall (fun xy => all_finite (fst xy)) h -> lsq_loop st f k s h = (s', Ok h') -> Forall (fun xy => all_finite (fst xy)) h'.
Proof.
  intros Hfp. induction k as [|k IH]; intros s h s' h' Hh E; cbn [lsq_loop] in E.
  - apply pair_equal_spec in E. destruct E as [_ E]. apply PropLoss.ok_inj in E. now subst.
  - destruct (s_next st h) as [x|] eqn:En; [|apply pair_equal_spec in E; destruct E as [_ E]; apply PropLoss.ok_inj in E; now subst].
    destruct (f s x) as [s1 [y|e]]; [|discriminate]. apply (IH _ _ _ _) in E; [exact E|].
    apply Forall_app. split; [exact Hh|]. constructor; [exact (Hfp h x En)|constructor].
Qed.

Lemma fit_finite {S} st (f : S -> list xr -> S * res (list xr)) s x0 s' o : finite_points st -> all_finite x0 ->
  least_squares st f s x0 = (s', Ok o) -> all_finite (or_x o).
Proof.
  intros Hfp Hx E. unfold least_squares in E. destruct (existsb nisnan x0); [discriminate|].
  destruct (f s x0) as [s1 [y0|e]]; [|discriminate]. destruct (forallb nisfinite y0); [|discriminate].
  destruct (lsq_loop st f (s_max st) s1 [(x0, y0)]) as [s2 [h|e]] eqn:El; [|discriminate].
  apply pair_equal_spec in E. destruct E as [_ E]. apply PropLoss.ok_inj in E. subst o. cbn [or_x].
  apply (loop_finite st f Hfp) in El; [|constructor; [exact Hx|constructor]].
  destruct (nth_in_or_default (s_pick st h) h (x0, y0)) as [Hin|Hd].
  - rewrite Forall_forall in El. apply (El _ Hin).
  - rewrite Hd. exact Hx.
Qed.

Lemma once_finite st c tm emf temps M totals ks a0 e0 logic pmin pmax n r : finite_points st ->
  solve_emf_once st c tm emf temps M totals ks (Some (Fin a0)) (Some (Fin e0)) logic pmin pmax n = Ok r ->
  exists a e, se_alkalinity r = Fin a /\ se_emf0 r = Fin e.
Proof.
  intros Hfp E. unfold solve_emf_once in E. apply bind_ok in E. destruct E as (g & _ & E). apply bind_ok in E. destruct E as (u & _ & E).
  destruct (negb _); [discriminate|]. apply bind_ok in E. destruct E as (o & Eo & E).
  apply bind_ok in E. destruct E as (a & Ea & E). apply bind_ok in E. destruct E as (e & Ee & E). apply bind_ok in E. destruct E as (l & _ & E).
  apply PropLoss.ok_inj in E. subst r. cbn [se_alkalinity se_emf0].
  match type of Eo with snd ?t = _ => destruct t as [s' ro] eqn:El end. cbn [snd] in Eo. subst ro.
  apply fit_finite in El; [|exact Hfp|rewrite fin_q, fin_mul; repeat constructor; eauto].
  unfold all_finite in El. rewrite Forall_forall in El.
  destruct (nth_error (or_x o) 0) as [a'|] eqn:Na; [|discriminate]. cbn [of_opt] in Ea. apply PropLoss.ok_inj in Ea. subst a'.
  destruct (nth_error (or_x o) 1) as [e'|] eqn:Ne; [|discriminate]. cbn [of_opt] in Ee. apply PropLoss.ok_inj in Ee. subst e'.
  destruct (El a (nth_error_In _ _ Na)) as [ar ->]. destruct (El e (nth_error_In _ _ Ne)) as [er ->].
  rewrite fin_q, fin_mul. eauto.
Qed.

(** In EMF mode a result is never blank, however few points are in the window. *)
Theorem C84_emf_mode_never_blank : forall st c tm emf temps M totals ks a0 double e0 logic pmin pmax n r,
  finite_points st ->
  solve_emf st c tm emf temps M totals ks (Some (Fin a0)) double (Some (Fin e0)) logic pmin pmax n = Ok r ->
  exists a, se_alkalinity r = Fin a.
Proof.
  intros st c tm emf temps M totals ks a0 double e0 logic pmin pmax n r Hfp E. unfold solve_emf in E.
  apply bind_ok in E. destruct E as (r1 & E1 & E). destruct (once_finite _ _ _ _ _ _ _ _ _ _ _ _ _ _ _ Hfp E1) as (a & e & Ha & He).
  destruct double; [|apply PropLoss.ok_inj in E; subst r; eauto].
  rewrite Ha, He in E. destruct (once_finite _ _ _ _ _ _ _ _ _ _ _ _ _ _ _ Hfp E) as (a' & e' & Ha' & _). eauto.
Qed.

Example C84_never_blank_nonvacuous : finite_points (e_strat tiny_env) /\
  exists r, solve_emf (e_strat tiny_env) (Fin 1) (cv_titrant_mass tiny_cv) (cv_measurement tiny_cv) (cv_temperature tiny_cv) (Fin 1) [] []
    (Some (Fin 2300)) false (Some (Fin 0)) "v23.7+" (nofZ 3) (nofZ 4) (nofZ 1) = Ok r /\ se_alkalinity r = Fin 2300.
Proof.
  split; [intros h x E; discriminate|]. apply blank_window_solve; try reflexivity.
  - intros [|p [|q [|? ?]]]; try discriminate. intros _. eexists. split; reflexivity.
  - eexists. reflexivity.
Qed.
