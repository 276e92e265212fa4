(* PropGranReported.v -- C29, C49: gran_logic in calibrations, and the warning that it is ignored *)
From Coq Require Import Reals Qreals Lra Lia.
From Verif Require Import XR XRLemmas Dataset SpecDataset DictLemmas SettingsProofs PropSettings DatasetProofs RowProofs PropDataset CalProofs PropTables Witness PropHistory PropIgnored GranProofs PropEmf PropGran PropFindings.
From Coq Require Import String List.
Import ListNotations.
Open Scope R_scope.
Open Scope string_scope.
Open Scope list_scope.

Section P.
Context {T : Type} `{Num T}.

(** gran_logic makes no difference to any calibration, given as a keyword or in the row. *)
Theorem C29_calibration_ignores_gran_logic : forall (e : env T) kw r v, wfd kw -> without_old_names kw r ->
  calibrate_row e (dset "gran_logic" v kw) r = calibrate_row e kw r /\
  calibrate_row e kw (dset "gran_logic" v r) = calibrate_row e kw r.
Proof.
  intros e kw r v W O.
  assert (N : ~ In "gran_logic" calibrate_settings) by (apply mem_str_false; reflexivity).
  assert (N2 : ~ In "gran_logic" calibrate_columns) by (apply mem_str_false; reflexivity).
  assert (N3 : ~ In "gran_logic" old_names) by (apply mem_str_false; reflexivity).
  split; [now apply C46_unrecognised_kwarg_has_no_effect|].
  apply C46_calibrate_uses_chosen_settings; auto.
  - destruct O as [O1 O2]. split; [exact O1|]. rewrite dget_dset_other by discriminate. exact O2.
  - intros k I. unfold chosen. rewrite dget_dset_other; [reflexivity|]. intros E; subst; contradiction.
  - intros c I. apply dget_dset_other. intros E; subst; contradiction.
Qed.

(** dataset.solve always warns that gran_logic is being ignored. *)
Theorem C49_gran_logic_is_reported : forall (kw : kwargs T) l,
  In "gran_logic" (dkeys kw) -> solve_ignored kw = Ok l -> In "gran_logic" l.
Proof.
  intros kw l I E. unfold solve_ignored in E. apply DictLemmas.bind_ok in E. destruct E as (kw1 & B & E). injection E as <-.
  apply filter_In. split; [|reflexivity].
  assert (D : exists v, dget "gran_logic" kw = Some v) by (now apply dmem_true_get, dget_in_keys). destruct D as [v D].
  assert (D1 : exists v, dget "gran_logic" kw1 = Some v).
  { unfold backcompat in B. apply DictLemmas.bind_ok in B. destruct B as (k1 & B1 & B). apply DictLemmas.bind_ok in B. destruct B as (k2 & B2 & B).
    injection B as <-. cbn [dget].
    assert (X1 : exists v, dget "gran_logic" k1 = Some v).
    { unfold backcompat_dict in B1. destruct (dget "read_dat_kwargs" kw) as [w|]; [|injection B1 as <-; eauto].
      destruct w; try discriminate. injection B1 as <-. 
      clear - D. revert kw v D. induction d as [|[a b] d IH]; intros kw v D; [exists v; exact D|]. cbn [dupdate fold_left] in *.
      destruct (String.eqb_spec "gran_logic" a) as [<-|Na].
      - apply (IH _ b). apply dget_dset_same.
      - apply (IH _ v). cbn [fst snd]. rewrite dget_dset_other by assumption. exact D. }
    destruct X1 as [v1 X1].
    assert (X2 : exists v, dget "gran_logic" k2 = Some v).
    { unfold backcompat_range in B2. destruct (dget "pH_range" k1) as [w|]; [|injection B2 as <-; eauto].
      destruct w as [| | | | |l|]; try discriminate. destruct l as [|a [|b [|? ?]]]; try discriminate. injection B2 as <-.
      exists v1. rewrite !dget_dset_other by discriminate. exact X1. }
    destruct X2 as [v2 X2]. exists v2. destruct (dget "read_dat_method" k2); rewrite ?dget_dset_other by discriminate; exact X2. }
  destruct D1 as [v1 D1]. apply dget_in in D1. apply (in_map fst) in D1. exact D1.
Qed.
End P.

(* ------------------------------------------------------------------ *)
(** * It is not ignored *)

Definition emf_row : row xr :=
  [("file_name", VStr "gen.dat"); ("salinity", VInt 35); ("titrant_molinity", VNum (Fin 1));
   ("file_good", VBool true); ("analyte_mass", VNum (Fin 1)); ("titrant_amount_unit", VStr "kg")].
Definition emf_table : frame xr := {| f_cols := dkeys emf_row; f_rows := [emf_row] |}.
Definition emf_kw : kwargs xr :=
  [("alkalinity_init", VNum (Fin 2300)); ("emf0_init", VNum (Fin 0)); ("double", VBool false)].
Definition old_kw : kwargs xr := ("gran_logic", VStr "old") :: emf_kw.

Lemma emf_is_table : is_table emf_table.
Proof. split; [repeat constructor; cbn; intuition discriminate|]. intros r [<-|[]]. reflexivity. Qed.

Lemma emf_solves kw : no_old_kwargs kw -> exists d, solve tiny_env kw emf_table = Ok d.
Proof.
  intros K. apply C51_solve_never_raises; auto.
  - apply emf_is_table.
  - intros c I. cbn in I. destruct I as [<-|[<-|[<-|[]]]]; cbn; tauto.
  - left. cbn. tauto.
  - intros c I r v [<-|[]]. cbn in I. destruct I as [<-|[<-|[<-|[]]]]; cbn [emf_row dget String.eqb Ascii.eqb Bool.eqb]; try discriminate.
    intros E. right. injection E as <-. eexists. reflexivity.
Qed.

Definition emf_prepped : row xr :=
  emf_row ++ [("opt_total_borate", VInt 1); ("total_sulfate", VNum (nofZ 35)); ("total_borate", VNum (nofZ 35)); ("total_fluoride", VNum (nofZ 35))].

Lemma emf_row_prepped : prep_row tiny_env (f_cols emf_table) emf_row = Ok emf_prepped.
Proof.
  unfold prep_row. rewrite salt_row_spec. rewrite !(tiny_salt _ emf_row 35) by reflexivity. cbn [bind]. reflexivity.
Qed.

Definition got (c : string) (r : res (row xr)) : option (val xr) := match r with Ok d => dget c d | Err _ => None end.

Lemma emf_value kw d : solve tiny_env kw emf_table = Ok d ->
  forall v, got "alkalinity" (solve_row tiny_env kw emf_prepped) = Some v -> value d 0 "alkalinity" = Some v.
Proof.
  intros E v N. apply solve_inv in E. destruct E as (_ & _ & M). apply mapM_Forall2 in M.
  change (f_rows emf_table) with [emf_row] in M.
  inversion M as [|? y ? l A B EA EB]. inversion B. subst.
  destruct (solve_one_inv _ _ _ _ _ A) as (p & s & P & S & F). rewrite emf_row_prepped in P. injection P as <-.
  rewrite S in N. cbn [got] in N. unfold value. rewrite <- EB. cbn [nth_error].
  rewrite (finish_get _ _ _ _ F), dget_put by discriminate. cbn [mem_str existsb output_cols String.eqb Ascii.eqb Bool.eqb orb].
  unfold cell. now rewrite N.
Qed.

Lemma tiny_lists : cv_titrant_mass tiny_cv = map Fin [0; 1] /\ cv_measurement tiny_cv = map Fin [3.5; 3.6] /\
  cv_temperature tiny_cv = map Fin [25; 25].
Proof.
  cbn [tiny_cv cv_titrant_mass cv_measurement cv_temperature map].
  repeat split; repeat f_equal; cbn; f_equal; unfold Q2R; cbn; lra.
Qed.

Lemma mV_not_in_window e : 0 <= e -> exists p, emf_to_pH (Fin e) (Fin 0) (Fin 25) = Fin p /\ p <= 0.
Proof.
  intros He. rewrite emf_to_pH_nernst by lra. eexists. split; [reflexivity|]. unfold pH_of_h, nernst_h. rewrite ln_exp.
  pose proof ln10_pos. assert (0 <= (e - 0) * 96.4853365 / (8.3144621 * (25 + 273.15))) by (apply Rle_mult_inv_pos; lra).
  assert (0 <= (e - 0) * 96.4853365 / (8.3144621 * (25 + 273.15)) / ln 10) by (apply Rle_mult_inv_pos; assumption). lra.
Qed.

(* solve_emf when no point is in the window *)
Lemma blank_window_solve totals ks :
  (forall pH, length pH = 2%nat -> exists l, alkalinity_arr pH totals ks 3 = Ok l /\ length l = 2%nat) ->
  all_fit 2 totals = true -> all_fit 2 ks = true ->
  (exists l, alkalinity_arr [] (dmap (nd_mask [false; false]) totals) (dmap (nd_mask [false; false]) ks) 3 = Ok l) ->
  exists r, solve_emf (e_strat tiny_env) (Fin 1) (cv_titrant_mass tiny_cv) (cv_measurement tiny_cv) (cv_temperature tiny_cv) (Fin 1) totals ks
    (Some (Fin 2300)) false (Some (Fin 0)) "v23.7+" (nofZ 3) (nofZ 4) (nofZ 1) = Ok r /\ se_alkalinity r = Fin 2300.
Proof.
  intros Al F1 F2 [l0 E0]. destruct tiny_lists as (-> & -> & ->).
  assert (Hok : masses_ok [0; 1] 1) by (split; [lra|repeat constructor; lra]).
  assert (Hb : Forall (fun t => -273.15 < t) [25; 25]) by (repeat constructor; lra).
  destruct (C27_raises [0; 1] [3.5; 3.6] [25; 25] 1 (Fin 1) (nofZ 1) "v23.7+" Hok Hb eq_refl eq_refl) as [_ [_ Hg]].
  destruct Hg as [g Eg]; [discriminate|repeat constructor; cbn; intuition lra|].
  unfold solve_emf, solve_emf_once, gran_guesses. rewrite Eg. cbn [bind].
  rewrite !fin_Z. rewrite x_ltb_fin_t by lra. cbn [assert_ bind].
  assert (W : in_window (Fin 3) (Fin 4) (emf_to_pH_arr (map Fin [3.5; 3.6]) (Fin 0) (map Fin [25; 25])) = [false; false]).
  { unfold emf_to_pH_arr. cbn [map map2].
    destruct (mV_not_in_window 3.5) as (p & -> & Hp); [lra|]. destruct (mV_not_in_window 3.6) as (q & -> & Hq); [lra|].
    unfold in_window. cbn [map]. unfold ngeb. rewrite !(x_leb_fin_f 3) by lra. reflexivity. }
  rewrite W. cbn [length]. rewrite F1, F2. cbn [andb negb map mask].
  unfold least_squares, lsqfun_solve_emf. cbn [existsb]. rewrite fin_q, fin_mul.
  change (nisnan (Fin (2300 * Q2R 0.000001))) with false. change (nisnan (Fin 0)) with false. cbn [orb].
  change (emf_to_pH_arr [] (Fin 0) []) with (@nil xr). change default_opt_pH_scale with 3%Z. rewrite E0. cbn [bind].
  destruct l0 as [|x l0]; cbn [map2 forallb tiny_env e_strat s_max lsq_loop s_pick nth fst snd bind or_x or_fun nth_error of_opt].
  - unfold alkalinity_all. change default_opt_pH_scale with 3%Z.
    destruct (Al (emf_to_pH_arr [Fin 3.5; Fin 3.6] (Fin 0) [Fin 25; Fin 25]) eq_refl) as (l & -> & _). cbn [bind].
    eexists. split; [reflexivity|]. cbn [se_alkalinity]. rewrite fin_q, fin_mul. f_equal. q2r. field.
  - unfold alkalinity_all. change default_opt_pH_scale with 3%Z.
    destruct (Al (emf_to_pH_arr [Fin 3.5; Fin 3.6] (Fin 0) [Fin 25; Fin 25]) eq_refl) as (l & -> & _). cbn [bind].
    eexists. split; [reflexivity|]. cbn [se_alkalinity]. rewrite fin_q, fin_mul. f_equal. q2r. field.
Qed.

Lemma emf_totals kw : deq (get_kwargs_for keys_totals_ks kw None) (filled_totals 35 35 35) ->
  exists totals ks, totals_ks tiny_env tiny_cv (get_kwargs_for keys_totals_ks kw None) = Ok (totals, ks) /\
    (forall pH, length pH = 2%nat -> exists l, alkalinity_arr pH totals ks 3 = Ok l /\ length l = 2%nat) /\
    all_fit 2 totals = true /\ all_fit 2 ks = true /\
    (exists l, alkalinity_arr [] (dmap (nd_mask [false; false]) totals) (dmap (nd_mask [false; false]) ks) 3 = Ok l).
Proof.
  intros K. rewrite (totals_ks_deq _ _ _ _ K). clear K.
  eexists. eexists. split.
  - unfold totals_ks, get_totals, get_k_constants, copy_if_pos, filled_totals.
    cbn [filter fst mem_str existsb keys_kwargs_totals keys_kwargs_k_constants String.eqb Ascii.eqb Bool.eqb orb].
    cbn [check_kwargs forallb fst mem_str existsb keys_get_totals keys_get_k_constants andb bind kwarg dget String.eqb Ascii.eqb Bool.eqb as_num orb].
    rewrite gt00, ne31. reflexivity.
  - split; [intros [|p [|q [|? ?]]]; try discriminate; intros _; eexists; split; reflexivity|].
    split; [reflexivity|]. split; [reflexivity|]. eexists. reflexivity.
Qed.

Lemma emf_filled kw : get_kwargs_for keys_totals_ks kw None =
    [("opt_total_borate", VInt 1); ("total_borate", VNum (nofZ 35)); ("total_fluoride", VNum (nofZ 35)); ("total_sulfate", VNum (nofZ 35))] ->
  deq (get_kwargs_for keys_totals_ks kw None) (filled_totals 35 35 35).
Proof.
  intros ->. unfold filled_totals. rewrite <- !(fin_Z' 35). intros k. cbn [dget].
  destruct (String.eqb k "opt_total_borate"); [reflexivity|].
  destruct (String.eqb_spec k "total_borate") as [Ek|_]; [rewrite Ek; reflexivity|].
  destruct (String.eqb_spec k "total_fluoride") as [Ek|_]; [rewrite Ek; reflexivity|]. reflexivity.
Qed.

(* the settings that reach solve_emf *)
Definition emf_args : kwargs xr := Eval vm_compute in
  get_kwargs_for keys_solve_emf (without_mode (get_kwargs_for keys_solve emf_kw (Some emf_prepped))) None.
Definition old_args : kwargs xr := Eval vm_compute in
  get_kwargs_for keys_solve_emf (without_mode (get_kwargs_for keys_solve old_kw (Some emf_prepped))) None.

Lemma emf_files_solve : exists r,
  files_solve tiny_env (VStr "gen.dat") (VNum (Fin 1)) (VInt 35) (get_kwargs_for keys_solve emf_kw (Some emf_prepped)) = Ok (SrEmf r) /\
  se_alkalinity r = Fin 2300.
Proof.
  set (kw := get_kwargs_for keys_solve emf_kw (Some emf_prepped)).
  assert (K : deq (get_kwargs_for keys_totals_ks (without_mode kw) None) (filled_totals 35 35 35)) by (apply emf_filled; reflexivity).
  destruct (emf_totals _ K) as (totals & ks & E & A1 & A2 & A3 & A4).
  destruct (blank_window_solve totals ks A1 A2 A3 A4) as (r & Er & Ea). exists r. split; [|exact Ea].
  assert (P : dget "file_path" (without_mode kw) = None) by reflexivity.
  assert (R : read_dat tiny_env "gen.dat" (get_kwargs_for keys_read_dat (without_mode kw) None) = Ok (Dat tiny_dd)) by reflexivity.
  assert (A : amount_units_dat (Dat tiny_dd) (VInt 35) (get_kwargs_for keys_cau (without_mode kw) None) = Ok tiny_cv) by reflexivity.
  assert (TT : get_kwargs_for keys_titrant_totals (without_mode kw) None = []) by reflexivity.
  assert (S : get_kwargs_for keys_solve_emf (without_mode kw) None = emf_args) by reflexivity.
  assert (M : mode_of kw = VStr "emf") by reflexivity.
  clearbody kw. unfold files_solve, load, full_name. rewrite P. cbn [bind]. rewrite R. cbn [bind]. rewrite A. cbn [bind].
  rewrite E. cbn [bind as_num]. rewrite TT, M. cbn [add_titrant_totals bind]. unfold dispatch_solve. cbn [as_str bind].
  change (lower "emf") with "emf". cbn [String.eqb Ascii.eqb Bool.eqb]. rewrite S.
  unfold call_solve_emf.
  change (check_kwargs keys_solve_emf emf_args) with (Ok tt).
  change (kwarg "alkalinity_init" VNone emf_args) with (VNum (Fin 2300)).
  change (kwarg "emf0_init" VNone emf_args) with (VNum (Fin 0)).
  change (kwarg "pH_min" (VInt 3) emf_args) with (VInt 3 : val xr).
  change (kwarg "pH_max" (VInt 4) emf_args) with (VInt 4 : val xr).
  change (kwarg "titrant_normality" (VInt 1) emf_args) with (VInt 1 : val xr).
  change (kwarg "double" (VBool true) emf_args) with (VBool false : val xr).
  change (kwarg "gran_logic" (VStr "v23.7+") emf_args) with (VStr "v23.7+" : val xr).
  cbn [bind opt_num as_num truthy logic_of]. change (cv_analyte_mass tiny_cv) with (Fin 1).
  rewrite Er. reflexivity.
Qed.

Lemma old_files_solve : 
  is_ok (files_solve tiny_env (VStr "gen.dat") (VNum (Fin 1)) (VInt 35) (get_kwargs_for keys_solve old_kw (Some emf_prepped))) = false.
Proof.
  set (kw := get_kwargs_for keys_solve old_kw (Some emf_prepped)).
  assert (K : deq (get_kwargs_for keys_totals_ks (without_mode kw) None) (filled_totals 35 35 35)) by (apply emf_filled; reflexivity).
  destruct (emf_totals _ K) as (totals & ks & E & _).
  assert (P : dget "file_path" (without_mode kw) = None) by reflexivity.
  assert (R : read_dat tiny_env "gen.dat" (get_kwargs_for keys_read_dat (without_mode kw) None) = Ok (Dat tiny_dd)) by reflexivity.
  assert (A : amount_units_dat (Dat tiny_dd) (VInt 35) (get_kwargs_for keys_cau (without_mode kw) None) = Ok tiny_cv) by reflexivity.
  assert (TT : get_kwargs_for keys_titrant_totals (without_mode kw) None = []) by reflexivity.
  assert (S : get_kwargs_for keys_solve_emf (without_mode kw) None = old_args) by reflexivity.
  assert (M : mode_of kw = VStr "emf") by reflexivity.
  clearbody kw. unfold files_solve, load, full_name. rewrite P. cbn [bind]. rewrite R. cbn [bind]. rewrite A. cbn [bind].
  rewrite E. cbn [bind as_num]. rewrite TT, M. cbn [add_titrant_totals bind]. unfold dispatch_solve. cbn [as_str bind].
  change (lower "emf") with "emf". cbn [String.eqb Ascii.eqb Bool.eqb]. rewrite S.
  unfold call_solve_emf.
  change (check_kwargs keys_solve_emf old_args) with (Ok tt).
  change (kwarg "alkalinity_init" VNone old_args) with (VNum (Fin 2300)).
  change (kwarg "emf0_init" VNone old_args) with (VNum (Fin 0)).
  change (kwarg "pH_min" (VInt 3) old_args) with (VInt 3 : val xr).
  change (kwarg "pH_max" (VInt 4) old_args) with (VInt 4 : val xr).
  change (kwarg "titrant_normality" (VInt 1) old_args) with (VInt 1 : val xr).
  change (kwarg "double" (VBool true) old_args) with (VBool false : val xr).
  change (kwarg "gran_logic" (VStr "v23.7+") old_args) with (VStr "old" : val xr).
  cbn [bind opt_num as_num truthy logic_of]. change (cv_analyte_mass tiny_cv) with (Fin 1).
  unfold solve_emf, solve_emf_once, gran_guesses. destruct tiny_lists as (-> & -> & ->).
  assert (Hok : masses_ok [0; 1] 1) by (split; [lra|repeat constructor; lra]).
  assert (Hb : Forall (fun t => -273.15 < t) [25; 25]) by (repeat constructor; lra).
  destruct (C27_raises [0; 1] [3.5; 3.6] [25; 25] 1 (Fin 1) (nofZ 1) "old" Hok Hb eq_refl eq_refl) as [Hg _].
  rewrite Hg by (cbn; intuition discriminate). reflexivity.
Qed.

(** gran_logic is reported as being ignored by dataset.solve, and yet changes the alkalinity. *)
Theorem C49_gran_logic_refuted : exists (e : env xr) kw l ds d d', wfd kw /\ is_table ds /\
  solve_ignored kw = Ok l /\ In "gran_logic" l /\
  solve e kw ds = Ok d /\ solve e (without "gran_logic" kw) ds = Ok d' /\
  value d 0 "alkalinity" = Some (VNum NaN) /\ value d' 0 "alkalinity" = Some (VNum (Fin 2300)).
Proof.
  destruct (emf_solves old_kw) as (d & E); [split; reflexivity|].
  destruct (emf_solves emf_kw) as (d' & E'); [split; reflexivity|].
  exists tiny_env, old_kw, ["gran_logic"], emf_table, d, d'.
  split; [repeat constructor; cbn; intuition discriminate|]. split; [apply emf_is_table|]. split; [reflexivity|]. split; [cbn; tauto|].
  split; [exact E|]. split; [exact E'|]. split.
  - apply (emf_value _ _ E). unfold solve_row, solve_row_try, handler, attr.
    change (dget "titrant_molinity" emf_prepped) with (Some (VNum (Fin 1))).
    change (dget "file_good" emf_prepped) with (Some (VBool true : val xr)).
    change (dget "file_name" emf_prepped) with (Some (VStr "gen.dat" : val xr)).
    change (dget "salinity" emf_prepped) with (Some (VInt 35 : val xr)).
    change (backcompat old_kw emf_prepped) with (Ok old_kw).
    cbn [of_opt bind notnull isnull nisnan NumXR x_isnan negb truthy andb].
    pose proof old_files_solve as F. destruct (files_solve _ _ _ _ _); [discriminate|]. reflexivity.
  - apply (emf_value _ _ E'). unfold solve_row, solve_row_try, handler, attr.
    change (dget "titrant_molinity" emf_prepped) with (Some (VNum (Fin 1))).
    change (dget "file_good" emf_prepped) with (Some (VBool true : val xr)).
    change (dget "file_name" emf_prepped) with (Some (VStr "gen.dat" : val xr)).
    change (dget "salinity" emf_prepped) with (Some (VInt 35 : val xr)).
    change (backcompat emf_kw emf_prepped) with (Ok emf_kw).
    cbn [of_opt bind notnull isnull nisnan NumXR x_isnan negb truthy andb].
    destruct emf_files_solve as (r & -> & Ea).
    unfold add_solve_results. rewrite ?Ea. cbn [got].
    unfold set_inits. destruct (nth_error (se_pH r) 0); [destruct (nth_error (se_temperature r) 0)|]; cbv zeta;
      rewrite !dget_dset_other by discriminate; rewrite dget_dset_same; reflexivity.
Qed.

Example C49_gran_logic_nonvacuous : In "gran_logic" (dkeys old_kw) /\ solve_ignored old_kw = Ok ["gran_logic"].
Proof. split; [cbn; tauto|reflexivity]. Qed.
