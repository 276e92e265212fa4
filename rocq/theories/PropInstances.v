(* PropInstances.v -- further concrete cases that meet the hypotheses of theorems of the other files *)
From Coq Require Import Reals Qreals Lra Lia List Permutation.
From Verif Require Import SFNum SimTitration Text PropText Classes Files Dataset DictLemmas SettingsProofs TableProofs PropDataset PropSettings PropKwargs PropAmount PropIgnored PropFindings PropCalibrate PropOrder PropInvariance.
From Verif Require Import PropPure PropCalHistory CalProofs SpecDataset PropTables PropReference PropTitrationWitness.
From Verif Require Import XR XRLemmas SpecConvert SpecCore SolveProofs PropSolve PropMonotone Witness PropCases PropTable PropSensitive PropTransfer.
Import ListNotations.
Open Scope R_scope.
Open Scope string_scope.
Open Scope list_scope.

(* ------------------------------------------------------------------ *)
(** * Solvers *)

(* a Gran plot whose third point lies outside the window *)
Definition plot3 (c m p : R) : res (phgran_result xr) :=
  solve_pH_gran (Fin c) (map Fin [1; 3; m]) (map Fin [0; 0; p]) [] (Fin 1) [] [] (Fin (-1)) (Fin 1) (Fin 1).

Lemma plot3_ok c m p : c <> 0 -> 1 < p -> exists r, plot3 c m p = Ok r /\ sg_alkalinity r = Fin (1000000 * - c).
Proof.
  intros C P. apply (C34_pH_gran_exact c [1; 3; m] [0; 0; p] [] 1 [] [] (-1) 1 1 (- c) (/ c)); try lra; [reflexivity|now apply Rinv_neq_0_compat| |].
  - exists 0%nat, 1%nat, 0, 0, 1, 3. repeat split; (reflexivity || lra).
  - intros [|[|[|i]]] q w; cbn [nth_error]; [| | |destruct i; discriminate]; intros Hq Hw B; apply some_inj in Hq; apply some_inj in Hw; subst q w;
      [| |lra]; unfold gran_value; rewrite Ropp_0, Rpower_O by lra; field; lra.
Qed.

(* C31: moving the third point along and out does not matter *)
Example C31_gran_nonvacuous : exists r r', plot3 2 4 5 = Ok r /\ plot3 2 7 9 = Ok r' /\ sg_alkalinity r' = sg_alkalinity r /\ sg_alkalinity r = Fin (-2000000).
Proof.
  destruct (plot3_ok 2 4 5) as (r & E & A); [lra..|]. destruct (plot3_ok 2 7 9) as (r' & E' & _); [lra..|].
  exists r, r'. split; [exact E|]. split; [exact E'|]. split; [|rewrite A; f_equal; lra].
  refine (C31_gran_other_points_are_irrelevant _ _ _ _ _ _ _ _ _ _ _ _ _ _ _ r r' E E' eq_refl _ _).
  - intros [|[|[|i]]] q; cbn [nth_error map]; [| | |destruct i; discriminate]; intros Hq (v & -> & B); apply some_inj in Hq; apply fin_inj in Hq; subst v; auto; lra.
  - intros [|[|[|i]]] q; cbn [nth_error map]; [| | |destruct i; discriminate]; intros Hq (v & -> & B); apply some_inj in Hq; apply fin_inj in Hq; subst v; auto; lra.
Qed.

(* C31: an upside-down window *)
Example C31_window_nonvacuous : solve_pH (Fin 2) (map Fin [1; 3]) (map Fin [0; 0]) [] (Fin 1) [] kw1 (Fin 1) (Fin (-1)) (Fin 1) = Err AssertionError.
Proof. apply (C31_window_must_be_ordered (Fin 2) (map Fin [1; 3]) (map Fin [0; 0]) [] (Fin 1) [] kw1 1 (-1) (Fin 1)); [reflexivity|lra]. Qed.

Lemma plot3_line c m p : 1 < p -> exists r, plot3 c m p = Ok r /\ lr_slope (sg_lr r) = Fin 1 /\ lr_intercept (sg_lr r) = Fin 1.
Proof.
  intros P. unfold plot3, solve_pH_gran. cbn [length map Nat.eqb negb]. rewrite x_ltb_fin_t by lra. cbn [assert_ bind].
  assert (U : in_window (Fin (-1)) (Fin 1) [Fin 0; Fin 0; Fin p] = [true; true; false]).
  { unfold in_window. cbn [map]. unfold ngeb. rewrite !x_leb_fin_t by lra. rewrite (x_leb_fin_f p 1) by lra. rewrite ?Bool.andb_true_l, ?Bool.andb_false_r. reflexivity. }
  change [Fin 1; Fin 3; Fin m] with (map Fin [1; 3; m]). change [Fin 0; Fin 0; Fin p] with (map Fin [0; 0; p]) in U |- *.
  rewrite (gfunc_fin [1; 3; m] [0; 0; p] 1) by reflexivity. rewrite U. rewrite !mask_map. cbn [map2 mask].
  assert (D : two_distinct [1; 3]) by (exists 1, 3; cbn; repeat split; auto; lra).
  assert (G : [gran_value 1 1 0; gran_value 3 1 0] = map (fun x => 1 * x + 1) [1; 3]).
  { unfold gran_value. cbn [map]. rewrite !Ropp_0, !Rpower_O by lra. f_equal; [lra|]. f_equal. lra. }
  rewrite G. destruct (linregress_fin [1; 3] (map (fun x => 1 * x + 1) [1; 3]) D (map_length _ _)) as (lr & -> & E1 & E2). cbn [bind].
  eexists. split; [reflexivity|]. cbn [sg_lr]. rewrite E1, E2, slope_line, intercept_line by exact D. now split.
Qed.

(* C34: the Gran alkalinity is proportional to the molinity *)
Example C34_proportional_nonvacuous : exists r, plot3 2 4 5 = Ok r /\ lr_slope (sg_lr r) = Fin 1 /\ lr_intercept (sg_lr r) = Fin 1 /\
  exists! c, exists r', plot3 c 4 5 = Ok r' /\ sg_alkalinity r' = Fin 2300.
Proof.
  destruct (plot3_line 2 4 5) as (r & E & S & I); [lra|]. exists r. split; [exact E|]. split; [exact S|]. split; [exact I|].
  refine (proj2 (C34_pH_gran_proportional 2 [1; 3; 4] [0; 0; 5] [] 1 [] [] (-1) 1 1 r 1 1 _ _ E S I _) _ 2300); lra.
Qed.

(* C34: calibrating on it, with an optimiser that takes one secant step *)
Definition one_step : strategy xr :=
  {| s_next := fun h => match h with [([Fin x], [Fin y])] => Some [Fin (x + y / 1000000)] | _ => None end; s_pick := fun _ => 1%nat; s_max := 5 |}.
Example C34_self_calibration_nonvacuous : exists totals' o,
  calibrate_pH_gran one_step (Fin (-2000000)) (map Fin [1; 3; 4]) (map Fin [0; 0; 5]) [] (Fin 1) [] [] (Fin (-1)) (Fin 1) (Fin 1) (Fin 1) [] = (totals', Ok o) /\
  or_fun o = [Fin 0] /\ or_x o = [Fin 2].
Proof.
  destruct (plot3_ok 1 4 5) as (r & E & A); [lra..|]. destruct (plot3_ok 2 4 5) as (r' & E' & A'); [lra..|]. unfold plot3 in E, E'.
  exists [], {| or_x := [Fin 2]; or_fun := [Fin 0] |}. split; [|split; reflexivity].
  unfold calibrate_pH_gran, least_squares. cbn [s_max one_step].
  cbn [existsb nisnan NumXR x_isnan orb lsqfun_calibrate]. rewrite add_nothing, E. cbn [bind]. rewrite add_nothing, A.
  rewrite fin_sub. cbn [forallb nisfinite NumXR x_isfinite andb s_max s_next one_step lsq_loop].
  replace (1 + (1000000 * - (1) - -2000000) / 1000000) with 2 by lra.
  cbn [lsqfun_calibrate]. rewrite add_nothing, E'. cbn [bind]. rewrite add_nothing, A', fin_sub.
  cbn [app s_next one_step lsq_loop s_pick nth fst snd]. replace (1000000 * - (2) - -2000000) with 0 by lra. reflexivity.
Qed.

(* C40: the pH solvers with 1000 times the masses *)
Example C40_pH_nonvacuous : exists r r', mono_run 0 1 1 = Ok r /\
  solve_pH (Fin 1) (map (fun m => Fin (1000 * m)) [1; 3]) (map Fin [9; 0]) [] (Fin (1000 * 1)) (mono_totals 1 1) mono_ks (Fin (-1)) (Fin 1) (Fin 1) = Ok r' /\
  sp_alkalinity r' = sp_alkalinity r.
Proof.
  destruct (mono_runs 0 1 1) as (r & E). exists r.
  pose proof (C40_solve_pH_mass_scaling 1 [1; 3] (map Fin [9; 0]) [] 1 (mono_totals 1 1) mono_ks (Fin (-1)) (Fin 1) 1 1000 ltac:(lra)
    ltac:(split; [lra|repeat constructor; lra])) as S.
  unfold mono_run in E. rewrite E in S.
  destruct (solve_pH (Fin 1) (map (fun m => Fin (1000 * m)) [1; 3]) _ _ _ _ _ _ _ _) as [r'|]; [|destruct S]. exists r'. split; [exact E|]. split; [reflexivity|apply S].
Qed.

Example C40_pH_gran_nonvacuous : exists r r', plot3 2 4 5 = Ok r /\
  solve_pH_gran (Fin 2) (map (fun m => Fin (1000 * m)) [1; 3; 4]) (map Fin [0; 0; 5]) [] (Fin (1000 * 1)) [] [] (Fin (-1)) (Fin 1) (Fin 1) = Ok r' /\
  sg_alkalinity r' = sg_alkalinity r /\ sg_alkalinity r = Fin (-2000000).
Proof.
  destruct (plot3_ok 2 4 5) as (r & E & A); [lra..|]. exists r.
  pose proof (C40_solve_pH_gran_mass_scaling 2 [1; 3; 4] [0; 0; 5] [] 1 [] [] (Fin (-1)) (Fin 1) 1 1000 ltac:(lra)
    ltac:(split; [lra|repeat constructor; lra])) as S.
  unfold plot3 in E. rewrite E in S.
  destruct (solve_pH_gran (Fin 2) (map (fun m => Fin (1000 * m)) [1; 3; 4]) _ _ _ _ _ _ _ _) as [r'|]; [|destruct S]. exists r'.
  split; [exact E|]. split; [reflexivity|]. split; [apply S|]. rewrite A. f_equal. lra.
Qed.

(* C41: a total the sample does not have, and a name that is not a total *)
Example C41_raises_nonvacuous :
  (exists totals' e, add_titrant_totals [("dic", NdS (Fin 2)); ("total_sulfate", NdA [Fin 0; Fin 3])] (map Fin [0; 1]) (Fin 1) (Fin 2) (Fin 0)
    [("titrant_total_sulfate", VNum (Fin 1)); ("titrant_total_phosphate", VNum (Fin 1))] = (totals', Err e)) /\
  (exists totals' e, add_titrant_totals [("dic", NdS (Fin 2)); ("total_sulfate", NdA [Fin 0; Fin 3])] (map Fin [0; 1]) (Fin 1) (Fin 2) (Fin 0)
    [("titrant_dic", VNum (Fin 1))] = (totals', Err e)).
Proof.
  split.
  - apply (C41_bad_names_raise _ _ _ _ _ _ "titrant_total_phosphate" (VNum (Fin 1))); [cbn; tauto|]. right. exists "total_phosphate". split; reflexivity.
  - apply (C41_bad_names_raise _ _ _ _ _ _ "titrant_dic" (VNum (Fin 1))); [cbn; tauto|]. left. intros [s E]. discriminate.
Qed.

(* C45: without sulfate one used point returns the alkalinity of the total scale *)
Definition dry_totals : dict (nd xr) := [("dic", NdA [Fin 1; Fin 2])].
Example C45_nonvacuous : exists r s, dget "total_sulfate" dry_totals = None /\
  solve_pH (Fin 1) (map Fin [1; 3]) (map Fin [9; 0]) [] (Fin 1) dry_totals mono_ks (Fin (-1)) (Fin 1) (Fin 1) = Ok r /\
  alkalinity (Fin 0) (slice_at dry_totals 1) (slice_at mono_ks 1) 1 = Ok (Fin s) /\
  sp_alkalinity r = Fin (1000000 * (s * (1 + 3) + 3)).
Proof.
  assert (Hr : exists r, solve_pH (Fin 1) (map Fin [1; 3]) (map Fin [9; 0]) [] (Fin 1) dry_totals mono_ks (Fin (-1)) (Fin 1) (Fin 1) = Ok r).
  { eexists. unfold solve_pH. cbn [length map Nat.eqb negb]. rewrite x_ltb_fin_t by lra. reflexivity. }
  destruct Hr as (r & E). exists r.
  assert (Al : exists x, alkalinity (Fin 0) (slice_at dry_totals 1) (slice_at mono_ks 1) 1 = Ok x) by (eexists; reflexivity).
  destruct Al as (x & Al).
  assert (Sn : sane 2 dry_totals mono_ks).
  { intros i Hi. split; [|apply (proj2 (mono_sane 0 0 (Rle_refl 0) (Rle_refl 0) i Hi))]. intros k v G. apply dget_in in G. destruct G as [G|[]]. injection G as <- <-.
    destruct i as [|[|i]]; [exists 1|exists 2|lia]; (split; [reflexivity|lra]). }
  destruct (Sn 1%nat ltac:(lia)) as (Nt & Pk).
  destruct (C125_buffering_limits_alkalinity 0 0 _ _ 1 x x Nt Pk (Rle_refl 0) Al Al) as (s & _ & -> & _).
  exists s. split; [reflexivity|]. split; [exact E|]. split; [exact Al|].
  apply (C45_without_sulfate_partial 1 [1; 3] [9; 0] [] 1 dry_totals mono_ks (-1) 1 1 r (s * (1 + 3) + 3)).
  - split; [lra|repeat constructor; lra].
  - reflexivity.
  - exact E.
  - exists 1%nat, 0. split; [reflexivity|lra].
  - intros [|[|i]] p m; cbn [nth_error]; [| |destruct i; discriminate]; intros Hp Hm B; apply some_inj in Hp; apply some_inj in Hm; subst p m; [lra|].
    rewrite Al. do 2 f_equal. field.
Qed.

(* C84: two points, neither inside the window *)
Example C84_nonvacuous : exists r,
  solve_pH (Fin 1) (map Fin [1; 3]) (map Fin [9; 0]) [] (Fin 1) dry_totals mono_ks (Fin 3) (Fin 4) (Fin 1) = Ok r /\ sp_alkalinity r = NaN /\
  forall r', solve_pH_gran (Fin 1) (map Fin [1; 3]) (map Fin [9; 0]) [] (Fin 1) dry_totals mono_ks (Fin 3) (Fin 4) (Fin 1) <> Ok r'.
Proof.
  assert (Hr : exists r, solve_pH (Fin 1) (map Fin [1; 3]) (map Fin [9; 0]) [] (Fin 1) dry_totals mono_ks (Fin 3) (Fin 4) (Fin 1) = Ok r).
  { eexists. unfold solve_pH. cbn [length map Nat.eqb negb]. rewrite x_ltb_fin_t by lra. reflexivity. }
  destruct Hr as (r & E). exists r. split; [exact E|].
  destruct (C84_pH_modes_partial (Fin 1) (map Fin [1; 3]) (map Fin [9; 0]) [] (Fin 1) dry_totals mono_ks 3 4 (Fin 1)) as (A & B).
  - intros p [<-|[<-|[]]] (v & Hv & L); apply fin_inj in Hv; subst v; lra.
  - split; [exact (A r E)|exact B].
Qed.

(* C96: the Gran plot back to front *)
Example C96_gran_nonvacuous : exists r r', plot3 2 4 5 = Ok r /\ is_order 3 [2; 0; 1]%nat /\
  solve_pH_gran (Fin 2) (map Fin [4; 1; 3]) (map Fin [5; 0; 0]) [NaN; NaN; NaN] (Fin 1) [] [] (Fin (-1)) (Fin 1) (Fin 1) = Ok r' /\ sg_alkalinity r' = sg_alkalinity r.
Proof.
  destruct (plot3_ok 2 4 5) as (r & E & A); [lra..|].
  assert (Ho : is_order 3 [2; 0; 1]%nat).
  { unfold is_order. cbn [seq]. apply (Permutation_trans (l' := [0; 2; 1]%nat)); [constructor|constructor; constructor]. }
  destruct (C96_solve_pH_gran_order _ _ _ _ _ _ _ _ _ _ _ [2; 0; 1]%nat E Ho) as (r' & E' & Ea & _).
  exists r, r'. split; [exact E|]. split; [exact Ho|]. split; [exact E'|exact Ea].
Qed.

(* ------------------------------------------------------------------ *)
(** * Tables over the reals *)

(* C59: a calibrated reference row has a number in all three columns *)
Example C59_offset_nonvacuous : exists cert ds ds', is_table ds /\ solve tiny_env [] ds = Ok ds' /\
  value ds' 0 "alkalinity" = Some (VNum (Fin cert)) /\ value ds' 0 "alkalinity_certified" = Some (VNum (Fin cert)) /\
  value ds' 0 "alkalinity_offset" = Some (VNum (Fin 0)).
Proof.
  destruct PropReference.C60_nonvacuous as (cert & ds' & r & W & _ & E & R & _ & _ & _ & _ & _ & A).
  assert (V : value ds' 0 "alkalinity" = Some (VNum (Fin cert))) by (unfold value; rewrite R; exact A).
  assert (C : value ds' 0 "alkalinity_certified" = Some (VNum (Fin cert))).
  { assert (Ra : SpecDataset.run_all tiny_env [CallCalibrate []] (PropReference.cert_table cert) = Ok ds') by (cbn [SpecDataset.run_all SpecDataset.run]; rewrite E; reflexivity).
    destruct (C58_other_columns_untouched _ _ _ _ W Ra) as (_ & _ & K & _). rewrite K; [reflexivity|]. cbn. intuition discriminate. }
  apply calibrate_inv in E. destruct E as (ds1 & E1 & E2). exists cert, ds1, ds'.
  assert (W1 : is_table ds1) by exact (wff_calibrate_only tiny_env [] _ ds1 W E1).
  split; [exact W1|]. split; [exact E2|]. split; [exact V|]. split; [exact C|].
  rewrite (C59_offset_real _ _ _ _ _ _ _ W1 E2 V C). do 3 f_equal. lra.
Qed.

(* C62: an unsolved row given by its volume *)
Example C62_unsolved_nonvacuous : dget "analyte_mass" (PropTitrationWitness.w_row PropTitrationWitness.by_volume 1 ++ PropTitrationWitness.w_totals) = None /\
  dget "analyte_volume" (PropTitrationWitness.w_row PropTitrationWitness.by_volume 1 ++ PropTitrationWitness.w_totals) = Some (VNum (Fin 1)) /\
  forall t, Titration tiny_env PropTitrationWitness.tiny_sys (PropTitrationWitness.w_row PropTitrationWitness.by_volume 1 ++ PropTitrationWitness.w_totals) [] <> Ok t.
Proof.
  split; [reflexivity|]. split; [reflexivity|]. intros t. apply C62_unsolved_volume_row_raises; [reflexivity|constructor|reflexivity|reflexivity].
Qed.

(* ------------------------------------------------------------------ *)
(** * Settings and tables in floating point *)

#[local] Instance num_flm : Num sf := Num_sf flm.

Definition frow (unit mode : val sf) : row sf :=
  [("file_name", VStr "gen.dat"); ("salinity", VInt 35); ("titrant_molinity", VInt 1); ("file_good", VBool true); ("analyte_mass", VInt 1);
   ("titrant_amount_unit", unit); ("solve_mode", mode); ("alkalinity_certified", VInt 1)].
Definition points (r : res (row sf)) : option (val sf) := match r with Ok d => dget "alkalinity_npts" d | Err _ => None end.
Definition kg_row : row sf := frow (VStr "kg") (VStr "pH").
Definition good_calibration (r : res sf) : bool := match r with Ok x => negb (nisnan x) | Err _ => false end.

Lemma frow_plain u m : without_old_names (T := sf) [] (frow u m).
Proof. split; [|reflexivity]. intros k I. reflexivity. Qed.

(* C10: both amounts given; neither; litres; nitric acid *)
Definition fdat : DatData sf := {| dd_titrant_amount := [sf_ofZ 0; sf_ofZ 1]; dd_measurement := [sf_ofZ 3; sf_ofZ 4]; dd_temperature := [sf_ofZ 25; sf_ofZ 25] |}.
Example C10_cases_nonvacuous :
  (exists cv, amount_units fdat (VInt 35) [("analyte_mass", VInt 2); ("analyte_volume", VInt 70); ("titrant_amount_unit", VStr "g")] = Ok cv /\ cv_analyte_mass cv = nofZ 2) /\
  is_ok (amount_units fdat (VInt 35) [("analyte_mass", VNone); ("titrant_amount_unit", VStr "g")]) = false /\
  is_ok (amount_units fdat (VInt 35) [("analyte_mass", VInt 2); ("titrant_amount_unit", VStr "litres")]) = false /\
  is_ok (amount_units fdat (VInt 35) [("analyte_mass", VInt 2); ("titrant", VStr "HNO3")]) = false /\
  is_ok (amount_units fdat (VInt 35) [("analyte_mass", VInt 2); ("titrant", VStr "hcl")]) = true.
Proof. split; [eexists; split; vm_compute; reflexivity|]. vm_compute. auto. Qed.

(* C46: a null unit filled by the keyword argument; a null and an unrecognised setting; a default written out *)
Example C46_null_cell_nonvacuous :
  solve_row fenv [("titrant_amount_unit", VStr "kg")] (frow VNone (VStr "pH")) = solve_row fenv [] kg_row /\
  calibrate_row fenv [("titrant_amount_unit", VStr "kg")] (frow VNone (VStr "pH")) = calibrate_row fenv [] kg_row /\
  solve_row fenv [] (dset "pH_min" VNone kg_row) = solve_row fenv [] kg_row /\
  solve_row fenv [("pH_minimum", VInt 2)] kg_row = solve_row fenv [] kg_row /\
  points (solve_row fenv [] kg_row) = Some (VInt 2) /\ good_calibration (calibrate_row fenv [] kg_row) = true.
Proof.
  destruct (C46_kwarg_fills_null_cell fenv [] (frow VNone (VStr "pH")) "titrant_amount_unit" (VStr "kg")) as (A & B);
    [constructor|exact (frow_plain _ _)|apply mem_str_false; reflexivity|reflexivity|intros u G; cbn in G; apply some_inj in G; now subst u|].
  destruct (C46_null_cell_is_no_cell fenv [] kg_row "pH_min" VNone) as (C & _);
    [constructor|exact (frow_plain _ _)|apply mem_str_false; reflexivity|reflexivity|reflexivity|].
  destruct (C46_unrecognised_kwarg_has_no_effect fenv [] kg_row "pH_minimum" (VInt 2)) as (D & _);
    [constructor|exact (frow_plain _ _)|apply mem_str_false; reflexivity|].
  split; [apply A; apply mem_str_false; reflexivity|]. split; [apply B; apply mem_str_false; reflexivity|]. split; [apply C; apply mem_str_false; reflexivity|].
  split; [apply D; apply mem_str_false; reflexivity|]. split; vm_compute; reflexivity.
Qed.

Example C46_defaults_nonvacuous : In ("pH_max", VInt 4 : val sf) default_settings /\ dget "pH_max" fkw = None /\
  files_solve fenv (VStr "gen.dat") (VInt 1) (VInt 35) (dset "pH_max" (VInt 4) fkw) = files_solve fenv (VStr "gen.dat") (VInt 1) (VInt 35) fkw /\
  is_ok (files_solve fenv (VStr "gen.dat") (VInt 1) (VInt 35) fkw) = true.
Proof.
  assert (I : In ("pH_max", VInt 4 : val sf) default_settings) by (cbn; tauto).
  split; [exact I|]. split; [reflexivity|]. split; [apply C46_default_values; [exact I|reflexivity]|vm_compute; reflexivity].
Qed.

(* C47: the other two old names; the old name as a column *)
Example C47_old_names_nonvacuous :
  solve_row fenv [("pH_range", VTup [VInt 2; VInt 5])] kg_row = solve_row fenv [("pH_min", VInt 2); ("pH_max", VInt 5)] kg_row /\
  solve_row fenv [("read_dat_kwargs", VDict [("file_type", VStr "genfromtxt")])] kg_row = solve_row fenv [("file_type", VStr "genfromtxt")] kg_row /\
  solve_row fenv [] (dset "read_dat_method" (VStr "genfromtxt") kg_row) = solve_row fenv [("file_type", VStr "genfromtxt")] kg_row /\
  points (solve_row fenv [("pH_min", VInt 2); ("pH_max", VInt 5)] kg_row) = Some (VInt 2) /\
  points (solve_row fenv [("file_type", VStr "genfromtxt")] kg_row) = Some (VInt 2).
Proof.
  split; [exact (proj1 (C47_pH_range fenv [] kg_row (VInt 2) (VInt 5) (NoDup_nil _) eq_refl eq_refl))|].
  split; [exact (proj1 (C47_read_dat_kwargs fenv [] kg_row [("file_type", VStr "genfromtxt")] (NoDup_nil _) ltac:(repeat constructor; cbn; tauto) eq_refl eq_refl))|].
  split; [exact (proj1 (C47_read_dat_method_in_row fenv [] kg_row (VStr "genfromtxt") (NoDup_nil _) (frow_plain _ _)))|].
  split; vm_compute; reflexivity.
Qed.

(* C50: capital letters; a mode that does not exist; emf0_init in pH_adjust *)
Definition mode_kw (m : string) : kwargs sf := [("analyte_mass", VInt 1); ("titrant_amount_unit", VStr "kg"); ("solve_mode", VStr m)].
Example C50_cases_nonvacuous :
  files_solve fenv (VStr "gen.dat") (VInt 1) (VInt 35) (mode_kw "PH") = files_solve fenv (VStr "gen.dat") (VInt 1) (VInt 35) (mode_kw "pH") /\
  is_ok (files_solve fenv (VStr "gen.dat") (VInt 1) (VInt 35) (mode_kw "pH")) = true /\
  is_ok (files_solve fenv (VStr "gen.dat") (VInt 1) (VInt 35) (mode_kw "gran")) = false /\
  lower "pH_adjust" = "ph_adjust".
Proof.
  split; [exact (proj1 (C50_mode_is_case_insensitive fenv (VStr "gen.dat") (VInt 1) (VInt 35) (mode_kw "emf") "PH" "pH" eq_refl))|].
  split; [vm_compute; reflexivity|]. split; [|reflexivity].
  refine (proj1 (C50_other_modes_raise fenv (VStr "gen.dat") (VInt 1) (VInt 35) (mode_kw "emf") (VStr "gran") _)).
  intros m Em. injection Em as <-. cbn. intuition discriminate.
Qed.

(* C51: a table of two rows, one of which cannot be solved, cut and turned round *)
Definition lost_row : row sf := dset "file_name" (VStr "lost.dat") kg_row.
Definition ftable (rows : list (row sf)) : frame sf := {| f_cols := dkeys kg_row; f_rows := rows |}.
Definition npts_at (d : frame sf) (i : nat) : option (val sf) := value d i "alkalinity_npts".
Lemma ftable_is : is_table (ftable [kg_row; lost_row]).
Proof. split; [repeat constructor; cbn; intuition discriminate|]. intros r [<-|[<-|[]]]; reflexivity. Qed.

Example C51_two_rows_nonvacuous : exists d a b c, solve fenv [] (ftable [kg_row; lost_row]) = Ok d /\
  npts_at d 0 = Some (VInt 2) /\ npts_at d 1 = Some (VInt 0) /\
  solve fenv [] (ftable [kg_row]) = Ok (with_rows d [a]) /\ solve fenv [] (ftable [lost_row]) = Ok (with_rows d [b]) /\ f_rows d = [a; b] /\
  solve fenv [] (ftable [lost_row; kg_row]) = Ok (with_rows d c) /\ Permutation [(kg_row, a); (lost_row, b)] (combine [lost_row; kg_row] c).
Proof.
  destruct (solve fenv [] (ftable [kg_row; lost_row])) as [d|] eqn:E; [|exfalso; revert E; vm_compute; discriminate].
  assert (N : after (solve fenv [] (ftable [kg_row; lost_row])) (fun d => (npts_at d 0, npts_at d 1)) = Some (Some (VInt 2), Some (VInt 0))) by (vm_compute; reflexivity).
  rewrite E in N. cbn [after] in N. apply some_inj in N. apply pair_equal_spec in N. destruct N as (N0 & N1).
  destruct (proj1 (C51_split fenv [] (ftable [kg_row; lost_row]) [kg_row] [lost_row] d eq_refl) E) as (a' & b' & Ea & Eb & R).
  destruct (C51_rows_independent fenv [] (ftable [kg_row]) _ Ea) as (La & _).
  destruct (C51_rows_independent fenv [] (ftable [lost_row]) _ Eb) as (Lb & _).
  unfold n_rows in La, Lb. cbn [with_rows ftable f_rows length] in La, Lb.
  destruct a' as [|a [|]]; try discriminate La. destruct b' as [|b [|]]; try discriminate Lb.
  destruct (C51_permute fenv [] _ d [lost_row; kg_row] E) as (c & Ec & Pc); [constructor|].
  rewrite R in Pc. exists d, a, b, c. split; [reflexivity|]. split; [exact N0|]. split; [exact N1|]. split; [exact Ea|]. split; [exact Eb|].
  split; [exact R|]. split; [exact Ec|exact Pc].
Qed.

(* C55: calibrating that table *)
Example C55_calibrate_nonvacuous : exists d, calibrate fenv [] (ftable [kg_row; lost_row]) = Ok d /\
  npts_at d 0 = Some (VInt 2) /\ calibrate fenv [] d = Ok d /\ calkulate fenv [] (ftable [kg_row; lost_row]) = Ok d.
Proof.
  destruct (calibrate fenv [] (ftable [kg_row; lost_row])) as [d|] eqn:E; [|exfalso; revert E; vm_compute; discriminate].
  assert (N : after (calibrate fenv [] (ftable [kg_row; lost_row])) (fun d => npts_at d 0) = Some (Some (VInt 2))) by (vm_compute; reflexivity).
  rewrite E in N. cbn [after] in N. apply some_inj in N. exists d. split; [reflexivity|]. split; [exact N|].
  split; [exact (C55_calibrate_idempotent fenv [] _ d ftable_is (NoDup_nil _) E)|].
  rewrite (C55_calkulate_is_calibrate fenv [] _ ftable_is (NoDup_nil _)). exact E.
Qed.

(* C64: a Titration with a file_path, and its text *)
Definition fsys : co2sys_t sf := fun args =>
  match dget "par1" args with
  | Some (NdA dic) => Ok (map (fun k => (k, NdA (map (fun _ => sf_ofZ 0) dic))) (["alkalinity"; "k_CO2"; "alkalinity_alpha"; "alkalinity_beta"] ++ species))
  | _ => Err ValueError
  end.
Definition ffile_env : env sf := {| e_file := fun p => if String.eqb p "data/gen.dat" then Some PropPure.two_points else None; e_excel := e_excel fenv;
  e_salts := e_salts fenv; e_equil := e_equil fenv; e_sys_salt := e_sys_salt fenv; e_strat := e_strat fenv |}.
Definition text_of (r : res (titration sf)) : option string := match r with Ok t => match str_titration t with Ok s => Some s | Err _ => None end | Err _ => None end.
Example C64_nonvacuous : text_of (Titration ffile_env fsys (("file_path", VStr "data/") :: kg_row) []) = Some "calkulate.Titration for file ""data/gen.dat""".
Proof. vm_compute. reflexivity. Qed.

(* C67: exclusive writes to a file that exists, to a new one and to it again *)
Definition xwrite (p : string) (m : wmode) : write_call sf :=
  {| w_path := p; w_a := [sf_ofZ 1]; w_m := [sf_ofZ 2]; w_t := [sf_ofZ 3]; w_line0 := ""; w_line1 := ""; w_mode := m; w_da := 3; w_dm := 3; w_dt := 3 |}.
Example C67_history_nonvacuous :
  let f : fs := fun p => if String.eqb p "old.dat" then Some "data" else None in
  let f' := fold_left run_write [xwrite "old.dat" ModeX; xwrite "new.dat" ModeX; xwrite "old.dat" ModeX; xwrite "new.dat" ModeX] f in
  f' "old.dat" = Some "data" /\ f' "new.dat" <> None /\ f' "other.dat" = None /\
  fold_left run_write [xwrite "old.dat" ModeX; xwrite "old.dat" ModeW] f "old.dat" <> Some "data".
Proof. vm_compute. repeat split; discriminate. Qed.
