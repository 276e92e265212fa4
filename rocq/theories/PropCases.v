(* PropCases.v -- concrete titrations and tables that meet the hypotheses of theorems whose own
   file has no such case *)
From Coq Require Import Reals Qreals Lra Lia Permutation.
From Verif Require Import Dataset SpecCore SpecConvert SpecSettings SpecDataset SpecSimulate.
From Verif Require Import XR XRLemmas DictLemmas SettingsProofs DatasetProofs RowProofs CalProofs Witness PropGran PropSolve PropEmf PropSettings PropDataset PropTables
  PropHistory PropIgnored PropBatch PropReference Classes Plot SpecPlot PropSimTitration TitrationProofs PropTitrationWitness PropPlot PropPlotReal PropPlotData.
Open Scope R_scope.
Open Scope string_scope.
Open Scope list_scope.

(* ------------------------------------------------------------------ *)
(** * Solvers *)

Lemma some_inj {A} (x y : A) : Some x = Some y -> x = y.
Proof. congruence. Qed.
Lemma ok_inj {A} (x y : A) : Ok x = Ok y -> x = y.
Proof. congruence. Qed.

(* C27: two points; the default logic keeps both *)
Example C27_nonvacuous : exists g,
  masses_ok [1; 2] 1 /\ Forall (fun t => -273.15 < t) [25; 25] /\
  gran_alkalinity (map Fin [1; 2]) (map Fin ex_emf) (map Fin [25; 25]) (Fin 1) (Fin 1) (Fin 1) "v23.7+" = Ok g.
Proof.
  assert (Hb : Forall (fun t => -273.15 < t) [25; 25]) by (repeat constructor; apply ex_t25).
  destruct (C27_raises [1; 2] ex_emf [25; 25] 1 (Fin 1) (Fin 1) "v23.7+" ex_masses Hb eq_refl eq_refl) as [_ [_ [g Hg]]].
  - discriminate.
  - repeat constructor; cbn; intuition lra.
  - exists g. split; [exact ex_masses|]. split; [exact Hb|exact Hg].
Qed.

(* C31, C32: the first point is inside the window, the second outside *)
Definition kw1 : dict (nd xr) := [("k_water", NdS (Fin 1))].
Lemma two_points p m : exists r,
  solve_pH (Fin (1/2)) (map Fin [1; m]) (map Fin [0; p]) [Fin 25; Fin 25] (Fin 1) [] kw1 (Fin (-1)) (Fin 1) (Fin 1) = Ok r.
Proof.
  destruct (solve_pH (Fin (1/2)) (map Fin [1; m]) (map Fin [0; p]) [Fin 25; Fin 25] (Fin 1) [] kw1 (Fin (-1)) (Fin 1) (Fin 1)) as [r|e] eqn:E.
  - now exists r.
  - exfalso. revert E. unfold solve_pH. cbn [length Nat.eqb negb map]. rewrite x_ltb_fin_t by lra. cbn. discriminate.
Qed.

Example C31_nonvacuous : exists r r',
  solve_pH (Fin (1/2)) (map Fin [1; 2]) (map Fin [0; 5]) [Fin 25; Fin 25] (Fin 1) [] kw1 (Fin (-1)) (Fin 1) (Fin 1) = Ok r /\
  solve_pH (Fin (1/2)) (map Fin [1; 3]) (map Fin [0; 7]) [Fin 25; Fin 25] (Fin 1) [] kw1 (Fin (-1)) (Fin 1) (Fin 1) = Ok r' /\
  sp_alkalinity r' = sp_alkalinity r /\ used_at (sp_used r) 0 /\ ~ used_at (sp_used r) 1.
Proof.
  destruct (two_points 5 2) as (r & E). destruct (two_points 7 3) as (r' & E'). exists r, r'. split; [exact E|]. split; [exact E'|]. split; [|split].
  - refine (proj1 (C31_other_points_are_irrelevant _ _ _ _ _ _ _ _ _ _ _ _ _ _ _ _ _ E E' eq_refl _ _)).
    + intros [|[|[|i]]] p; cbn [nth_error map]; intros H I; try discriminate; apply some_inj in H; subst p.
      * repeat split; reflexivity.
      * destruct I as (q & Hq & L). injection Hq as <-. lra.
    + intros [|[|[|i]]] p; cbn [nth_error map]; intros H I; try discriminate; apply some_inj in H; subst p.
      * reflexivity.
      * destruct I as (q & Hq & L). injection Hq as <-. lra.
  - apply (proj1 (C31_used_is_closed_window _ _ _ _ _ _ _ _ _ _) r E 0%nat (Fin 0) eq_refl). exists 0. split; [reflexivity|lra].
  - intros U. apply (proj1 (C31_used_is_closed_window _ _ _ _ _ _ _ _ _ _) r E 1%nat (Fin 5) eq_refl) in U.
    destruct U as (q & Hq & L). injection Hq as <-. lra.
Qed.

Example C32_nonvacuous : exists r a est,
  solve_pH (Fin (1/2)) (map Fin [1; 2]) (map Fin [0; 5]) [Fin 25; Fin 25] (Fin 1) [] kw1 (Fin (-1)) (Fin 1) (Fin 1) = Ok r /\
  masses_ok [1; 2] 1 /\ sp_alkalinity_all r = map Fin est /\ length est = 2%nat /\ sp_alkalinity r = Fin a /\ nth_error est 0 = Some a.
Proof.
  destruct (two_points 5 2) as (r & E).
  assert (U0 : used_at (sp_used r) 0).
  { apply (proj1 (C31_used_is_closed_window _ _ _ _ _ _ _ _ _ _) r E 0%nat (Fin 0) eq_refl). exists 0. split; [reflexivity|lra]. }
  assert (U1 : ~ used_at (sp_used r) 1).
  { intros U. apply (proj1 (C31_used_is_closed_window _ _ _ _ _ _ _ _ _ _) r E 1%nat (Fin 5) eq_refl) in U.
    destruct U as (q & Hq & L). injection Hq as <-. lra. }
  destruct (C32_alkalinity_is_mean_of_used (1/2) [1; 2] [0; 5] [Fin 25; Fin 25] 1 [] kw1 (-1) 1 1 r ex_masses) as (est & Ea & Le & _ & Hp).
  - intros i p _. split.
    + intros k v. unfold slice_at. destruct i; cbn; discriminate.
    + intros k v G. assert (X : v = Fin 1). { unfold slice_at, kw1 in G. cbn in G. destruct (String.eqb k "k_water"); [now injection G as <-|discriminate]. }
      exists 1. split; [exact X|lra].
  - exact E.
  - destruct est as [|e0 [|e1 [|]]]; try discriminate Le.
    assert (Lu : length (sp_used r) = 2%nat).
    { revert E. unfold solve_pH. cbn [length Nat.eqb negb map]. rewrite x_ltb_fin_t by lra. cbn. intros E.
      apply (f_equal (fun z => match z with Ok y => y | Err _ => r end)) in E. cbv beta iota in E. rewrite <- E. reflexivity. }
    unfold used_at in U0, U1. destruct (sp_used r) as [|u0 [|u1 [|]]] eqn:Us; try discriminate Lu. cbn [nth_error] in U0, U1.
    apply some_inj in U0. subst u0. destruct u1; [exfalso; apply U1; reflexivity|].
    destruct Hp as (a & Ha & Hs & _); [cbn; lia|]. exists r, a, [e0; e1]. split; [exact E|]. split; [exact ex_masses|].
    split; [exact Ea|]. split; [reflexivity|]. split; [exact Ha|]. cbn in Hs. cbn [nth_error]. f_equal. lra.
Qed.

(* C29: one pass; C37, C38: two passes *)
Example C29_nonvacuous : exists r,
  solve_emf st38 (Fin 1) (map Fin [1; 2]) (map Fin [0; 10]) (map Fin [25; 25]) (Fin 1) [] []
    (Some (Fin 0)) false (Some (Fin 0)) "v23.7+" (Fin (- (K25 / 2))) (Fin (3 * K25 / 2)) (Fin 1) = Ok r.
Proof. destruct C36_nonvacuous as (r & E & _). now exists r. Qed.

Example C37_nonvacuous : exists st c tm emf temps M ai ei pmin pmax n r first,
  solve_emf st (Fin c) (map Fin tm) (map Fin emf) (map Fin temps) (Fin M) [] [] ai false ei "v23.7+" (Fin pmin) (Fin pmax) (Fin n) = Ok first /\
  solve_emf st (Fin c) (map Fin tm) (map Fin emf) (map Fin temps) (Fin M) [] [] ai true ei "v23.7+" (Fin pmin) (Fin pmax) (Fin n) = Ok r.
Proof.
  destruct C38_used_can_differ_from_returned_pH as (st & c & tm & emf & temps & M & ai & ei & pmin & pmax & n & r & p & E & _).
  pose proof (C37_double_is_two_single_solves st (Fin c) (map Fin tm) (map Fin emf) (map Fin temps) (Fin M) [] [] ai ei "v23.7+" (Fin pmin) (Fin pmax) (Fin n)) as H.
  rewrite E in H.
  destruct (solve_emf st (Fin c) (map Fin tm) (map Fin emf) (map Fin temps) (Fin M) [] [] ai false ei "v23.7+" (Fin pmin) (Fin pmax) (Fin n)) as [f|] eqn:F; [|discriminate H].
  exists st, c, tm, emf, temps, M, ai, ei, pmin, pmax, n, r, f. split; assumption.
Qed.

Example C38_nonvacuous : exists st c tm emf temps M ai ei pmin pmax n r,
  solve_emf st (Fin c) (map Fin tm) (map Fin emf) (map Fin temps) (Fin M) [] [] ai true ei "v23.7+" (Fin pmin) (Fin pmax) (Fin n) = Ok r /\
  used_at (se_used r) 0.
Proof.
  destruct C38_used_can_differ_from_returned_pH as (st & c & tm & emf & temps & M & ai & ei & pmin & pmax & n & r & p & E & _ & _ & U & _).
  exists st, c, tm, emf, temps, M, ai, ei, pmin, pmax, n, r. split; assumption.
Qed.

(* ------------------------------------------------------------------ *)
(** * Settings and tables *)

(* C46: the row says kg, the keyword argument ml; the row is solved, in kg *)
Example C46_nonvacuous :
  without_old_names [] (prepped "gen.dat") /\ dget "titrant_amount_unit" (prepped "gen.dat") = Some (VStr "kg") /\
  npts (solve_row tiny_env [("titrant_amount_unit", VStr "ml")] (prepped "gen.dat")) = Some (VInt 2).
Proof.
  assert (O : without_old_names [] (prepped "gen.dat")) by (split; [reflexivity|reflexivity]).
  split; [exact O|]. split; [reflexivity|].
  destruct (C46_row_value_wins tiny_env [] (prepped "gen.dat") "titrant_amount_unit" (VStr "kg") (VStr "ml")) as (E & _);
    [constructor|exact O|cbn; intuition discriminate|reflexivity|reflexivity|].
  change (dset "titrant_amount_unit" (VStr "ml") []) with [("titrant_amount_unit", VStr "ml" : val xr)] in E. rewrite E.
  apply prepped_solved; [reflexivity|].
  apply (tiny_solved "gen.dat" _ "pH"); try reflexivity. apply prepped_totals. reflexivity.
Qed.

(* C48: the same row with a comment *)
Definition noted_row : row xr := tiny_row "gen.dat" ++ [("comment", VStr "repeat of 7")].
Definition noted : frame xr := {| f_cols := dkeys noted_row; f_rows := [noted_row] |}.

Lemma noted_table : is_table noted.
Proof. split; [repeat constructor; cbn; intuition discriminate|]. intros r [<-|[]]. reflexivity. Qed.

Lemma noted_same : same_but (fun c => c = "comment") (one_row "gen.dat") noted.
Proof.
  split; [reflexivity|]. split.
  - intros c N. cbn. intuition congruence.
  - intros c [|i] N; unfold value; cbn [nth_error noted one_row f_rows]; [|now destruct i].
    unfold noted_row. rewrite dget_app. destruct (dget c (tiny_row "gen.dat")); [reflexivity|]. cbn [dget].
    destruct (String.eqb_spec c "comment"); [contradiction|reflexivity].
Qed.

Example C48_nonvacuous : exists d, solve tiny_env [] noted = Ok d /\ value d 0 "alkalinity_npts" = Some (VInt 2) /\
  (forall c, In c recognised -> c <> "comment").
Proof.
  destruct gen_row_solved as (d & E & V).
  assert (N : forall c, In c recognised -> c <> "comment").
  { intros c I ->. revert I. apply mem_str_false. reflexivity. }
  destruct (C48_extra_columns_ignored tiny_env [] (fun c => c = "comment") (one_row "gen.dat") noted d) as (H & _).
  - constructor.
  - exact N.
  - apply noted_same.
  - destruct (H E) as (d2 & E2 & _ & _ & S). exists d2. split; [exact E2|]. split; [|exact N].
    rewrite <- S by discriminate. exact V.
Qed.

(* C52: of two titrations the second is marked bad; the other world has no files *)
Definition bad_row : row xr := dset "file_good" (VBool false) (tiny_row "gen.dat").
Definition good_and_bad : frame xr := {| f_cols := dkeys (tiny_row "gen.dat"); f_rows := [tiny_row "gen.dat"; bad_row] |}.
Definition no_files : env xr := {| e_file := fun _ => None; e_excel := fun _ => None; e_salts := e_salts tiny_env;
  e_equil := e_equil tiny_env; e_sys_salt := e_sys_salt tiny_env; e_strat := e_strat tiny_env |}.

Lemma good_and_bad_solves e : exists d, solve e [] good_and_bad = Ok d.
Proof.
  apply C51_solve_never_raises.
  - split; [repeat constructor; cbn; intuition discriminate|]. intros r [<-|[<-|[]]]; reflexivity.
  - split; reflexivity.
  - intros c I. cbn in I. destruct I as [<-|[<-|[<-|[]]]]; cbn; tauto.
  - left. cbn. tauto.
  - intros c I r v R G. cbn in I, R. destruct R as [<-|[<-|[]]]; destruct I as [<-|[<-|[<-|[]]]]; cbn in G; try discriminate; injection G as <-; right; eexists; reflexivity.
Qed.

Example C52_nonvacuous : exists d1 d2, same_but_files tiny_env no_files /\
  solve tiny_env [] good_and_bad = Ok d1 /\ solve no_files [] good_and_bad = Ok d2 /\
  value d1 0 "alkalinity_npts" = Some (VInt 2) /\ value d2 0 "alkalinity_npts" = Some (VInt 0) /\
  is_blank d1 1 /\ (forall c, value d1 1 c = value d2 1 c).
Proof.
  destruct (good_and_bad_solves tiny_env) as (d1 & E1). destruct (good_and_bad_solves no_files) as (d2 & E2).
  exists d1, d2. split; [repeat split|]. split; [exact E1|]. split; [exact E2|]. split; [|split].
  - destruct (C51_rows_independent _ _ _ _ E1) as (_ & H). destruct (H 0%nat _ eq_refl) as (r' & N & S).
    change (with_rows good_and_bad [tiny_row "gen.dat"]) with (one_row "gen.dat") in S.
    destruct gen_row_solved as (d & E & V). rewrite S in E. apply ok_inj in E. subst d. unfold value in *. now rewrite N.
  - destruct (C51_rows_independent _ _ _ _ E2) as (_ & H). destruct (H 0%nat _ eq_refl) as (r' & N & S).
    change (with_rows good_and_bad [tiny_row "gen.dat"]) with (one_row "gen.dat") in S.
    apply solve_inv in S. destruct S as (_ & _ & M). apply mapM_Forall2 in M. change (f_rows (one_row "gen.dat")) with [tiny_row "gen.dat"] in M.
    inversion M as [|? y ? l A B EA EB]. subst.
    destruct (solve_one_inv _ _ _ _ _ A) as (p & d & P & Sr & F). unfold value. rewrite N.
    rewrite (finish_get _ _ _ _ F), dget_put by discriminate. cbn [mem_str existsb output_cols String.eqb Ascii.eqb Bool.eqb orb].
    assert (P' : prep_row no_files (f_cols (one_row "gen.dat")) (tiny_row "gen.dat") = Ok (prepped "gen.dat")) by exact (one_row_prepped "gen.dat").
    rewrite P' in P. apply ok_inj in P. subst p.
    unfold solve_row, solve_row_try, handler, attr in Sr. cbn in Sr. apply ok_inj in Sr. rewrite <- Sr. reflexivity.
  - apply (C52_solve_ignores_bad_files tiny_env no_files [] good_and_bad d1 d2 1).
    + split; [repeat constructor; cbn; intuition discriminate|]. intros r [<-|[<-|[]]]; reflexivity.
    + repeat split.
    + exact E1.
    + exact E2.
    + left. exists (VBool false). split; reflexivity.
Qed.

(* C56: the three totals are filled in *)
Example C56_nonvacuous : exists d, get_total_salts tiny_env (one_row "gen.dat") = Ok d /\ is_table (one_row "gen.dat") /\
  value d 0 "total_sulfate" = Some (VNum (nofZ 35)) /\ value d 0 "opt_total_borate" = Some (VInt 1).
Proof.
  assert (E : exists d, get_total_salts tiny_env (one_row "gen.dat") = Ok d).
  { destruct (get_total_salts tiny_env (one_row "gen.dat")) as [d|x] eqn:E; [now exists d|].
    pose proof (get_total_salts_rowwise tiny_env (one_row "gen.dat")) as R. rewrite E in R. exfalso. revert R.
    unfold rowwise. cbn [f_rows one_row mapM]. rewrite salt_row_spec, !(tiny_salt _ (tiny_row "gen.dat") 35) by reflexivity. cbn. exact (fun x => x). }
  destruct E as (d & E). exists d. split; [exact E|]. split; [apply one_row_table|].
  destruct (C56_total_salts tiny_env _ d (one_row_table _) E) as (H & _). destruct (H 0%nat _ eq_refl) as (b & V & B & K). cbn in B. subst b.
  split; [|exact V]. destruct (K "total_sulfate") as (s & b & Hs & _ & Vs); [cbn; tauto|]. rewrite Vs. cbn in Hs. apply ok_inj in Hs. subst s. reflexivity.
Qed.

(* C58: two calls on the table with a comment *)
Example C58_nonvacuous : exists d, run_all tiny_env [CallSolve []; CallSolve []] noted = Ok d /\ is_table noted /\
  value d 0 "comment" = Some (VStr "repeat of 7") /\ value d 0 "alkalinity_npts" = Some (VInt 2).
Proof.
  destruct C48_nonvacuous as (d & E & V & _). exists d.
  assert (R : run_all tiny_env [CallSolve []; CallSolve []] noted = Ok d).
  { cbn [run_all run]. rewrite E. cbn [bind]. rewrite (C55_solve_idempotent tiny_env [] noted d noted_table (NoDup_nil _) E). reflexivity. }
  split; [exact R|]. split; [apply noted_table|]. split; [|exact V].
  destruct (C58_other_columns_untouched _ _ _ _ noted_table R) as (_ & _ & H & _). rewrite H by (apply mem_str_false; reflexivity). reflexivity.
Qed.

(* C83: the keyword arguments of a titration that solves, in two orders *)
Definition row_kw : kwargs xr := get_kwargs_for keys_solve [] (Some (prepped "gen.dat")).
Example C83_nonvacuous : exists s, (1 < length row_kw)%nat /\ wfd row_kw /\
  files_solve tiny_env (VStr "gen.dat") (VNum (Fin 1)) (VInt 35) row_kw = Ok (SrPh s) /\
  files_solve tiny_env (VStr "gen.dat") (VNum (Fin 1)) (VInt 35) (rev row_kw) = Ok (SrPh s).
Proof.
  assert (S : exists s, files_solve tiny_env (VStr "gen.dat") (VNum (Fin 1)) (VInt 35) row_kw = Ok (SrPh s) /\ count_true (sp_used s) = 2%nat).
  { apply (tiny_solved "gen.dat" _ "pH"); try reflexivity. apply prepped_totals. reflexivity. }
  destruct S as (s & E & _). exists s. 
  assert (W : wfd row_kw). { change row_kw with (get_kwargs_for keys_solve [] (Some (prepped "gen.dat"))). cbn. repeat constructor; cbn; intuition discriminate. }
  split; [cbn; lia|]. split; [exact W|]. split; [exact E|].
  destruct (C83_kwarg_order_irrelevant tiny_env row_kw (rev row_kw) (VStr "gen.dat") (VNum (Fin 1)) (VInt 35) W (Permutation_rev _)) as (H & _).
  rewrite E in H. destruct (files_solve _ _ _ _ (rev row_kw)); [cbn in H; now subst|contradiction].
Qed.

(* C53: a batch with one reference *)
Example C53_real_nonvacuous : exists cert ds',
  is_table (cert_table cert) /\ calibrate tiny_env [] (cert_table cert) = Ok ds' /\
  batch_references ds' (VInt 1) = map Fin [0.1] /\ value ds' 0 "titrant_molinity" = Some (VNum (Fin 0.1)).
Proof.
  destruct C60_nonvacuous as (cert & ds' & r & W & RG & E & N & B & _ & BR & _). exists cert, ds'. split; [exact W|]. split; [exact E|]. split; [exact BR|].
  rewrite (C53_batch_mean_real tiny_env [] (cert_table cert) ds' 0 (VInt 1) [0.1] W RG E).
  - cbn. do 3 f_equal. lra.
  - unfold value. rewrite N. exact B.
  - exact BR.
Qed.

(* ------------------------------------------------------------------ *)
(** * Plots *)

Example C100_nonvacuous : exists t f, Titration tiny_env tiny_sys (w_row by_mass 1 ++ w_totals) [] = Ok t /\ mode_is (ti_row t) "ph" /\
  plot_components t true = Ok f.
Proof.
  destruct small_titration as (t & s & a0 & a1 & E & _ & _ & _ & _ & _ & _ & _ & _ & _ & MD).
  destruct (C100_available_plots _ _ _ _ _ _ E MD) as (_ & _ & _ & (f & Ef) & _). exists t, f. auto.
Qed.

Example C103_nonvacuous : exists t f lo hi n, Titration tiny_env tiny_sys (w_row by_mass 1 ++ w_totals) [] = Ok t /\ mode_is (ti_row t) "ph" /\
  plot_pH t true = Ok f /\ window (ti_row t) lo hi n /\ In (Band lo hi) (fig_marks f).
Proof.
  destruct small_titration as (t & s & a0 & a1 & E & _ & _ & _ & _ & _ & _ & _ & _ & _ & MD).
  destruct (C100_available_plots _ _ _ _ _ _ E MD) as ((f & Ef) & _).
  destruct (C103_band_is_the_window _ _ _ _ _ _ f true E MD Ef) as (lo & hi & n & W & B & _).
  exists t, f, lo, hi, n. split; [exact E|]. split; [exact MD|]. split; [exact Ef|]. split; [exact W|]. now apply B.
Qed.

Example C104_nonvacuous : exists ds' f pts, is_table ds' /\ n_rows ds' = 3%nat /\ plot_titrant_molinity ds' None true true = Ok f /\
  analyses ds' None "titrant_molinity_here" pts.
Proof.
  destruct C105_nonvacuous as (ds' & f & E & W & N & _ & P).
  assert (W' : is_table ds').
  { pose proof E as E'. apply calibrate_inv in E'. destruct E' as (ds1 & E1 & E2).
    exact (wff_solve _ _ _ _ (wff_calibrate_only _ _ _ ds1 W E1) E2). }
  destruct (proj1 (C104_every_analysis_drawn_once ds' None true true f W') P) as (pts & G & rest & A & _).
  exists ds', f, pts. auto.
Qed.
