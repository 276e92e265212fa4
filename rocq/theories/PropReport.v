(* PropReport.v -- C111: the results in a table are those of its files *)
From Coq Require Import Reals Lra Lia.
From Verif Require Import Classes Plot DictLemmas SettingsProofs PropSettings DatasetProofs RowProofs CalProofs PlotProofs SpecPlot.
From Verif Require Import SpecDataset PropDataset PropTables PropReference PropHistory PropIgnored PropCases SolveProofs Witness.
From Verif Require Import XR XRLemmas.
Open Scope string_scope.
Open Scope list_scope.

(* ------------------------------------------------------------------ *)
(** * What a row should say *)

Section Spec.
Context {T : Type} `{Num T}.

Definition first_or_nan (l : list T) : val T := match l with x :: _ => VNum x | [] => VNum nnan end.
(* population standard deviation *)
Definition spread (l : list T) : T := nsqrt (nmean (map (fun x => npow (x ⊖ nmean l) 2) l)).

(* the result columns of a titration that was solved; columns without a meaning in the mode are blank *)
Definition reported (sr : solve_result T) : list (string * val T) :=
  [("alkalinity", VNum match sr with SrEmf s => se_alkalinity s | SrPh s => sp_alkalinity s | SrPhGran s => sg_alkalinity s end);
   ("alkalinity_npts", VInt (Z.of_nat (length (filter (fun b => b) (sr_used sr)))));
   ("alkalinity_std", VNum match sr with
                           | SrEmf s => spread (flagged (se_used s) (se_alkalinity_all s))
                           | SrPh s => spread (flagged (sp_used s) (sp_alkalinity_all s))
                           | SrPhGran _ => nnan end);
   ("emf0", VNum match sr with SrEmf s => se_emf0 s | _ => nnan end);
   ("gran_alkalinity", VNum match sr with SrEmf s => ga_alkalinity (gg_ga (se_ggr s)) ⊗ nofQ 1000000 | _ => nnan end);
   ("gran_emf0", VNum match sr with SrEmf s => gg_emf0 (se_ggr s) | _ => nnan end);
   ("pH_init", first_or_nan (sr_pH sr));
   ("temperature_init", match sr_pH sr with [] => VNum nnan | _ => first_or_nan (sr_temperature sr) end)].

(* the row's own settings, or the keyword arguments where it has none *)
Definition settings_of (names : list string) (kw : kwargs T) (r : row T) (kwr : kwargs T) : Prop :=
  NoDup (dkeys kwr) /\ forall k, In k names -> dget k kwr = chosen kw r k.
End Spec.

Section P.
Context {T : Type} `{Num T}.

(* the row in the finished table is solved to itself *)
Lemma row_fixed (e : env T) kw ds ds' i r : is_table ds -> NoDup (dkeys kw) -> solve e kw ds = Ok ds' -> nth_error (f_rows ds') i = Some r ->
  exists d, solve_row e kw r = Ok d /\ forall k, In k output_cols -> dget k r = Some (cell k d).
Proof.
  intros W Wk E Ni.
  pose proof (solve_again e kw ds ds' W Wk E) as SA.
  assert (E2' := E). apply solve_inv in E2'. destruct E2' as (_ & C2 & M2). apply mapM_Forall2 in M2.
  destruct (Forall2_in_r _ _ _ _ M2 (nth_error_In _ _ Ni)) as (rp & Ip & Sp).
  assert (Pr := prepared_solved e kw (f_cols ds) rp r (proj2 W rp Ip) Sp).
  apply solve_inv in SA. destruct SA as (_ & _ & MA). apply mapM_Forall2 in MA.
  destruct (Forall2_nth _ _ _ _ _ MA Ni) as (r' & Ni' & So). rewrite Ni in Ni'. injection Ni' as <-.
  destruct (solve_one_inv _ _ _ _ _ So) as (r1 & d & P1 & S1 & F1).
  rewrite C2 in P1. rewrite (prepared_prep _ _ _ Pr) in P1. injection P1 as <-.
  exists d. split; [exact S1|]. intros k I. rewrite (finish_get _ _ _ k F1).
  - rewrite dget_put. apply mem_str_spec in I. now rewrite I.
  - intros ->. cbn in I. intuition discriminate.
Qed.

Lemma count_filter (l : list bool) : count_true l = length (filter (fun b => b) l).
Proof. reflexivity. Qed.

Lemma set_inits_get p t (d : row T) k : dget k (set_inits p t d) =
  if String.eqb k "pH_init" then match p with x :: _ => Some (VNum x) | [] => dget k d end
  else if String.eqb k "temperature_init" then match p, t with _ :: _, x :: _ => Some (VNum x) | _, _ => dget k d end
  else dget k d.
Proof.
  unfold set_inits. destruct p as [|x p]; cbn [nth_error].
  - destruct (String.eqb k "pH_init"), (String.eqb k "temperature_init"); reflexivity.
  - destruct t as [|y t]; cbn [nth_error].
    + destruct (String.eqb_spec k "pH_init") as [->|N]; [apply dget_dset_same|]. rewrite dget_dset_other by assumption.
      now destruct (String.eqb k "temperature_init").
    + destruct (String.eqb_spec k "pH_init") as [->|N]; [rewrite dget_dset_other by discriminate; apply dget_dset_same|].
      destruct (String.eqb_spec k "temperature_init") as [->|N2]; [apply dget_dset_same|].
      now rewrite !dget_dset_other by assumption.
Qed.

Lemma asr_reported (r : row T) sr k v : In (k, v) (reported sr) -> dget k (add_solve_results (blank r) sr) = Some v.
Proof.
  assert (F : forall u l, flagged u l = mask u l :> list T) by (intros u l; symmetry; apply mask_picked).
  intros I. unfold reported in I. cbn [In] in I.
  destruct sr as [s|s|s]; cbn [add_solve_results sr_used sr_pH sr_temperature] in *; cbv zeta; unfold n_used; rewrite ?F in I;
    repeat (destruct I as [I|I]; [injection I as <- <-; rewrite set_inits_get; cbn [String.eqb Ascii.eqb Bool.eqb]; 
      try (repeat rewrite dget_dset_other by discriminate; rewrite ?dget_dset_same; reflexivity)|]); try destruct I.
  all: match goal with |- context [match ?p with [] => _ | _ :: _ => _ end] => destruct p end;
    try (repeat rewrite dget_dset_other by discriminate; reflexivity);
    try (match goal with |- context [match ?p with [] => _ | _ :: _ => _ end] => destruct p end; cbn [first_or_nan]; repeat rewrite dget_dset_other by discriminate; reflexivity).
Qed.

Lemma settings_like e f c s names (kw : kwargs T) r kwr : (forall k, In k names <-> In k keys_solve) -> names = solve_settings -> NoDup (dkeys kw) ->
  settings_of solve_settings kw r kwr ->
  req (files_solve e f c s (get_kwargs_for keys_solve kw (Some r))) (files_solve e f c s kwr).
Proof.
  intros _ _ W [Wr G]. rewrite <- (files_solve_only e f c s kwr).
  apply files_solve_deq; [now apply wfd_resolve|now apply wfd_filter|]. intros k.
  unfold only. rewrite (dget_filter (fun k => mem_str k keys_solve)), resolve.
  destruct (mem_str k keys_solve) eqn:M; [|reflexivity]. rewrite G by (now apply settings_solve, mem_str_spec). reflexivity.
Qed.

Lemma settings_like_cal e f c s (kw : kwargs T) r kwr : NoDup (dkeys kw) ->
  settings_of calibrate_settings kw r kwr ->
  req (files_calibrate e f c s (get_kwargs_for keys_calibrate kw (Some r))) (files_calibrate e f c s kwr).
Proof.
  intros W [Wr G]. rewrite <- (files_calibrate_only e f c s kwr).
  apply files_calibrate_deq; [now apply wfd_resolve|now apply wfd_filter|]. intros k.
  unfold only. rewrite (dget_filter (fun k => mem_str k keys_calibrate)), resolve.
  destruct (mem_str k keys_calibrate) eqn:M; [|reflexivity]. rewrite G by (now apply settings_calibrate, mem_str_spec). reflexivity.
Qed.

Lemma solve_row_eq (e : env T) kw r kw1 f c s g : backcompat kw r = Ok kw1 ->
  dget "file_name" r = Some f -> dget "titrant_molinity" r = Some c -> dget "salinity" r = Some s -> dget "file_good" r = Some g ->
  solve_row e kw r = if notnull c && truthy g
    then match files_solve e f c s (get_kwargs_for keys_solve kw1 (Some r)) with Ok sr => Ok (add_solve_results (blank r) sr) | Err _ => Ok (blank r) end
    else Ok (blank r).
Proof.
  intros B Gf Gc Gs Gg. unfold solve_row, solve_row_try, handler, attr. rewrite B, Gf, Gc, Gs, Gg. reflexivity.
Qed.

(* ------------------------------------------------------------------ *)
(** * C111 *)

(* Each row of the finished table shows what files.solve gives for the file, molinity, salinity and
   settings in that same row; it is blank if the molinity is missing, the file is marked bad or
   files.solve raises. *)
Theorem C111_rows_report_solutions : forall (e : env T) kw ds ds' i r kwr f c s g,
  is_table ds -> NoDup (dkeys kw) -> solve e kw ds = Ok ds' ->
  nth_error (f_rows ds') i = Some r -> without_old_names kw r -> settings_of solve_settings kw r kwr ->
  dget "file_name" r = Some f -> dget "titrant_molinity" r = Some c -> dget "salinity" r = Some s -> dget "file_good" r = Some g ->
  (~ is_null c -> truthy g = true -> forall sr, files_solve e f c s kwr = Ok sr ->
     forall k v, In (k, v) (reported sr) -> value ds' i k = Some v) /\
  (is_null c \/ truthy g = false \/ (exists err, files_solve e f c s kwr = Err err) -> is_blank ds' i).
Proof.
  intros e kw ds ds' i r kwr f c s g W Wk E Ni O S Gf Gc Gs Gg.
  destruct (row_fixed e kw ds ds' i r W Wk E Ni) as (d & D & G).
  pose proof (settings_like e f c s _ kw r kwr settings_solve eq_refl Wk S) as Q.
  rewrite (solve_row_eq e kw r kw f c s g (backcompat_id _ _ O) Gf Gc Gs Gg) in D.
  revert Q D. generalize (files_solve e f c s (get_kwargs_for keys_solve kw (Some r))) as X. intros X Q D.
  split.
  - intros Nc Tg sr Sr k v I. unfold value. rewrite Ni. rewrite Sr in Q.
    replace (notnull c) with true in D by (rewrite notnull_null; unfold is_null in Nc; destruct (isnull c); [now destruct Nc|reflexivity]).
    rewrite Tg in D. cbn [andb] in D.
    destruct X as [sr'|]; cbn [req] in Q; [|contradiction]. subst sr'.
    apply (f_equal (fun z => match z with Ok y => y | Err _ => d end)) in D. cbv beta iota in D. subst d.
    pose proof (asr_reported r sr k v I) as A. rewrite G; [unfold cell; now rewrite A|].
    apply mem_str_spec. cbn [reported In] in I. repeat (destruct I as [I|I]; [injection I as <- _; reflexivity|]). destruct I.
  - intros B. assert (Db : d = blank r).
    { unfold is_null in B. rewrite notnull_null in D. destruct (isnull c); cbn [negb andb] in D; [congruence|].
      destruct (truthy g); [|congruence]. destruct B as [B|[B|[err B]]]; [discriminate..|].
      rewrite B in Q. destruct X; cbn [req] in Q; [contradiction|].
      congruence. }
    subst d. intros k v I. unfold value. rewrite Ni. rewrite G.
    + f_equal. cbn [blank_results In] in I. repeat (destruct I as [I|I]; [injection I as <- <-; reflexivity|]). destruct I.
    + apply mem_str_spec. cbn [blank_results In] in I. repeat (destruct I as [I|I]; [injection I as <- _; reflexivity|]). destruct I.
Qed.

Lemma calibrate_row_eq (e : env T) kw r kw1 f c s g : backcompat kw r = Ok kw1 ->
  dget "file_name" r = Some f -> dget "alkalinity_certified" r = Some c -> dget "salinity" r = Some s -> dget "file_good" r = Some g ->
  calibrate_row e kw r = if notnull c && truthy g
    then match files_calibrate e f c s (get_kwargs_for keys_calibrate kw1 (Some r)) with
         | Ok o => match nth_error (or_x o) 0 with Some x => Ok x | None => Ok nnan end
         | Err _ => Ok nnan end
    else Ok nnan.
Proof.
  intros B Gf Gc Gs Gg. unfold calibrate_row, calibrate_row_try, handler, attr. rewrite B, Gf, Gc, Gs, Gg. cbn [of_opt bind].
  destruct (notnull c && truthy g); [|reflexivity].
  destruct (files_calibrate e f c s _) as [o|]; cbn [bind of_opt]; [|reflexivity]. now destruct (nth_error (or_x o) 0).
Qed.

Lemma here_fixed (e : env T) kw ds ds' i r : is_table ds -> NoDup (dkeys kw) -> calibrate e kw ds = Ok ds' -> nth_error (f_rows ds') i = Some r ->
  exists x, calibrate_row e kw r = Ok x /\ dget "titrant_molinity_here" r = Some (VNum x).
Proof.
  intros W Wk E Ni. apply calibrate_inv in E. destruct E as (ds1 & E1 & E2).
  apply calibrate_only_inv in E1. destruct E1 as (_ & C1 & rows & ms & Er & Em & R1).
  apply solve_inv in E2. destruct E2 as (_ & C2 & M2). rewrite C1, R1 in M2. apply mapM_Forall2 in M2.
  assert (L := mapM_ok _ _ _ Em). destruct L as [L _]. apply mapM_Forall2 in Er, Em.
  assert (G := Forall2_map2 (fun r m => dset "titrant_molinity" (VNum m) r) rows ms (eq_sym L)).
  pose proof (Forall2_comp _ _ _ _ _ G M2) as G2. clear G M2.
  destruct (Forall2_in_r _ _ _ _ G2 (nth_error_In _ _ Ni)) as (rr & I & rt & (m' & Im & ->) & S).
  destruct (Forall2_in_r _ _ _ _ Er I) as (r0 & I0 & R0).
  destruct (cal_row e kw _ r0 rr r m' (proj2 W r0 I0) R0 S) as (r1 & x & _ & Cx & Gx & _ & _ & A).
  exists x. split; [|exact Gx]. rewrite <- Cx. apply calibrate_row_agree; [exact Wk|exact A].
Qed.

(* Each row's own titrant molinity is what files.calibrate gives for that row; it is missing if the row has no
   certified alkalinity, the file is marked bad or files.calibrate raises. *)
Theorem C111_rows_report_calibrations : forall (e : env T) kw ds ds' i r kwr f c s g,
  is_table ds -> NoDup (dkeys kw) -> calibrate e kw ds = Ok ds' ->
  nth_error (f_rows ds') i = Some r -> without_old_names kw r -> settings_of calibrate_settings kw r kwr ->
  dget "file_name" r = Some f -> dget "alkalinity_certified" r = Some c -> dget "salinity" r = Some s -> dget "file_good" r = Some g ->
  (~ is_null c -> truthy g = true -> forall o x rest, files_calibrate e f c s kwr = Ok o -> or_x o = x :: rest ->
     value ds' i "titrant_molinity_here" = Some (VNum x)) /\
  (is_null c \/ truthy g = false \/ (exists err, files_calibrate e f c s kwr = Err err) ->
     value ds' i "titrant_molinity_here" = Some (VNum nnan)).
Proof.
  intros e kw ds ds' i r kwr f c s g W Wk E Ni O S Gf Gc Gs Gg.
  destruct (here_fixed e kw ds ds' i r W Wk E Ni) as (x & D & G).
  pose proof (settings_like_cal e f c s kw r kwr Wk S) as Q.
  rewrite (calibrate_row_eq e kw r kw f c s g (backcompat_id _ _ O) Gf Gc Gs Gg) in D.
  revert Q D. generalize (files_calibrate e f c s (get_kwargs_for keys_calibrate kw (Some r))) as X. intros X Q D.
  unfold value. rewrite Ni, G. rewrite notnull_null in D. unfold is_null. split.
  - intros Nc Tg o y rest Fo Ox. rewrite Fo in Q. destruct X as [o'|]; cbn [req] in Q; [subst o'|contradiction].
    destruct (isnull c); [now destruct Nc|]. rewrite Tg in D. cbn [negb andb] in D. rewrite Ox in D. cbn in D. congruence.
  - intros B. destruct (isnull c); cbn [negb andb] in D; [congruence|]. destruct (truthy g); [|congruence].
    destruct B as [B|[B|[err B]]]; [discriminate..|]. rewrite B in Q. destruct X; cbn [req] in Q; [contradiction|]. congruence.
Qed.
End P.

(* over the reals, the spread is the population standard deviation *)
Open Scope R_scope.
Theorem C111_spread_real : forall xs, xs <> [] ->
  spread (map Fin xs) =
  (let mean := fold_right Rplus 0 xs / INR (length xs) in
   Fin (sqrt (fold_right Rplus 0 (map (fun x => (x - mean) ^ 2) xs) / INR (length xs)))).
Proof.
  intros xs N. cbv zeta. change (spread (map Fin xs)) with (nstd (map Fin xs)). rewrite nstd_fin by assumption.
  unfold Rvar, Rmean, Rsum. now rewrite map_length.
Qed.

(* ------------------------------------------------------------------ *)
(** * Cases *)

(* a table with a titration that is solved; its row shows two points used and no emf0, as in the pH mode *)
Example C111_nonvacuous : exists ds' r f c s g kwr sr,
  is_table (one_row "gen.dat") /\ solve tiny_env [] (one_row "gen.dat") = Ok ds' /\ nth_error (f_rows ds') 0 = Some r /\
  without_old_names [] r /\ settings_of solve_settings [] r kwr /\
  dget "file_name" r = Some f /\ dget "titrant_molinity" r = Some c /\ dget "salinity" r = Some s /\ dget "file_good" r = Some g /\
  ~ is_null c /\ truthy g = true /\ files_solve tiny_env f c s kwr = Ok sr /\ length (filter (fun b => b) (sr_used sr)) = 2%nat.
Proof.
  destruct gen_row_solved as (d & E & _). assert (W := one_row_table "gen.dat").
  assert (E' := E). apply solve_inv in E'. destruct E' as (_ & _ & M). cbn [f_rows one_row mapM] in M.
  destruct (solve_one tiny_env [] (f_cols (one_row "gen.dat")) (tiny_row "gen.dat")) as [r|] eqn:S; cbn [bind] in M; [|discriminate].
  destruct (solve_one_inv _ _ _ _ _ S) as (r1 & x & P & Sx & F).
  rewrite one_row_prepped in P. apply ok_inj in P. subst r1.
  assert (A : forall k, In k ("file_name" :: "titrant_molinity" :: "salinity" :: "file_good" :: "analyte_mass" :: "read_dat_method" :: "alkalinity_certified" :: prep_keys ++ keys_solve ++ keys_calibrate) ->
    dget k r = dget k (prepped "gen.dat")).
  { intros k I. apply (solved_same_inputs tiny_env [] (f_cols (one_row "gen.dat")) (tiny_row "gen.dat") r (prepped "gen.dat") x k); auto.
    }
  destruct (tiny_solved "gen.dat" row_kw "pH") as (s & Es & Cs); try reflexivity; [apply prepped_totals; reflexivity|].
  exists d, r, (VStr "gen.dat"), (VNum (Fin 1)), (VInt 35), (VBool true), row_kw, (SrPh s).
  split; [exact W|]. split; [exact E|]. split. { apply ok_inj in M. rewrite <- M. reflexivity. }
  split. { split; [reflexivity|]. rewrite A by (apply mem_str_spec; reflexivity). reflexivity. }
  split. { split.
    - apply (wfd_resolve keys_solve [] (prepped "gen.dat")). constructor.
    - intros k I. apply settings_solve in I. unfold row_kw. rewrite resolve. apply mem_str_spec in I. rewrite I. unfold chosen.
      rewrite A; [reflexivity|]. do 7 right. apply in_or_app. right. apply in_or_app. left. now apply mem_str_spec. }
  do 4 (split; [rewrite A by (apply mem_str_spec; reflexivity); reflexivity|]).
  split; [discriminate|]. split; [reflexivity|]. split; [exact Es|exact Cs].
Qed.

(* and one that is calibrated *)
Example C111_calibration_nonvacuous : exists cert ds' r,
  is_table (cert_table cert) /\ calibrate tiny_env [] (cert_table cert) = Ok ds' /\ nth_error (f_rows ds') 0 = Some r /\
  dget "titrant_molinity_here" r = Some (VNum (Fin 0.1)).
Proof.
  destruct C60_nonvacuous as (cert & ds' & r & W & _ & E & N & _ & G & _). exists cert, ds', r. auto.
Qed.

Print Assumptions C111_rows_report_solutions.
Print Assumptions C111_rows_report_calibrations.
Print Assumptions C111_spread_real.
