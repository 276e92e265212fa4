(* PropBatch.v -- C53, C54: the titrant molinity of an analysis batch *)
From Coq Require Import Reals Qreals Lra.
From Verif Require Import Dataset SpecDataset DictLemmas SettingsProofs PropSettings DatasetProofs RowProofs CalProofs PropDataset PropTables Witness.
Open Scope string_scope.
Open Scope list_scope.

Section P.
Context {T : Type} `{Num T}.

Definition flag (v : val T) : Prop := is_null v \/ exists b, v = VBool b.

Lemma mapM_total {A B} (f : A -> res B) l : (forall x, In x l -> exists y, f x = Ok y) -> exists l', mapM f l = Ok l'.
Proof.
  induction l as [|x l IH]; intros R; cbn [mapM]; [eauto|].
  destruct (R x) as (y & ->); [now left|]. destruct IH as (l' & ->); [intros; apply R; now right|]. cbn [bind]. eauto.
Qed.

(* a table after calibrate, row by row: the original row, the row when the batches are
   formed, the batch's molinity and the final row *)
Lemma calibrate_stages e kw (ds ds' : frame T) : wff ds -> calibrate e kw ds = Ok ds' ->
  exists rows, mapM (ref_one e kw (f_cols ds)) (f_rows ds) = Ok rows /\
    Forall2 (fun rr r2 => exists m, batch_molinity rows rr = Ok m /\ dget "titrant_molinity" r2 = Some (VNum m) /\
      (exists x, dget "titrant_molinity_here" rr = Some (VNum x)) /\
      forall k, In k ["analysis_batch"; "reference_good"; "titrant_molinity_here"] -> dget k r2 = dget k rr) rows (f_rows ds').
Proof.
  intros W E. apply calibrate_inv in E. destruct E as (ds1 & E1 & E2).
  apply calibrate_only_inv in E1. destruct E1 as (O & C1 & rows & ms & Er & Em & R1).
  apply solve_inv in E2. destruct E2 as (_ & C2 & M2). exists rows. split; [exact Er|].
  rewrite C1, R1 in M2. apply mapM_Forall2 in M2. assert (L := mapM_ok _ _ _ Em). destruct L as [L _].
  apply mapM_Forall2 in Er, Em.
  assert (G := Forall2_map2 (fun r m => dset "titrant_molinity" (VNum m) r) rows ms (eq_sym L)).
  pose proof (Forall2_comp _ _ _ _ _ G M2) as G2. eapply Forall2_mono; [|exact G2]. cbn.
  intros rr r2 I _ (rt & (m & Im & ->) & S). destruct (Forall2_in_r _ _ _ _ Er I) as (r0 & I0 & R0).
  destruct (cal_row e kw _ r0 rr r2 m (proj2 W r0 I0) R0 S) as (r1 & x & _ & _ & Gh & Gm & A & _).
  exists m. split; [exact (Forall2_combine _ _ _ _ _ Em Im)|]. split; [exact Gm|]. split; [|exact A].
  exists x. rewrite <- A by (cbn; tauto). exact Gh.
Qed.


Lemma good_molinities_spec (rows rows2 : list (row T)) b : nisnan (nnan : T) = true ->
  Forall2 (fun rr r2 : row T => (exists x, dget "titrant_molinity_here" rr = Some (VNum x)) /\
     (exists k, dget "analysis_batch" rr = Some k) /\ (exists v, dget "reference_good" rr = Some v /\ flag v) /\
     forall k, In k ["analysis_batch"; "reference_good"; "titrant_molinity_here"] -> dget k r2 = dget k rr) rows rows2 ->
  good_molinities (filter (in_batch b) rows) = Ok (flat_map (good_reference b) rows2).
Proof.
  intros NN. induction 1 as [|rr r2 l l2 A _ IH]; [reflexivity|]. cbn [filter flat_map].
  destruct A as ((x & Gx) & (k & Gk) & (v & Gv & Fv) & A).
  unfold good_reference at 1. rewrite !A by (cbn; tauto). rewrite Gx, Gk, Gv.
  unfold in_batch at 1, cell. rewrite Gk. destruct (key_eqb k b) eqn:K; cbn [andb].
  - cbn [good_molinities]. rewrite IH. cbn [bind]. unfold cell. rewrite Gx, Gv.
    assert (CX : cell_num (VNum x : val T) = Ok (if nisnan x then nnan else x)) by (unfold cell_num; cbn [isnull as_num]; now destruct (nisnan x)).
    destruct Fv as [N|(bb & ->)].
    + unfold is_null in N. unfold good_ref. rewrite N. cbn [bind]. rewrite CX. cbn [bind andb]. destruct v; try discriminate; reflexivity.
    + cbn [good_ref isnull bind]. rewrite CX. cbn [bind]. destruct bb; [|reflexivity]. cbn [andb].
      destruct (nisnan x) eqn:NX; [now rewrite NN|now rewrite NX].
  - rewrite IH. destruct v as [|[]| | | | |]; reflexivity.
Qed.

Lemma ref_one_flags e kw cols (r0 rr : row T) : dkeys r0 = cols -> ref_one e kw cols r0 = Ok rr ->
  (forall v, dget "reference_good" r0 = Some v -> flag v) ->
  (exists k, dget "analysis_batch" rr = Some k) /\ (exists v, dget "reference_good" rr = Some v /\ flag v).
Proof.
  intros K E F. assert (Kr := ref_one_keys e kw cols r0 rr K E).
  assert (X : forall c, mem_str c (ref_cols cols) = true -> exists v, dget c rr = Some v).
  { intros c M. apply dmem_true_get, dget_in_keys. rewrite Kr. now apply mem_str_spec. }
  split; [apply X; unfold ref_cols; rewrite !mem_addc; now rewrite !orb_true_r|].
  destruct (X "reference_good") as (v & G); [unfold ref_cols; rewrite !mem_addc; now rewrite !orb_true_r|].
  exists v. split; [exact G|].
  destruct (ref_one_inv _ _ _ _ _ E) as (r1 & x & P & _ & R).
  destruct (mem_str "reference_good" cols) eqn:M.
  - apply F. rewrite <- G, R. unfold flag_row. rewrite M. symmetry.
    rewrite <- (prep_row_get e cols r0 r1 "reference_good" P) by (cbn; intuition discriminate).
    destruct (mem_str "analysis_batch" cols); rewrite ?dget_dset_other by discriminate; reflexivity.
  - right. rewrite R in G. unfold flag_row in G. rewrite M in G. cbv zeta in G. rewrite dget_dset_same in G. injection G as <-. eauto.
Qed.

Lemma batch_molinity_inv (rows : list (row T)) r m : batch_molinity rows r = Ok m ->
  isnull (cell "analysis_batch" r) = false /\
  exists l, good_molinities (filter (in_batch (cell "analysis_batch" r)) rows) = Ok l /\ m = nmean l.
Proof.
  unfold batch_molinity, get_group_calibration. cbv zeta. intros E. set (k := cell "analysis_batch" r) in *.
  assert (X : isnull k = false /\ (b <- (l <- good_molinities (filter (in_batch k) rows) ;;
      Ok {| b_molinity := nmean l; b_std := nstd1 l; b_count := length l |}) ;; Ok (b_molinity b)) = Ok m).
  { destruct k; try discriminate; destruct (isnull _) eqn:N in E; try discriminate; (split; [exact N|exact E]). }
  destruct X as [N X]. split; [exact N|].
  destruct (good_molinities _) as [l|]; cbn [bind] in X; [|discriminate]. injection X as <-. eauto.
Qed.

(* ------------------------------------------------------------------ *)
(** * C53 *)

(* every row gets the mean of the molinities of the good references of its own batch *)
Theorem C53_batch_mean : forall (e : env T) kw ds ds', nisnan (nnan : T) = true -> is_table ds ->
  all_cells ds "reference_good" (fun v => is_null v \/ exists b, v = VBool b) ->
  calibrate e kw ds = Ok ds' ->
  forall i, (i < n_rows ds')%nat -> exists b,
    value ds' i "analysis_batch" = Some b /\ ~ is_null b /\
    value ds' i "titrant_molinity" = Some (VNum (nmean (batch_references ds' b))).
Proof.
  intros e kw ds ds' NN W F E i Li. destruct (calibrate_stages e kw ds ds' W E) as (rows & Er & G).
  apply mapM_Forall2 in Er.
  assert (Q : Forall2 (fun rr r2 : row T => (exists x, dget "titrant_molinity_here" rr = Some (VNum x)) /\
     (exists k, dget "analysis_batch" rr = Some k) /\ (exists v, dget "reference_good" rr = Some v /\ flag v) /\
     forall k, In k ["analysis_batch"; "reference_good"; "titrant_molinity_here"] -> dget k r2 = dget k rr) rows (f_rows ds')).
  { eapply Forall2_mono; [|exact G]. cbn beta. intros rr r2 I _ (m & _ & _ & X & A).
    destruct (Forall2_in_r _ _ _ _ Er I) as (r0 & I0 & R0).
    destruct (ref_one_flags e kw (f_cols ds) r0 rr (proj2 W r0 I0) R0) as [B C]; [intros v Gv; exact (F r0 v I0 Gv)|]. auto. }
  unfold n_rows in Li. apply nth_error_Some in Li. destruct (nth_error (f_rows ds') i) as [r2|] eqn:N2; [|congruence].
  assert (L : length rows = length (f_rows ds')) by (clear - G; induction G; cbn; congruence).
  destruct (nth_error rows i) as [rr|] eqn:N1.
  2:{ apply nth_error_None in N1. rewrite L in N1. apply nth_error_None in N1. congruence. }
  destruct (Forall2_nth _ _ _ _ _ G N1) as (r2' & N2' & m & Bm & Gm & _ & A). pose proof (eq_trans (eq_sym N2) N2') as NX. injection NX as <-. clear N2'.
  destruct (Forall2_nth _ _ _ _ _ Q N1) as (r2' & N2' & _ & (k & Gk) & _ & _). pose proof (eq_trans (eq_sym N2) N2') as NX. injection NX as <-. clear N2'.
  destruct (batch_molinity_inv _ _ _ Bm) as (Nk & l & Gl & ->).
  unfold cell in Nk, Gl. rewrite Gk in Nk, Gl. rewrite (good_molinities_spec _ _ _ NN Q) in Gl. injection Gl as <-.
  exists k. rewrite !(value_nth _ _ _ _ N2). rewrite (A "analysis_batch") by (cbn; tauto). split; [exact Gk|].
  split; [unfold is_null; now rewrite Nk|exact Gm].
Qed.

Lemma prep_borate e cols (r r1 : row T) v : prep_row e cols r = Ok r1 -> dget "opt_total_borate" r1 = Some v ->
  v = VInt 1 \/ dget "opt_total_borate" r = Some v.
Proof.
  unfold prep_row. intros E G. rewrite salt_row_spec in E.
  destruct (salt_val e "total_sulfate" r) as [s1|]; cbn [bind] in E; [|discriminate].
  destruct (salt_val e "total_borate" r) as [s2|]; cbn [bind] in E; [|discriminate].
  destruct (salt_val e "total_fluoride" r) as [s3|]; cbn [bind] in E; [|discriminate].
  injection E as <-. rewrite rest_row_get in G by (cbn; intuition discriminate).
  rewrite !dget_dset_other in G by discriminate. rewrite dget_dset_same in G. injection G as <-.
  unfold def_borate, cell. destruct (dget "opt_total_borate" r) as [u|]; [destruct (notnull u); auto|cbn; auto].
Qed.

(* ------------------------------------------------------------------ *)
(** * C54 *)

(* a row without a batch stops the whole table *)
Lemma null_batch_raises (e : env T) kw ds i v : is_table ds ->
  value ds i "analysis_batch" = Some v -> is_null v -> forall ds', calibrate e kw ds <> Ok ds'.
Proof.
  intros W V N ds' E. destruct (calibrate_stages e kw ds ds' W E) as (rows & Er & G). apply mapM_Forall2 in Er.
  unfold value in V. destruct (nth_error (f_rows ds) i) as [r0|] eqn:N0; [|discriminate].
  destruct (Forall2_nth _ _ _ _ _ Er N0) as (rr & N1 & R0).
  destruct (Forall2_nth _ _ _ _ _ G N1) as (r2 & _ & m & Bm & _).
  destruct (batch_molinity_inv _ _ _ Bm) as (Nk & _).
  assert (M : mem_str "analysis_batch" (f_cols ds) = true).
  { apply mem_str_spec. rewrite <- (proj2 W r0) by (now apply nth_error_In in N0). apply dget_in_keys, dmem_true_get. eauto. }
  destruct (ref_one_inv _ _ _ _ _ R0) as (r1 & x & P & _ & R).
  assert (Gr : dget "analysis_batch" rr = Some v).
  { rewrite R. unfold flag_row. rewrite M. cbv zeta.
    destruct (mem_str "reference_good" (f_cols ds)); rewrite ?dget_dset_other by discriminate;
      now rewrite (prep_row_get e (f_cols ds) r0 r1 "analysis_batch" P) by (cbn; intuition discriminate). }
  unfold cell in Nk. rewrite Gr in Nk. unfold is_null in N. congruence.
Qed.

(* a table in which every row has a batch and flags are booleans always gets through *)
Theorem C54_calibrate_completes_partial : forall (e : env T) kw ds, is_table ds -> no_old_kwargs kw ->
  (forall c, In c ["file_name"; "salinity"; "alkalinity_certified"] -> In c (f_cols ds)) ->
  (In "analyte_mass" (f_cols ds) \/ In "analyte_volume" (f_cols ds)) ->
  (forall c, In c ["salinity"; "opt_total_borate"; "alkalinity_certified"] ->
             all_cells ds c (fun v => is_null v \/ numeric v)) ->
  all_cells ds "analysis_batch" (fun v => ~ is_null v /\ ((exists s, v = VStr s) \/ numeric v)) ->
  all_cells ds "reference_good" (fun v => is_null v \/ exists b, v = VBool b) ->
  exists ds', calibrate e kw ds = Ok ds'.
Proof.
  intros e kw ds W K Cs Cm Cn Cb Cf.
  assert (O : calibrate_ok (f_cols ds) = true).
  { unfold calibrate_ok, prepare_ok. assert (M : forall c, In c (f_cols ds) -> mem_str c (f_cols ds) = true) by (intros; now apply mem_str_spec).
    rewrite (M "salinity"), (M "alkalinity_certified") by (apply Cs; cbn; tauto). 
    destruct Cm as [Cm|Cm]; rewrite (M _ Cm); now rewrite ?orb_true_r. }
  assert (R : forall r0, In r0 (f_rows ds) -> exists rr, ref_one e kw (f_cols ds) r0 = Ok rr).
  { intros r0 I. destruct (prep_row_ok e (f_cols ds) r0) as (r1 & P).
    1-2: eapply cell_null_or; [apply Cn; cbn; tauto|exact I|auto].
    unfold ref_one. rewrite P. cbn [bind].
    assert (K1 := prep_row_keys e (f_cols ds) r0 r1 (proj2 W r0 I) P).
    assert (X : forall c, mem_str c (prep_cols (f_cols ds)) = true -> exists v, dget c r1 = Some v).
    { intros c M. apply dmem_true_get, dget_in_keys. rewrite K1. now apply mem_str_spec. }
    assert (Y : forall c, In c ["file_name"; "alkalinity_certified"; "file_good"] -> exists v, dget c r1 = Some v).
    { intros c Ic. apply X. rewrite mem_prep_cols. cbn in Ic. destruct Ic as [<-|[<-|[<-|[]]]].
      - assert (M : In "file_name" (f_cols ds)) by (apply Cs; cbn; tauto). apply mem_str_spec in M. now rewrite M.
      - assert (M : In "alkalinity_certified" (f_cols ds)) by (apply Cs; cbn; tauto). apply mem_str_spec in M. now rewrite M.
      - apply orb_true_r. }
    destruct (Y "file_name") as (f & Gf); [cbn; tauto|]. destruct (Y "alkalinity_certified") as (c & Gc); [cbn; tauto|].
    destruct (Y "file_good") as (g & Gg); [cbn; tauto|].
    unfold calibrate_row, handler, attr. rewrite Gf, Gc, Gg. cbn [of_opt bind].
    destruct (notnull c && truthy g); [|cbn [bind]; eauto]. destruct (calibrate_row_try e kw r1); cbn [bind]; eauto. }
  assert (exists rows, mapM (ref_one e kw (f_cols ds)) (f_rows ds) = Ok rows) as (rows & Er).
  { exact (mapM_total _ _ R). }
  assert (Er' := Er). apply mapM_Forall2 in Er'.
  (* the flags and batches of the rows *)
  assert (Fl : forall rr, In rr rows -> (exists x, dget "titrant_molinity_here" rr = Some (VNum x)) /\
     (exists k, dget "analysis_batch" rr = Some k /\ isnull k = false /\ (forall l, k <> VTup l) /\ (forall d, k <> VDict d)) /\
     (exists v, dget "reference_good" rr = Some v /\ flag v)).
  { intros rr I. destruct (Forall2_in_r _ _ _ _ Er' I) as (r0 & I0 & R0).
    destruct (ref_one_flags e kw (f_cols ds) r0 rr (proj2 W r0 I0) R0) as [(k & Gk) B]; [intros v Gv; exact (Cf r0 v I0 Gv)|].
    destruct (ref_one_inv _ _ _ _ _ R0) as (r1 & x & P & _ & Rr).
    split; [exists x; rewrite Rr, flag_row_get by discriminate; apply dget_dset_same|]. split; [|exact B].
    exists k. split; [exact Gk|].
    destruct (mem_str "analysis_batch" (f_cols ds)) eqn:M.
    - assert (G0 : dget "analysis_batch" r0 = Some k).
      { rewrite <- Gk, Rr. unfold flag_row. rewrite M. cbv zeta.
        destruct (mem_str "reference_good" (f_cols ds)); rewrite ?dget_dset_other by discriminate;
          now rewrite (prep_row_get e (f_cols ds) r0 r1 "analysis_batch" P) by (cbn; intuition discriminate). }
      destruct (Cb r0 k I0 G0) as [Nk Tk]. unfold is_null in Nk. split; [now destruct (isnull k)|].
      destruct Tk as [(s & ->)|(y & Ey)]; [split; discriminate|]. split; intros ? ->; discriminate.
    - assert (k = VInt 0).
      { rewrite Rr in Gk. unfold flag_row in Gk. rewrite M in Gk. cbv zeta in Gk.
        destruct (mem_str "reference_good" (f_cols ds)); rewrite ?(dget_dset_other "analysis_batch") in Gk by discriminate;
          rewrite dget_dset_same in Gk; congruence. }
      subst k. repeat split; discriminate. }
  assert (GM : forall b l, (forall rr, In rr l -> In rr rows) -> exists xs, good_molinities (filter (in_batch b) l) = Ok xs).
  { intros b. induction l as [|rr l IH]; intros S; cbn [filter]; [cbn; eauto|].
    destruct IH as (xs & Ex); [intros; apply S; now right|].
    destruct (in_batch b rr); [|eauto]. cbn [good_molinities]. rewrite Ex. cbn [bind].
    destruct (Fl rr) as ((x & Gx) & _ & (v & Gv & Fv)); [apply S; now left|]. unfold cell. rewrite Gx, Gv.
    assert (exists g, good_ref v = Ok g) as (g & ->).
    { destruct Fv as [N|(bb & ->)]; [unfold is_null in N; unfold good_ref; rewrite N; eauto|cbn; eauto]. }
    cbn [bind]. unfold cell_num. cbn [isnull as_num]. destruct (nisnan x); cbn [bind]; eauto. }
  assert (exists ms, mapM (batch_molinity rows) rows = Ok ms) as (ms & Em).
  { assert (B : forall rr, In rr rows -> exists m, batch_molinity rows rr = Ok m).
    { intros rr I. destruct (Fl rr I) as (_ & (k & Gk & Nk & T1 & T2) & _).
      destruct (GM k rows) as (xs & Ex); [auto|]. unfold batch_molinity, get_group_calibration, cell. rewrite Gk. cbv zeta. rewrite Ex, Nk. cbn [bind].
      destruct k; eauto; [now destruct (T1 _ eq_refl)|now destruct (T2 _ eq_refl)]. }
    exact (mapM_total _ _ B). }
  assert (C1 : exists ds1, calibrate_only e kw ds = Ok ds1).
  { exists {| f_cols := addc "titrant_molinity" (ref_cols (f_cols ds)); f_rows := map2 (fun r m => dset "titrant_molinity" (VNum m) r) rows ms |}.
    apply calibrate_only_inv. cbn [f_cols f_rows]. split; [exact O|]. split; [reflexivity|]. exists rows, ms. auto. }
  destruct C1 as (ds1 & E1). assert (W1 := wff_calibrate_only e kw ds ds1 W E1).
  assert (exists ds', solve e kw ds1 = Ok ds') as (ds' & E2).
  2:{ exists ds'. apply calibrate_inv. eauto. }
  apply calibrate_only_inv in E1. destruct E1 as (_ & C1 & rows' & ms' & Er2 & Em2 & R1). rewrite Er in Er2. injection Er2 as <-.
  apply C51_solve_never_raises; auto.
  - intros c Ic. rewrite C1. apply mem_str_spec. rewrite mem_ref_cols, mem_prep_cols. cbn in Ic. destruct Ic as [<-|[<-|[<-|[]]]].
    + assert (M : In "file_name" (f_cols ds)) by (apply Cs; cbn; tauto). apply mem_str_spec in M. now rewrite M.
    + assert (M : In "salinity" (f_cols ds)) by (apply Cs; cbn; tauto). apply mem_str_spec in M. now rewrite M.
    + apply orb_true_r.
  - left. rewrite C1. apply mem_str_spec. rewrite mem_ref_cols, mem_prep_cols.
    replace (mem_str "analyte_mass" ["opt_total_borate"; "total_sulfate"; "total_borate"; "total_fluoride"; "analyte_mass"; "file_good"]) with true by reflexivity.
    now rewrite orb_true_r.
  - intros c Ic r v I G. rewrite R1 in I. apply in_map2 in I. destruct I as (rr & m & Irr & _ & ->).
    rewrite dget_dset_other in G by (cbn in Ic; destruct Ic as [<-|[<-|[<-|[]]]]; discriminate).
    destruct (Forall2_in_r _ _ _ _ Er' Irr) as (r0 & I0 & R0).
    destruct (ref_one_inv _ _ _ _ _ R0) as (r1 & x & P & _ & Rr).
    rewrite Rr, flag_row_get, dget_dset_other in G by (cbn in Ic; destruct Ic as [<-|[<-|[<-|[]]]]; discriminate).
    cbn in Ic. destruct Ic as [<-|[<-|[<-|[]]]].
    + rewrite (prep_row_get e _ _ _ _ P) in G by (cbn; intuition discriminate). apply (Cn "salinity" ltac:(cbn; tauto) r0 v I0 G).
    + destruct (prep_borate e (f_cols ds) r0 r1 v P G) as [->|G0]; [right; cbn; eexists; reflexivity|].
      apply (Cn "opt_total_borate" ltac:(cbn; tauto) r0 v I0 G0).
    + rewrite (prep_row_get e _ _ _ _ P) in G by (cbn; intuition discriminate). apply (Cn "alkalinity_certified" ltac:(cbn; tauto) r0 v I0 G).
Qed.

End P.

(* the property fails: one row with an empty analysis_batch and no row is calibrated *)
Theorem C54_null_batch_stops_everything : forall {T} `{Num T} (e : env T) kw ds i v, is_table ds ->
  value ds i "analysis_batch" = Some v -> is_null v -> forall ds', calibrate e kw ds <> Ok ds'.
Proof. intros. eapply null_batch_raises; eassumption. Qed.

Section XR.
Open Scope R_scope.

Definition ref_row (b : val xr) : row xr := tiny_row "gen.dat" ++ [("alkalinity_certified", VNum (Fin 2000)); ("analysis_batch", b)].
Definition ref_table (bs : list (val xr)) : frame xr :=
  {| f_cols := dkeys (ref_row VNone); f_rows := map ref_row bs |}.

Lemma ref_is_table bs : is_table (ref_table bs).
Proof.
  split; [repeat constructor; cbn; intuition discriminate|]. intros r I. cbn [f_rows ref_table] in I.
  apply in_map_iff in I. destruct I as (b & <- & _). reflexivity.
Qed.

Lemma ref_cells bs c (P : val xr -> Prop) : (forall b v, In b bs -> dget c (ref_row b) = Some v -> P v) -> all_cells (ref_table bs) c P.
Proof. intros A r v I G. cbn [f_rows ref_table] in I. apply in_map_iff in I. destruct I as (b & <- & I). now apply (A b). Qed.

Lemma ref_numeric bs c : In c ["salinity"; "opt_total_borate"; "alkalinity_certified"] -> all_cells (ref_table bs) c (fun v => is_null v \/ numeric v).
Proof.
  intros I. apply ref_cells. intros b v _ G. cbn in I. destruct I as [<-|[<-|[<-|[]]]]; cbn in G; [|discriminate|]; injection G as <-; right; eexists; reflexivity.
Qed.
Lemma ref_columns bs c : In c ["file_name"; "salinity"; "alkalinity_certified"] -> In c (f_cols (ref_table bs)).
Proof. intros I. cbn in I. destruct I as [<-|[<-|[<-|[]]]]; cbn; tauto. Qed.
Lemma ref_good_cells bs : all_cells (ref_table bs) "reference_good" (fun v => is_null v \/ exists b, v = VBool b).
Proof. apply ref_cells. intros b v _ G. discriminate. Qed.

(* the same table without the null completes *)
Theorem C54_null_batch_refuted : exists (e : env xr) ds,
  is_table ds /\
  (forall c, In c ["file_name"; "salinity"; "alkalinity_certified"; "analyte_mass"; "analysis_batch"] -> In c (f_cols ds)) /\
  (forall c, In c ["salinity"; "opt_total_borate"; "alkalinity_certified"] -> all_cells ds c (fun v => is_null v \/ numeric v)) /\
  all_cells ds "analysis_batch" (fun v => is_null v \/ numeric v) /\
  (exists r, In r (f_rows ds) /\ dget "analysis_batch" r = Some (VInt 1)) /\
  (forall ds', calibrate e [] ds <> Ok ds').
Proof.
  exists tiny_env, (ref_table [VInt 1; VNum NaN]). split; [apply ref_is_table|].
  split; [intros c I; cbn in I; repeat (destruct I as [<-|I]; [cbn; tauto|]); contradiction|].
  split; [intros c I; now apply ref_numeric|].
  split.
  { apply ref_cells. intros b v I G. cbn in G. injection G as <-. destruct I as [<-|[<-|[]]]; [right; eexists; reflexivity|left; reflexivity]. }
  split; [exists (ref_row (VInt 1)); split; [now left|reflexivity]|].
  apply (C54_null_batch_stops_everything tiny_env [] _ 1 (VNum NaN)); [apply ref_is_table|reflexivity..].
Qed.

Example C54_nonvacuous : exists ds', calibrate tiny_env [] (ref_table [VInt 1; VInt 2; VStr "b"]) = Ok ds'.
Proof.
  apply C54_calibrate_completes_partial.
  - apply ref_is_table.
  - split; reflexivity.
  - apply ref_columns.
  - left. cbn. tauto.
  - intros c I. now apply ref_numeric.
  - apply ref_cells. intros b v I G. cbn in G. injection G as <-.
    repeat (destruct I as [<-|I]; [split; [discriminate|eauto; try (right; eexists; reflexivity)]|]). destruct I.
  - apply ref_good_cells.
Qed.

(* ------------------------------------------------------------------ *)
(** * C53 over the reals *)

Theorem C53_batch_mean_real : forall (e : env xr) kw ds ds' i b xs, is_table ds ->
  all_cells ds "reference_good" (fun v => is_null v \/ exists b, v = VBool b) ->
  calibrate e kw ds = Ok ds' -> value ds' i "analysis_batch" = Some b ->
  batch_references ds' b = map Fin xs ->
  value ds' i "titrant_molinity" =
    Some (VNum (if xs then NaN else Fin (fold_right Rplus 0 xs / INR (length xs)))).
Proof.
  intros e kw ds ds' i b xs W F E V B.
  assert (NN : nisnan (nnan : xr) = true) by reflexivity.
  destruct (C53_batch_mean e kw ds ds' NN W F E i) as (b' & Vb & _ & Vm).
  { unfold value in V. unfold n_rows. apply nth_error_Some. now destruct (nth_error (f_rows ds') i). }
  rewrite V in Vb. injection Vb as <-. rewrite Vm, B. do 2 f_equal. destruct xs as [|x xs]; [apply nmean_nil|].
  rewrite nmean_fin by discriminate. reflexivity.
Qed.

Lemma as_num_key (a b : val xr) : key_eqb a b = true -> (exists s, a = VStr s /\ b = VStr s) \/
  (exists x y, as_num a = Ok x /\ as_num b = Ok y /\ x_eqb x y = true).
Proof.
  intros E. destruct a, b; cbn in E; try discriminate;
    try (right; do 2 eexists; split; [reflexivity|]; split; [reflexivity|exact E]).
  apply String.eqb_eq in E. left. subst. eauto.
Qed.

Lemma x_eqb_sub x y : x_eqb x y = true -> x = y.
Proof. destruct x, y; cbn; try discriminate; try reflexivity. intros E. f_equal. now apply reqb_spec. Qed.

Lemma key_eqb_num (a b : val xr) x : as_num b = Ok x -> key_eqb a b = match as_num a with Ok y => x_eqb y x | Err _ => false end.
Proof. intros E. destruct a, b; cbn in *; try discriminate; injection E as <-; reflexivity. Qed.

(* batches are disjoint or equal *)
Lemma key_eqb_sub (a b c : val xr) : key_eqb a b = true -> key_eqb c a = key_eqb c b.
Proof.
  intros E. destruct (as_num_key a b E) as [(s & -> & ->)|(x & y & Ea & Eb & X)]; [reflexivity|].
  apply x_eqb_sub in X. subst y. now rewrite (key_eqb_num c a x Ea), (key_eqb_num c b x Eb).
Qed.

Lemma mapM_filter {A B} (f : A -> res B) p q l l' : mapM f l = Ok l' ->
  (forall x y, In x l -> f x = Ok y -> p x = q y) -> mapM f (filter p l) = Ok (filter q l').
Proof.
  intros E P. apply mapM_Forall2 in E. apply mapM_Forall2. induction E as [|x y l l' F E IH]; [constructor|].
  cbn [filter]. rewrite (P x y (or_introl eq_refl) F). destruct (q y).
  - constructor; [exact F|]. apply IH. intros; apply P; [now right|assumption].
  - apply IH. intros; apply P; [now right|assumption].
Qed.

Lemma filter_sub {A} (p q : A -> bool) l : (forall x, In x l -> q x = true -> p x = true) -> filter q (filter p l) = filter q l.
Proof.
  induction l as [|x l IH]; intros S; [reflexivity|]. cbn [filter].
  destruct (p x) eqn:P; cbn [filter].
  - rewrite IH by (intros; apply S; [now right|assumption]). reflexivity.
  - destruct (q x) eqn:Q; [rewrite (S x (or_introl eq_refl) Q) in P; discriminate|]. apply IH. intros; apply S; [now right|assumption].
Qed.

(* the rows of other batches have no effect: calibrating the rows of one batch only gives
   the same results for them *)
Theorem C53_other_batches_irrelevant : forall (e : env xr) kw ds ds' b, is_table ds ->
  In "analysis_batch" (f_cols ds) -> calibrate e kw ds = Ok ds' ->
  calibrate e kw (with_rows ds (filter (in_batch b) (f_rows ds))) =
  Ok (with_rows ds' (filter (in_batch b) (f_rows ds'))).
Proof.
  intros e kw ds ds' b W M E. apply mem_str_spec in M.
  apply calibrate_inv in E. destruct E as (ds1 & E1 & E2).
  apply calibrate_only_inv in E1. destruct E1 as (O & C1 & rows & ms & Er & Em & R1).
  apply solve_inv in E2. destruct E2 as (O2 & C2 & M2).
  assert (L := mapM_ok _ _ _ Em). destruct L as [L _].
  assert (Er' := Er). apply mapM_Forall2 in Er'. assert (Em' := Em). apply mapM_Forall2 in Em'.
  assert (Sr : forall r0 rr, ref_one e kw (f_cols ds) r0 = Ok rr -> dget "analysis_batch" rr = dget "analysis_batch" r0).
  { intros r0 rr R0. destruct (ref_one_inv _ _ _ _ _ R0) as (r1 & x & P & _ & R).
    rewrite R. unfold flag_row. rewrite M. cbv zeta.
    destruct (mem_str "reference_good" (f_cols ds)); rewrite ?dget_dset_other by discriminate;
      now rewrite (prep_row_get e (f_cols ds) r0 r1 "analysis_batch" P) by (cbn; intuition discriminate). }
  assert (Er2 : mapM (ref_one e kw (f_cols ds)) (filter (in_batch b) (f_rows ds)) = Ok (filter (in_batch b) rows)).
  { apply mapM_filter; [exact Er|]. intros x y _ R0. unfold in_batch, cell. now rewrite (Sr x y R0). }
  set (g := fun rr => m <- batch_molinity rows rr ;; Ok (dset "titrant_molinity" (VNum m) rr)).
  assert (Eg : mapM g rows = Ok (f_rows ds1)).
  { rewrite R1. clear - Em'. apply mapM_Forall2. unfold g.
    assert (X : forall rs l1 l2, Forall2 (fun x y => batch_molinity rs x = Ok y) l1 l2 ->
        Forall2 (fun x y => (m <- batch_molinity rs x ;; Ok (dset "titrant_molinity" (VNum m) x)) = Ok y) l1 (map2 (fun r m => dset "titrant_molinity" (VNum m) r) l1 l2)).
    { intros rs l1 l2 F. induction F as [|x y l l' B _ IH]; cbn [map2]; constructor; [now rewrite B|exact IH]. }
    exact (X rows _ _ Em'). }
  assert (Eg2 : mapM g (filter (in_batch b) rows) = Ok (filter (in_batch b) (f_rows ds1))).
  { apply mapM_filter; [exact Eg|]. intros x y _ B. unfold g in B.
    destruct (batch_molinity rows x); cbn [bind] in B; [|discriminate]. injection B as <-.
    unfold in_batch, cell. now rewrite dget_dset_other by discriminate. }
  assert (Bf : forall rr, In rr (filter (in_batch b) rows) -> batch_molinity (filter (in_batch b) rows) rr = batch_molinity rows rr).
  { intros rr I. apply filter_In in I. destruct I as [I K]. unfold batch_molinity. cbv zeta.
    rewrite (filter_sub (in_batch b) (in_batch (cell "analysis_batch" rr))); [reflexivity|].
    intros x _. unfold in_batch in *. now rewrite (key_eqb_sub _ _ _ K). }
  destruct (mapM_total (batch_molinity (filter (in_batch b) rows)) (filter (in_batch b) rows)) as (ms2 & Em2).
  { intros rr I. rewrite (Bf rr I). apply filter_In in I. destruct (Forall2_in_l _ _ _ _ Em' (proj1 I)) as (m & _ & X). eauto. }
  assert (Rf : map2 (fun r m => dset "titrant_molinity" (VNum m) r) (filter (in_batch b) rows) ms2 = filter (in_batch b) (f_rows ds1)).
  { apply mapM_Forall2 in Em2, Eg2.
    assert (X : forall l l2 out, (forall rr, In rr l -> batch_molinity (filter (in_batch b) rows) rr = batch_molinity rows rr) ->
       Forall2 (fun x y => batch_molinity (filter (in_batch b) rows) x = Ok y) l l2 -> Forall2 (fun x y => g x = Ok y) l out ->
       map2 (fun r m => dset "titrant_molinity" (VNum m) r) l l2 = out).
    { induction l as [|x l IH]; intros l2 out Q A B; inversion A as [|? m ? l2' A1 A2]; subst; inversion B as [|? y ? out' B1 B2]; subst; [reflexivity|]. cbn [map2]. f_equal.
      - unfold g in B1. rewrite <- (Q x) in B1 by (now left). rewrite A1 in B1. cbn [bind] in B1. now injection B1 as <-.
      - apply IH; auto. intros; apply Q; now right. }
    now apply X. }
  apply calibrate_inv. exists (with_rows ds1 (filter (in_batch b) (f_rows ds1))). split.
  - apply calibrate_only_inv. cbn [with_rows f_cols f_rows]. split; [exact O|]. split; [exact C1|].
    exists (filter (in_batch b) rows), ms2. split; [exact Er2|]. split; [exact Em2|]. symmetry. exact Rf.
  - apply solve_inv. cbn [with_rows f_cols f_rows]. split; [exact O2|]. split; [exact C2|].
    apply mapM_filter; [exact M2|]. intros x y _ S. unfold in_batch, cell.
    now rewrite (solve_one_get _ _ _ _ _ "analysis_batch" S) by (cbn; intuition discriminate).
Qed.

Example C53_nonvacuous : exists ds', calibrate tiny_env [] (ref_table [VInt 1; VInt 2; VStr "b"]) = Ok ds' /\ n_rows ds' = 3%nat /\
  calibrate tiny_env [] (with_rows (ref_table []) [ref_row (VInt 2)]) = Ok (with_rows ds' (filter (in_batch (VInt 2)) (f_rows ds'))).
Proof.
  destruct C54_nonvacuous as (ds' & E). exists ds'. split; [exact E|]. split.
  { apply calibrate_inv in E. destruct E as (ds1 & E1 & E2). apply calibrate_only_inv in E1. destruct E1 as (_ & _ & rows & ms & Er & Em & R).
    apply solve_inv in E2. destruct E2 as (_ & _ & M). apply mapM_ok in Er, Em, M. unfold n_rows.
    destruct Em as [Em _], Er as [Er _], M as [M _]. cbn in Er.
    rewrite M, R. destruct rows as [|a [|b [|c [|]]]]; try discriminate. destruct ms as [|x [|y [|z [|]]]]; try discriminate. reflexivity. }
  rewrite <- (C53_other_batches_irrelevant tiny_env [] _ ds' (VInt 2) (ref_is_table _) ltac:(cbn; tauto) E).
  f_equal. unfold with_rows, ref_table. cbn [f_cols f_rows map filter]. f_equal.
  assert (K1 : in_batch (VInt 2) (ref_row (VInt 1)) = false).
  { unfold in_batch, cell. cbn. unfold reqb. destruct (Req_EM_T _ _) as [X|]; [|reflexivity]. unfold Q2R in X. cbn in X. lra. }
  assert (K2 : in_batch (VInt 2) (ref_row (VInt 2)) = true).
  { unfold in_batch, cell. cbn. unfold reqb. destruct (Req_EM_T _ _) as [X|N]; [reflexivity|now destruct N]. }
  rewrite K1, K2. reflexivity.
Qed.

End XR.

Print Assumptions C53_batch_mean.
Print Assumptions C53_batch_mean_real.
Print Assumptions C53_other_batches_irrelevant.
Print Assumptions C54_calibrate_completes_partial.
Print Assumptions C54_null_batch_stops_everything.
Print Assumptions C54_null_batch_refuted.
