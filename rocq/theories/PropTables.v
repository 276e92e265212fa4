(* PropTables.v -- C48, C56, C58, C59: which columns matter and which are written *)
From Verif Require Import Dataset DictLemmas SettingsProofs PropSettings DatasetProofs RowProofs CalProofs PropDataset.
Open Scope string_scope.
Open Scope list_scope.

Section P.
Context {T : Type} `{Num T}.

Lemma Forall2_length {A B} (R : A -> B -> Prop) l l' : Forall2 R l l' -> length l = length l'.
Proof. induction 1; cbn; congruence. Qed.

(* ------------------------------------------------------------------ *)
(** * C48 *)

Section Extra.
Variable P : string -> Prop.
Hypothesis P_extra : forall c, In c recognised -> ~ P c.

Definition agree (r r' : row T) : Prop := forall k, ~ P k -> dget k r = dget k r'.
Definition agree_cols (c c' : list string) : Prop := forall k, ~ P k -> mem_str k c = mem_str k c'.

Lemma notP k : mem_str k recognised = true -> ~ P k.
Proof. intros M. apply P_extra. now apply mem_str_spec. Qed.

Lemma agree_dset k v (r r' : row T) : agree r r' -> agree (dset k v r) (dset k v r').
Proof.
  intros A k' N. destruct (String.eqb_spec k' k) as [E|D]; [rewrite E; now rewrite !dget_dset_same|].
  rewrite !dget_dset_other by assumption. now apply A.
Qed.

Lemma agree_cell k (r r' : row T) : agree r r' -> mem_str k recognised = true -> cell k r = cell k r'.
Proof. intros A M. unfold cell. now rewrite (A k (notP k M)). Qed.

Lemma prep_agree e cols cols' (r r' p : row T) : agree_cols cols cols' -> agree r r' ->
  prep_row e cols r = Ok p -> exists p', prep_row e cols' r' = Ok p' /\ agree p p'.
Proof.
  intros C A E. unfold prep_row in *. rewrite salt_row_spec in *.
  assert (S : forall k, mem_str k recognised = true -> salt_val e k r = salt_val e k r').
  { intros k M. unfold salt_val, def_borate. rewrite (agree_cell k r r'), (agree_cell "salinity" r r'), (agree_cell "opt_total_borate" r r') by (assumption || reflexivity). reflexivity. }
  assert (B : def_borate r = def_borate r') by (unfold def_borate; now rewrite (agree_cell "opt_total_borate" r r') by (assumption || reflexivity)).
  rewrite <- !S by reflexivity. rewrite <- B.
  destruct (salt_val e "total_sulfate" r) as [s1|]; cbn [bind] in *; [|discriminate].
  destruct (salt_val e "total_borate" r) as [s2|]; cbn [bind] in *; [|discriminate].
  destruct (salt_val e "total_fluoride" r) as [s3|]; cbn [bind] in *; [|discriminate].
  injection E as <-. eexists. split; [reflexivity|].
  assert (AA : agree (dset "total_fluoride" s3 (dset "total_borate" s2 (dset "total_sulfate" s1 (dset "opt_total_borate" (def_borate r) r))))
                     (dset "total_fluoride" s3 (dset "total_borate" s2 (dset "total_sulfate" s1 (dset "opt_total_borate" (def_borate r) r')))))
    by (repeat apply agree_dset; exact A).
  generalize dependent (dset "total_fluoride" s3 (dset "total_borate" s2 (dset "total_sulfate" s1 (dset "opt_total_borate" (def_borate r) r)))).
  generalize (dset "total_fluoride" s3 (dset "total_borate" s2 (dset "total_sulfate" s1 (dset "opt_total_borate" (def_borate r) r')))).
  intros b a AA. unfold rest_row.
  rewrite (C "analyte_mass"), (C "titrant_amount_unit"), (C "file_good") by (apply notP; reflexivity).
  destruct (mem_str "analyte_mass" cols'), (mem_str "titrant_amount_unit" cols'), (mem_str "file_good" cols');
    cbv zeta; rewrite ?(cell_dset_other "titrant_amount_unit" "analyte_mass") by discriminate;
    rewrite ?(agree_cell "titrant_amount_unit" a b AA) by reflexivity; repeat apply agree_dset; exact AA.
Qed.

Lemma keys_recognised k : In k ("file_name" :: "titrant_molinity" :: "salinity" :: "file_good" :: "analyte_mass" :: "read_dat_method" :: keys_solve) ->
  mem_str k recognised = true.
Proof.
  assert (F : forallb (fun k => mem_str k recognised)
    ("file_name" :: "titrant_molinity" :: "salinity" :: "file_good" :: "analyte_mass" :: "read_dat_method" :: keys_solve) = true) by reflexivity.
  rewrite forallb_forall in F. apply F.
Qed.
Lemma keys_recognised_cal k : In k ("file_name" :: "alkalinity_certified" :: "salinity" :: "file_good" :: "read_dat_method" :: keys_calibrate) ->
  mem_str k recognised = true.
Proof.
  assert (F : forallb (fun k => mem_str k recognised)
    ("file_name" :: "alkalinity_certified" :: "salinity" :: "file_good" :: "read_dat_method" :: keys_calibrate) = true) by reflexivity.
  rewrite forallb_forall in F. apply F.
Qed.

Lemma put_agree (d r r' : row T) : agree r r' -> agree (put_results d r) (put_results d r').
Proof. intros A k N. rewrite !dget_put. destruct (mem_str k output_cols); [reflexivity|now apply A]. Qed.

Lemma solve_one_agree e kw cols cols' (r r' s : row T) : wfd kw -> agree_cols cols cols' -> agree r r' ->
  solve_one e kw cols r = Ok s -> exists s', solve_one e kw cols' r' = Ok s' /\ agree s s'.
Proof.
  intros W C A E. destruct (solve_one_inv _ _ _ _ _ E) as (p & d & P1 & S & F).
  destruct (prep_agree e cols cols' r r' p C A P1) as (p' & P2 & A1).
  unfold solve_one. rewrite P2. cbn [bind].
  rewrite <- (solve_row_agree e kw p p' W) by (intros k I; apply A1, notP; now apply keys_recognised).
  rewrite S. cbn [bind]. assert (A2 := put_agree d p p' A1).
  unfold finish_row in *. rewrite <- (C "alkalinity_certified") by (apply notP; reflexivity).
  destruct (mem_str "alkalinity_certified" cols); [|injection F as <-; eauto].
  assert (O : offset_of (put_results d p') = offset_of (put_results d p)).
  { unfold offset_of. now rewrite (agree_cell "alkalinity" _ _ A2), (agree_cell "alkalinity_certified" _ _ A2) by reflexivity. }
  rewrite O. destruct (offset_of (put_results d p)) as [o|]; cbn [bind] in *; [|discriminate].
  injection F as <-. eexists. split; [reflexivity|]. now apply agree_dset.
Qed.

Lemma Forall2_agree (ds ds' : frame T) : same_but P ds ds' -> Forall2 agree (f_rows ds) (f_rows ds').
Proof.
  intros (L & _ & V). unfold n_rows in L. unfold value in V. revert L V.
  generalize (f_rows ds) (f_rows ds'). intros l. induction l as [|r l IH]; intros [|r' l'] L V; try discriminate; constructor.
  - intros k N. exact (V k 0%nat N).
  - apply IH; [now injection L|]. intros c i N. exact (V c (S i) N).
Qed.

Lemma agree_Forall2 (ds ds' : frame T) : agree_cols (f_cols ds) (f_cols ds') -> Forall2 agree (f_rows ds) (f_rows ds') -> same_but P ds ds'.
Proof.
  intros C F. split; [|split].
  - unfold n_rows. now apply Forall2_length in F.
  - intros c N. rewrite <- !mem_str_spec. now rewrite (C c N).
  - intros c i N. unfold value. revert i. induction F as [|r r' l l' A _ IH]; intros [|i]; cbn; auto.
Qed.

Lemma same_cols (ds ds' : frame T) : same_but P ds ds' -> agree_cols (f_cols ds) (f_cols ds').
Proof. intros (_ & C & _) k N. apply eq_true_iff_eq. rewrite !mem_str_spec. now apply C. Qed.

Lemma agree_prep_cols c c' : agree_cols c c' -> agree_cols (prep_cols c) (prep_cols c').
Proof. intros C k N. rewrite !mem_prep_cols. now rewrite (C k N). Qed.

Lemma agree_solve_cols c c' : agree_cols c c' -> agree_cols (solve_cols c) (solve_cols c').
Proof.
  intros C k N. rewrite !mem_solve_cols, (agree_prep_cols c c' C k N), (C "alkalinity_certified") by (apply notP; reflexivity). reflexivity.
Qed.

Lemma agree_ref_cols c c' : agree_cols c c' ->
  agree_cols (addc "titrant_molinity" (ref_cols c)) (addc "titrant_molinity" (ref_cols c')).
Proof. intros C k N. now rewrite !mem_ref_cols, (agree_prep_cols c c' C k N). Qed.

Lemma mapM_agree (f f' : row T -> res (row T)) l l' m : (forall r r' s, agree r r' -> f r = Ok s -> exists s', f' r' = Ok s' /\ agree s s') ->
  Forall2 agree l l' -> mapM f l = Ok m -> exists m', mapM f' l' = Ok m' /\ Forall2 agree m m'.
Proof.
  intros S F. revert m. induction F as [|r r' l l' A _ IH]; intros m E; cbn [mapM] in *.
  - injection E as <-. exists []. auto.
  - destruct (f r) as [s|] eqn:Er; cbn [bind] in E; [|discriminate].
    destruct (mapM f l) as [ms|]; cbn [bind] in E; [|discriminate]. injection E as <-.
    destruct (S r r' s A Er) as (s' & E' & A'). destruct (IH ms eq_refl) as (ms' & Em & Fm).
    rewrite E', Em. cbn [bind]. eauto.
Qed.

Lemma prepare_ok_agree c c' : agree_cols c c' -> prepare_ok c = prepare_ok c'.
Proof. intros C. unfold prepare_ok. now rewrite (C "salinity"), (C "analyte_mass"), (C "analyte_volume") by (apply notP; reflexivity). Qed.

Lemma solve_extra e kw (ds ds2 d : frame T) : wfd kw -> same_but P ds ds2 -> solve e kw ds = Ok d ->
  exists d2, solve e kw ds2 = Ok d2 /\ same_but P d d2.
Proof.
  intros W S E. assert (C := same_cols ds ds2 S). apply solve_inv in E. destruct E as (O & Cd & M).
  destruct (mapM_agree _ (solve_one e kw (f_cols ds2)) _ (f_rows ds2) _
     (fun r r' s A => solve_one_agree e kw _ _ r r' s W C A) (Forall2_agree ds ds2 S) M) as (rows2 & M2 & F2).
  exists {| f_cols := solve_cols (f_cols ds2); f_rows := rows2 |}. split.
  - apply solve_inv. cbn [f_cols f_rows]. split; [|auto]. unfold solve_ok in *.
    rewrite <- (prepare_ok_agree _ _ C), <- (C "titrant_molinity") by (apply notP; reflexivity). exact O.
  - apply agree_Forall2; [|exact F2]. cbn [f_cols]. rewrite Cd. now apply agree_solve_cols.
Qed.

Lemma ref_one_agree e kw cols cols' (r r' s : row T) : wfd kw -> agree_cols cols cols' -> agree r r' ->
  ref_one e kw cols r = Ok s -> exists s', ref_one e kw cols' r' = Ok s' /\ agree s s'.
Proof.
  intros W C A E. destruct (ref_one_inv _ _ _ _ _ E) as (p & x & P1 & Cx & ->).
  destruct (prep_agree e cols cols' r r' p C A P1) as (p' & P2 & A1).
  unfold ref_one. rewrite P2. cbn [bind].
  rewrite <- (calibrate_row_agree e kw p p' W) by (intros k I; apply A1, notP; now apply keys_recognised_cal).
  rewrite Cx. cbn [bind]. eexists. split; [reflexivity|].
  unfold flag_row. rewrite (C "analysis_batch"), (C "reference_good") by (apply notP; reflexivity).
  assert (A2 := agree_dset "titrant_molinity_here" (VNum x) p p' A1).
  destruct (mem_str "analysis_batch" cols'), (mem_str "reference_good" cols'); cbv zeta;
    rewrite ?(cell_dset_other "titrant_molinity_here" "analysis_batch") by discriminate;
    rewrite ?cell_dset_same; repeat apply agree_dset; exact A1.
Qed.

Lemma calibrate_extra e kw (ds ds2 d : frame T) : wfd kw -> same_but P ds ds2 -> calibrate e kw ds = Ok d ->
  exists d2, calibrate e kw ds2 = Ok d2 /\ same_but P d d2.
Proof.
  intros W S E. assert (C := same_cols ds ds2 S). apply calibrate_inv in E. destruct E as (ds1 & E1 & E2).
  apply calibrate_only_inv in E1. destruct E1 as (O & C1 & rows & ms & Er & Em & R1).
  destruct (mapM_agree _ (ref_one e kw (f_cols ds2)) _ (f_rows ds2) _
     (fun r r' s A => ref_one_agree e kw _ _ r r' s W C A) (Forall2_agree ds ds2 S) Er) as (rows2 & Er2 & F2).
  assert (FA : Forall2 (fun a b => forall k, In k ["analysis_batch"; "reference_good"; "titrant_molinity_here"] -> cell k a = cell k b) rows rows2).
  { eapply Forall2_mono; [|exact F2]. cbn beta. intros a b _ _ A k I. apply agree_cell; [exact A|].
    cbn in I. destruct I as [<-|[<-|[<-|[]]]]; reflexivity. }
  assert (Em2 : mapM (batch_molinity rows2) rows2 = Ok ms).
  { apply mapM_Forall2. apply mapM_Forall2 in Em.
    assert (X : forall l l' l2, Forall2 agree l l' -> Forall2 (fun rr m => batch_molinity rows rr = Ok m) l l2 ->
       Forall2 (fun r2 m => batch_molinity rows2 r2 = Ok m) l' l2).
    { intros l l' l2 A. revert l2. induction A as [|a b l l' Ab _ IH]; intros l2 B; inversion B; subst; constructor; [|now apply IH].
      rewrite <- (batch_agree rows rows2 a b FA); [assumption|]. apply agree_cell; [exact Ab|reflexivity]. }
    eapply X; [exact F2|exact Em]. }
  set (d1' := {| f_cols := addc "titrant_molinity" (ref_cols (f_cols ds2));
                 f_rows := map2 (fun r m => dset "titrant_molinity" (VNum m) r) rows2 ms |}).
  assert (S1 : same_but P ds1 d1').
  { apply agree_Forall2; unfold d1'; cbn [f_cols f_rows]; [rewrite C1; now apply agree_ref_cols|]. rewrite R1. clear - F2 P_extra.
    revert ms. induction F2 as [|a b l l' A _ IH]; intros [|m ms]; cbn [map2]; constructor; [now apply agree_dset|apply IH]. }
  destruct (solve_extra e kw ds1 d1' d W S1 E2) as (d2 & E2' & S2). exists d2. split; [|exact S2].
  apply calibrate_inv. exists d1'. split; [|exact E2'].
  apply calibrate_only_inv. split; [|split; [reflexivity|exists rows2, ms; auto]].
  unfold calibrate_ok in *. rewrite <- (prepare_ok_agree _ _ C), <- (C "alkalinity_certified") by (apply notP; reflexivity). exact O.
Qed.
End Extra.

(* tables that differ only in columns with unrecognised names have the same results *)
Theorem C48_extra_columns_ignored : forall (e : env T) kw P ds ds2 d, wfd kw ->
  (forall c, In c recognised -> ~ P c) -> same_but P ds ds2 ->
  (solve e kw ds = Ok d -> exists d2, solve e kw ds2 = Ok d2 /\ same_but P d d2) /\
  (calibrate e kw ds = Ok d -> exists d2, calibrate e kw ds2 = Ok d2 /\ same_but P d d2).
Proof.
  intros e kw P ds ds2 d W X S. split; intros E.
  - now apply (solve_extra P X e kw ds).
  - now apply (calibrate_extra P X e kw ds).
Qed.

(* ------------------------------------------------------------------ *)
(** * C58 *)

Definition keeps_row (r r' : row T) : Prop :=
  (forall k, ~ In k (result_columns ++ filled_columns) -> dget k r' = dget k r) /\
  (forall k v, In k filled_columns -> dget k r = Some v -> notnull v = true -> dget k r' = Some v).

Lemma keeps_trans (r r' r'' : row T) : keeps_row r r' -> keeps_row r' r'' -> keeps_row r r''.
Proof. intros [A B] [A' B']. split; [intros k N; now rewrite A', A|]. intros k v I G N. apply B'; auto. Qed.

Lemma not_in_written k l : (forallb (fun c => mem_str c (result_columns ++ filled_columns)) l = true) ->
  ~ In k (result_columns ++ filled_columns) -> ~ In k l.
Proof. intros F N I. apply N. rewrite forallb_forall in F. now apply mem_str_spec, F. Qed.

Lemma prep_keeps e cols (r p : row T) : dkeys r = cols -> prep_row e cols r = Ok p -> keeps_row r p.
Proof.
  intros K E. split.
  - intros k N. apply (prep_row_get e cols); [exact E|]. now apply (not_in_written k prep_keys eq_refl).
  - intros k v _ G N. apply (prep_row_keeps e cols r p k v K E G). now left.
Qed.

Lemma solve_keeps e kw cols (r s : row T) : dkeys r = cols -> solve_one e kw cols r = Ok s -> keeps_row r s.
Proof.
  intros K E. destruct (solve_one_inv _ _ _ _ _ E) as (p & d & P & S & F). split.
  - intros k N. apply (solve_one_get e kw cols); [exact E|]. now apply (not_in_written k solve_outputs eq_refl).
  - intros k v I G N.
    assert (M : dmem "analyte_mass" p = true).
    { apply dget_in_keys. rewrite (prep_row_keys e cols r p K P). apply mem_str_spec. rewrite mem_prep_cols. apply orb_true_r. }
    destruct (mem_str k prep_keys) eqn:MP.
    + rewrite (solved_same_inputs e kw cols r s p d k P S F M).
      * apply (prep_row_keeps e cols r p k v K P G). now left.
      * do 7 right. apply in_or_app. left. now apply mem_str_spec.
    + rewrite (solve_one_get e kw cols r s k E); [exact G|].
      assert (X : forallb (fun c => (mem_str c prep_keys || negb (mem_str c solve_outputs))%bool) filled_columns = true) by reflexivity.
      rewrite forallb_forall in X. specialize (X k I). rewrite MP in X. cbn [orb] in X. now apply negb_true_iff, mem_str_false in X.
Qed.

Lemma ref_keeps e kw cols (r s : row T) m : dkeys r = cols -> ref_one e kw cols r = Ok s ->
  keeps_row r (dset "titrant_molinity" (VNum m) s).
Proof.
  intros K E. destruct (ref_one_inv _ _ _ _ _ E) as (p & x & P & _ & ->).
  apply (keeps_trans r p); [now apply (prep_keeps e cols)|]. split.
  - intros k N. rewrite dget_dset_other by (intros ->; apply N; cbn; tauto).
    rewrite flag_row_get by (intros ->; apply N; cbn; tauto).
    apply dget_dset_other. intros ->; apply N; cbn; tauto.
  - intros k v I G N. rewrite dget_dset_other by (intros ->; cbn in I; intuition discriminate).
    assert (Kp := prep_row_keys e cols r p K P).
    assert (G' : dget k (dset "titrant_molinity_here" (VNum x) p) = Some v).
    { rewrite dget_dset_other; [exact G|]. intros ->; cbn in I; intuition discriminate. }
    assert (Mk : mem_str k (prep_cols cols) = true).
    { apply mem_str_spec. rewrite <- Kp. apply dget_in_keys, dmem_true_get. eauto. }
    destruct (String.eqb_spec k "analysis_batch") as [Ek|N1]; [|destruct (String.eqb_spec k "reference_good") as [Ek|N2]].
    + rewrite Ek in *. rewrite mem_prep_cols in Mk.
      replace (mem_str "analysis_batch" ["opt_total_borate"; "total_sulfate"; "total_borate"; "total_fluoride"; "analyte_mass"; "file_good"]) with false in Mk by reflexivity.
      rewrite orb_false_r in Mk. unfold flag_row. rewrite Mk. cbv zeta.
      destruct (mem_str "reference_good" cols); rewrite ?(dget_dset_other "analysis_batch" "reference_good") by discriminate; exact G'.
    + rewrite Ek in *. rewrite mem_prep_cols in Mk.
      replace (mem_str "reference_good" ["opt_total_borate"; "total_sulfate"; "total_borate"; "total_fluoride"; "analyte_mass"; "file_good"]) with false in Mk by reflexivity.
      rewrite orb_false_r in Mk. unfold flag_row. rewrite Mk. cbv zeta.
      destruct (mem_str "analysis_batch" cols); rewrite ?(dget_dset_other "reference_good" "analysis_batch") by discriminate; exact G'.
    + now rewrite flag_row_get.
Qed.

Record keeps (ds ds' : frame T) : Prop := {
  k_rows : n_rows ds' = n_rows ds;
  k_cols : exists extra, f_cols ds' = f_cols ds ++ extra /\ forall c, In c extra -> In c (result_columns ++ filled_columns);
  k_other : forall i c, ~ In c (result_columns ++ filled_columns) -> value ds' i c = value ds i c;
  k_filled : forall i c v, In c filled_columns -> value ds i c = Some v -> notnull v = true -> value ds' i c = Some v
}.

Lemma keeps_refl ds : keeps ds ds.
Proof. split; auto. exists []. rewrite app_nil_r. split; [reflexivity|contradiction]. Qed.

Lemma keeps_comp ds ds' ds'' : keeps ds ds' -> keeps ds' ds'' -> keeps ds ds''.
Proof.
  intros [A (x & Bx & Ex) C D] [A' (y & By & Ey) C' D']. split.
  - congruence.
  - exists (x ++ y). split; [now rewrite By, Bx, app_assoc|]. intros c I. apply in_app_or in I. destruct I; auto.
  - intros i c N. now rewrite C', C.
  - intros i c v I G N. apply D'; auto.
Qed.

Lemma keeps_rows (ds ds' : frame T) : Forall2 keeps_row (f_rows ds) (f_rows ds') ->
  (exists extra, f_cols ds' = f_cols ds ++ extra /\ forall c, In c extra -> In c (result_columns ++ filled_columns)) -> keeps ds ds'.
Proof.
  intros F C. split; [|exact C|..].
  - unfold n_rows. symmetry. now apply Forall2_length in F.
  - intros i c N. unfold value. revert i. induction F as [|r r' l l' A _ IH]; intros [|i]; cbn; auto. now apply A.
  - intros i c v I. unfold value. revert i. induction F as [|r r' l l' A _ IH]; intros [|i]; cbn; auto. now apply A.
Qed.

Definition grows (c c' : list string) : Prop := exists extra, c' = c ++ extra /\ forall k, In k extra -> In k (result_columns ++ filled_columns).
Lemma grows_addc k c c' : mem_str k (result_columns ++ filled_columns) = true -> grows c c' -> grows c (addc k c').
Proof.
  intros M (x & E & I). unfold addc. destruct (mem_str k c'); [exists x; auto|]. exists (x ++ [k]). split; [now rewrite E, app_assoc|].
  intros k' J. apply in_app_or in J. destruct J as [J|[<-|[]]]; [now apply I|]. now apply mem_str_spec.
Qed.
Lemma grows_refl c : grows c c.
Proof. exists []. rewrite app_nil_r. split; [reflexivity|contradiction]. Qed.
Lemma grows_prep c : grows c (prep_cols c).
Proof. unfold prep_cols, salt_cols, salts. cbn [fold_left]. do 6 (apply grows_addc; [reflexivity|]). apply grows_refl. Qed.
Lemma grows_fold ks c c' : forallb (fun k => mem_str k (result_columns ++ filled_columns)) ks = true -> grows c c' ->
  grows c (fold_left (fun c k => addc k c) ks c').
Proof.
  revert c'. induction ks as [|k ks IH]; intros c' F G; cbn [fold_left]; [exact G|].
  cbn [forallb] in F. apply andb_prop in F. destruct F as [M F]. apply IH; [exact F|]. now apply grows_addc.
Qed.
Lemma grows_solve c : grows c (solve_cols c).
Proof.
  assert (O : grows c (outc (prep_cols c))) by (apply grows_fold; [reflexivity|apply grows_prep]).
  unfold solve_cols. destruct (mem_str _ c); [|exact O]. apply grows_addc; [reflexivity|exact O].
Qed.
Lemma grows_ref c : grows c (addc "titrant_molinity" (ref_cols c)).
Proof. unfold ref_cols. do 4 (apply grows_addc; [reflexivity|]). apply grows_prep. Qed.

Lemma mapM_keeps (g : row T -> res (row T)) (ds : frame T) rows : (forall r s, In r (f_rows ds) -> g r = Ok s -> keeps_row r s) ->
  mapM g (f_rows ds) = Ok rows -> Forall2 keeps_row (f_rows ds) rows.
Proof.
  intros K M. apply mapM_Forall2 in M. eapply Forall2_mono; [|exact M]. cbn beta. intros x y I _ E. now apply K.
Qed.

Lemma rowwise_inv c g rows (ds' : frame T) : rowwise c g rows = Ok ds' -> f_cols ds' = c /\ mapM g rows = Ok (f_rows ds').
Proof. unfold rowwise. destruct (mapM g rows); cbn [bind]; [|discriminate]. intros [= <-]. auto. Qed.

Lemma prepare_inv e (ds ds' : frame T) : prepare e ds = Ok ds' <->
  prepare_ok (f_cols ds) = true /\ f_cols ds' = prep_cols (f_cols ds) /\ mapM (prep_row e (f_cols ds)) (f_rows ds) = Ok (f_rows ds').
Proof.
  pose proof (prepare_rowwise e ds) as R. unfold rowwise in R. split.
  - intros E. rewrite E in R. destruct (prepare_ok (f_cols ds)); [|easy].
    destruct (mapM _ _) as [rows|]; cbn in R; [|easy]. subst ds'. auto.
  - intros (O & C & M). rewrite O, M in R. cbn [bind] in R. destruct (prepare e ds); [|easy].
    cbn [req] in R. subst. rewrite <- C. now destruct ds'.
Qed.

Lemma total_salts_inv e (ds ds' : frame T) : get_total_salts e ds = Ok ds' <->
  has "salinity" ds = true /\ f_cols ds' = salt_cols (f_cols ds) /\ mapM (salt_row e) (f_rows ds) = Ok (f_rows ds').
Proof.
  pose proof (get_total_salts_rowwise e ds) as R. unfold rowwise in R. split.
  - intros E. rewrite E in R. destruct (has "salinity" ds); [|easy].
    destruct (mapM _ _) as [rows|]; cbn in R; [|easy]. subst ds'. auto.
  - intros (O & C & M). rewrite O, M in R. cbn [bind] in R. destruct (get_total_salts e ds); [|easy].
    cbn [req] in R. subst. rewrite <- C. now destruct ds'.
Qed.

Lemma salt_row_keeps e (r p : row T) k v : salt_row e r = Ok p -> dget k r = Some v -> notnull v = true -> dget k p = Some v.
Proof.
  intros E G N. destruct (mem_str k ["opt_total_borate"; "total_sulfate"; "total_borate"; "total_fluoride"]) eqn:M.
  - rewrite <- (rest_row_get (dkeys r) p k).
    + apply (prep_row_keeps e (dkeys r) r _ k v); auto. unfold prep_row. now rewrite E.
    + apply mem_str_spec in M. intros I. cbn in M, I. intuition congruence.
  - apply mem_str_false in M. now rewrite (salt_row_get e r p k E M).
Qed.

Lemma wff_rows (ds : frame T) c (rows : list (row T)) : wff ds -> NoDup c -> Forall (fun r => dkeys r = c) rows -> wff {| f_cols := c; f_rows := rows |}.
Proof. intros _ N F. split; [exact N|]. cbn. intros r I. rewrite Forall_forall in F. auto. Qed.

Lemma calibrate_keeps e kw (ds ds1 : frame T) : wff ds -> calibrate_only e kw ds = Ok ds1 -> keeps ds ds1.
Proof.
  intros W E. apply calibrate_only_inv in E. destruct E as (_ & C & rows & ms & Er & Em & R). apply keeps_rows; [|rewrite C; apply grows_ref].
  rewrite R. apply mapM_Forall2 in Er. assert (L := mapM_ok _ _ _ Em). destruct L as [L _].
  assert (Wd : forall r, In r (f_rows ds) -> dkeys r = f_cols ds) by apply W. clear - Er L Wd. revert ms L.
  induction Er as [|a b l l' A F IH]; intros [|m ms] L; cbn [map2]; try discriminate; constructor.
  - apply (ref_keeps e kw (f_cols ds)); [apply Wd; now left|exact A].
  - apply IH; [intros r I; apply Wd; now right|now injection L].
Qed.

Lemma run_keeps e c (ds ds' : frame T) : is_table ds -> run e c ds = Ok ds' -> is_table ds' /\ keeps ds ds'.
Proof.
  intros W E.
  assert (KS : forall kw ds ds', is_table ds -> solve e kw ds = Ok ds' -> keeps ds ds').
  { clear. intros kw ds ds' W E. apply solve_inv in E. destruct E as (_ & C & M). apply keeps_rows; [|rewrite C; apply grows_solve].
    apply (mapM_keeps (solve_one e kw (f_cols ds))); [|exact M]. intros r s I. apply solve_keeps. now apply W. }
  assert (KC : forall kw ds ds', is_table ds -> calibrate e kw ds = Ok ds' -> is_table ds' /\ keeps ds ds').
  { clear - KS. intros kw ds ds' W E. apply calibrate_inv in E. destruct E as (ds1 & E1 & E2).
    assert (W1 := wff_calibrate_only e kw ds ds1 W E1). split; [now apply (wff_solve e kw ds1)|].
    apply (keeps_comp ds ds1); [now apply (calibrate_keeps e kw)|now apply (KS kw)]. }
  destruct c; cbn [run] in E.
  - apply total_salts_inv in E. destruct E as (_ & C & M). split.
    + rewrite (surjective_frame ds'). apply (wff_rows ds); [exact W|rewrite C; unfold salt_cols, salts; cbn [fold_left]; do 4 apply NoDup_addc; apply W|].
      apply Forall_forall. intros p I. apply mapM_Forall2 in M. destruct (Forall2_in_r _ _ _ _ M I) as (r & Ir & Er).
      rewrite salt_row_spec in Er.
      destruct (salt_val e "total_sulfate" r) as [s1|]; cbn [bind] in Er; [|discriminate].
      destruct (salt_val e "total_borate" r) as [s2|]; cbn [bind] in Er; [|discriminate].
      destruct (salt_val e "total_fluoride" r) as [s3|]; cbn [bind] in Er; [|discriminate]. injection Er as <-.
      rewrite C. unfold salt_cols, salts. cbn [fold_left]. rewrite !dkeys_dset. now rewrite (proj2 W r Ir).
    + apply keeps_rows.
      * apply (mapM_keeps (salt_row e)); [|exact M]. intros r s I Er. split.
        -- intros k N. apply (salt_row_get e); [exact Er|]. now apply (not_in_written k ["opt_total_borate"; "total_sulfate"; "total_borate"; "total_fluoride"] eq_refl).
        -- intros k v _ G N. now apply (salt_row_keeps e r).
      * rewrite C. unfold salt_cols, salts. cbn [fold_left]. do 4 (apply grows_addc; [reflexivity|]). apply grows_refl.
  - apply prepare_inv in E. destruct E as (_ & C & M). split.
    + rewrite (surjective_frame ds'). apply (wff_rows ds); [exact W|rewrite C; apply NoDup_prep, W|].
      apply Forall_forall. intros p I. apply mapM_Forall2 in M. destruct (Forall2_in_r _ _ _ _ M I) as (r & Ir & Er).
      rewrite C. apply (prep_row_keys e _ r); [now apply W|exact Er].
    + apply keeps_rows; [|rewrite C; apply grows_prep].
      apply (mapM_keeps (prep_row e (f_cols ds))); [|exact M]. intros r s I. apply prep_keeps. now apply W.
  - split; [now apply (wff_solve e kw ds)|now apply (KS kw)].
  - now apply (KC kw).
  - unfold calkulate in E. destruct (calibrate e kw ds) as [ds1|] eqn:E1; cbn [bind] in E; [|discriminate].
    destruct (KC kw ds ds1 W E1) as [W1 K1]. split; [now apply (wff_solve e kw ds1)|].
    apply (keeps_comp ds ds1); [exact K1|now apply (KS kw)].
Qed.

Theorem C58_other_columns_untouched : forall (e : env T) calls ds ds', is_table ds ->
  run_all e calls ds = Ok ds' ->
  n_rows ds' = n_rows ds /\
  (exists added, f_cols ds' = f_cols ds ++ added /\
                 forall c, In c added -> In c (result_columns ++ filled_columns)) /\
  (forall i c, ~ In c (result_columns ++ filled_columns) -> value ds' i c = value ds i c) /\
  (forall i c v, In c filled_columns -> value ds i c = Some v -> notnull v = true -> value ds' i c = Some v).
Proof.
  intros e calls ds ds' W E.
  assert (K : keeps ds ds').
  { revert ds W E. induction calls as [|c cs IH]; intros ds W E; cbn [run_all] in E.
    - injection E as <-. apply keeps_refl.
    - destruct (run e c ds) as [ds1|] eqn:R; cbn [bind] in E; [|discriminate].
      destruct (run_keeps e c ds ds1 W R) as [W1 K1]. apply (keeps_comp ds ds1); [exact K1|now apply IH]. }
  destruct K. auto.
Qed.

(* ------------------------------------------------------------------ *)
(** * C56 *)

(* what the three totals and the borate option are after get_total_salts or prepare *)
Definition salts_filled (e : env T) (ds ds' : frame T) : Prop := forall i r, nth_error (f_rows ds) i = Some r ->
  exists borate, value ds' i "opt_total_borate" = Some borate /\
    (match dget "opt_total_borate" r with
     | Some v => if notnull v then borate = v else borate = VInt 1
     | None => borate = VInt 1
     end) /\
    forall k, In k ["total_sulfate"; "total_borate"; "total_fluoride"] ->
      match dget k r with
      | Some v => if notnull v then value ds' i k = Some v
                  else exists s b, cell_num (cell "salinity" r) = Ok s /\ cell_num borate = Ok b /\
                         value ds' i k = Some (VNum (e_sys_salt e s b k))
      | None => exists s b, cell_num (cell "salinity" r) = Ok s /\ cell_num borate = Ok b /\
                  value ds' i k = Some (VNum (e_sys_salt e s b k))
      end.

Lemma salt_row_filled e (r p : row T) : salt_row e r = Ok p ->
  dget "opt_total_borate" p = Some (def_borate r) /\
  forall k, In k salts -> exists v, dget k p = Some v /\ salt_val e k r = Ok v.
Proof.
  rewrite salt_row_spec. intros E.
  destruct (salt_val e "total_sulfate" r) as [s1|] eqn:E1; cbn [bind] in E; [|discriminate].
  destruct (salt_val e "total_borate" r) as [s2|] eqn:E2; cbn [bind] in E; [|discriminate].
  destruct (salt_val e "total_fluoride" r) as [s3|] eqn:E3; cbn [bind] in E; [|discriminate].
  injection E as <-. split.
  - rewrite !dget_dset_other by discriminate. apply dget_dset_same.
  - intros k I. cbn in I. destruct I as [<-|[<-|[<-|[]]]]; [exists s1|exists s2|exists s3]; (split; [|assumption]);
      rewrite ?dget_dset_other by discriminate; apply dget_dset_same.
Qed.

Lemma filled_of e (ds ds' : frame T) :
  (forall i r, nth_error (f_rows ds) i = Some r -> exists p p0, nth_error (f_rows ds') i = Some p /\ salt_row e r = Ok p0 /\
     forall k, In k ["opt_total_borate"; "total_sulfate"; "total_borate"; "total_fluoride"] -> dget k p = dget k p0) ->
  salts_filled e ds ds'.
Proof.
  intros X i r I. destruct (X i r I) as (p & p0 & Ip & S & A). destruct (salt_row_filled e r p0 S) as [B F].
  exists (def_borate r). split; [|split].
  - rewrite (value_nth ds' i p _ Ip), A by (cbn; tauto). exact B.
  - unfold def_borate, cell. destruct (dget "opt_total_borate" r) as [v|]; [|reflexivity]. now destruct (notnull v).
  - intros k Ik. destruct (F k Ik) as (v & G & SV). rewrite (value_nth ds' i p _ Ip), A by (cbn in Ik |- *; tauto). rewrite G.
    unfold salt_val in SV. unfold cell in SV at 1 2.
    destruct (dget k r) as [u|].
    + destruct (notnull u); [congruence|].
      destruct (cell_num (cell "salinity" r)) as [s|]; cbn [bind] in SV; [|discriminate].
      destruct (cell_num (def_borate r)) as [b|]; cbn [bind] in SV; [|discriminate]. exists s, b. injection SV as <-. auto.
    + cbn [notnull isnull negb] in SV.
      destruct (cell_num (cell "salinity" r)) as [s|]; cbn [bind] in SV; [|discriminate].
      destruct (cell_num (def_borate r)) as [b|]; cbn [bind] in SV; [|discriminate]. exists s, b. injection SV as <-. auto.
Qed.

Theorem C56_total_salts : forall (e : env T) ds ds', is_table ds ->
  get_total_salts e ds = Ok ds' -> salts_filled e ds ds' /\ get_total_salts e ds' = Ok ds'.
Proof.
  intros e ds ds' W E. apply total_salts_inv in E. destruct E as (O & C & M).
  assert (M' := M). apply mapM_ok in M'. destruct M' as [_ N]. split.
  - apply filled_of. intros i r I. destruct (N i r I) as (p & Ip & S). exists p, p. auto.
  - apply total_salts_inv. unfold has in *. rewrite C. split; [rewrite mem_salt_cols, O; reflexivity|]. split.
    + unfold salt_cols at 2. set (c := salt_cols (f_cols ds)).
      assert (Mc : forall k, In k ["opt_total_borate"; "total_sulfate"; "total_borate"; "total_fluoride"] -> mem_str k c = true).
      { intros k I. unfold c. rewrite mem_salt_cols. apply mem_str_spec in I. rewrite I. apply orb_true_r. }
      unfold salts. cbn [fold_left]. repeat rewrite (fun k => addc_in k c) by (apply Mc; cbn; tauto). reflexivity.
    + apply mapM_Forall2, Forall2_refl. intros p I. apply mapM_Forall2 in M. destruct (Forall2_in_r _ _ _ _ M I) as (r & _ & S).
      assert (P : prep_row e (dkeys r) r = Ok (rest_row (dkeys r) p)) by (unfold prep_row; now rewrite S).
      destruct (prep_row_prepared e (dkeys r) r _ P) as [(b & Gb & Nb) Sa _ _ _].
      destruct (salt_row_filled e r p S) as [B F].
      rewrite salt_row_spec.
      assert (Bp : def_borate p = b).
      { unfold def_borate, cell. rewrite rest_row_get in Gb by (cbn; intuition discriminate). now rewrite Gb, Nb. }
      assert (SV : forall k, In k salts -> exists v, dget k p = Some v /\ salt_val e k p = Ok v).
      { intros k Ik. destruct (F k Ik) as (v & G & V). exists v. split; [exact G|].
        apply (salt_val_null_again e k r v V p); [unfold cell; now rewrite G| |].
        - unfold cell. rewrite (salt_row_get e r p "salinity" S) by (cbn; intuition discriminate). reflexivity.
        - rewrite Bp. rewrite rest_row_get in Gb by (cbn; intuition discriminate). congruence. }
      destruct (SV "total_sulfate") as (s1 & G1 & V1); [cbn; tauto|]. destruct (SV "total_borate") as (s2 & G2 & V2); [cbn; tauto|].
      destruct (SV "total_fluoride") as (s3 & G3 & V3); [cbn; tauto|]. rewrite V1, V2, V3. cbn [bind]. f_equal.
      rewrite Bp. rewrite rest_row_get in Gb by (cbn; intuition discriminate).
      rewrite (dset_same_value _ _ _ Gb), (dset_same_value _ _ _ G1), (dset_same_value _ _ _ G2), (dset_same_value _ _ _ G3). reflexivity.
Qed.

Theorem C56_prepare : forall (e : env T) ds ds', is_table ds ->
  prepare e ds = Ok ds' -> salts_filled e ds ds' /\ prepare e ds' = Ok ds'.
Proof.
  intros e ds ds' W E. apply prepare_inv in E. destruct E as (O & C & M).
  assert (M' := M). apply mapM_ok in M'. destruct M' as [_ N]. split.
  - apply filled_of. intros i r I. destruct (N i r I) as (p & Ip & S). unfold prep_row in S.
    destruct (salt_row e r) as [p0|] eqn:E0; cbn [bind] in S; [|discriminate]. injection S as <-.
    exists (rest_row (f_cols ds) p0), p0. split; [exact Ip|]. split; [reflexivity|]. intros k Ik.
    apply rest_row_get. cbn in Ik |- *. intuition congruence.
  - apply prepare_inv. rewrite C. split; [|split].
    + unfold prepare_ok in *. rewrite !mem_prep_cols. apply andb_prop in O. destruct O as [-> O]. cbn [orb andb].
      replace (mem_str "analyte_mass" ["opt_total_borate"; "total_sulfate"; "total_borate"; "total_fluoride"; "analyte_mass"; "file_good"]) with true by reflexivity.
      now rewrite orb_true_r.
    + set (c := prep_cols (f_cols ds)).
      assert (Mc : forall k, In k ["opt_total_borate"; "total_sulfate"; "total_borate"; "total_fluoride"; "analyte_mass"; "file_good"] -> mem_str k c = true).
      { intros k I. unfold c. rewrite mem_prep_cols. apply mem_str_spec in I. rewrite I. apply orb_true_r. }
      unfold prep_cols, salt_cols, salts. cbn [fold_left]. repeat rewrite (fun k => addc_in k c) by (apply Mc; cbn; tauto). reflexivity.
    + apply mapM_Forall2, Forall2_refl. intros p I. apply mapM_Forall2 in M. destruct (Forall2_in_r _ _ _ _ M I) as (r & _ & S).
      apply prepared_prep. now apply (prep_row_prepared e _ r).
Qed.

(* ------------------------------------------------------------------ *)
(** * C59 *)

Theorem C59_offset : forall (e : env T) kw ds ds', is_table ds -> solve e kw ds = Ok ds' ->
  (In "alkalinity_certified" (f_cols ds) ->
   In "alkalinity_offset" (f_cols ds') /\
   forall i, (i < n_rows ds')%nat -> exists a v c,
     value ds' i "alkalinity" = Some (VNum a) /\
     value ds' i "alkalinity_certified" = Some v /\
     value ds' i "alkalinity_certified" = value ds i "alkalinity_certified" /\
     (if isnull v then c = nnan else as_num v = Ok c) /\
     value ds' i "alkalinity_offset" = Some (VNum ((if nisnan a then nnan else a) ⊖ c))) /\
  (~ In "alkalinity_certified" (f_cols ds) ->
   (In "alkalinity_offset" (f_cols ds') <-> In "alkalinity_offset" (f_cols ds)) /\
   forall i, value ds' i "alkalinity_offset" = value ds i "alkalinity_offset").
Proof.
  intros e kw ds ds' W E. apply solve_inv in E. destruct E as (_ & C & M).
  assert (M' := mapM_ok _ _ _ M). destruct M' as [L N]. split; intros HC.
  - apply mem_str_spec in HC. split.
    + apply mem_str_spec. rewrite C, mem_solve_cols, HC. cbn. apply orb_true_r.
    + intros i Hi. unfold n_rows in Hi. rewrite L in Hi. apply nth_error_Some in Hi.
      destruct (nth_error (f_rows ds) i) as [r|] eqn:I; [clear Hi|congruence].
      destruct (N i r I) as (s & Is & S). destruct (solve_one_inv _ _ _ _ _ S) as (p & d & P & D & F).
      rewrite !(value_nth ds' i s _ Is), (value_nth ds i r _ I).
      unfold finish_row in F. rewrite HC in F. unfold offset_of in F.
      rewrite output_cell in F by (cbn; tauto). destruct (res_number e kw p d D) as (a & Ha). rewrite Ha in F.
      assert (Ca : cell_num (VNum a : val T) = Ok (if nisnan a then nnan else a)) by (unfold cell_num; cbn [isnull as_num]; now destruct (nisnan a)).
      rewrite Ca in F. cbn [bind] in F.
      assert (Z : dget "alkalinity_certified" (put_results d p) = dget "alkalinity_certified" r).
      { rewrite dget_put. replace (mem_str "alkalinity_certified" output_cols) with false by reflexivity.
        apply (prep_row_get e _ r p "alkalinity_certified" P). cbn; intuition discriminate. }
      assert (exists v, dget "alkalinity_certified" r = Some v) as (v & Gv).
      { apply dmem_true_get, dget_in_keys. rewrite (proj2 W r) by (now apply nth_error_In in I). now apply mem_str_spec. }
      assert (Zc : cell "alkalinity_certified" (put_results d p) = v) by (unfold cell; now rewrite Z, Gv).
      rewrite Zc in F. destruct (cell_num v) as [c|] eqn:Cv; cbn [bind] in F; [|discriminate]. injection F as <-.
      exists a, v, c. rewrite !(dget_dset_other _ "alkalinity_offset") by discriminate. rewrite dget_dset_same, Z, Gv.
      repeat split.
      * rewrite dget_put. replace (mem_str "alkalinity" output_cols) with true by reflexivity. now rewrite Ha.
      * unfold cell_num in Cv. destruct (isnull v); [congruence|exact Cv].
  - apply mem_str_false in HC. split.
    + rewrite <- !mem_str_spec, C, mem_solve_cols, mem_prep_cols, HC.
      replace (mem_str "alkalinity_offset" output_cols) with false by reflexivity.
      replace (mem_str "alkalinity_offset" ["opt_total_borate"; "total_sulfate"; "total_borate"; "total_fluoride"; "analyte_mass"; "file_good"]) with false by reflexivity.
      rewrite !orb_false_r. reflexivity.
    + intros i. unfold value. destruct (nth_error (f_rows ds) i) as [r|] eqn:I.
      * destruct (N i r I) as (s & -> & S). destruct (solve_one_inv _ _ _ _ _ S) as (p & d & P & D & F).
        unfold finish_row in F. rewrite HC in F. injection F as <-. rewrite dget_put.
        replace (mem_str "alkalinity_offset" output_cols) with false by reflexivity.
        apply (prep_row_get e _ r p "alkalinity_offset" P). cbn; intuition discriminate.
      * destruct (nth_error (f_rows ds') i) eqn:I'; [|reflexivity]. exfalso.
        assert (HI : (i < length (f_rows ds'))%nat) by (apply nth_error_Some; congruence). rewrite L in HI. apply nth_error_Some in HI. congruence.
Qed.

End P.
