(* PropFlag.v -- C131: of the file_good column only the truth of each value matters, and a
   table without the column counts as all good *)
From Coq Require Import Reals.
From Verif Require Import Dataset XR DictLemmas SpecDataset SettingsProofs PropSettings DatasetProofs RowProofs CalProofs
  PropDataset PropTables Witness PropHistory PropIgnored PropCases.
Open Scope string_scope.
Open Scope list_scope.

Section P.
Context {T : Type} `{Num T}.

(* whether row i counts as good: Python's truth of its flag, and True without a flag *)
Definition counts_good (ds : frame T) (i : nat) : bool :=
  match value ds i "file_good" with Some v => truthy v | None => true end.

(* two tables that differ in file_good only, and there only in how the same truth is written *)
Definition same_flags (ds ds' : frame T) : Prop :=
  same_but (fun c => c = "file_good") ds ds' /\ forall i, counts_good ds i = counts_good ds' i.

Notation fg := "file_good".
Definition goodrow (r : row T) : bool := match dget fg r with Some v => truthy v | None => true end.

Definition agree (cols cols' : list string) (r r' : row T) : Prop :=
  (forall k, k <> fg -> dget k r = dget k r') /\ goodrow r = goodrow r' /\
  mem_str fg cols = dmem fg r /\ mem_str fg cols' = dmem fg r'.
Definition agree_cols (c c' : list string) : Prop := forall k, k <> fg -> mem_str k c = mem_str k c'.

(* ------------------------------------------------------------------ *)
(** ** One row *)

Lemma dmem_dset_same k v (r : row T) : dmem k (dset k v r) = true.
Proof. unfold dmem. now rewrite dget_dset_same. Qed.
Lemma dmem_dset_other k k' v (r : row T) : k <> k' -> dmem k (dset k' v r) = dmem k r.
Proof. intros N. unfold dmem. now rewrite dget_dset_other. Qed.
Lemma goodrow_dset k v (r : row T) : k <> fg -> goodrow (dset k v r) = goodrow r.
Proof. intros N. unfold goodrow. now rewrite dget_dset_other by congruence. Qed.

Lemma agree_dset c c' k v (r r' : row T) : k <> fg -> agree c c' r r' -> agree c c' (dset k v r) (dset k v r').
Proof.
  intros N (A & G & M & M'). split; [|split; [|split]].
  - intros k' N'. destruct (String.eqb_spec k' k) as [E|D]; [rewrite E; now rewrite !dget_dset_same|].
    rewrite !dget_dset_other by assumption. now apply A.
  - now rewrite !goodrow_dset.
  - now rewrite dmem_dset_other by congruence.
  - now rewrite dmem_dset_other by congruence.
Qed.

Lemma agree_cell c c' k (r r' : row T) : agree c c' r r' -> k <> fg -> cell k r = cell k r'.
Proof. intros (A & _) N. unfold cell. now rewrite (A k N). Qed.

Lemma agree_change c c' d d' (r r' : row T) : mem_str fg d = mem_str fg c -> mem_str fg d' = mem_str fg c' ->
  agree c c' r r' -> agree d d' r r'.
Proof. intros E E' (A & G & M & M'). split; [exact A|split; [exact G|split; congruence]]. Qed.

Lemma fill_agree cols cols' (a b : row T) : agree cols cols' a b ->
  agree (prep_cols cols) (prep_cols cols')
    (if mem_str fg cols then a else dset fg (VBool true) a) (if mem_str fg cols' then b else dset fg (VBool true) b).
Proof.
  intros (A & G & M & M'). split; [|split; [|split]].
  - intros k N. destruct (mem_str fg cols), (mem_str fg cols'); rewrite ?(dget_dset_other k) by exact N; now apply A.
  - assert (X : forall (x : row T) b, b = dmem fg x -> goodrow (if b then x else dset fg (VBool true) x) = goodrow x).
    { intros x c ->. destruct (dmem fg x) eqn:D; [reflexivity|]. unfold goodrow, dmem in *. rewrite dget_dset_same.
      destruct (dget fg x); [discriminate|reflexivity]. }
    rewrite (X a _ M), (X b _ M'). exact G.
  - rewrite mem_prep_cols. cbn. rewrite orb_true_r.
    destruct (mem_str fg cols) eqn:E; [exact M|symmetry; apply dmem_dset_same].
  - rewrite mem_prep_cols. cbn. rewrite orb_true_r.
    destruct (mem_str fg cols') eqn:E; [exact M'|symmetry; apply dmem_dset_same].
Qed.

Lemma prep_agree e cols cols' (r r' p : row T) : agree_cols cols cols' -> agree cols cols' r r' ->
  prep_row e cols r = Ok p -> exists p', prep_row e cols' r' = Ok p' /\ agree (prep_cols cols) (prep_cols cols') p p'.
Proof.
  intros C A E. unfold prep_row in *. rewrite salt_row_spec in *.
  assert (S : forall k, k <> fg -> salt_val e k r = salt_val e k r').
  { intros k N. unfold salt_val, def_borate.
    rewrite (agree_cell _ _ k r r' A N), (agree_cell _ _ "salinity" r r' A), (agree_cell _ _ "opt_total_borate" r r' A) by discriminate. reflexivity. }
  assert (B : def_borate r = def_borate r') by (unfold def_borate; now rewrite (agree_cell _ _ "opt_total_borate" r r' A) by discriminate).
  rewrite <- !S by discriminate. rewrite <- B.
  destruct (salt_val e "total_sulfate" r) as [s1|]; cbn [bind] in *; [|discriminate].
  destruct (salt_val e "total_borate" r) as [s2|]; cbn [bind] in *; [|discriminate].
  destruct (salt_val e "total_fluoride" r) as [s3|]; cbn [bind] in *; [|discriminate].
  injection E as <-. eexists. split; [reflexivity|].
  assert (AA : agree cols cols' (dset "total_fluoride" s3 (dset "total_borate" s2 (dset "total_sulfate" s1 (dset "opt_total_borate" (def_borate r) r))))
                     (dset "total_fluoride" s3 (dset "total_borate" s2 (dset "total_sulfate" s1 (dset "opt_total_borate" (def_borate r) r')))))
    by (repeat (apply agree_dset; [discriminate|]); exact A).
  generalize dependent (dset "total_fluoride" s3 (dset "total_borate" s2 (dset "total_sulfate" s1 (dset "opt_total_borate" (def_borate r) r)))).
  generalize (dset "total_fluoride" s3 (dset "total_borate" s2 (dset "total_sulfate" s1 (dset "opt_total_borate" (def_borate r) r')))).
  intros b a AA. unfold rest_row.
  rewrite (C "analyte_mass"), (C "titrant_amount_unit") by discriminate. cbv zeta. apply fill_agree.
  destruct (mem_str "analyte_mass" cols'), (mem_str "titrant_amount_unit" cols');
    rewrite ?(cell_dset_other "titrant_amount_unit" "analyte_mass") by discriminate;
    rewrite ?(agree_cell _ _ "titrant_amount_unit" a b AA) by discriminate;
    repeat (apply agree_dset; [discriminate|]); exact AA.
Qed.


Lemma keys_other k l : mem_str fg l = false -> In k l -> k <> fg.
Proof. intros M I ->. apply mem_str_spec in I. congruence. Qed.

Lemma solve_row_agree' e kw c c' (r r' : row T) : wfd kw -> mem_str fg c = true -> mem_str fg c' = true -> agree c c' r r' ->
  solve_row e kw r = solve_row e kw r'.
Proof.
  intros W M1 M2 (A & G & M & M').
  rewrite M1 in M. rewrite M2 in M'. symmetry in M, M'.
  apply dmem_true_get in M. apply dmem_true_get in M'. destruct M as (g & Eg), M' as (g' & Eg').
  unfold goodrow in G. rewrite Eg, Eg' in G.
  assert (Bl : blank r = blank r') by (unfold blank, cell; now rewrite (A "analyte_mass") by discriminate).
  assert (B : backcompat kw r = backcompat kw r') by (apply backcompat_row, A; discriminate).
  unfold solve_row, solve_row_try, attr.
  rewrite (A "file_name"), (A "titrant_molinity"), (A "salinity") by discriminate.
  rewrite Eg, Eg', Bl, <- B. cbn [bind of_opt].
  destruct (dget "titrant_molinity" r') as [t|]; cbn [of_opt bind]; [|reflexivity].
  rewrite G. destruct (notnull t && truthy g'); [|reflexivity].
  rewrite (handler_eq r r') by (apply A; discriminate).
  destruct (backcompat kw r) as [kw1|] eqn:E; cbn [bind]; [|reflexivity].
  destruct (dget "file_name" r') as [f|]; cbn [of_opt bind]; [|reflexivity].
  destruct (dget "salinity" r') as [s|]; cbn [of_opt bind]; [|reflexivity].
  assert (R : resolves_like keys_solve kw1 kw1 r r').
  { intros k I. unfold chosen. rewrite (A k); [reflexivity|]. apply (keys_other k keys_solve eq_refl I). }
  pose proof (files_solve_deq e f t s _ _ (wfd_resolve keys_solve kw1 r (wfd_backcompat _ _ _ W E))
                (wfd_resolve keys_solve kw1 r' (wfd_backcompat _ _ _ W (eq_sym B))) (chosen_deq _ _ _ _ _ R)) as Q.
  destruct (files_solve e f t s _) as [a|x]; destruct (files_solve e f t s _) as [b|y]; cbn in Q; try contradiction; [|reflexivity].
  now subst.
Qed.

Lemma calibrate_row_agree' e kw c c' (r r' : row T) : wfd kw -> mem_str fg c = true -> mem_str fg c' = true -> agree c c' r r' ->
  calibrate_row e kw r = calibrate_row e kw r'.
Proof.
  intros W M1 M2 (A & G & M & M').
  rewrite M1 in M. rewrite M2 in M'. symmetry in M, M'.
  apply dmem_true_get in M. apply dmem_true_get in M'. destruct M as (g & Eg), M' as (g' & Eg').
  unfold goodrow in G. rewrite Eg, Eg' in G.
  assert (B : backcompat kw r = backcompat kw r') by (apply backcompat_row, A; discriminate).
  unfold calibrate_row, calibrate_row_try, attr.
  rewrite (A "file_name"), (A "alkalinity_certified"), (A "salinity") by discriminate.
  rewrite Eg, Eg', <- B. cbn [bind of_opt].
  destruct (dget "alkalinity_certified" r') as [t|]; cbn [of_opt bind]; [|reflexivity].
  rewrite G. destruct (notnull t && truthy g'); [|reflexivity].
  rewrite (handler_eq r r') by (apply A; discriminate).
  destruct (backcompat kw r) as [kw1|] eqn:E; cbn [bind]; [|reflexivity].
  destruct (dget "file_name" r') as [f|]; cbn [of_opt bind]; [|reflexivity].
  destruct (dget "salinity" r') as [s|]; cbn [of_opt bind]; [|reflexivity].
  assert (R : resolves_like keys_calibrate kw1 kw1 r r').
  { intros k I. unfold chosen. rewrite (A k); [reflexivity|]. apply (keys_other k keys_calibrate eq_refl I). }
  pose proof (files_calibrate_deq e f t s _ _ (wfd_resolve keys_calibrate kw1 r (wfd_backcompat _ _ _ W E))
                (wfd_resolve keys_calibrate kw1 r' (wfd_backcompat _ _ _ W (eq_sym B))) (chosen_deq _ _ _ _ _ R)) as Q.
  destruct (files_calibrate e f t s _) as [a|x]; destruct (files_calibrate e f t s _) as [b|y]; cbn in Q; try contradiction; [|reflexivity].
  now subst.
Qed.

Lemma fg_prep c : mem_str fg (prep_cols c) = true.
Proof. rewrite mem_prep_cols. cbn. apply orb_true_r. Qed.

Lemma put_agree c c' (d r r' : row T) : agree c c' r r' -> agree c c' (put_results d r) (put_results d r').
Proof.
  intros (A & G & M & M').
  assert (X : forall x : row T, dget fg (put_results d x) = dget fg x) by (intros x; rewrite dget_put; reflexivity).
  split; [|split; [|split]].
  - intros k N. rewrite !dget_put. destruct (mem_str k output_cols); [reflexivity|now apply A].
  - unfold goodrow. rewrite !X. exact G.
  - unfold dmem. rewrite X. exact M.
  - unfold dmem. rewrite X. exact M'.
Qed.

Lemma solve_one_agree e kw cols cols' (r r' s : row T) : wfd kw -> agree_cols cols cols' -> agree cols cols' r r' ->
  solve_one e kw cols r = Ok s ->
  exists s', solve_one e kw cols' r' = Ok s' /\ agree (solve_cols cols) (solve_cols cols') s s'.
Proof.
  intros W C A E. destruct (solve_one_inv _ _ _ _ _ E) as (p & d & P1 & S & F).
  destruct (prep_agree e cols cols' r r' p C A P1) as (p' & P2 & A1).
  unfold solve_one. rewrite P2. cbn [bind].
  rewrite <- (solve_row_agree' e kw _ _ p p' W (fg_prep cols) (fg_prep cols') A1).
  rewrite S. cbn [bind]. assert (A2 := put_agree _ _ d p p' A1).
  assert (A3 : agree (solve_cols cols) (solve_cols cols') (put_results d p) (put_results d p')).
  { apply (agree_change (prep_cols cols) (prep_cols cols')); [| |exact A2];
      rewrite mem_solve_cols, !fg_prep; reflexivity. }
  unfold finish_row in *. rewrite <- (C "alkalinity_certified") by discriminate.
  destruct (mem_str "alkalinity_certified" cols); [|injection F as <-; eauto].
  assert (O : offset_of (put_results d p') = offset_of (put_results d p)).
  { unfold offset_of. now rewrite (agree_cell _ _ "alkalinity" _ _ A2), (agree_cell _ _ "alkalinity_certified" _ _ A2) by discriminate. }
  rewrite O. destruct (offset_of (put_results d p)) as [o|]; cbn [bind] in *; [|discriminate].
  injection F as <-. eexists. split; [reflexivity|]. apply agree_dset; [discriminate|exact A3].
Qed.

Lemma ref_one_agree e kw cols cols' (r r' s : row T) : wfd kw -> agree_cols cols cols' -> agree cols cols' r r' ->
  ref_one e kw cols r = Ok s ->
  exists s', ref_one e kw cols' r' = Ok s' /\ agree (prep_cols cols) (prep_cols cols') s s'.
Proof.
  intros W C A E. destruct (ref_one_inv _ _ _ _ _ E) as (p & x & P1 & Cx & ->).
  destruct (prep_agree e cols cols' r r' p C A P1) as (p' & P2 & A1).
  unfold ref_one. rewrite P2. cbn [bind].
  rewrite <- (calibrate_row_agree' e kw _ _ p p' W (fg_prep cols) (fg_prep cols') A1).
  rewrite Cx. cbn [bind]. eexists. split; [reflexivity|].
  unfold flag_row. rewrite (C "analysis_batch"), (C "reference_good") by discriminate.
  destruct (mem_str "analysis_batch" cols'), (mem_str "reference_good" cols'); cbv zeta;
    rewrite ?(cell_dset_other "titrant_molinity_here" "analysis_batch") by discriminate;
    rewrite ?cell_dset_same; repeat (apply agree_dset; [discriminate|]); exact A1.
Qed.

(* ------------------------------------------------------------------ *)
(** ** Tables *)

Lemma mapM_rel (R S : row T -> row T -> Prop) (f f' : row T -> res (row T)) l l' m :
  (forall r r' s, R r r' -> f r = Ok s -> exists s', f' r' = Ok s' /\ S s s') ->
  Forall2 R l l' -> mapM f l = Ok m -> exists m', mapM f' l' = Ok m' /\ Forall2 S m m'.
Proof.
  intros St F. revert m. induction F as [|r r' l l' A _ IH]; intros m E; cbn [mapM] in *.
  - injection E as <-. exists []. auto.
  - destruct (f r) as [s|] eqn:Er; cbn [bind] in E; [|discriminate].
    destruct (mapM f l) as [ms|]; cbn [bind] in E; [|discriminate]. injection E as <-.
    destruct (St r r' s A Er) as (s' & E' & A'). destruct (IH ms eq_refl) as (ms' & Em & Fm).
    rewrite E', Em. cbn [bind]. eauto.
Qed.

Definition agree_frames (ds ds' : frame T) : Prop :=
  agree_cols (f_cols ds) (f_cols ds') /\ Forall2 (agree (f_cols ds) (f_cols ds')) (f_rows ds) (f_rows ds').

Lemma table_mem (ds : frame T) r : is_table ds -> In r (f_rows ds) -> mem_str fg (f_cols ds) = dmem fg r.
Proof.
  intros (_ & K) I. rewrite <- (K r I). apply eq_true_iff_eq. rewrite mem_str_spec. apply dget_in_keys.
Qed.

Lemma frames_of_tables (ds ds' : frame T) : is_table ds -> is_table ds' -> same_flags ds ds' -> agree_frames ds ds'.
Proof.
  intros T1 T2 ((L & Co & V) & G). split.
  - intros k N. apply eq_true_iff_eq. rewrite !mem_str_spec. now apply Co.
  - assert (M1 : forall r, In r (f_rows ds) -> mem_str fg (f_cols ds) = dmem fg r) by (intros r; now apply table_mem).
    assert (M2 : forall r, In r (f_rows ds') -> mem_str fg (f_cols ds') = dmem fg r) by (intros r; now apply table_mem).
    unfold n_rows in L. unfold counts_good in G. unfold value in V, G. clear Co T1 T2.
    revert M1 M2 L V G. generalize (f_cols ds) (f_cols ds'). intros c c'. generalize (f_rows ds) (f_rows ds').
    intros l. induction l as [|r l IH]; intros [|r' l'] M1 M2 L V G; try discriminate; constructor.
    + split; [|split; [|split]].
      * intros k N. exact (V k 0%nat N).
      * exact (G 0%nat).
      * apply M1. now left.
      * apply M2. now left.
    + apply IH.
      * intros x I. apply M1. now right.
      * intros x I. apply M2. now right.
      * now injection L.
      * intros k i N. exact (V k (S i) N).
      * intros i. exact (G (S i)).
Qed.

Lemma frames_same (ds ds' : frame T) : agree_frames ds ds' -> same_flags ds ds'.
Proof.
  intros (C & F). split; [split; [|split]|].
  - unfold n_rows. now apply Forall2_length in F.
  - intros c N. rewrite <- !mem_str_spec. now rewrite (C c N).
  - intros c i N. unfold value. revert i. induction F as [|r r' l l' A _ IH]; intros [|i]; cbn; auto. now apply A.
  - unfold counts_good, value. induction F as [|r r' l l' A _ IH]; intros [|i]; cbn; auto. now apply A.
Qed.

Lemma agree_prep_cols c c' : agree_cols c c' -> agree_cols (prep_cols c) (prep_cols c').
Proof. intros C k N. rewrite !mem_prep_cols. now rewrite (C k N). Qed.

Lemma prepare_ok_agree c c' : agree_cols c c' -> prepare_ok c = prepare_ok c'.
Proof. intros C. unfold prepare_ok. now rewrite (C "salinity"), (C "analyte_mass"), (C "analyte_volume") by discriminate. Qed.

Lemma solve_frames e kw (ds ds2 d : frame T) : wfd kw -> agree_frames ds ds2 -> solve e kw ds = Ok d ->
  exists d2, solve e kw ds2 = Ok d2 /\ agree_frames d d2.
Proof.
  intros W (C & F) E. apply solve_inv in E. destruct E as (O & Cd & M).
  destruct (mapM_rel _ (agree (solve_cols (f_cols ds)) (solve_cols (f_cols ds2))) _ (solve_one e kw (f_cols ds2)) _ (f_rows ds2) _
     (fun r r' s A => solve_one_agree e kw _ _ r r' s W C A) F M) as (rows2 & M2 & F2).
  exists {| f_cols := solve_cols (f_cols ds2); f_rows := rows2 |}. split.
  - apply solve_inv. cbn [f_cols f_rows]. split; [|auto]. unfold solve_ok in *.
    rewrite <- (prepare_ok_agree _ _ C), <- (C "titrant_molinity") by discriminate. exact O.
  - split; cbn [f_cols f_rows].
    + rewrite Cd. intros k N. rewrite !mem_solve_cols, (agree_prep_cols _ _ C k N), (C "alkalinity_certified") by discriminate. reflexivity.
    + rewrite Cd. exact F2.
Qed.

Lemma calibrate_frames e kw (ds ds2 d : frame T) : wfd kw -> agree_frames ds ds2 -> calibrate e kw ds = Ok d ->
  exists d2, calibrate e kw ds2 = Ok d2 /\ agree_frames d d2.
Proof.
  intros W (C & F) E. apply calibrate_inv in E. destruct E as (ds1 & E1 & E2).
  apply calibrate_only_inv in E1. destruct E1 as (O & C1 & rows & ms & Er & Em & R1).
  destruct (mapM_rel _ (agree (prep_cols (f_cols ds)) (prep_cols (f_cols ds2))) _ (ref_one e kw (f_cols ds2)) _ (f_rows ds2) _
     (fun r r' s A => ref_one_agree e kw _ _ r r' s W C A) F Er) as (rows2 & Er2 & F2).
  assert (FA : Forall2 (fun a b => forall k, In k ["analysis_batch"; "reference_good"; "titrant_molinity_here"] -> cell k a = cell k b) rows rows2).
  { eapply Forall2_mono; [|exact F2]. cbn beta. intros a b _ _ A k I. apply (agree_cell _ _ k a b A).
    cbn in I. destruct I as [<-|[<-|[<-|[]]]]; discriminate. }
  assert (Em2 : mapM (batch_molinity rows2) rows2 = Ok ms).
  { apply mapM_Forall2. apply mapM_Forall2 in Em.
    assert (X : forall l l' l2, Forall2 (agree (prep_cols (f_cols ds)) (prep_cols (f_cols ds2))) l l' ->
       Forall2 (fun rr m => batch_molinity rows rr = Ok m) l l2 -> Forall2 (fun r2 m => batch_molinity rows2 r2 = Ok m) l' l2).
    { intros l l' l2 A. revert l2. induction A as [|a b l l' Ab _ IH]; intros l2 B; inversion B; subst; constructor; [|now apply IH].
      rewrite <- (batch_agree rows rows2 a b FA); [assumption|]. apply (agree_cell _ _ _ a b Ab). discriminate. }
    eapply X; [exact F2|exact Em]. }
  set (d1' := {| f_cols := addc "titrant_molinity" (ref_cols (f_cols ds2));
                 f_rows := map2 (fun r m => dset "titrant_molinity" (VNum m) r) rows2 ms |}).
  assert (S1 : agree_frames ds1 d1').
  { split; unfold d1'; cbn [f_cols f_rows].
    - rewrite C1. intros k N. now rewrite !mem_ref_cols, (agree_prep_cols _ _ C k N).
    - rewrite R1, C1. clear - F2.
      revert ms. induction F2 as [|a b l l' A _ IH]; intros [|m ms]; cbn [map2]; constructor; [|apply IH].
      apply agree_dset; [discriminate|]. apply (agree_change (prep_cols (f_cols ds)) (prep_cols (f_cols ds2))); [| |exact A];
        rewrite mem_ref_cols, !fg_prep; reflexivity. }
  destruct (solve_frames e kw ds1 d1' d W S1 E2) as (d2 & E2' & S2). exists d2. split; [|exact S2].
  apply calibrate_inv. exists d1'. split; [|exact E2'].
  apply calibrate_only_inv. split; [|split; [reflexivity|exists rows2, ms; auto]].
  unfold calibrate_ok in *. rewrite <- (prepare_ok_agree _ _ C), <- (C "alkalinity_certified") by discriminate. exact O.
Qed.

(* Writing the same verdicts in another way, or leaving the column out when every verdict is
   good, changes nothing but the file_good column itself. *)
Theorem C131_only_truth_of_flag_matters : forall (e : env T) kw ds ds2 d, wfd kw -> is_table ds -> is_table ds2 ->
  same_flags ds ds2 ->
  (solve e kw ds = Ok d -> exists d2, solve e kw ds2 = Ok d2 /\ same_flags d d2) /\
  (calibrate e kw ds = Ok d -> exists d2, calibrate e kw ds2 = Ok d2 /\ same_flags d d2).
Proof.
  intros e kw ds ds2 d W T1 T2 S. assert (A := frames_of_tables ds ds2 T1 T2 S). split; intros E.
  - destruct (solve_frames e kw ds ds2 d W A E) as (d2 & E2 & A2). exists d2. split; [exact E2|]. now apply frames_same.
  - destruct (calibrate_frames e kw ds ds2 d W A E) as (d2 & E2 & A2). exists d2. split; [exact E2|]. now apply frames_same.
Qed.
End P.

(* how missing flags count: an empty number cell (NaN) as good, an empty object cell (None) as bad *)
Theorem C131_how_missing_flags_count : forall (ds : frame xr) i,
  (value ds i "file_good" = Some (VNum NaN) -> counts_good ds i = true) /\
  (value ds i "file_good" = Some VNone -> counts_good ds i = false).
Proof. intros ds i. split; intros E; unfold counts_good; rewrite E; reflexivity. Qed.

(* the titrations of good_and_bad, flagged with NaN and 0 instead of True and False *)
Definition scribbled : frame xr :=
  {| f_cols := dkeys (tiny_row "gen.dat");
     f_rows := [dset "file_good" (VNum NaN) (tiny_row "gen.dat"); dset "file_good" (VInt 0) (tiny_row "gen.dat")] |}.
(* one titration without any flag *)
Definition unflagged_row : row xr := filter (fun kv => negb (String.eqb (fst kv) "file_good")) (tiny_row "gen.dat").
Definition unflagged : frame xr := {| f_cols := dkeys unflagged_row; f_rows := [unflagged_row] |}.

Example C131_nonvacuous : is_table good_and_bad /\ is_table scribbled /\ same_flags good_and_bad scribbled /\
  is_table unflagged /\ same_flags (one_row "gen.dat") unflagged /\ ~ In "file_good" (f_cols unflagged) /\
  exists d d2 d3, solve tiny_env [] good_and_bad = Ok d /\ solve tiny_env [] scribbled = Ok d2 /\
  solve tiny_env [] unflagged = Ok d3 /\
  value d2 0 "alkalinity_npts" = Some (VInt 2) /\ value d2 1 "alkalinity_npts" = Some (VInt 0) /\
  value d3 0 "alkalinity_npts" = Some (VInt 2).
Proof.
  assert (T1 : is_table good_and_bad).
  { split; [repeat constructor; cbn; intuition discriminate|]. intros r [<-|[<-|[]]]; reflexivity. }
  assert (T2 : is_table scribbled).
  { split; [repeat constructor; cbn; intuition discriminate|]. intros r [<-|[<-|[]]]; reflexivity. }
  assert (T3 : is_table unflagged).
  { split; [repeat constructor; cbn; intuition discriminate|]. intros r [<-|[]]; reflexivity. }
  assert (T4 : is_table (one_row "gen.dat")).
  { split; [repeat constructor; cbn; intuition discriminate|]. intros r [<-|[]]; reflexivity. }
  assert (S : same_flags good_and_bad scribbled).
  { split; [split; [reflexivity|split; [reflexivity|]]|].
    - intros c [|[|i]] N; unfold value; cbn [nth_error good_and_bad scribbled f_rows]; unfold bad_row;
        rewrite ?dget_dset_other by exact N; try reflexivity. 
    - intros [|[|i]]; unfold counts_good, value; cbn [nth_error good_and_bad scribbled f_rows]; unfold bad_row;
        rewrite ?dget_dset_same; try reflexivity. }
  assert (S' : same_flags (one_row "gen.dat") unflagged).
  { split; [split; [reflexivity|split]|].
    - intros c N. cbn. intuition congruence.
    - intros c [|i] N; unfold value; cbn [nth_error one_row unflagged f_rows]; [|now destruct i].
      unfold unflagged_row. generalize (tiny_row "gen.dat"). intros r. induction r as [|[k v] r IH]; [reflexivity|].
      cbn [filter fst]. destruct (String.eqb_spec k "file_good") as [->|D]; cbn [negb dget].
      + destruct (String.eqb_spec c "file_good"); [contradiction|exact IH].
      + destruct (String.eqb c k); [reflexivity|exact IH].
    - intros [|i]; [reflexivity|]. unfold counts_good, value. cbn [nth_error one_row unflagged f_rows]. now destruct i. }
  repeat (split; [assumption|]). split; [apply mem_str_false; reflexivity|].
  destruct C52_nonvacuous as (d & _ & _ & E & _ & V0 & _ & Bl & _).
  assert (V1 : value d 1 "alkalinity_npts" = Some (VInt 0)) by (apply Bl; cbn; tauto).
  destruct gen_row_solved as (d0 & E0 & V).
  destruct (C131_only_truth_of_flag_matters tiny_env [] good_and_bad scribbled d ltac:(constructor) T1 T2 S) as (H1 & _).
  destruct (H1 E) as (d2 & E2 & ((_ & _ & W) & _)).
  destruct (C131_only_truth_of_flag_matters tiny_env [] (one_row "gen.dat") unflagged d0 ltac:(constructor) T4 T3 S') as (H2 & _).
  destruct (H2 E0) as (d3 & E3 & ((_ & _ & W') & _)).
  exists d, d2, d3. rewrite <- !W, <- W' by discriminate. auto 10.
Qed.

