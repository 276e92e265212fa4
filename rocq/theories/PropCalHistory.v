(* PropCalHistory.v -- C115: calibrating after edits of the metadata *)
From Coq Require Import Reals Qreals Lra.
From Verif Require Import Dataset SpecDataset DictLemmas SettingsProofs PropSettings DatasetProofs RowProofs CalProofs PropDataset PropTables PropBatch Witness PropHistory PropReference PropCases PropPure SFNum.
Open Scope string_scope.
Open Scope list_scope.

(** Small specification: what a user does with a table. *)
Inductive action (T : Type) : Type :=
| Assign (c : string) (vs : list (val T))     (* ds[c] = vs *)
| SolveIt (kw : kwargs T)                     (* calk.solve(ds, **kw) *)
| CalibrateIt (kw : kwargs T).                (* calk.calibrate(ds, **kw) *)
Arguments Assign {T} c vs.
Arguments SolveIt {T} kw.
Arguments CalibrateIt {T} kw.

Section P.
Context {T : Type} `{Num T}.

(* the table the user is working on *)
Fixpoint working (e : env T) (h : list (action T)) (ds : frame T) : res (frame T) :=
  match h with
  | [] => Ok ds
  | Assign c vs :: h' => working e h' (set_col_list c vs ds)
  | SolveIt kw :: h' => ds' <- solve e kw ds ;; working e h' ds'
  | CalibrateIt kw :: h' => ds' <- calibrate e kw ds ;; working e h' ds'
  end.
(* the table with the assigned values that was never solved or calibrated *)
Fixpoint untouched (h : list (action T)) (ds : frame T) : frame T :=
  match h with
  | [] => ds
  | Assign c vs :: h' => untouched h' (set_col_list c vs ds)
  | _ :: h' => untouched h' ds
  end.

(* the totals are calculated from salinity and opt_total_borate: these two may be assigned only
   if the user has given the totals *)
Fixpoint permitted (h : list (action T)) (ds : frame T) : Prop :=
  match h with
  | [] => True
  | Assign c vs :: h' =>
      length vs = n_rows ds /\ ((c <> "salinity" /\ c <> "opt_total_borate") \/ totals_given ds) /\
      permitted h' (set_col_list c vs ds)
  | SolveIt kw :: h' => wfd kw /\ permitted h' ds
  | CalibrateIt kw :: h' => wfd kw /\ permitted h' ds
  end.

(* ------------------------------------------------------------------ *)
(** * Rows *)

Definition cal_set : list string := ["titrant_molinity"; "titrant_molinity_here"; "analysis_batch"].
Definition cal_outputs : list string := cal_set ++ solve_outputs.
Definition batch_of (r : row T) : val T := match dget "analysis_batch" r with Some v => v | None => VInt 0 end.

Record crelated (e : env T) (rd rf : row T) : Prop := {
  cr_same : forall k, ~ In k cal_outputs -> dget k rd = dget k rf;
  cr_borate : def_borate rd = def_borate rf;
  cr_salt : forall k, In k salts -> salt_val e k rd = salt_val e k rf /\ (notnull (cell k rf) = true -> cell k rd = cell k rf);
  cr_mass : mass_of rd = mass_of rf;
  cr_good : good_of rd = good_of rf;
  cr_unit : unit_of rd = unit_of rf;
  cr_off : dget "alkalinity_certified" rf = None -> dget "alkalinity_offset" rd = dget "alkalinity_offset" rf;
  cr_batch : batch_of rd = batch_of rf
}.

Lemma crelated_refl e r : crelated e r r.
Proof. split; auto. Qed.

Lemma notcal k : ~ In k cal_outputs -> ~ In k solve_outputs.
Proof. intros N I. apply N. apply in_or_app. now right. Qed.

Lemma related_crelated e a b : related e a b -> crelated e a b.
Proof.
  intros [A B C D E F G]. split; auto.
  - intros k N. apply A. now apply notcal.
  - unfold batch_of. rewrite A; [reflexivity|]. cbn. intuition discriminate.
Qed.

Lemma crelated_cert e rd rf : crelated e rd rf -> dget "alkalinity_certified" rd = dget "alkalinity_certified" rf.
Proof. intros R. apply (cr_same _ _ _ R). cbn. intuition discriminate. Qed.

Lemma crelated_trans e a b c : crelated e a b -> crelated e b c -> crelated e a c.
Proof.
  intros R S. split.
  - intros k N. rewrite (cr_same _ _ _ R k N). now apply (cr_same _ _ _ S).
  - now rewrite (cr_borate _ _ _ R), (cr_borate _ _ _ S).
  - intros k I. destruct (cr_salt _ _ _ R k I) as [A1 A2], (cr_salt _ _ _ S k I) as [B1 B2]. split; [congruence|].
    intros N. rewrite <- (B2 N) in N |- *. auto.
  - now rewrite (cr_mass _ _ _ R), (cr_mass _ _ _ S).
  - now rewrite (cr_good _ _ _ R), (cr_good _ _ _ S).
  - now rewrite (cr_unit _ _ _ R), (cr_unit _ _ _ S).
  - intros N. rewrite (cr_off _ _ _ R); [now apply (cr_off _ _ _ S)|]. now rewrite (crelated_cert _ _ _ S).
  - now rewrite (cr_batch _ _ _ R), (cr_batch _ _ _ S).
Qed.

Lemma assign_crelated e c v (rd rf : row T) : crelated e rd rf ->
  (c <> "salinity" /\ c <> "opt_total_borate") \/ (forall k, In k salts -> notnull (cell k rf) = true) ->
  crelated e (dset c v rd) (dset c v rf).
Proof.
  intros R C.
  assert (Db : def_borate (dset c v rd) = def_borate (dset c v rf)).
  { destruct (String.eqb_spec c "opt_total_borate") as [Ec|N].
    - rewrite Ec. unfold def_borate. now rewrite !cell_dset_same.
    - assert (B := cr_borate _ _ _ R). unfold def_borate in *. rewrite !cell_dset_other by congruence. exact B. }
  assert (Es : cell "salinity" (dset c v rd) = cell "salinity" (dset c v rf)).
  { unfold cell. rewrite !dget_dset. destruct (String.eqb "salinity" c); [reflexivity|].
    rewrite (cr_same _ _ _ R "salinity"); [reflexivity|]. cbn. intuition discriminate. }
  split.
  - intros k N. rewrite !dget_dset. destruct (String.eqb k c); [reflexivity|]. now apply (cr_same _ _ _ R).
  - exact Db.
  - intros k I. destruct (cr_salt _ _ _ R k I) as [A1 A2].
    destruct (String.eqb_spec k c) as [Ek|N].
    + subst k. split; [|intros _; now rewrite !cell_dset_same]. unfold salt_val. rewrite !cell_dset_same, Es, Db. reflexivity.
    + split; [|rewrite !cell_dset_other by assumption; exact A2].
      destruct C as [[C1 C2]|C].
      * unfold salt_val, def_borate in *. rewrite !cell_dset_other by congruence. exact A1.
      * unfold salt_val. rewrite (cell_dset_other k c v rd N), (cell_dset_other k c v rf N). rewrite (A2 (C k I)), (C k I). reflexivity.
  - unfold mass_of. rewrite !dget_dset. destruct (String.eqb _ c); [reflexivity|]. apply (cr_mass _ _ _ R).
  - unfold good_of. rewrite !dget_dset. destruct (String.eqb _ c); [reflexivity|]. apply (cr_good _ _ _ R).
  - unfold unit_of. rewrite !dget_dset. destruct (String.eqb _ c); [reflexivity|]. apply (cr_unit _ _ _ R).
  - rewrite !dget_dset. destruct (String.eqb "alkalinity_certified" c); [discriminate|].
    intros N. destruct (String.eqb _ c); [reflexivity|]. now apply (cr_off _ _ _ R).
  - unfold batch_of. rewrite !dget_dset. destruct (String.eqb _ c); [reflexivity|]. apply (cr_batch _ _ _ R).
Qed.

Lemma prep_exists e cd cf (rd rf p : row T) : dkeys rd = cd ->
  (forall k, In k salts -> salt_val e k rd = salt_val e k rf) ->
  prep_row e cd rd = Ok p -> exists p', prep_row e cf rf = Ok p'.
Proof.
  intros Kd R E. assert (G := prep_dget e cd rd p Kd E). destruct G as (_ & S & _).
  unfold prep_row. rewrite salt_row_spec.
  destruct (S "total_sulfate") as (s1 & E1 & _); [cbn; tauto|]. destruct (S "total_borate") as (s2 & E2 & _); [cbn; tauto|].
  destruct (S "total_fluoride") as (s3 & E3 & _); [cbn; tauto|].
  rewrite R in E1 by (cbn; tauto). rewrite R in E2 by (cbn; tauto). rewrite R in E3 by (cbn; tauto).
  rewrite E1, E2, E3. cbn [bind]. eauto.
Qed.

Lemma prep_crelated e cd cf (rd rf p p' : row T) : dkeys rd = cd -> dkeys rf = cf -> crelated e rd rf ->
  prep_row e cd rd = Ok p -> prep_row e cf rf = Ok p' ->
  forall k, In k prep_keys \/ ~ In k cal_outputs -> dget k p = dget k p'.
Proof.
  intros Kd Kf R E E'. assert (G := prep_dget e cd rd p Kd E). destruct G as (B & S & M & G & U).
  assert (G' := prep_dget e cf rf p' Kf E'). destruct G' as (B' & S' & M' & G' & U').
  assert (X : forall k, In k salts -> dget k p = dget k p').
  { intros k I. destruct (S k I) as (s & Es & ->). destruct (S' k I) as (s' & Es' & ->).
    rewrite (proj1 (cr_salt _ _ _ R k I)) in Es. congruence. }
  intros k [I|N].
  - cbn in I. destruct I as [<-|[<-|[<-|[<-|[<-|[<-|[<-|[]]]]]]]].
    + rewrite B, B'. now rewrite (cr_borate _ _ _ R).
    + apply X; cbn; tauto. + apply X; cbn; tauto. + apply X; cbn; tauto.
    + rewrite M, M'. now rewrite (cr_mass _ _ _ R).
    + rewrite U, U'. apply (cr_unit _ _ _ R).
    + rewrite G, G'. now rewrite (cr_good _ _ _ R).
  - assert (N' : ~ In k prep_keys) by (intros I; apply (notcal _ N); right; apply in_or_app; auto).
    rewrite (prep_row_get e cd rd p k E N'), (prep_row_get e cf rf p' k E' N'). now apply (cr_same _ _ _ R).
Qed.

Definition cal_keys : list string := "file_name" :: "alkalinity_certified" :: "salinity" :: "file_good" :: "read_dat_method" :: keys_calibrate.
Lemma mem_cal_inputs : forallb (fun k => mem_str k prep_keys || negb (mem_str k cal_outputs)) cal_keys = true.
Proof. reflexivity. Qed.
Lemma cal_or k : In k cal_keys -> In k prep_keys \/ ~ In k cal_outputs.
Proof.
  intros I. assert (X := mem_cal_inputs). rewrite forallb_forall in X. specialize (X k I).
  apply orb_prop in X. destruct X as [E|E]; [left; now apply mem_str_spec|right]. apply negb_true_iff in E. now apply mem_str_false.
Qed.

(* a row as the batches see it, once reference_good is a column *)
Lemma ref_one_get e kw cols (r rr p : row T) : dkeys r = cols -> mem_str "reference_good" cols = true -> prep_row e cols r = Ok p ->
  ref_one e kw cols r = Ok rr ->
  exists x, calibrate_row e kw p = Ok x /\ dget "titrant_molinity_here" rr = Some (VNum x) /\
    dget "analysis_batch" rr = Some (batch_of r) /\ dget "reference_good" rr = dget "reference_good" r /\
    forall k, ~ In k cal_set -> dget k rr = dget k p.
Proof.
  intros K M P E. destruct (ref_one_inv _ _ _ _ _ E) as (p' & x & P' & Cx & ->). rewrite P in P'. injection P' as <-.
  exists x. split; [exact Cx|].
  assert (Gb : dget "analysis_batch" p = dget "analysis_batch" r) by (apply (prep_row_get e cols r p _ P); cbn; intuition discriminate).
  assert (Gr : dget "reference_good" p = dget "reference_good" r) by (apply (prep_row_get e cols r p _ P); cbn; intuition discriminate).
  unfold flag_row. rewrite M, (mem_keys r cols "analysis_batch" K). unfold batch_of.
  destruct (dget "analysis_batch" r) as [b|]; cbv zeta.
  - rewrite dget_dset_same, !(dget_dset_other _ "titrant_molinity_here") by discriminate. rewrite Gb, Gr. repeat (split; [reflexivity|]).
    intros k N. apply dget_dset_other. intros ->. apply N. cbn. tauto.
  - rewrite dget_dset_same, !(dget_dset_other _ "analysis_batch") by discriminate. rewrite dget_dset_same, dget_dset_other by discriminate. rewrite Gr.
    repeat (split; [reflexivity|]). intros k N. rewrite !dget_dset_other; [reflexivity|..]; intros ->; apply N; cbn; tauto.
Qed.

Lemma ref_crelated e kw cd cf (rd rf rr : row T) : wfd kw -> dkeys rd = cd -> dkeys rf = cf ->
  mem_str "reference_good" cd = true -> mem_str "reference_good" cf = true -> crelated e rd rf ->
  ref_one e kw cd rd = Ok rr ->
  exists rr', ref_one e kw cf rf = Ok rr' /\
    (forall k, In k ["analysis_batch"; "reference_good"; "titrant_molinity_here"] -> cell k rr = cell k rr') /\
    forall m, related e (dset "titrant_molinity" (VNum m) rr) (dset "titrant_molinity" (VNum m) rr').
Proof.
  intros W Kd Kf Md Mf R E. destruct (ref_one_inv _ _ _ _ _ E) as (p & x & P & Cx & Er).
  destruct (prep_exists e cd cf rd rf p Kd (fun k I => proj1 (cr_salt _ _ _ R k I)) P) as (p' & P').
  assert (A := prep_crelated e cd cf rd rf p p' Kd Kf R P P').
  assert (Cx' : calibrate_row e kw p' = Ok x).
  { rewrite <- Cx. symmetry. apply calibrate_row_agree; [exact W|]. intros k I. apply A, cal_or, I. }
  assert (exists rr', ref_one e kw cf rf = Ok rr') as (rr' & E') by (unfold ref_one; rewrite P'; cbn [bind]; rewrite Cx'; cbn [bind]; eauto).
  exists rr'. split; [exact E'|].
  destruct (ref_one_get e kw cd rd rr p Kd Md P E) as (x1 & C1 & H1 & B1 & G1 & O1).
  destruct (ref_one_get e kw cf rf rr' p' Kf Mf P' E') as (x2 & C2 & H2 & B2 & G2 & O2).
  rewrite Cx in C1. injection C1 as <-. rewrite Cx' in C2. injection C2 as <-.
  assert (Gr : dget "reference_good" rd = dget "reference_good" rf) by (apply (cr_same _ _ _ R); cbn; intuition discriminate).
  assert (S : forall k, In k prep_keys \/ ~ In k solve_outputs -> k <> "titrant_molinity" -> dget k rr = dget k rr').
  { intros k I N. destruct (mem_str k cal_set) eqn:Mk.
    - apply mem_str_spec in Mk. cbn in Mk. destruct Mk as [<-|[<-|[<-|[]]]]; [congruence|congruence|].
      rewrite B1, B2. now rewrite (cr_batch _ _ _ R).
    - apply mem_str_false in Mk. rewrite (O1 k Mk), (O2 k Mk). apply A. destruct I as [I|I]; [now left|right].
      intros J. apply in_app_or in J. tauto. }
  split.
  - intros k I. unfold cell. cbn in I. destruct I as [<-|[<-|[<-|[]]]].
    + rewrite B1, B2. now rewrite (cr_batch _ _ _ R).
    + now rewrite G1, G2, Gr.
    + now rewrite H1, H2.
  - intros m.
    assert (S' : forall k, In k prep_keys \/ ~ In k solve_outputs ->
       dget k (dset "titrant_molinity" (VNum m) rr) = dget k (dset "titrant_molinity" (VNum m) rr')).
    { intros k I. rewrite !dget_dset. destruct (String.eqb_spec k "titrant_molinity"); [reflexivity|]. now apply S. }
    assert (C' : forall k, In k prep_keys -> cell k (dset "titrant_molinity" (VNum m) rr) = cell k (dset "titrant_molinity" (VNum m) rr')).
    { intros k I. unfold cell. now rewrite S' by now left. }
    assert (Cs : cell "salinity" (dset "titrant_molinity" (VNum m) rr) = cell "salinity" (dset "titrant_molinity" (VNum m) rr')).
    { unfold cell. rewrite S'; [reflexivity|]. right. cbn. intuition discriminate. }
    assert (Db : def_borate (dset "titrant_molinity" (VNum m) rr) = def_borate (dset "titrant_molinity" (VNum m) rr')).
    { unfold def_borate. now rewrite C' by (cbn; tauto). }
    split.
    + intros k N. apply S'. now right.
    + exact Db.
    + intros k I. assert (Ik : In k prep_keys) by (cbn in I; destruct I as [<-|[<-|[<-|[]]]]; cbn; tauto).
      split; [|intros _; now apply C']. unfold salt_val. now rewrite (C' k Ik), Cs, Db.
    + unfold mass_of. now rewrite S' by (left; cbn; tauto).
    + unfold good_of. now rewrite S' by (left; cbn; tauto).
    + unfold unit_of. now rewrite S' by (left; cbn; tauto).
    + rewrite !dget_dset. cbn [String.eqb Ascii.eqb Bool.eqb]. intros N.
      rewrite (O1 "alkalinity_offset"), (O2 "alkalinity_offset") by (cbn; intuition discriminate).
      rewrite (O2 "alkalinity_certified"), (prep_row_get e cf rf p' _ P') in N by (cbn; intuition discriminate).
      rewrite (prep_row_get e cd rd p _ P), (prep_row_get e cf rf p' _ P') by (cbn; intuition discriminate).
      now apply (cr_off _ _ _ R).
Qed.

(* a calibrated row is related to the row it came from *)
Lemma prepped_crelated e kw cols (r rr : row T) m : dkeys r = cols -> mem_str "reference_good" cols = true ->
  ref_one e kw cols r = Ok rr -> crelated e (dset "titrant_molinity" (VNum m) rr) r.
Proof.
  intros K M E. destruct (ref_one_inv _ _ _ _ _ E) as (p & x & P & _ & _).
  destruct (ref_one_get e kw cols r rr p K M P E) as (x1 & _ & H1 & B1 & G1 & O1).
  assert (G := prep_dget e cols r p K P). destruct G as (B & Sa & Ma & G & U).
  set (y := dset "titrant_molinity" (VNum m) rr).
  assert (O : forall k, ~ In k cal_set -> dget k y = dget k p).
  { intros k N. unfold y. rewrite dget_dset_other by (intros ->; apply N; cbn; tauto). now apply O1. }
  assert (Xs : dget "salinity" y = dget "salinity" r).
  { rewrite O by (cbn; intuition discriminate). apply (prep_row_get e cols r p _ P). cbn. intuition discriminate. }
  assert (Db : def_borate y = def_borate r).
  { unfold def_borate at 1, cell. rewrite O by (cbn; intuition discriminate). rewrite B. unfold def_borate.
    destruct (notnull (cell "opt_total_borate" r)) eqn:N; [now rewrite N|reflexivity]. }
  split.
  - intros k N. assert (N1 : ~ In k cal_set) by (intros I; apply N; apply in_or_app; now left). rewrite (O k N1).
    apply (prep_row_get e cols r p _ P). intros I. apply (notcal _ N). right. apply in_or_app. now left.
  - exact Db.
  - intros k I. destruct (Sa k I) as (s & Es & Gs).
    assert (Gx : dget k y = Some s).
    { rewrite O; [exact Gs|]. cbn in I. destruct I as [<-|[<-|[<-|[]]]]; cbn; intuition discriminate. }
    split.
    + rewrite Es. apply (salt_val_null_again e k r); [exact Es|unfold cell; now rewrite Gx|unfold cell; now rewrite Xs|exact Db].
    + intros N. unfold salt_val in Es. rewrite N in Es. injection Es as <-. unfold cell at 1. now rewrite Gx.
  - unfold mass_of at 1. rewrite O by (cbn; intuition discriminate). now rewrite Ma.
  - unfold good_of at 1. rewrite O by (cbn; intuition discriminate). now rewrite G.
  - unfold unit_of at 1. rewrite O by (cbn; intuition discriminate). rewrite U. unfold unit_of.
    destruct (dget "titrant_amount_unit" r) as [u|]; [|reflexivity]. destruct (isnull u) eqn:N; [reflexivity|now rewrite N].
  - intros _. rewrite O by (cbn; intuition discriminate). apply (prep_row_get e cols r p _ P). cbn. intuition discriminate.
  - unfold batch_of at 1, y. rewrite dget_dset_other by discriminate. now rewrite B1.
Qed.

(* ------------------------------------------------------------------ *)
(** * Tables *)

Record crel (e : env T) (d f : frame T) : Prop := {
  cl_d : wff d; cl_f : wff f;
  cl_cols : forall k, ~ In k cal_outputs -> mem_str k (f_cols d) = mem_str k (f_cols f);
  cl_mv : mass_or_volume (f_cols d) = mass_or_volume (f_cols f);
  cl_ref : mem_str "reference_good" (f_cols f) = true;
  cl_rows : Forall2 (crelated e) (f_rows d) (f_rows f)
}.

Lemma crel_refl e d : wff d -> mem_str "reference_good" (f_cols d) = true -> crel e d d.
Proof. intros W M. split; auto. apply CalProofs.Forall2_refl. intros; apply crelated_refl. Qed.

Lemma crel_ref_d e d f : crel e d f -> mem_str "reference_good" (f_cols d) = true.
Proof. intros R. rewrite (cl_cols _ _ _ R); [apply (cl_ref _ _ _ R)|]. cbn. intuition discriminate. Qed.

Lemma crel_edit e c vs d f : crel e d f -> length vs = n_rows f ->
  (c <> "salinity" /\ c <> "opt_total_borate") \/ totals_given f ->
  crel e (set_col_list c vs d) (set_col_list c vs f).
Proof.
  intros [Wd Wf C MV RG R] L A. split; try now apply wff_edit.
  - intros k N. rewrite !set_col_list_cols, !mem_addc. now rewrite C.
  - rewrite !set_col_list_cols. unfold mass_or_volume in *. rewrite !mem_addc.
    destruct (mem_str "analyte_mass" (f_cols d)), (mem_str "analyte_volume" (f_cols d)), (mem_str "analyte_mass" (f_cols f)), (mem_str "analyte_volume" (f_cols f));
      cbn in MV |- *; try discriminate; rewrite ?orb_true_r; reflexivity.
  - rewrite set_col_list_cols, mem_addc, RG. reflexivity.
  - cbn [set_col_list f_rows]. 
    assert (A' : (c <> "salinity" /\ c <> "opt_total_borate") \/ (forall rf, In rf (f_rows f) -> forall k, In k salts -> notnull (cell k rf) = true)).
    { destruct A as [A|A]; [now left|right]. intros rf I k Ik. apply In_nth_error in I. destruct I as (i & Ei).
      destruct (A k i) as (v & V & N); [exact Ik|unfold n_rows; apply nth_error_Some; congruence|].
      rewrite (value_nth _ _ _ _ Ei) in V. unfold cell. now rewrite V. }
    unfold n_rows in L. clear - R L A'. revert vs L. induction R as [|rd rf ld lf R0 _ IH]; intros [|v vs] L; cbn in L; try discriminate; cbn [map2]; constructor.
    + apply assign_crelated; [exact R0|]. destruct A' as [A|A]; [now left|right]. apply A. now left.
    + apply IH; [|congruence]. destruct A' as [A|A]; [now left|right]. intros r I. apply A. now right.
Qed.

Lemma Forall2_trans_l {A} (R S : A -> A -> Prop) (Q : A -> A -> Prop) l1 l2 l3 :
  (forall x y z, R x y -> S y z -> Q x z) -> Forall2 R l1 l2 -> Forall2 S l2 l3 -> Forall2 Q l1 l3.
Proof. intros X F. revert l3. induction F; intros l3 G; inversion G; subst; constructor; eauto. Qed.

Lemma Forall2_flip' {A B} (R : A -> B -> Prop) l l' : Forall2 R l l' -> Forall2 (fun y x => R x y) l' l.
Proof. induction 1; constructor; auto. Qed.

Lemma crel_solve e kw d f d' : crel e d f -> solve e kw d = Ok d' -> crel e d' f.
Proof.
  intros [Wd Wf C MV RG R] E. destruct (rel_solve e kw d d d' (rel_refl e d Wd) E) as [W' _ C' MV' R'].
  split; auto.
  - intros k N. rewrite C' by now apply notcal. now apply C.
  - congruence.
  - eapply Forall2_trans_l; [|exact R'|exact R]. intros x y z A B. eapply crelated_trans; [apply related_crelated; exact A|exact B].
Qed.

Lemma crel_calibrate_only e kw d f d' : crel e d f -> calibrate_only e kw d = Ok d' -> crel e d' f.
Proof.
  intros CR E. assert (M := crel_ref_d _ _ _ CR). destruct CR as [Wd Wf C MV RG R].
  assert (W' := wff_calibrate_only e kw d d' Wd E).
  apply calibrate_only_inv in E. destruct E as (O & Cd & rows & ms & Er & Em & R').
  split; auto.
  - intros k N. rewrite <- C by exact N. rewrite Cd. unfold ref_cols. rewrite !mem_addc, mem_prep_cols.
    assert (X : mem_str k ["opt_total_borate"; "total_sulfate"; "total_borate"; "total_fluoride"; "analyte_mass"; "file_good"] = false).
    { apply mem_str_false. intros I. apply N. cbn in I |- *. tauto. }
    assert (Y : forall q, In q cal_set -> String.eqb k q = false).
    { intros q I. apply String.eqb_neq. intros ->. apply N. apply in_or_app. now left. }
    rewrite X, (Y "titrant_molinity"), (Y "analysis_batch"), (Y "titrant_molinity_here") by (cbn; tauto). rewrite !orb_false_r.
    destruct (String.eqb_spec k "reference_good") as [->|]; [rewrite M; reflexivity|now rewrite ?orb_false_r].
  - rewrite <- MV. unfold mass_or_volume. rewrite Cd. unfold ref_cols. rewrite !mem_addc, !mem_prep_cols.
    unfold calibrate_ok, prepare_ok in O. apply andb_prop in O. destruct O as [O _].
    apply andb_prop in O. destruct O as [_ O]. rewrite O.
    replace (mem_str "analyte_mass" ["opt_total_borate"; "total_sulfate"; "total_borate"; "total_fluoride"; "analyte_mass"; "file_good"]) with true by reflexivity.
    rewrite !orb_true_r. reflexivity.
  - assert (L := mapM_ok _ _ _ Em). destruct L as [L _]. apply mapM_Forall2 in Er. rewrite R'.
    assert (G := Forall2_map2 (fun r m => dset "titrant_molinity" (VNum m) r) rows ms (eq_sym L)).
    assert (X : Forall2 (crelated e) (map2 (fun r m => dset "titrant_molinity" (VNum m) r) rows ms) (f_rows d)).
    { apply Forall2_flip'. pose proof (Forall2_comp _ _ _ _ _ Er G) as F. eapply Forall2_mono; [|exact F]. cbv beta.
      intros r0 y I0 _ (rr & R0 & m & _ & ->). eapply (prepped_crelated e kw (f_cols d)); [now apply Wd|exact M|exact R0]. }
    eapply Forall2_trans_l; [|exact X|exact R]. intros x y z. apply crelated_trans.
Qed.

Lemma crel_calibrate e kw d f d' : crel e d f -> calibrate e kw d = Ok d' -> crel e d' f.
Proof.
  intros R E. apply calibrate_inv in E. destruct E as (d1 & E1 & E2).
  eapply crel_solve; [|exact E2]. now apply (crel_calibrate_only e kw d).
Qed.

Lemma crel_history e h : forall d f d', crel e d f -> permitted h f -> working e h d = Ok d' -> crel e d' (untouched h f).
Proof.
  induction h as [|[c vs|kw|kw] h IH]; intros d f d' R A E; cbn [working untouched permitted] in *.
  - now injection E as <-.
  - destruct A as (L & C & A). eapply IH; [|exact A|exact E]. now apply crel_edit.
  - destruct A as (_ & A). destruct (solve e kw d) as [d1|] eqn:S; cbn [bind] in E; [|discriminate].
    eapply IH; [|exact A|exact E]. now apply (crel_solve e kw d).
  - destruct A as (_ & A). destruct (calibrate e kw d) as [d1|] eqn:S; cbn [bind] in E; [|discriminate].
    eapply IH; [|exact A|exact E]. now apply (crel_calibrate e kw d).
Qed.

Lemma rows_crel e kw cd cf ld lf rows : wfd kw -> Forall2 (crelated e) ld lf ->
  (forall r, In r ld -> dkeys r = cd) -> (forall r, In r lf -> dkeys r = cf) ->
  mem_str "reference_good" cd = true -> mem_str "reference_good" cf = true ->
  mapM (ref_one e kw cd) ld = Ok rows ->
  exists rows', mapM (ref_one e kw cf) lf = Ok rows' /\
    Forall2 (fun rr rr' : row T =>
      (forall k, In k ["analysis_batch"; "reference_good"; "titrant_molinity_here"] -> cell k rr = cell k rr') /\
      forall m, related e (dset "titrant_molinity" (VNum m) rr) (dset "titrant_molinity" (VNum m) rr')) rows rows'.
Proof.
  intros W R Kd Kf Md Mf E. apply mapM_Forall2 in E. revert rows E.
  induction R as [|rd rf ld lf R0 _ IH]; intros rows E; inversion E as [|? rr ? rows1 A B]; subst.
  - exists []. split; [reflexivity|constructor].
  - destruct (ref_crelated e kw cd cf rd rf rr W (Kd rd (or_introl eq_refl)) (Kf rf (or_introl eq_refl)) Md Mf R0 A) as (rr' & E' & F').
    destruct (IH (fun r I => Kd r (or_intror I)) (fun r I => Kf r (or_intror I)) _ B) as (l2 & E2 & F2).
    exists (rr' :: l2). split; [cbn [mapM]; rewrite E'; cbn [bind]; rewrite E2; reflexivity|now constructor].
Qed.

Lemma batches_agree (rows rows' : list (row T)) :
  Forall2 (fun a b => forall k, In k ["analysis_batch"; "reference_good"; "titrant_molinity_here"] -> cell k a = cell k b) rows rows' ->
  mapM (batch_molinity rows) rows = mapM (batch_molinity rows') rows'.
Proof.
  intros F. assert (G : forall r r' : row T, cell "analysis_batch" r = cell "analysis_batch" r' -> batch_molinity rows r = batch_molinity rows' r')
    by (intros r r'; apply batch_agree; exact F).
  revert G. generalize (batch_molinity rows), (batch_molinity rows'). intros g g' G. induction F as [|a b l l' A _ IH]; [reflexivity|].
  cbn [mapM]. rewrite IH, (G a b) by (apply A; cbn; tauto). reflexivity.
Qed.

Lemma calibrate_ok_rel e d f : crel e d f -> calibrate_ok (f_cols d) = calibrate_ok (f_cols f).
Proof.
  intros R. unfold calibrate_ok, prepare_ok. fold (mass_or_volume (f_cols d)). fold (mass_or_volume (f_cols f)).
  rewrite (cl_mv _ _ _ R), !(cl_cols _ _ _ R) by (cbn; intuition discriminate). reflexivity.
Qed.

Lemma related_map2 e (rows rows' : list (row T)) ms : length ms = length rows ->
  Forall2 (fun rr rr' : row T => forall m, related e (dset "titrant_molinity" (VNum m) rr) (dset "titrant_molinity" (VNum m) rr')) rows rows' ->
  Forall2 (related e) (map2 (fun r m => dset "titrant_molinity" (VNum m) r) rows ms) (map2 (fun r m => dset "titrant_molinity" (VNum m) r) rows' ms).
Proof.
  intros L F. revert ms L. induction F as [|a b l l' A _ IH]; intros [|m ms] L; cbn in L; try discriminate; cbn [map2]; constructor; [apply A|].
  apply IH. congruence.
Qed.

Lemma calibrate_only_rel e kw d f d1 : wfd kw -> crel e d f -> calibrate_only e kw d = Ok d1 ->
  exists f1, calibrate_only e kw f = Ok f1 /\ rel e d1 f1.
Proof.
  intros W R E. assert (Md := crel_ref_d _ _ _ R). assert (Mf := cl_ref _ _ _ R).
  assert (W1 := wff_calibrate_only e kw d d1 (cl_d _ _ _ R) E).
  apply calibrate_only_inv in E. destruct E as (O & C1 & rows & ms & Er & Em & R1).
  assert (Of := O). rewrite (calibrate_ok_rel e d f R) in Of.
  destruct (rows_crel e kw (f_cols d) (f_cols f) _ _ rows W (cl_rows _ _ _ R) (proj2 (cl_d _ _ _ R)) (proj2 (cl_f _ _ _ R)) Md Mf Er) as (rows' & Er' & F).
  assert (Em' : mapM (batch_molinity rows') rows' = Ok ms).
  { rewrite <- Em. symmetry. apply batches_agree. eapply Forall2_mono; [|exact F]. cbv beta. tauto. }
  assert (L := mapM_ok _ _ _ Em). destruct L as [L _].
  set (f1 := {| f_cols := addc "titrant_molinity" (ref_cols (f_cols f)); f_rows := map2 (fun r m => dset "titrant_molinity" (VNum m) r) rows' ms |}).
  assert (Ef : calibrate_only e kw f = Ok f1).
  { apply calibrate_only_inv. split; [exact Of|]. split; [reflexivity|]. exists rows', ms. auto. }
  exists f1. split; [exact Ef|].
  assert (MV : forall g : frame T, calibrate_ok (f_cols g) = true -> mass_or_volume (addc "titrant_molinity" (ref_cols (f_cols g))) = true).
  { intros g Og. unfold mass_or_volume, ref_cols. rewrite !mem_addc, !mem_prep_cols.
    replace (mem_str "analyte_mass" ["opt_total_borate"; "total_sulfate"; "total_borate"; "total_fluoride"; "analyte_mass"; "file_good"]) with true by reflexivity.
    rewrite !orb_true_r. reflexivity. }
  split; auto.
  - exact (wff_calibrate_only e kw f f1 (cl_f _ _ _ R) Ef).
  - intros k N. rewrite C1. unfold f1. cbn [f_cols]. unfold ref_cols. rewrite !mem_addc, !mem_prep_cols.
    destruct (mem_str k cal_set) eqn:Mk.
    + apply mem_str_spec in Mk. cbn in Mk. destruct Mk as [<-|[<-|[<-|[]]]]; cbn [String.eqb Ascii.eqb Bool.eqb]; rewrite ?orb_true_r; reflexivity.
    + rewrite (cl_cols _ _ _ R); [reflexivity|]. intros I. apply in_app_or in I. apply mem_str_false in Mk. tauto.
  - rewrite C1. unfold f1. cbn [f_cols]. now rewrite !MV.
  - rewrite R1. unfold f1. cbn [f_rows]. apply related_map2; [exact L|]. eapply Forall2_mono; [|exact F]. cbv beta. tauto.
Qed.

Lemma ref_one_back e kw cd cf (rd rf rr : row T) : wfd kw -> dkeys rd = cd -> dkeys rf = cf -> crelated e rd rf ->
  ref_one e kw cf rf = Ok rr -> exists y, ref_one e kw cd rd = Ok y.
Proof.
  intros W Kd Kf R E. destruct (ref_one_inv _ _ _ _ _ E) as (p & x & P & Cx & _).
  destruct (prep_exists e cf cd rf rd p Kf (fun k I => eq_sym (proj1 (cr_salt _ _ _ R k I))) P) as (q & Q).
  assert (A := prep_crelated e cd cf rd rf q p Kd Kf R Q P).
  assert (Cq : calibrate_row e kw q = Ok x).
  { rewrite <- Cx. apply calibrate_row_agree; [exact W|]. intros k I. apply A, cal_or, I. }
  unfold ref_one. rewrite Q. cbn [bind]. rewrite Cq. cbn [bind]. eauto.
Qed.

Lemma calibrate_only_back e kw d f f1 : wfd kw -> crel e d f -> calibrate_only e kw f = Ok f1 -> exists d1, calibrate_only e kw d = Ok d1.
Proof.
  intros W R E. apply calibrate_only_inv in E. destruct E as (O & _ & rows' & ms & Er' & Em' & _).
  rewrite <- (calibrate_ok_rel e d f R) in O. assert (Er2 := Er'). apply mapM_Forall2 in Er2.
  destruct (mapM_total (ref_one e kw (f_cols d)) (f_rows d)) as (rows & Er).
  { intros rd I. destruct (Forall2_in_l _ _ _ _ (cl_rows _ _ _ R) I) as (rf & If & R0). destruct (Forall2_in_l _ _ _ _ Er2 If) as (y & _ & Ey).
    apply (ref_one_back e kw _ (f_cols f) rd rf y); auto; [now apply (cl_d _ _ _ R)|now apply (cl_f _ _ _ R)]. }
  destruct (rows_crel e kw (f_cols d) (f_cols f) _ _ rows W (cl_rows _ _ _ R) (proj2 (cl_d _ _ _ R)) (proj2 (cl_f _ _ _ R)) (crel_ref_d _ _ _ R) (cl_ref _ _ _ R) Er) as (rows2 & Er3 & F).
  rewrite Er' in Er3. apply ok_inj in Er3. subst rows2.
  assert (Em : mapM (batch_molinity rows) rows = Ok ms).
  { rewrite <- Em'. apply batches_agree. eapply Forall2_mono; [|exact F]. cbv beta. tauto. }
  exists {| f_cols := addc "titrant_molinity" (ref_cols (f_cols d)); f_rows := map2 (fun r m => dset "titrant_molinity" (VNum m) r) rows ms |}.
  apply calibrate_only_inv. split; [exact O|]. split; [reflexivity|]. exists rows, ms. auto.
Qed.

(* solving related tables *)
Lemma solve_rel_fw e kw d f : wfd kw -> rel e d f ->
  forall d1, solve e kw d = Ok d1 -> exists d2, solve e kw f = Ok d2 /\ same_values d1 d2.
Proof.
  intros Wk R d1 E. apply solve_inv in E. destruct E as (O & C & M). rewrite (solve_ok_rel e kw d _ R) in O.
  destruct R as [Wd Wf Cc MV R]. apply mapM_Forall2 in M.
  assert (X : exists l2, mapM (solve_one e kw (f_cols f)) (f_rows f) = Ok l2 /\
                         Forall2 (fun x y : row T => forall k, dget k x = dget k y) (f_rows d1) l2).
  { destruct Wd as [_ Kd], Wf as [_ Kf]. clear - R M Kd Kf Wk. revert Kd Kf M. generalize (f_cols d) as cd, (f_cols f) as cf, (f_rows d1) as l1. intros cd cf l1 Kd Kf M. revert l1 M.
    induction R as [|rd rf ld lf R0 _ IH]; intros l1 M; inversion M as [|? x ? l1' A B]; subst.
    - exists []. split; [reflexivity|constructor].
    - destruct (solve_related e kw cd cf rd rf x Wk (Kd rd (or_introl eq_refl)) (Kf rf (or_introl eq_refl)) R0 A) as (y & Ey & Ay).
      destruct (IH (fun r I => Kd r (or_intror I)) (fun r I => Kf r (or_intror I)) _ B) as (l2 & E2 & F2).
      exists (y :: l2). split; [cbn [mapM]; rewrite Ey; cbn [bind]; rewrite E2; reflexivity|now constructor]. }
  destruct X as (l2 & E2 & F2). exists {| f_cols := solve_cols (f_cols f); f_rows := l2 |}. split.
  - apply solve_inv. auto.
  - now apply same_values_rows.
Qed.

Lemma solve_rel_back e kw d f d2 : wfd kw -> rel e d f -> solve e kw f = Ok d2 -> exists d1, solve e kw d = Ok d1.
Proof.
  intros Wk R E2. apply solve_inv in E2. destruct E2 as (O & C & M). rewrite <- (solve_ok_rel e kw d _ R) in O.
  destruct R as [Wd Wf Cc MV R]. apply mapM_Forall2 in M.
  destruct (mapM_total (solve_one e kw (f_cols d)) (f_rows d)) as (l & El).
  { intros rd I. destruct (Forall2_in_l _ _ _ _ R I) as (rf & If & R0). destruct (Forall2_in_l _ _ _ _ M If) as (y & _ & Ey).
    apply (related_back e kw _ (f_cols f) rd rf y); auto; [now apply Wd|now apply Wf]. }
  exists {| f_cols := solve_cols (f_cols d); f_rows := l |}. apply solve_inv. auto.
Qed.

(* ------------------------------------------------------------------ *)
(** * C115 *)

(** After any history of assignments, solves and calibrations of a table with a reference_good
    column, calibrating gives what calibrating the table with the same assigned values and no
    history gives.  (Missing for the full claim: tables without a reference_good column, below.) *)
Theorem C115_history_irrelevant_partial : forall (e : env T) h kw ds d, is_table ds -> wfd kw ->
  In "reference_good" (f_cols ds) ->
  permitted h ds -> working e h ds = Ok d ->
  (forall d1, calibrate e kw d = Ok d1 -> exists d2, calibrate e kw (untouched h ds) = Ok d2 /\ same_values d1 d2) /\
  (forall d2, calibrate e kw (untouched h ds) = Ok d2 -> exists d1, calibrate e kw d = Ok d1 /\ same_values d1 d2).
Proof.
  intros e h kw ds d W Wk M A L. apply mem_str_spec in M.
  assert (R := crel_history e h ds ds d (crel_refl e ds W M) A L).
  assert (Fw : forall d1, calibrate e kw d = Ok d1 -> exists d2, calibrate e kw (untouched h ds) = Ok d2 /\ same_values d1 d2).
  { intros d1 E. apply calibrate_inv in E. destruct E as (d0 & E0 & E1).
    destruct (calibrate_only_rel e kw d _ d0 Wk R E0) as (f0 & F0 & R0).
    destruct (solve_rel_fw e kw d0 f0 Wk R0 d1 E1) as (d2 & E2 & S). exists d2. split; [|exact S]. apply calibrate_inv. eauto. }
  split; [exact Fw|]. intros d2 E2.
  assert (exists d1, calibrate e kw d = Ok d1) as (d1 & E1).
  { apply calibrate_inv in E2. destruct E2 as (f0 & F0 & F1).
    destruct (calibrate_only_back e kw d _ f0 Wk R F0) as (d0 & E0).
    destruct (calibrate_only_rel e kw d _ d0 Wk R E0) as (f0' & F0' & R0). rewrite F0 in F0'. apply ok_inj in F0'. subst f0'.
    destruct (solve_rel_back e kw d0 f0 d2 Wk R0 F1) as (d1 & E1). exists d1. apply calibrate_inv. eauto. }
  destruct (Fw d1 E1) as (d2' & E2' & S). rewrite E2 in E2'. apply ok_inj in E2'. subst d2'. eauto.
Qed.

(** The first calibration of a table without that column decides, for good, which rows count: the
    ones whose own molinity could be found. *)
Theorem C115_first_calibration_decides : forall (e : env T) kw ds ds' i m, is_table ds ->
  ~ In "reference_good" (f_cols ds) -> calibrate e kw ds = Ok ds' ->
  value ds' i "titrant_molinity_here" = Some (VNum m) ->
  value ds' i "reference_good" = Some (VBool (negb (nisnan m))).
Proof.
  intros e kw ds ds' i m W M E V. apply mem_str_false in M.
  destruct (calibrate_stages e kw ds ds' W E) as (rows & Er & F). apply mapM_Forall2 in Er.
  unfold value in *. destruct (nth_error (f_rows ds') i) as [r2|] eqn:N2; [|discriminate].
  destruct (Forall2_nth _ _ _ _ _ (Forall2_flip' _ _ _ F) N2) as (rr & N1 & (m0 & _ & _ & _ & A)).
  destruct (Forall2_nth _ _ _ _ _ (Forall2_flip' _ _ _ Er) N1) as (r0 & N0 & R0).
  rewrite A in V |- * by (cbn; tauto).
  destruct (ref_one_inv _ _ _ _ _ R0) as (p & x & P & Cx & Rr). rewrite Rr in V |- *.
  rewrite flag_row_get in V by discriminate. rewrite dget_dset_same in V. apply some_inj in V.
  assert (x = m) by congruence. subst x.
  unfold flag_row. rewrite M. cbv zeta. rewrite dget_dset_same. do 2 f_equal.
  unfold cell. destruct (mem_str "analysis_batch" (f_cols ds)); rewrite ?(dget_dset_other "titrant_molinity_here" "analysis_batch") by discriminate;
    rewrite dget_dset_same; reflexivity.
Qed.

(** Once there is such a column, calibrating leaves it alone: what the user has put there is
    respected, and so is what an earlier calibration has put there. *)
Theorem C115_flags_are_kept : forall (e : env T) kw ds ds' i, is_table ds ->
  In "reference_good" (f_cols ds) -> calibrate e kw ds = Ok ds' ->
  value ds' i "reference_good" = value ds i "reference_good".
Proof.
  intros e kw ds ds' i W M E. apply mem_str_spec in M.
  destruct (calibrate_stages e kw ds ds' W E) as (rows & Er & F). apply mapM_Forall2 in Er.
  unfold value. destruct (nth_error (f_rows ds') i) as [r2|] eqn:N2.
  - destruct (Forall2_nth _ _ _ _ _ (Forall2_flip' _ _ _ F) N2) as (rr & N1 & (m0 & _ & _ & _ & A)).
    destruct (Forall2_nth _ _ _ _ _ (Forall2_flip' _ _ _ Er) N1) as (r0 & N0 & R0). rewrite N0.
    rewrite A by (cbn; tauto). destruct (ref_one_inv _ _ _ _ _ R0) as (p & x & P & _ & _).
    destruct (ref_one_get e kw (f_cols ds) r0 rr p (proj2 W r0 (nth_error_In _ _ N0)) M P R0) as (_ & _ & _ & _ & G & _). exact G.
  - apply nth_error_None in N2. assert (L1 := Forall2_len _ _ _ F). assert (L2 := Forall2_len _ _ _ Er).
    destruct (nth_error (f_rows ds) i) as [r0|] eqn:N0; [|reflexivity]. exfalso.
    assert (i < length (f_rows ds))%nat by (apply nth_error_Some; congruence). unfold row in *. lia.
Qed.

End P.

(* ------------------------------------------------------------------ *)
(** * The full claim is false *)

#[local] Instance num_late : Num sf := Num_sf flm.
Definition late_row (cert : val sf) : row sf :=
  [("file_name", VStr "gen.dat"); ("salinity", VInt 35); ("analyte_mass", VInt 1); ("titrant_amount_unit", VStr "kg");
   ("solve_mode", VStr "pH"); ("alkalinity_certified", cert)].
Definition late_table (cert : val sf) : frame sf := {| f_cols := dkeys (late_row cert); f_rows := [late_row cert] |}.
Lemma late_is_table cert : is_table (late_table cert).
Proof. split; [repeat constructor; cbn; intuition discriminate|]. intros r [<-|[]]. reflexivity. Qed.

Definition late_history : list (action sf) := [CalibrateIt []; Assign "alkalinity_certified" [VInt 1]].
Definition after {A B} (r : res A) (f : A -> B) : option B := match r with Ok x => Some (f x) | Err _ => None end.

(** The user calibrates, then enters the certified alkalinity they had forgotten and calibrates
    again.  The row is calibrated, but it does not count as a reference, so its batch has no
    molinity; the same table calibrated once has one. *)
Theorem C115_late_certificate_refuted : exists (e : env sf) ds d d1 d2 m, is_table ds /\
  permitted late_history ds /\ working (H := Num_sf flm) e late_history ds = Ok d /\
  calibrate (H := Num_sf flm) e [] d = Ok d1 /\ calibrate (H := Num_sf flm) e [] (untouched late_history ds) = Ok d2 /\
  nisnan (Num := Num_sf flm) m = false /\
  value d1 0 "titrant_molinity_here" = Some (VNum m) /\ value d2 0 "titrant_molinity_here" = Some (VNum m) /\
  value d1 0 "titrant_molinity" = Some (VNum (nnan (Num := Num_sf flm))) /\ value d2 0 "titrant_molinity" = Some (VNum m).
Proof.
  destruct (working (H := Num_sf flm) fenv late_history (late_table VNone)) as [d|] eqn:E; [|vm_compute in E; discriminate].
  destruct (calibrate (H := Num_sf flm) fenv [] d) as [d1|] eqn:E1.
  2:{ exfalso. assert (X : after (d <- working (H := Num_sf flm) fenv late_history (late_table VNone) ;; calibrate (H := Num_sf flm) fenv [] d) (fun _ => tt) = Some tt) by (vm_compute; reflexivity).
      rewrite E in X. cbn [bind] in X. rewrite E1 in X. discriminate. }
  destruct (calibrate (H := Num_sf flm) fenv [] (untouched late_history (late_table VNone))) as [d2|] eqn:E2; [|vm_compute in E2; discriminate].
  exists fenv, (late_table VNone), d, d1, d2, (sf_ofQ 0.1).
  assert (X : after (d <- working (H := Num_sf flm) fenv late_history (late_table VNone) ;; calibrate (H := Num_sf flm) fenv [] d)
     (fun d => (value d 0 "titrant_molinity_here", value d 0 "titrant_molinity")) = Some (Some (VNum (sf_ofQ 0.1)), Some (VNum (nnan (Num := Num_sf flm))))) by (vm_compute; reflexivity).
  rewrite E in X. cbn [bind] in X. rewrite E1 in X. cbn [after] in X. apply some_inj in X. apply pair_equal_spec in X. destruct X as [X1 X2].
  assert (Y : after (calibrate (H := Num_sf flm) fenv [] (untouched late_history (late_table VNone)))
     (fun d => (value d 0 "titrant_molinity_here", value d 0 "titrant_molinity")) = Some (Some (VNum (sf_ofQ 0.1)), Some (VNum (sf_ofQ 0.1)))) by (vm_compute; reflexivity).
  rewrite E2 in Y. cbn [after] in Y. apply some_inj in Y. apply pair_equal_spec in Y. destruct Y as [Y1 Y2].
  split; [apply late_is_table|]. split.
  { cbn [permitted late_history]. split; [constructor|]. split; [reflexivity|]. split; [left; split; discriminate|exact I]. }
  split; [exact E|]. split; [exact E1|]. split; [exact E2|]. split; [vm_compute; reflexivity|].
  split; [exact X1|]. split; [exact Y1|]. split; [exact X2|exact Y2].
Qed.

(* with a reference_good column: the same history, then a calibration, on a table that is solved in between *)
Definition flagged : frame sf := set_col_list "reference_good" [VBool true] (late_table VNone).
Definition long_history : list (action sf) :=
  [CalibrateIt []; Assign "alkalinity_certified" [VInt 1]; CalibrateIt []; SolveIt []; Assign "titrant_molinity" [VInt 7];
   Assign "analysis_batch" [VStr "b"]; SolveIt []; Assign "alkalinity_certified" [VInt 2]].

Example C115_nonvacuous : is_table flagged /\ In "reference_good" (f_cols flagged) /\ permitted long_history flagged /\
  after (d <- working (H := Num_sf flm) fenv long_history flagged ;; calibrate (H := Num_sf flm) fenv [] d)
    (fun d => (value d 0 "titrant_molinity", value d 0 "alkalinity_npts")) = Some (Some (VNum (sf_ofQ 0.1)), Some (VInt 2)) /\
  ~ In "reference_good" (f_cols (late_table VNone)) /\
  after (calibrate (H := Num_sf flm) fenv [] (late_table VNone)) (fun d => value d 0 "reference_good") = Some (Some (VBool false)).
Proof.
  split; [apply wff_edit, late_is_table|]. split; [cbn; tauto|]. split.
  { cbn [permitted long_history]. repeat (split; [first [reflexivity | left; split; discriminate | solve [constructor]]|]). exact I. }
  split; [vm_compute; reflexivity|]. split; [cbn; intuition discriminate|vm_compute; reflexivity].
Qed.

Print Assumptions C115_history_irrelevant_partial.
Print Assumptions C115_first_calibration_decides.
Print Assumptions C115_flags_are_kept.
Print Assumptions C115_late_certificate_refuted.
