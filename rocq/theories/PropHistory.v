(* PropHistory.v -- C57: solving after edits of the metadata *)
From Coq Require Import Reals Qreals Lra.
From Verif Require Import Dataset SpecDataset DictLemmas SettingsProofs PropSettings DatasetProofs RowProofs CalProofs PropDataset PropTables PropBatch Witness.
Open Scope string_scope.
Open Scope list_scope.

(* what a user does with a table: assign a column, or solve *)
Inductive step (T : Type) : Type :=
| Edit (c : string) (vs : list (val T))
| Solve (kw : kwargs T).
Arguments Edit {T} c vs.
Arguments Solve {T} kw.

Section P.
Context {T : Type} `{Num T}.

(* the table the user is working on *)
Fixpoint live (e : env T) (h : list (step T)) (ds : frame T) : res (frame T) :=
  match h with
  | [] => Ok ds
  | Edit c vs :: h' => live e h' (set_col_list c vs ds)
  | Solve kw :: h' => ds' <- solve e kw ds ;; live e h' ds'
  end.
(* the table with the edited values that was never solved *)
Fixpoint fresh (h : list (step T)) (ds : frame T) : frame T :=
  match h with
  | [] => ds
  | Edit c vs :: h' => fresh h' (set_col_list c vs ds)
  | Solve _ :: h' => fresh h' ds
  end.

Definition totals_given (ds : frame T) : Prop :=
  forall k i, In k ["total_sulfate"; "total_borate"; "total_fluoride"] -> (i < n_rows ds)%nat ->
    exists v, value ds i k = Some v /\ notnull v = true.

(* the totals are calculated from salinity and opt_total_borate: these two may be edited only
   if the user has given the totals *)
Fixpoint allowed (h : list (step T)) (ds : frame T) : Prop :=
  match h with
  | [] => True
  | Edit c vs :: h' =>
      length vs = n_rows ds /\ ((c <> "salinity" /\ c <> "opt_total_borate") \/ totals_given ds) /\
      allowed h' (set_col_list c vs ds)
  | Solve kw :: h' => wfd kw /\ allowed h' ds
  end.

Definition mass_of (r : row T) : val T := match dget "analyte_mass" r with Some v => v | None => VNum nnan end.
Definition good_of (r : row T) : val T := match dget "file_good" r with Some v => v | None => VBool true end.
Definition unit_of (r : row T) : option (val T) :=
  match dget "titrant_amount_unit" r with Some v => Some (if isnull v then VStr "ml" else v) | None => None end.

Record related (e : env T) (rd rf : row T) : Prop := {
  re_same : forall k, ~ In k solve_outputs -> dget k rd = dget k rf;
  re_borate : def_borate rd = def_borate rf;
  re_salt : forall k, In k salts -> salt_val e k rd = salt_val e k rf /\ (notnull (cell k rf) = true -> cell k rd = cell k rf);
  re_mass : mass_of rd = mass_of rf;
  re_good : good_of rd = good_of rf;
  re_unit : unit_of rd = unit_of rf;
  re_off : dget "alkalinity_certified" rf = None -> dget "alkalinity_offset" rd = dget "alkalinity_offset" rf
}.

Lemma related_refl e r : related e r r.
Proof. split; auto. Qed.

Lemma mem_keys (r : row T) cols k : dkeys r = cols -> mem_str k cols = match dget k r with Some _ => true | None => false end.
Proof.
  intros K. destruct (dget k r) as [v|] eqn:G.
  - apply mem_str_spec. rewrite <- K. apply dget_in_keys, dmem_true_get. eauto.
  - apply mem_str_false. rewrite <- K. intros I. apply dget_in_keys, dmem_true_get in I. destruct I. congruence.
Qed.

Lemma prep_dget e cols (r p : row T) : dkeys r = cols -> prep_row e cols r = Ok p ->
  dget "opt_total_borate" p = Some (def_borate r) /\
  (forall k, In k salts -> exists s, salt_val e k r = Ok s /\ dget k p = Some s) /\
  dget "analyte_mass" p = Some (mass_of r) /\ dget "file_good" p = Some (good_of r) /\
  dget "titrant_amount_unit" p = unit_of r.
Proof.
  intros K E. unfold prep_row in E. rewrite salt_row_spec in E.
  destruct (salt_val e "total_sulfate" r) as [s1|] eqn:E1; cbn [bind] in E; [|discriminate].
  destruct (salt_val e "total_borate" r) as [s2|] eqn:E2; cbn [bind] in E; [|discriminate].
  destruct (salt_val e "total_fluoride" r) as [s3|] eqn:E3; cbn [bind] in E; [|discriminate].
  set (q := dset "total_fluoride" s3 _) in E. injection E as <-.
  assert (Q : forall k, ~ In k ["opt_total_borate"; "total_sulfate"; "total_borate"; "total_fluoride"] -> dget k q = dget k r).
  { intros k N. unfold q. rewrite !dget_dset_other; [reflexivity|..]; intros ->; apply N; cbn; tauto. }
  assert (X : forall k, ~ In k ["analyte_mass"; "titrant_amount_unit"; "file_good"] -> dget k (rest_row cols q) = dget k q).
  { intros k N. now apply rest_row_get. }
  split; [|split; [|split; [|split]]].
  - rewrite X by (cbn; intuition discriminate). unfold q. rewrite !dget_dset_other by discriminate. apply dget_dset_same.
  - intros k I. cbn in I. destruct I as [<-|[<-|[<-|[]]]].
    + exists s1. split; [exact E1|]. rewrite X by (cbn; intuition discriminate). unfold q. rewrite !dget_dset_other by discriminate. apply dget_dset_same.
    + exists s2. split; [exact E2|]. rewrite X by (cbn; intuition discriminate). unfold q. rewrite !dget_dset_other by discriminate. apply dget_dset_same.
    + exists s3. split; [exact E3|]. rewrite X by (cbn; intuition discriminate). unfold q. apply dget_dset_same.
  - unfold rest_row, mass_of. rewrite (mem_keys r cols "analyte_mass" K).
    destruct (mem_str "file_good" cols), (mem_str "titrant_amount_unit" cols), (dget "analyte_mass" r) eqn:G; cbv zeta;
      rewrite ?(dget_dset_other "analyte_mass" "file_good"), ?(dget_dset_other "analyte_mass" "titrant_amount_unit") by discriminate;
      rewrite ?dget_dset_same; try reflexivity; rewrite Q by (cbn; intuition discriminate); assumption.
  - unfold rest_row, good_of. rewrite (mem_keys r cols "file_good" K).
    destruct (mem_str "analyte_mass" cols), (mem_str "titrant_amount_unit" cols), (dget "file_good" r) eqn:G; cbv zeta;
      rewrite ?dget_dset_same; try reflexivity;
      rewrite ?(dget_dset_other "file_good" "analyte_mass"), ?(dget_dset_other "file_good" "titrant_amount_unit") by discriminate;
      rewrite ?(dget_dset_other "file_good" "analyte_mass") by discriminate;
      rewrite Q by (cbn; intuition discriminate); assumption.
  - unfold rest_row, unit_of. rewrite (mem_keys r cols "titrant_amount_unit" K).
    assert (U : dget "titrant_amount_unit" q = dget "titrant_amount_unit" r) by (apply Q; cbn; intuition discriminate).
    destruct (dget "titrant_amount_unit" r) eqn:G; cbv zeta.
    + assert (C : forall m, cell "titrant_amount_unit" (if m : bool then q else dset "analyte_mass" (VNum nnan) q) = v).
      { intros m. unfold cell. destruct m; rewrite ?dget_dset_other by discriminate; now rewrite U. }
      destruct (mem_str "file_good" cols); rewrite ?(dget_dset_other "titrant_amount_unit" "file_good") by discriminate;
        rewrite dget_dset_same; now rewrite C.
    + destruct (mem_str "file_good" cols), (mem_str "analyte_mass" cols); rewrite ?(dget_dset_other "titrant_amount_unit") by discriminate; assumption.
Qed.

Lemma prep_related e cd cf (rd rf p : row T) : dkeys rd = cd -> dkeys rf = cf -> related e rd rf ->
  prep_row e cd rd = Ok p -> exists p', prep_row e cf rf = Ok p' /\ forall k, In k prep_keys \/ ~ In k solve_outputs -> dget k p = dget k p'.
Proof.
  intros Kd Kf R E. assert (G := prep_dget e cd rd p Kd E). destruct G as (B & S & M & G & U).
  assert (exists p', prep_row e cf rf = Ok p') as (p' & E').
  { unfold prep_row. rewrite salt_row_spec.
    destruct (S "total_sulfate") as (s1 & E1 & _); [cbn; tauto|]. destruct (S "total_borate") as (s2 & E2 & _); [cbn; tauto|].
    destruct (S "total_fluoride") as (s3 & E3 & _); [cbn; tauto|].
    rewrite (proj1 (re_salt _ _ _ R "total_sulfate" ltac:(cbn; tauto))) in E1.
    rewrite (proj1 (re_salt _ _ _ R "total_borate" ltac:(cbn; tauto))) in E2.
    rewrite (proj1 (re_salt _ _ _ R "total_fluoride" ltac:(cbn; tauto))) in E3.
    rewrite E1, E2, E3. cbn [bind]. eauto. }
  exists p'. split; [exact E'|]. assert (G' := prep_dget e cf rf p' Kf E'). destruct G' as (B' & S' & M' & G' & U').
  assert (X : forall k, In k salts -> dget k p = dget k p').
  { intros k I. destruct (S k I) as (s & Es & ->). destruct (S' k I) as (s' & Es' & ->).
    rewrite (proj1 (re_salt _ _ _ R k I)) in Es. congruence. }
  intros k [I|N].
  - cbn in I. destruct I as [<-|[<-|[<-|[<-|[<-|[<-|[<-|[]]]]]]]].
    + rewrite B, B'. now rewrite (re_borate _ _ _ R).
    + apply X; cbn; tauto. + apply X; cbn; tauto. + apply X; cbn; tauto.
    + rewrite M, M'. now rewrite (re_mass _ _ _ R).
    + rewrite U, U'. apply (re_unit _ _ _ R).
    + rewrite G, G'. now rewrite (re_good _ _ _ R).
  - assert (N' : ~ In k prep_keys) by (intros I; apply N; right; apply in_or_app; auto).
    rewrite (prep_row_get e cd rd p k E N'), (prep_row_get e cf rf p' k E' N'). now apply (re_same _ _ _ R).
Qed.

Lemma related_sym e rd rf : related e rd rf -> dget "alkalinity_certified" rd = dget "alkalinity_certified" rf.
Proof. intros R. apply (re_same _ _ _ R). cbn. intuition discriminate. Qed.

Lemma mem_solve_inputs : forallb (fun k => mem_str k prep_keys || negb (mem_str k solve_outputs))
  ("file_name" :: "titrant_molinity" :: "salinity" :: "file_good" :: "analyte_mass" :: "read_dat_method" :: keys_solve) = true.
Proof. reflexivity. Qed.

Lemma mem_or k : (mem_str k prep_keys || negb (mem_str k solve_outputs))%bool = true -> In k prep_keys \/ ~ In k solve_outputs.
Proof.
  intros E. apply orb_prop in E. destruct E as [E|E]; [left; now apply mem_str_spec|right]. apply negb_true_iff in E. now apply mem_str_false.
Qed.

Lemma offset_agree (r r' : row T) : (forall k, In k ["alkalinity"; "alkalinity_certified"] -> dget k r = dget k r') -> offset_of r = offset_of r'.
Proof. intros A. unfold offset_of, cell. now rewrite (A "alkalinity"), (A "alkalinity_certified") by (cbn; tauto). Qed.

(* solving related rows gives the same row *)
Lemma solve_related e kw cd cf (rd rf x : row T) : wfd kw -> dkeys rd = cd -> dkeys rf = cf -> related e rd rf ->
  solve_one e kw cd rd = Ok x -> exists y, solve_one e kw cf rf = Ok y /\ forall k, dget k x = dget k y.
Proof.
  intros W Kd Kf R E. destruct (solve_one_inv _ _ _ _ _ E) as (p & d & P & S & F).
  destruct (prep_related e cd cf rd rf p Kd Kf R P) as (p' & P' & A).
  assert (S' : solve_row e kw p' = Ok d).
  { rewrite <- S. symmetry. apply solve_row_agree; [exact W|]. intros k I. apply A, mem_or.
    assert (X := mem_solve_inputs). rewrite forallb_forall in X. now apply X. }
  assert (MC : mem_str "alkalinity_certified" cd = mem_str "alkalinity_certified" cf).
  { rewrite (mem_keys rd cd _ Kd), (mem_keys rf cf _ Kf). now rewrite (related_sym _ _ _ R). }
  assert (PA : forall k, k <> "alkalinity_offset" -> dget k (put_results d p) = dget k (put_results d p')).
  { intros k N. rewrite !dget_put. destruct (mem_str k output_cols) eqn:M; [reflexivity|].
    apply A. destruct (mem_str k prep_keys) eqn:MP; [left; now apply mem_str_spec|right].
    intros I. apply mem_str_false in M, MP. destruct I as [I|I]; [congruence|]. apply in_app_or in I. tauto. }
  assert (OF := offset_agree (put_results d p) (put_results d p')). 
  assert (exists y, finish_row cf (put_results d p') = Ok y /\ forall k, dget k x = dget k y) as (y & Fy & Ay).
  { unfold finish_row in *. rewrite <- MC. destruct (mem_str "alkalinity_certified" cd) eqn:M.
    - rewrite <- OF by (intros k I; apply PA; cbn in I; destruct I as [<-|[<-|[]]]; discriminate).
      destruct (offset_of (put_results d p)) as [o|]; cbn [bind] in *; [|discriminate]. injection F as <-.
      eexists. split; [reflexivity|]. intros k. rewrite !dget_dset. destruct (String.eqb_spec k "alkalinity_offset"); [reflexivity|now apply PA].
    - injection F as <-. eexists. split; [reflexivity|]. intros k. destruct (String.eqb_spec k "alkalinity_offset") as [Ek|N]; [|now apply PA]. rewrite Ek.
      rewrite !dget_put. replace (mem_str "alkalinity_offset" output_cols) with false by reflexivity.
      rewrite (prep_row_get e cd rd p _ P), (prep_row_get e cf rf p' _ P') by (cbn; intuition discriminate).
      apply (re_off _ _ _ R). rewrite (mem_keys rf cf _ Kf) in MC. revert MC. destruct (dget "alkalinity_certified" rf); [discriminate|reflexivity]. }
  exists y. split; [|exact Ay]. unfold solve_one. rewrite P'. cbn [bind]. rewrite S'. exact Fy.
Qed.

(* a solved row is related to the row it came from *)
Lemma solved_related e kw cols (r x : row T) : dkeys r = cols -> solve_one e kw cols r = Ok x -> related e x r.
Proof.
  intros K E. destruct (solve_one_inv _ _ _ _ _ E) as (p & d & P & S & F).
  assert (G := prep_dget e cols r p K P). destruct G as (B & Sa & M & G & U).
  assert (X : forall k, k <> "alkalinity_offset" -> ~ In k output_cols -> dget k x = dget k p).
  { intros k N1 N2. rewrite (finish_get cols _ _ k F N1), dget_put. apply mem_str_false in N2. now rewrite N2. }
  assert (Xb : dget "opt_total_borate" x = Some (def_borate r)) by (rewrite X by (cbn; intuition discriminate); exact B).
  assert (Xs : dget "salinity" x = dget "salinity" r) by (apply (solve_one_get _ _ _ _ _ _ E); cbn; intuition discriminate).
  assert (Db : def_borate x = def_borate r).
  { unfold def_borate at 1, cell. rewrite Xb. unfold def_borate.
    destruct (notnull (cell "opt_total_borate" r)) eqn:N; [now rewrite N|reflexivity]. }
  assert (Mx : dget "analyte_mass" x = Some (mass_of r)).
  { rewrite (finish_get cols _ _ _ F), dget_put by discriminate. cbn [mem_str existsb output_cols String.eqb Ascii.eqb Bool.eqb orb].
    rewrite (solve_row_mass e kw p d S). unfold cell. now rewrite M. }
  split.
  - intros k N. now apply (solve_one_get _ _ _ _ _ _ E).
  - exact Db.
  - intros k I. destruct (Sa k I) as (s & Es & Gs).
    assert (Gx : dget k x = Some s).
    { rewrite X; [exact Gs|..]; cbn in I; destruct I as [<-|[<-|[<-|[]]]]; try discriminate; cbn; intuition discriminate. }
    split.
    + rewrite Es. apply (salt_val_null_again e k r); [exact Es|unfold cell; now rewrite Gx|unfold cell; now rewrite Xs|exact Db].
    + intros N. unfold salt_val in Es. rewrite N in Es. injection Es as <-. unfold cell at 1. now rewrite Gx.
  - unfold mass_of at 1. now rewrite Mx.
  - unfold good_of at 1. rewrite X by (cbn; intuition discriminate). now rewrite G.
  - unfold unit_of at 1. rewrite X by (cbn; intuition discriminate). rewrite U. unfold unit_of.
    destruct (dget "titrant_amount_unit" r) as [u|]; [|reflexivity]. destruct (isnull u) eqn:N; [reflexivity|now rewrite N].
  - intros N. unfold finish_row in F. rewrite (mem_keys r cols _ K), N in F. injection F as <-.
    rewrite dget_put. replace (mem_str "alkalinity_offset" output_cols) with false by reflexivity.
    apply (prep_row_get e cols r p _ P). cbn. intuition discriminate.
Qed.

Lemma related_trans e a b c : related e a b -> related e b c -> related e a c.
Proof.
  intros R S. split.
  - intros k N. rewrite (re_same _ _ _ R k N). now apply (re_same _ _ _ S).
  - now rewrite (re_borate _ _ _ R), (re_borate _ _ _ S).
  - intros k I. destruct (re_salt _ _ _ R k I) as [A1 A2], (re_salt _ _ _ S k I) as [B1 B2]. split; [congruence|].
    intros N. rewrite <- (B2 N) in N |- *. auto.
  - now rewrite (re_mass _ _ _ R), (re_mass _ _ _ S).
  - now rewrite (re_good _ _ _ R), (re_good _ _ _ S).
  - now rewrite (re_unit _ _ _ R), (re_unit _ _ _ S).
  - intros N. rewrite (re_off _ _ _ R); [now apply (re_off _ _ _ S)|]. now rewrite (related_sym _ _ _ S).
Qed.

(* editing both keeps them related *)
Lemma edit_related e c v (rd rf : row T) : related e rd rf ->
  (c <> "salinity" /\ c <> "opt_total_borate") \/ (forall k, In k salts -> notnull (cell k rf) = true) ->
  related e (dset c v rd) (dset c v rf).
Proof.
  intros R C.
  assert (Db : def_borate (dset c v rd) = def_borate (dset c v rf)).
  { destruct (String.eqb_spec c "opt_total_borate") as [Ec|N].
    - rewrite Ec. unfold def_borate. now rewrite !cell_dset_same.
    - assert (B := re_borate _ _ _ R). unfold def_borate in *. rewrite !cell_dset_other by congruence. exact B. }
  assert (Es : cell "salinity" (dset c v rd) = cell "salinity" (dset c v rf)).
  { unfold cell. rewrite !dget_dset. destruct (String.eqb "salinity" c); [reflexivity|].
    rewrite (re_same _ _ _ R "salinity"); [reflexivity|]. cbn. intuition discriminate. }
  split.
  - intros k N. rewrite !dget_dset. destruct (String.eqb k c); [reflexivity|]. now apply (re_same _ _ _ R).
  - exact Db.
  - intros k I. destruct (re_salt _ _ _ R k I) as [A1 A2].
    destruct (String.eqb_spec k c) as [Ek|N].
    + subst k. split; [|intros _; now rewrite !cell_dset_same]. unfold salt_val. rewrite !cell_dset_same, Es, Db. reflexivity.
    + split; [|rewrite !cell_dset_other by assumption; exact A2].
      destruct C as [[C1 C2]|C].
      * unfold salt_val, def_borate in *. rewrite !cell_dset_other by congruence. exact A1.
      * unfold salt_val. rewrite (cell_dset_other k c v rd N), (cell_dset_other k c v rf N). rewrite (A2 (C k I)), (C k I). reflexivity.
  - unfold mass_of. rewrite !dget_dset. destruct (String.eqb _ c); [reflexivity|]. apply (re_mass _ _ _ R).
  - unfold good_of. rewrite !dget_dset. destruct (String.eqb _ c); [reflexivity|]. apply (re_good _ _ _ R).
  - unfold unit_of. rewrite !dget_dset. destruct (String.eqb _ c); [reflexivity|]. apply (re_unit _ _ _ R).
  - rewrite !dget_dset. destruct (String.eqb "alkalinity_certified" c); [discriminate|].
    intros N. destruct (String.eqb _ c); [reflexivity|]. now apply (re_off _ _ _ R).
Qed.

(* ------------------------------------------------------------------ *)
(** * Tables *)

Definition mass_or_volume (cols : list string) : bool := mem_str "analyte_mass" cols || mem_str "analyte_volume" cols.

Record rel (e : env T) (d f : frame T) : Prop := {
  rl_d : wff d; rl_f : wff f;
  rl_cols : forall k, ~ In k solve_outputs -> mem_str k (f_cols d) = mem_str k (f_cols f);
  rl_mv : mass_or_volume (f_cols d) = mass_or_volume (f_cols f);
  rl_rows : Forall2 (related e) (f_rows d) (f_rows f)
}.

Lemma rel_refl e d : wff d -> rel e d d.
Proof. intros W. split; auto. apply CalProofs.Forall2_refl. intros; apply related_refl. Qed.

Lemma Forall2_len {A B} (R : A -> B -> Prop) l l' : Forall2 R l l' -> length l = length l'.
Proof. induction 1; cbn; congruence. Qed.

Lemma wff_edit c vs (d : frame T) : wff d -> wff (set_col_list c vs d).
Proof.
  intros [N W]. split; [rewrite set_col_list_cols; now apply NoDup_addc|].
  intros r I. cbn [set_col_list f_rows] in I. apply in_map2 in I. destruct I as (r0 & v & I & _ & ->).
  rewrite set_col_list_cols, dkeys_dset. f_equal. now apply W.
Qed.

Lemma rel_edit e c vs d f : rel e d f -> length vs = n_rows f ->
  (c <> "salinity" /\ c <> "opt_total_borate") \/ totals_given f ->
  rel e (set_col_list c vs d) (set_col_list c vs f).
Proof.
  intros [Wd Wf C MV R] L A. split; try now apply wff_edit.
  - intros k N. rewrite !set_col_list_cols, !mem_addc. now rewrite C.
  - rewrite !set_col_list_cols. unfold mass_or_volume in *. rewrite !mem_addc.
    destruct (mem_str "analyte_mass" (f_cols d)), (mem_str "analyte_volume" (f_cols d)), (mem_str "analyte_mass" (f_cols f)), (mem_str "analyte_volume" (f_cols f));
      cbn in MV |- *; try discriminate; rewrite ?orb_true_r; reflexivity.
  - cbn [set_col_list f_rows]. 
    assert (A' : (c <> "salinity" /\ c <> "opt_total_borate") \/ (forall rf, In rf (f_rows f) -> forall k, In k salts -> notnull (cell k rf) = true)).
    { destruct A as [A|A]; [now left|right]. intros rf I k Ik. apply In_nth_error in I. destruct I as (i & Ei).
      destruct (A k i) as (v & V & N); [exact Ik|unfold n_rows; apply nth_error_Some; congruence|].
      rewrite (value_nth _ _ _ _ Ei) in V. unfold cell. now rewrite V. }
    unfold n_rows in L. clear - R L A'. revert vs L. induction R as [|rd rf ld lf R0 _ IH]; intros [|v vs] L; cbn in L; try discriminate; cbn [map2]; constructor.
    + apply edit_related; [exact R0|]. destruct A' as [A|A]; [now left|right]. apply A. now left.
    + apply IH; [|congruence]. destruct A' as [A|A]; [now left|right]. intros r I. apply A. now right.
Qed.

Lemma rel_solve e kw d f d' : rel e d f -> solve e kw d = Ok d' -> rel e d' f.
Proof.
  intros [Wd Wf C MV R] E. assert (W' := wff_solve e kw d d' Wd E). apply solve_inv in E. destruct E as (O & Cd & M).
  split; auto.
  - intros k N. rewrite <- C by exact N. rewrite Cd, mem_solve_cols, mem_prep_cols.
    assert (X : mem_str k ["opt_total_borate"; "total_sulfate"; "total_borate"; "total_fluoride"; "analyte_mass"; "file_good"] = false).
    { apply mem_str_false. intros I. apply N. cbn in I |- *. tauto. }
    assert (Y : mem_str k output_cols = false).
    { apply mem_str_false. intros I. apply N. right. apply in_or_app. now right. }
    assert (Z : String.eqb k "alkalinity_offset" = false) by (apply String.eqb_neq; intros ->; apply N; now left).
    rewrite X, Y, Z. cbn [andb]. now rewrite andb_false_r, !orb_false_r.
  - rewrite <- MV. unfold mass_or_volume. rewrite Cd, !mem_solve_cols, !mem_prep_cols.
    unfold solve_ok, prepare_ok in O. apply andb_prop in O. destruct O as [O _]. apply andb_prop in O. destruct O as [_ O].
    apply andb_prop in O. destruct O as [_ O]. rewrite O.
    replace (mem_str "analyte_mass" ["opt_total_borate"; "total_sulfate"; "total_borate"; "total_fluoride"; "analyte_mass"; "file_good"]) with true by reflexivity.
    now rewrite orb_true_r.
  - apply mapM_Forall2 in M. assert (Kd : forall r, In r (f_rows d) -> dkeys r = f_cols d) by apply Wd.
    clear - R M Kd. revert M Kd. generalize (f_cols d) as cols. generalize (f_rows d') as l'. intros l' cols M Kd. revert l' M.
    induction R as [|rd rf ld lf R0 _ IH]; intros l' M; inversion M as [|? x ? l2 A B]; subst; constructor.
    + eapply related_trans; [|exact R0]. apply (solved_related e kw cols); [apply Kd; now left|exact A].
    + apply IH; [intros; apply Kd; now right|exact B].
Qed.

Lemma rel_history e h : forall d f d', rel e d f -> allowed h f -> live e h d = Ok d' -> rel e d' (fresh h f).
Proof.
  induction h as [|[c vs|kw] h IH]; intros d f d' R A E; cbn [live fresh allowed] in *.
  - now injection E as <-.
  - destruct A as (L & C & A). eapply IH; [|exact A|exact E]. now apply rel_edit.
  - destruct A as (_ & A). destruct (solve e kw d) as [d1|] eqn:S; cbn [bind] in E; [|discriminate].
    eapply IH; [|exact A|exact E]. now apply (rel_solve e kw d).
Qed.

Lemma solve_ok_rel e (kw : kwargs T) d f : rel e d f -> solve_ok kw (f_cols d) = solve_ok kw (f_cols f).
Proof.
  intros R. unfold solve_ok, prepare_ok. fold (mass_or_volume (f_cols d)). fold (mass_or_volume (f_cols f)).
  rewrite (rl_mv _ _ _ R), !(rl_cols _ _ _ R) by (cbn; intuition discriminate). reflexivity.
Qed.

Definition same_values (d1 d2 : frame T) : Prop := n_rows d1 = n_rows d2 /\ forall i c, value d1 i c = value d2 i c.

Lemma same_values_rows (d1 d2 : frame T) : Forall2 (fun x y : row T => forall k, dget k x = dget k y) (f_rows d1) (f_rows d2) -> same_values d1 d2.
Proof.
  intros F. split; [exact (Forall2_len _ _ _ F)|]. intros i c. unfold value.
  destruct (nth_error (f_rows d1) i) as [x|] eqn:E.
  - destruct (Forall2_nth _ _ _ _ _ F E) as (y & -> & A). apply A.
  - apply nth_error_None in E. rewrite (Forall2_len _ _ _ F) in E. apply nth_error_None in E. now rewrite E.
Qed.

Lemma related_back e kw cd cf (rd rf y : row T) : wfd kw -> dkeys rd = cd -> dkeys rf = cf -> related e rd rf ->
  solve_one e kw cf rf = Ok y -> exists x, solve_one e kw cd rd = Ok x.
Proof.
  intros W Kd Kf R E. destruct (solve_one_inv _ _ _ _ _ E) as (p & d & P & S & F).
  assert (G := prep_dget e cf rf p Kf P). destruct G as (_ & Sa & _).
  assert (exists q, prep_row e cd rd = Ok q) as (q & Q).
  { unfold prep_row. rewrite salt_row_spec.
    rewrite (proj1 (re_salt _ _ _ R "total_sulfate" ltac:(cbn; tauto))), (proj1 (re_salt _ _ _ R "total_borate" ltac:(cbn; tauto))), (proj1 (re_salt _ _ _ R "total_fluoride" ltac:(cbn; tauto))).
    destruct (Sa "total_sulfate") as (s1 & -> & _); [cbn; tauto|]. destruct (Sa "total_borate") as (s2 & -> & _); [cbn; tauto|].
    destruct (Sa "total_fluoride") as (s3 & -> & _); [cbn; tauto|]. cbn [bind]. eauto. }
  destruct (prep_related e cd cf rd rf q Kd Kf R Q) as (p' & P' & A). rewrite P in P'. injection P' as <-.
  assert (S' : solve_row e kw q = Ok d).
  { rewrite <- S. apply solve_row_agree; [exact W|]. intros k I. apply A, mem_or.
    assert (X := mem_solve_inputs). rewrite forallb_forall in X. now apply X. }
  unfold solve_one. rewrite Q. cbn [bind]. rewrite S'. cbn [bind]. unfold finish_row in *.
  assert (MC : mem_str "alkalinity_certified" cd = mem_str "alkalinity_certified" cf).
  { rewrite (mem_keys rd cd _ Kd), (mem_keys rf cf _ Kf). now rewrite (related_sym _ _ _ R). }
  rewrite MC. destruct (mem_str "alkalinity_certified" cf); [|eauto].
  rewrite (offset_agree _ (put_results d p)).
  - destruct (offset_of (put_results d p)); cbn [bind] in *; [eauto|discriminate].
  - intros k I. rewrite !dget_put. destruct (mem_str k output_cols) eqn:MO; [reflexivity|]. apply A. right.
    cbn in I. destruct I as [<-|[<-|[]]]; [discriminate|]. cbn. intuition discriminate.
Qed.

(* after any history of edits and solves, solving gives what solving the table with the edited
   values and no history gives *)
Theorem C57_history_irrelevant_partial : forall (e : env T) h kw ds d, is_table ds -> wfd kw ->
  allowed h ds -> live e h ds = Ok d ->
  (forall d1, solve e kw d = Ok d1 -> exists d2, solve e kw (fresh h ds) = Ok d2 /\ same_values d1 d2) /\
  (forall d2, solve e kw (fresh h ds) = Ok d2 -> exists d1, solve e kw d = Ok d1 /\ same_values d1 d2).
Proof.
  intros e h kw ds d W Wk A L. assert (R := rel_history e h ds ds d (rel_refl e ds W) A L).
  assert (Fw : forall d1, solve e kw d = Ok d1 -> exists d2, solve e kw (fresh h ds) = Ok d2 /\ same_values d1 d2).
  { intros d1 E. apply solve_inv in E. destruct E as (O & C & M). rewrite (solve_ok_rel e kw d _ R) in O.
    destruct R as [Wd Wf Cc MV R]. apply mapM_Forall2 in M.
    assert (X : exists l2, mapM (solve_one e kw (f_cols (fresh h ds))) (f_rows (fresh h ds)) = Ok l2 /\
                           Forall2 (fun x y : row T => forall k, dget k x = dget k y) (f_rows d1) l2).
    { destruct Wd as [_ Kd], Wf as [_ Kf]. clear - R M Kd Kf Wk. revert Kd Kf M. generalize (f_cols d) as cd, (f_cols (fresh h ds)) as cf, (f_rows d1) as l1. intros cd cf l1 Kd Kf M. revert l1 M.
      induction R as [|rd rf ld lf R0 _ IH]; intros l1 M; inversion M as [|? x ? l1' A B]; subst.
      - exists []. split; [reflexivity|constructor].
      - destruct (solve_related e kw cd cf rd rf x Wk (Kd rd (or_introl eq_refl)) (Kf rf (or_introl eq_refl)) R0 A) as (y & Ey & Ay).
        destruct (IH (fun r I => Kd r (or_intror I)) (fun r I => Kf r (or_intror I)) _ B) as (l2 & E2 & F2).
        exists (y :: l2). split; [cbn [mapM]; rewrite Ey; cbn [bind]; rewrite E2; reflexivity|now constructor]. }
    destruct X as (l2 & E2 & F2). exists {| f_cols := solve_cols (f_cols (fresh h ds)); f_rows := l2 |}. split.
    - apply solve_inv. auto.
    - now apply same_values_rows. }
  split; [exact Fw|].
  intros d2 E2. assert (exists d1, solve e kw d = Ok d1) as (d1 & E1).
  { apply solve_inv in E2. destruct E2 as (O & C & M). rewrite <- (solve_ok_rel e kw d _ R) in O.
    destruct R as [Wd Wf Cc MV R]. apply mapM_Forall2 in M.
    destruct (mapM_total (solve_one e kw (f_cols d)) (f_rows d)) as (l & El).
    { intros rd I. destruct (Forall2_in_l _ _ _ _ R I) as (rf & If & R0). destruct (Forall2_in_l _ _ _ _ M If) as (y & _ & Ey).
      apply (related_back e kw _ (f_cols (fresh h ds)) rd rf y); auto; [now apply Wd|now apply Wf]. }
    exists {| f_cols := solve_cols (f_cols d); f_rows := l |}. apply solve_inv. auto. }
  destruct (Fw d1 E1) as (d2' & E2' & V). rewrite E2 in E2'. injection E2' as <-. eauto.
Qed.

End P.

Section XR.
Open Scope R_scope.

Definition one_row (f : string) : frame xr := {| f_cols := dkeys (tiny_row f); f_rows := [tiny_row f] |}.

Lemma one_row_table f : is_table (one_row f).
Proof. split; [repeat constructor; cbn; intuition discriminate|]. intros r [<-|[]]. reflexivity. Qed.

Lemma one_row_numeric f c : In c ["salinity"; "opt_total_borate"; "alkalinity_certified"] -> all_cells (one_row f) c (fun v => is_null v \/ numeric v).
Proof.
  intros I r v [<-|[]] G. cbn in I. destruct I as [<-|[<-|[<-|[]]]]; cbn in G; try discriminate. injection G as <-. right. eexists. reflexivity.
Qed.

Lemma one_row_solves e kw f : no_old_kwargs kw -> exists ds', solve e kw (one_row f) = Ok ds'.
Proof.
  intros K. apply C51_solve_never_raises; auto.
  - apply one_row_table.
  - intros c I. cbn in I. destruct I as [<-|[<-|[<-|[]]]]; cbn; tauto.
  - left. cbn. tauto.
  - intros c I. now apply one_row_numeric.
Qed.

(* the value of a total after solving *)
Lemma solved_total (e : env xr) kw ds ds' r x : is_table ds -> f_rows ds = [r] -> solve e kw ds = Ok ds' ->
  salt_val e "total_sulfate" r = Ok x -> value ds' 0 "total_sulfate" = Some x.
Proof.
  intros W R E S. assert (K : dkeys r = f_cols ds) by (apply W; rewrite R; now left).
  apply solve_inv in E. destruct E as (_ & _ & M). rewrite R in M. cbn [mapM] in M.
  destruct (solve_one e kw (f_cols ds) r) as [y|] eqn:Y; cbn [bind] in M; [|discriminate]. injection M as M.
  unfold value. rewrite <- M. cbn [nth_error].
  destruct (solve_one_inv _ _ _ _ _ Y) as (p & d & P & Sr & F).
  rewrite (finish_get _ _ _ _ F), dget_put by discriminate. cbn [mem_str existsb output_cols String.eqb Ascii.eqb Bool.eqb orb].
  destruct (prep_dget e _ r p K P) as (_ & Sa & _). destruct (Sa "total_sulfate") as (s & Es & G); [cbn; tauto|]. congruence.
Qed.

Lemma tiny_salt k (r : row xr) z : dget k r = None -> dget "salinity" r = Some (VInt z) -> dget "opt_total_borate" r = None ->
  salt_val tiny_env k r = Ok (VNum (nofZ z)).
Proof. intros A B C. unfold salt_val, def_borate, cell. rewrite A, B, C. reflexivity. Qed.
Lemma fin_Z' z : (nofZ z : xr) = Fin (IZR z).
Proof. cbn. f_equal. unfold Q2R. cbn. field. Qed.

Lemma stale_case : let e := tiny_env in let ds := one_row "gen.dat" in exists d d1 d2, is_table ds /\
  live e [Solve []; Edit "salinity" [VInt 30]] ds = Ok d /\
  solve e [] d = Ok d1 /\ solve e [] (fresh [Solve []; Edit "salinity" [VInt 30]] ds) = Ok d2 /\
  value d1 0 "salinity" = Some (VInt 30) /\ value d2 0 "salinity" = Some (VInt 30) /\
  value d1 0 "total_sulfate" = Some (VNum (Fin 35)) /\ value d2 0 "total_sulfate" = Some (VNum (Fin 30)).
Proof.
  intros e ds; subst e ds.
  set (ds := one_row "gen.dat").
  assert (N : no_old_kwargs ([] : kwargs xr)) by (split; reflexivity).
  destruct (one_row_solves tiny_env [] "gen.dat" N) as (d0 & E0). fold ds in E0.
  assert (W : is_table ds) by apply one_row_table.
  assert (W0 : is_table d0) by exact (wff_solve _ _ _ _ W E0).
  set (d := set_col_list "salinity" [VInt 30] d0). set (f := set_col_list "salinity" [VInt 30] ds).
  assert (L : live tiny_env [Solve []; Edit "salinity" [VInt 30]] ds = Ok d) by (cbn [live]; now rewrite E0).
  assert (V0 : value d0 0 "total_sulfate" = Some (VNum (Fin 35))).
  { rewrite <- (fin_Z' 35). apply (solved_total tiny_env [] ds d0 (tiny_row "gen.dat")); auto. }
  assert (F2 : exists d2, solve tiny_env [] f = Ok d2).
  { apply C51_solve_never_raises; auto.
    - now apply wff_edit.
    - intros c I. cbn in I. destruct I as [<-|[<-|[<-|[]]]]; cbn; tauto.
    - left. cbn. tauto.
    - intros c I r v Ir G. cbn in Ir. destruct Ir as [<-|[]]. cbn in I. destruct I as [<-|[<-|[<-|[]]]]; cbn in G; try discriminate.
      injection G as <-. right. eexists. reflexivity. }
  destruct F2 as (d2 & E2).
  assert (Lr : exists r0, f_rows d0 = [r0] /\ solve_one tiny_env [] (f_cols ds) (tiny_row "gen.dat") = Ok r0).
  { apply solve_inv in E0. destruct E0 as (_ & _ & M). apply mapM_Forall2 in M. change (f_rows ds) with [tiny_row "gen.dat"] in M.
    inversion M as [|? y ? l A B EA EB]. inversion B. eauto. }
  destruct Lr as (r0 & R0 & Y).
  assert (G0 : forall k, value d0 0 k = dget k r0) by (intros k; unfold value; now rewrite R0).
  assert (Rd : f_rows d = [dset "salinity" (VInt 30) r0]) by (unfold d; cbn [set_col_list f_rows]; now rewrite R0).
  assert (F1 : exists d1, solve tiny_env [] d = Ok d1).
  { assert (C0 := E0). apply solve_inv in C0. destruct C0 as (_ & C0 & _).
    assert (Cd : f_cols d = addc "salinity" (f_cols d0)) by reflexivity.
    assert (Mk : forall k, In k (f_cols ds) -> In k (f_cols d)).
    { intros k I. rewrite Cd, C0. apply mem_str_spec. rewrite mem_addc, mem_solve_cols, mem_prep_cols. apply mem_str_spec in I. rewrite I. reflexivity. }
    apply C51_solve_never_raises; auto.
    - now apply wff_edit.
    - intros c I. apply Mk. cbn in I. destruct I as [<-|[<-|[<-|[]]]]; cbn; tauto.
    - left. apply Mk. cbn. tauto.
    - intros c I r v Ir G. rewrite Rd in Ir. destruct Ir as [<-|[]]. rewrite dget_dset in G. cbn in I. destruct I as [<-|[<-|[<-|[]]]].
      + cbn in G. injection G as <-. right. eexists. reflexivity.
      + replace (String.eqb "opt_total_borate" "salinity") with false in G by reflexivity.
        assert (Rl := solved_related _ _ _ _ _ (eq_refl) Y). assert (B := re_borate _ _ _ Rl). unfold def_borate, cell in B. rewrite G in B.
        cbn in B. destruct (notnull v) eqn:Nv; [subst v; right; eexists; reflexivity|left; unfold is_null; unfold notnull in Nv; now apply negb_false_iff].
      + replace (String.eqb "alkalinity_certified" "salinity") with false in G by reflexivity.
        exfalso. assert (K : In "alkalinity_certified" (f_cols d0)).
        { rewrite <- (proj2 W0 r0) by (rewrite R0; now left). apply dget_in_keys, dmem_true_get. eauto. }
        rewrite C0 in K. apply mem_str_spec in K. rewrite mem_solve_cols, mem_prep_cols in K. discriminate. }
  destruct F1 as (d1 & E1).
  exists d, d1, d2. split; [exact W|]. split; [exact L|]. split; [exact E1|]. split; [exact E2|].
  assert (Sal : forall x y r, f_rows x = [r] -> solve tiny_env [] x = Ok y -> value y 0 "salinity" = dget "salinity" r).
  { intros x y r Rx E. apply solve_inv in E. destruct E as (_ & _ & M). rewrite Rx in M. cbn [mapM] in M.
    destruct (solve_one tiny_env [] (f_cols x) r) as [z|] eqn:Z; cbn [bind] in M; [|discriminate]. injection M as M.
    unfold value. rewrite <- M. apply (solve_one_get _ _ _ _ _ _ Z). cbn. intuition discriminate. }
  split; [rewrite (Sal d d1 _ Rd E1); apply dget_dset_same|].
  split; [exact (Sal f d2 (dset "salinity" (VInt 30) (tiny_row "gen.dat")) eq_refl E2)|].
  split.
  - apply (solved_total tiny_env [] d d1 _ _ (wff_edit _ _ _ W0) Rd E1).
    unfold salt_val. rewrite cell_dset_other by discriminate. unfold cell at 1 2. rewrite <- G0, V0. reflexivity.
  - rewrite <- (fin_Z' 30). apply (solved_total tiny_env [] f d2 (dset "salinity" (VInt 30) (tiny_row "gen.dat"))); auto. now apply wff_edit.
Qed.

(* solving, correcting the salinity and solving again: the total sulfate (calculated here as a
   function of salinity) is still that of the old salinity *)
Theorem C57_stale_totals_refuted : exists (e : env xr) ds d d1 d2, is_table ds /\
  live e [Solve []; Edit "salinity" [VInt 30]] ds = Ok d /\
  solve e [] d = Ok d1 /\ solve e [] (fresh [Solve []; Edit "salinity" [VInt 30]] ds) = Ok d2 /\
  value d1 0 "salinity" = Some (VInt 30) /\ value d2 0 "salinity" = Some (VInt 30) /\
  value d1 0 "total_sulfate" = Some (VNum (Fin 35)) /\ value d2 0 "total_sulfate" = Some (VNum (Fin 30)).
Proof. destruct stale_case as (d & d1 & d2 & X). exists tiny_env, (one_row "gen.dat"), d, d1, d2. exact X. Qed.

(* the hypotheses of the partial theorem hold for such a history of other columns *)
Example C57_nonvacuous : let h := [Solve []; Edit "titrant_molinity" [VNum (Fin 2)]; Edit "total_sulfate" [VNum NaN]; Solve []] in
  allowed h (one_row "gen.dat") /\
  (exists d, live tiny_env [Solve []; Edit "titrant_molinity" [VNum (Fin 2)]] (one_row "gen.dat") = Ok d).
Proof.
  cbv zeta. split.
  - cbn [allowed]. split; [constructor|]. do 2 (split; [reflexivity|]; split; [left; split; discriminate|]). split; [constructor|exact I].
  - destruct (one_row_solves tiny_env [] "gen.dat") as (d0 & E0); [split; reflexivity|]. cbn [live]. rewrite E0. cbn [bind]. eauto.
Qed.

End XR.
Print Assumptions C57_history_irrelevant_partial.
Print Assumptions C57_stale_totals_refuted.
