(* PropOffsets.v -- C134: the offset of a reference is its share of the spread of the batch, and the offsets of a batch cancel out *)
From Coq Require Import Reals Qreals Lra Lia List Permutation.
From Verif Require Import Files Dataset DictLemmas SpecDataset SpecSettings SettingsProofs TableProofs CalProofs PropBatch PropSupplied PropReference PropModes PropCalibrate PropCases PropReport RowProofs DatasetProofs PropHistory PropIgnored.
From Verif Require Import XR XRLemmas SpecConvert SpecCore SpecSimulate SimProofs SolveProofs PropSolve PropMonotone Witness PropSulfuric PropTransfer PropWorkflow.
Import ListNotations.
Open Scope R_scope.
Open Scope string_scope.
Open Scope list_scope.

(* ------------------------------------------------------------------ *)
(** * Specification *)

(* How much the alkalinity of the file grows per unit of titrant molinity, if it is x at molinity m: in pH mode that is
   10^6 times the normality factor times the mean acid used per mass of sample; by the Gran method it is x / m. *)
Definition responds (e : env xr) (f s : val xr) (kw : kwargs xr) (m x k : R) : Prop :=
  (mode_is kw "ph" /\ exists q tm pH M pmin pmax n,
     files_solve e f (VNum (Fin m)) s kw = Ok (SrPh q) /\ sound_run q tm pH M /\ window kw (Fin pmin) (Fin pmax) (Fin n) /\
     k = 1000000 * n * acid_ratio (sp_used q) tm M) \/
  (mode_is kw "ph_gran" /\ m <> 0 /\ k = x / m).

(* a row of certified value x that was calibrated exactly, with result m, and whose file responds with k *)
Definition solved_reference (e : env xr) (kw : kwargs xr) (r : row xr) (x m k : R) : Prop :=
  without_old_names kw r /\ dget "alkalinity_certified" r = Some (VNum (Fin x)) /\ dget "titrant_molinity_here" r = Some (VNum (Fin m)) /\
  exists f s g kwr, dget "file_name" r = Some f /\ dget "salinity" r = Some s /\ dget "file_good" r = Some g /\ truthy g = true /\
    settings_of (calibrate_settings ++ solve_settings) kw r kwr /\ default_logic kwr /\ no_titrant_totals kwr /\
    (forall o, files_calibrate e f (VNum (Fin x)) s kwr = Ok o -> or_fun o = [Fin 0]) /\
    responds e f s kwr m x k.

(* ------------------------------------------------------------------ *)
(** * One row *)

Lemma calibrated_at (e : env xr) kw ds ds' i r f s g x m kwr : is_table ds -> NoDup (dkeys kw) -> calibrate e kw ds = Ok ds' -> nth_error (f_rows ds') i = Some r ->
  without_old_names kw r -> dget "alkalinity_certified" r = Some (VNum (Fin x)) -> dget "titrant_molinity_here" r = Some (VNum (Fin m)) ->
  dget "file_name" r = Some f -> dget "salinity" r = Some s -> dget "file_good" r = Some g -> truthy g = true ->
  settings_of calibrate_settings kw r kwr -> default_logic kwr -> no_titrant_totals kwr ->
  (forall o, files_calibrate e f (VNum (Fin x)) s kwr = Ok o -> or_fun o = [Fin 0]) ->
  exists sr, files_solve e f (VNum (Fin m)) s kwr = Ok sr /\ sr_alkalinity sr = Fin x.
Proof.
  intros W Wk E Ni O Gc Gh Gf Gs Gg Tg St Dl Nt Ex.
  destruct (C111_rows_report_calibrations e kw ds ds' i r kwr f _ s g W Wk E Ni O St Gf Gc Gs Gg) as [R1 R2].
  unfold value in R1, R2. rewrite Ni, Gh in R1, R2.
  destruct (files_calibrate e f (VNum (Fin x)) s kwr) as [o|err] eqn:Eo.
  - specialize (Ex o eq_refl).
    destruct (C60_file_solved_at_certified e f _ s kwr o Eo Ex Dl (or_introl Nt)) as (m' & sr & x' & Xo & Cx & Es & Ax).
    apply ok_inj in Cx. apply fin_inj in Cx. subst x'.
    assert (Em : Some (VNum (Fin m)) = Some (VNum m')) by exact (R1 ltac:(discriminate) Tg o m' [] eq_refl Xo).
    apply some_inj in Em. injection Em as <-. eauto.
  - assert (Em : Some (VNum (Fin m)) = Some (VNum nnan)) by (apply R2; right; right; eauto). discriminate.
Qed.

(* A reference calibrated exactly, in a batch of molinity mb: its offset is its response times the difference between
   the batch's molinity and its own. *)
Theorem C134_offset : forall (e : env xr) kw ds ds' i r x m k mb a,
  is_table ds -> NoDup (dkeys kw) -> calibrate e kw ds = Ok ds' ->
  nth_error (f_rows ds') i = Some r -> solved_reference e kw r x m k ->
  value ds' i "titrant_molinity" = Some (VNum (Fin mb)) -> value ds' i "alkalinity" = Some (VNum (Fin a)) ->
  value ds' i "alkalinity_offset" = Some (VNum (Fin (k * (mb - m)))).
Proof.
  intros e kw ds ds' i r x m k mb a W Wk E Ni (O & Gc & Gh & f & s & g & kwr & Gf & Gs & Gg & Tg & St & Dl & Nt & Ex & Re) Vm Va.
  destruct (calibrated_at e kw ds ds' i r f s g x m kwr W Wk E Ni O Gc Gh Gf Gs Gg Tg
    (settings_sub _ _ _ _ _ (fun k K => in_or_app _ _ _ (or_introl K)) St) Dl Nt Ex) as (sr & Es & Ax).
  apply calibrate_inv in E. destruct E as (ds1 & E1 & E2).
  assert (W1 := wff_calibrate_only e kw _ ds1 W E1).
  assert (Gm : dget "titrant_molinity" r = Some (VNum (Fin mb))) by (unfold value in Vm; now rewrite Ni in Vm).
  destruct (C111_rows_report_solutions e kw ds1 ds' i r kwr f (VNum (Fin mb)) s g W1 Wk E2 Ni O
    (settings_sub _ _ _ _ _ (fun k K => in_or_app _ _ _ (or_intror K)) St) Gf Gm Gs Gg) as [R1 R2].
  assert (Vc : value ds' i "alkalinity_certified" = Some (VNum (Fin x))) by (unfold value; now rewrite Ni).
  rewrite (C59_offset_real e kw ds1 ds' i a x W1 E2 Va Vc). do 3 f_equal.
  destruct (files_solve e f (VNum (Fin mb)) s kwr) as [sb|err] eqn:Eb.
  2: { exfalso. assert (B : is_blank ds' i) by (apply R2; right; right; eauto).
       assert (Va' : value ds' i "alkalinity" = Some (VNum NaN)) by (apply B; cbn; tauto). rewrite Va in Va'. discriminate. }
  assert (Ab : sr_alkalinity sb = Fin a).
  { assert (V : value ds' i "alkalinity" = Some (VNum (sr_alkalinity sb))) by (apply (R1 ltac:(discriminate) Tg sb eq_refl); destruct sb; cbn [reported In sr_alkalinity]; left; reflexivity).
    rewrite Va in V. apply some_inj in V. now injection V as <-. }
  destruct Re as [(Hm & q & tm & pH & M & pmin & pmax & n & Eq & S & Wi & ->)|(Hm & Nm & ->)].
  - destruct (proj1 (same_mode _ _ _ _ _ _ Eb) Hm) as (qb & ->). cbn [sr_alkalinity] in Ab.
    rewrite Es in Eq. apply ok_inj in Eq. subst sr. cbn [sr_alkalinity] in Ax.
    destruct (C127_molinity_error e f s kwr m mb q qb tm pH M pmin pmax n Hm Nt Wi Es Eb S) as (a0 & a1 & B & B' & D).
    rewrite Ax in B. rewrite Ab in B'. apply fin_inj in B. apply fin_inj in B'. subst a0 a1. rewrite D. ring.
  - destruct (proj2 (same_mode _ _ _ _ _ _ Eb) Hm) as (qb & ->). destruct (proj2 (same_mode _ _ _ _ _ _ Es) Hm) as (q & ->).
    cbn [sr_alkalinity] in Ab, Ax. destruct (gran_ratio e f s kwr m mb q qb _ _ Hm Nt Es Eb Ax Ab) as (z & D & D').
    rewrite D, D'. field. exact Nm.
Qed.

(* ------------------------------------------------------------------ *)
(** * The references of a batch *)

Fixpoint reference_indices (b : val xr) (k : nat) (rows : list (row xr)) : list nat :=
  match rows with
  | [] => []
  | r :: rest => (match good_reference b r with [] => [] | _ => [k] end) ++ reference_indices b (S k) rest
  end.

Lemma good_reference_one b (r : row xr) : good_reference b r = [] \/ exists x, good_reference b r = [x].
Proof.
  unfold good_reference. destruct (dget "analysis_batch" r); [|auto]. destruct (dget "reference_good" r) as [[|[|]| | | | |]|]; auto.
  destruct (dget "titrant_molinity_here" r) as [[| | |x| | |]|]; auto. destruct (key_eqb _ b && negb (nisnan x))%bool; eauto.
Qed.

Lemma index_le b rows : forall k i, In i (reference_indices b k rows) -> (k <= i)%nat.
Proof.
  induction rows as [|r rows IH]; intros k i I; [destruct I|]. cbn in I. apply in_app_or in I. destruct I as [I|I].
  - destruct (good_reference b r); [destruct I|]. destruct I as [<-|[]]. lia.
  - apply IH in I. lia.
Qed.

Lemma index_nodup b rows : forall k, NoDup (reference_indices b k rows).
Proof.
  induction rows as [|r rows IH]; intros k; [constructor|]. cbn. destruct (good_reference b r); [apply IH|]. cbn. constructor; [|apply IH].
  intros I. apply index_le in I. lia.
Qed.

Lemma index_in b rows : forall k i, In i (reference_indices b k rows) <-> (k <= i)%nat /\ exists r, nth_error rows (i - k) = Some r /\ good_reference b r <> [].
Proof.
  induction rows as [|r rows IH]; intros k i; cbn [reference_indices].
  - split; [intros []|]. intros (_ & r & N & _). destruct (i - k)%nat; discriminate.
  - rewrite in_app_iff, IH. split.
    + intros [I|(L & r' & N & G)].
      * destruct (good_reference b r) eqn:G; [destruct I|]. destruct I as [<-|[]]. split; [lia|]. exists r. rewrite Nat.sub_diag. split; [reflexivity|]. now rewrite G.
      * split; [lia|]. exists r'. replace (i - k)%nat with (S (i - S k)) by lia. auto.
    + intros (L & r' & N & G). destruct (Nat.eq_dec i k) as [->|D].
      * left. rewrite Nat.sub_diag in N. cbn in N. apply some_inj in N. subst r'. destruct (good_reference b r); [now destruct G|]. left. reflexivity.
      * right. split; [lia|]. exists r'. replace (i - k)%nat with (S (i - S k)) in N by lia. auto.
Qed.

Lemma index_values b (h : nat -> R) rows : forall k,
  (forall i r, nth_error rows i = Some r -> good_reference b r <> [] -> good_reference b r = [Fin (h (k + i)%nat)]) ->
  flat_map (good_reference b) rows = map Fin (map h (reference_indices b k rows)).
Proof.
  induction rows as [|r rows IH]; intros k P; [reflexivity|]. cbn [flat_map reference_indices]. rewrite !map_app. f_equal.
  - destruct (good_reference b r) eqn:G; [reflexivity|]. rewrite <- G, (P 0%nat r eq_refl) by (rewrite G; discriminate). cbn. now rewrite Nat.add_0_r.
  - apply IH. intros i r' N G. rewrite (P (S i) r' N G). now rewrite Nat.add_succ_r.
Qed.

Lemma sum_perm (l l' : list R) : Permutation l l' -> fold_right Rplus 0 l = fold_right Rplus 0 l'.
Proof. induction 1; cbn; lra. Qed.

Lemma sum_deviation (h : nat -> R) c l : fold_right Rplus 0 (map (fun i => c - h i) l) = INR (length l) * c - fold_right Rplus 0 (map h l).
Proof. induction l as [|i l IH]; [cbn; lra|]. cbn [map fold_right length]. rewrite IH, S_INR. lra. Qed.

(* Weighted by how little their titrations respond, the offsets of the references of a batch add up to nothing. *)
Theorem C134_offsets_cancel : forall (e : env xr) kw ds ds' b (refs : list nat) (x m k off : nat -> R),
  is_table ds -> NoDup (dkeys kw) ->
  all_cells ds "reference_good" (fun v => is_null v \/ exists g : bool, v = VBool g) ->
  calibrate e kw ds = Ok ds' ->
  (* refs lists the references of the batch once each *)
  NoDup refs -> (forall i, In i refs <-> exists r, nth_error (f_rows ds') i = Some r /\ good_reference b r <> []) ->
  (forall i, In i refs -> value ds' i "analysis_batch" = Some b /\ k i <> 0 /\
     (exists a, value ds' i "alkalinity" = Some (VNum (Fin a))) /\ value ds' i "alkalinity_offset" = Some (VNum (Fin (off i))) /\
     exists r, nth_error (f_rows ds') i = Some r /\ solved_reference e kw r (x i) (m i) (k i)) ->
  fold_right Rplus 0 (map (fun i => off i / k i) refs) = 0.
Proof.
  intros e kw ds ds' b refs x m k off W Wk F E Nd In_refs P.
  assert (Pe : Permutation refs (reference_indices b 0 (f_rows ds'))).
  { apply NoDup_Permutation; [exact Nd|apply index_nodup|]. intros i. rewrite In_refs, index_in, Nat.sub_0_r. split; [|tauto]. intros H. split; [lia|exact H]. }
  assert (B : batch_references ds' b = map Fin (map m (reference_indices b 0 (f_rows ds')))).
  { apply index_values. intros i r N G. cbn [Nat.add].
    destruct (P i (proj2 (In_refs i) (ex_intro _ r (conj N G)))) as (_ & _ & _ & _ & r' & N' & (_ & _ & Gh & _)).
    rewrite N in N'. apply some_inj in N'. subst r'. revert G. unfold good_reference. rewrite Gh.
    destruct (dget "analysis_batch" r); [|now intros []]. destruct (dget "reference_good" r) as [[|[|]| | | | |]|]; try (now intros []).
    destruct (_ && _)%bool; [reflexivity|now intros []]. }
  destruct refs as [|i0 refs0] eqn:Er; [reflexivity|]. rewrite <- Er in *.
  assert (Nn : map m (reference_indices b 0 (f_rows ds')) <> []).
  { intros Z. apply map_eq_nil in Z. rewrite Z, Er in Pe. apply Permutation_sym, Permutation_nil in Pe. discriminate. }
  set (xs := map m (reference_indices b 0 (f_rows ds'))) in *. set (mb := fold_right Rplus 0 xs / INR (length xs)).
  assert (L : 0 < INR (length xs)) by (apply lt_0_INR; destruct xs; [now destruct Nn|cbn; lia]).
  assert (Q : forall i, In i refs -> off i / k i = mb - m i).
  { intros i I. destruct (P i I) as (Vb & Nk & (a & Va) & Vo & r & N & S).
    assert (Vm : value ds' i "titrant_molinity" = Some (VNum (Fin mb))).
    { rewrite (C53_batch_mean_real e kw ds ds' i b xs W F E Vb B). unfold mb. destruct xs; [now destruct Nn|reflexivity]. }
    rewrite (C134_offset e kw ds ds' i r _ _ _ mb a W Wk E N S Vm Va) in Vo. apply some_inj in Vo. injection Vo as <-. field. exact Nk. }
  rewrite (map_ext_in _ (fun i => mb - m i)) by exact Q. rewrite sum_deviation.
  rewrite (sum_perm _ _ (Permutation_map m Pe)). fold xs. unfold mb.
  replace (INR (length refs)) with (INR (length xs)) by (unfold xs; now rewrite map_length, (Permutation_length Pe)). field. lra.
Qed.

(* ------------------------------------------------------------------ *)
(** * Two references that disagree *)

Definition two_refs (y1 y2 : R) : frame xr := {| f_cols := dkeys (wf_row 2 (Fin y1)); f_rows := [wf_row 2 (Fin y1); wf_row 2 (Fin y2)] |}.

(* their alkalinities are 500000 c + d if the acid has molinity c *)
Lemma wf_line : exists d, forall m, exists q, files_solve sec_env (VStr "gen.dat") (VNum (Fin m)) (VInt 35) (wf_kw 2) = Ok (SrPh q) /\
  sound_run q [0; 1] [3.5; 3.6] 2 /\ acid_ratio (sp_used q) [0; 1] 2 = 0.5 /\ sp_alkalinity q = Fin (500000 * m + d).
Proof.
  destruct (wf_facts 2) as (Mi & Nt & Dl & Wi). assert (P2 : 0 < 2) by lra.
  destruct (wf_solved 2 0 P2) as (r0 & E0 & S0 & U0 & _).
  destruct (C127_molinity_error sec_env _ _ (wf_kw 2) 0 0 r0 r0 _ _ _ _ _ _ Mi Nt Wi E0 E0 S0) as (b & _ & B & _).
  exists b. intros m. destruct (wf_solved 2 m P2) as (q & E & S & U & _). exists q. split; [exact E|]. split; [exact S|].
  split; [rewrite U; unfold acid_ratio, n_used; cbn; lra|].
  destruct (C127_molinity_error sec_env _ _ (wf_kw 2) 0 m r0 q _ _ _ _ _ _ Mi Nt Wi E0 E S0) as (b1 & b' & B1 & B' & D).
  rewrite B in B1. apply fin_inj in B1. subst b1. rewrite B'. f_equal. rewrite U0 in D. unfold acid_ratio, n_used in D. cbn in D. lra.
Qed.

Lemma wf_reference y r m : dget "titrant_molinity_here" r = Some (VNum (Fin m)) ->
  (forall k, In k (calibrate_settings ++ solve_settings) -> dget k r = dget k (wf_prepped 2 (Fin y))) ->
  (forall k, In k ["file_name"; "alkalinity_certified"; "salinity"; "file_good"; "read_dat_method"] -> dget k r = dget k (wf_prepped 2 (Fin y))) ->
  solved_reference sec_env [] r y m 500000.
Proof.
  intros Gh Ag Ah. destruct (wf_facts 2) as (Mi & Nt & Dl & Wi).
  split; [split; [reflexivity|]; now rewrite (Ah "read_dat_method") by (cbn [In]; tauto)|].
  split; [now rewrite (Ah "alkalinity_certified") by (cbn [In]; tauto)|]. split; [exact Gh|].
  exists (VStr "gen.dat"), (VInt 35), (VBool true), (wf_kw 2).
  split; [now rewrite (Ah "file_name") by (cbn [In]; tauto)|]. split; [now rewrite (Ah "salinity") by (cbn [In]; tauto)|].
  split; [now rewrite (Ah "file_good") by (cbn [In]; tauto)|]. split; [reflexivity|].
  split; [|split; [exact Dl|split; [exact Nt|split]]].
  - split; [repeat constructor; cbn; intuition discriminate|]. intros k I. unfold chosen. rewrite (Ag k I).
    cbn in I. repeat (destruct I as [<-|I]; [reflexivity|]). destruct I.
  - intros o Eo. destruct (wf_calibrated y) as (m' & Ca). rewrite Ca in Eo. apply ok_inj in Eo. now subst o.
  - left. split; [exact Mi|]. destruct wf_line as (d & L). destruct (L m) as (q & E & S & A & _).
    exists q, [0; 1], [3.5; 3.6], 2, 3.55, 4, 1. split; [exact E|]. split; [exact S|]. split; [exact Wi|]. rewrite A. lra.
Qed.

(* what becomes of one of the two *)
Record ref_facts (ds' : frame xr) (i : nat) (r : row xr) (y m mb d : R) : Prop := {
  rf_row : nth_error (f_rows ds') i = Some r;
  rf_good : good_reference (VInt 1) r = [Fin m];
  rf_ref : solved_reference sec_env [] r y m 500000;
  rf_settings : forall k, In k (calibrate_settings ++ solve_settings) -> dget k r = dget k (wf_prepped 2 (Fin y));
  rf_inputs : forall k, In k ["file_name"; "alkalinity_certified"; "salinity"; "file_good"; "read_dat_method"] -> dget k r = dget k (wf_prepped 2 (Fin y));
  rf_line : y = 500000 * m + d;
  rf_batch : value ds' i "analysis_batch" = Some (VInt 1);
  rf_molinity : value ds' i "titrant_molinity" = Some (VNum (Fin mb));
  rf_alkalinity : value ds' i "alkalinity" = Some (VNum (Fin (500000 * mb + d))) }.

Definition line_at (d : R) : Prop := forall m, exists q, files_solve sec_env (VStr "gen.dat") (VNum (Fin m)) (VInt 35) (wf_kw 2) = Ok (SrPh q) /\
  sound_run q [0; 1] [3.5; 3.6] 2 /\ acid_ratio (sp_used q) [0; 1] 2 = 0.5 /\ sp_alkalinity q = Fin (500000 * m + d).

Lemma two_refs_table y1 y2 : is_table (two_refs y1 y2) /\
  all_cells (two_refs y1 y2) "reference_good" (fun v => is_null v \/ exists b, v = VBool b).
Proof.
  split.
  - split; [repeat constructor; cbn; intuition discriminate|]. intros r [<-|[<-|[]]]; reflexivity.
  - intros r v [<-|[<-|[]]] G; discriminate.
Qed.

Lemma two_refs_run d y1 y2 : line_at d -> exists ds' r0 r1 m1 m2, calibrate sec_env [] (two_refs y1 y2) = Ok ds' /\ f_rows ds' = [r0; r1] /\
  ref_facts ds' 0 r0 y1 m1 ((m1 + m2) / 2) d /\ ref_facts ds' 1 r1 y2 m2 ((m1 + m2) / 2) d.
Proof.
  intros L. set (ds := two_refs y1 y2). destruct (two_refs_table y1 y2) as [W RG]. fold ds in W, RG.
  destruct (C54_calibrate_completes_partial sec_env [] ds) as (ds' & E).
  { exact W. } { split; reflexivity. }
  { intros k I. cbn in I. destruct I as [<-|[<-|[<-|[]]]]; cbn; tauto. }
  { left. cbn. tauto. }
  { intros k I r v [<-|[<-|[]]] G; cbn in I; destruct I as [<-|[<-|[<-|[]]]]; cbn in G; try discriminate; apply some_inj in G; subst v;
      first [left; reflexivity|right; eexists; reflexivity]. }
  { intros r v [<-|[<-|[]]] G; cbn in G; apply some_inj in G; subst v; (split; [discriminate|right; eexists; reflexivity]). }
  { exact RG. }
  assert (E' := E). apply calibrate_inv in E'. destruct E' as (ds1 & E1 & E2).
  assert (W1 := wff_calibrate_only sec_env [] _ ds1 W E1). assert (W2 := wff_solve sec_env [] ds1 ds' W1 E2).
  apply calibrate_only_inv in E1. destruct E1 as (_ & C1 & rows & ms & Er & Em & R1). assert (E2' := E2).
  apply solve_inv in E2. destruct E2 as (_ & C2 & M2).
  apply mapM_Forall2 in Er, Em, M2. change (f_rows ds) with [wf_row 2 (Fin y1); wf_row 2 (Fin y2)] in Er.
  inversion Er as [|? rr0 ? l0 Er1 Er2 Ea Eb]. subst. inversion Er2 as [|? rr1 ? l1 Er3 Er4 Ea Eb]. subst. inversion Er4. subst. clear Er Er2 Er4.
  inversion Em as [|? m0 ? l0 Em1 Em2 Ea Eb]. subst. inversion Em2 as [|? m1 ? l1 Em3 Em4 Ea Eb]. subst. inversion Em4. subst. clear Em Em2 Em4.
  rewrite R1 in M2. cbn [map2] in M2. inversion M2 as [|? r0 ? l0 S0 M3 Ea Eb]. subst. inversion M3 as [|? r1 ? l1 S1 M4 Ea Eb']. subst. inversion M4. subst. clear M2 M3 M4.
  rename Eb into Rs. symmetry in Rs. rewrite C1 in S0, S1.
  assert (Cols : f_cols ds' = solve_cols (addc "titrant_molinity" (ref_cols (f_cols ds)))) by (now rewrite C2, C1).
  assert (Gl : forall r, In r (f_rows ds') -> dget "gran_logic" r = None).
  { intros r I. apply dget_notin. rewrite (proj2 W2 r I), Cols. apply mem_str_false. lazy. reflexivity. }
  assert (Gl0 : dget "gran_logic" r0 = None) by (apply Gl; rewrite Rs; left; reflexivity).
  assert (Gl1 : dget "gran_logic" r1 = None) by (apply Gl; rewrite Rs; right; left; reflexivity).
  destruct (wf_finished 2 (Fin y1) _ rr0 r0 m0 eq_refl Er1 S0 Gl0) as (Ag0 & Ah0 & B0 & x0 & Cx0 & Gx0 & Gt0 & Gf0).
  destruct (wf_finished 2 (Fin y2) _ rr1 r1 m1 eq_refl Er3 S1 Gl1) as (Ag1 & Ah1 & B1 & x1 & Cx1 & Gx1 & Gt1 & Gf1).
  assert (X : forall y x, calibrate_row sec_env [] (wf_prepped 2 (Fin y)) = Ok x -> exists m, x = Fin m).
  { intros y x Cx. destruct (wf_calibrated y) as (m & Ca). exists m. unfold calibrate_row, calibrate_row_try in Cx.
    replace (backcompat [] (wf_prepped 2 (Fin y))) with (Ok [] : res (kwargs xr)) in Cx by reflexivity.
    cbn [bind] in Cx. rewrite wf_settings in Cx. unfold attr in Cx.
    cbn [dget wf_prepped wf_row app String.eqb Ascii.eqb Bool.eqb of_opt bind notnull isnull nisnan NumXR x_isnan negb truthy andb] in Cx.
    rewrite Ca in Cx. cbn [bind or_x nth_error of_opt] in Cx. now apply ok_inj in Cx. }
  destruct (X _ _ Cx0) as (h1 & ->). destruct (X _ _ Cx1) as (h2 & ->). specialize (Gt0 eq_refl). specialize (Gt1 eq_refl).
  assert (K1 : key_eqb (VInt 1 : val xr) (VInt 1) = true). { cbn. unfold reqb. now destruct (Req_EM_T _ _). }
  assert (N0 : nth_error (f_rows ds') 0 = Some r0) by (rewrite Rs; reflexivity).
  assert (N1 : nth_error (f_rows ds') 1 = Some r1) by (rewrite Rs; reflexivity).
  assert (G0 : good_reference (VInt 1) r0 = [Fin h1]). { unfold good_reference. rewrite B0, Gt0, Gx0, K1. reflexivity. }
  assert (G1 : good_reference (VInt 1) r1 = [Fin h2]). { unfold good_reference. rewrite B1, Gt1, Gx1, K1. reflexivity. }
  assert (Q0 := wf_reference y1 r0 h1 Gx0 Ag0 Ah0). assert (Q1 := wf_reference y2 r1 h2 Gx1 Ag1 Ah1).
  assert (Br : batch_references ds' (VInt 1) = map Fin [h1; h2]).
  { unfold batch_references. rewrite Rs. cbn [flat_map]. rewrite G0, G1. reflexivity. }
  destruct (wf_facts 2) as (Mi & Nt & Dl & Wi).
  set (mb := (h1 + (h2 + 0)) / INR 2).
  assert (V : forall i r y h, nth_error (f_rows ds') i = Some r -> solved_reference sec_env [] r y h 500000 ->
    (forall k, In k ["file_name"; "alkalinity_certified"; "salinity"; "file_good"; "read_dat_method"] -> dget k r = dget k (wf_prepped 2 (Fin y))) ->
    (forall k, In k (calibrate_settings ++ solve_settings) -> dget k r = dget k (wf_prepped 2 (Fin y))) ->
    dget "analysis_batch" r = Some (VInt 1) ->
    y = 500000 * h + d /\ value ds' i "titrant_molinity" = Some (VNum (Fin mb)) /\ value ds' i "alkalinity" = Some (VNum (Fin (500000 * mb + d)))).
  { intros i r y h N Q Ah Ag Gb.
    assert (Vm : value ds' i "titrant_molinity" = Some (VNum (Fin mb))).
    { assert (Vb : value ds' i "analysis_batch" = Some (VInt 1)) by (unfold value; now rewrite N).
      exact (C53_batch_mean_real sec_env [] ds ds' i (VInt 1) [h1; h2] W RG E Vb Br). }
    destruct Q as (O & Gc & Gh & f & s & g & kwr & Gf & Gs & Gg & Tg & St & Dl' & Nt' & Ex & Re).
    rewrite (Ah "file_name") in Gf by (cbn [In]; tauto). rewrite (Ah "salinity") in Gs by (cbn [In]; tauto).
    apply some_inj in Gf, Gs. subst f s.
    assert (St2 : settings_of (calibrate_settings ++ solve_settings) [] r (wf_kw 2)).
    { split; [repeat constructor; cbn; intuition discriminate|]. intros k I. unfold chosen. rewrite (Ag k I).
      cbn in I. repeat (destruct I as [<-|I]; [reflexivity|]). destruct I. }
    split; [|split; [exact Vm|]].
    - destruct (calibrated_at sec_env [] ds ds' i r (VStr "gen.dat") (VInt 35) g y h (wf_kw 2) W ltac:(constructor) E N O Gc Gh
        ltac:(rewrite (Ah "file_name") by (cbn [In]; tauto); reflexivity) ltac:(rewrite (Ah "salinity") by (cbn [In]; tauto); reflexivity) Gg Tg
        (settings_sub _ _ _ _ _ (fun k K => in_or_app _ _ _ (or_introl K)) St2) Dl Nt) as (sr & Es & Ax).
      { intros o Eo. destruct (wf_calibrated y) as (m' & Ca). rewrite Ca in Eo. apply ok_inj in Eo. now subst o. }
      destruct (L h) as (q & Eq & _ & _ & Aq). rewrite Eq in Es. apply ok_inj in Es. subst sr. cbn [sr_alkalinity] in Ax. rewrite Aq in Ax. apply fin_inj in Ax. lra.
    - assert (Gm : dget "titrant_molinity" r = Some (VNum (Fin mb))) by (unfold value in Vm; now rewrite N in Vm).
      destruct (C111_rows_report_solutions sec_env [] ds1 ds' i r (wf_kw 2) (VStr "gen.dat") (VNum (Fin mb)) (VInt 35) g W1 ltac:(constructor) E2' N O
        (settings_sub _ _ _ _ _ (fun k K => in_or_app _ _ _ (or_intror K)) St2)
        ltac:(rewrite (Ah "file_name") by (cbn [In]; tauto); reflexivity) Gm ltac:(rewrite (Ah "salinity") by (cbn [In]; tauto); reflexivity) Gg) as [R _].
      destruct (L mb) as (q & Eq & _ & _ & Aq). rewrite <- Aq. apply (R ltac:(discriminate) Tg _ Eq). cbn [reported In]. left. reflexivity. }
  destruct (V 0%nat r0 y1 h1 N0 Q0 Ah0 Ag0 B0) as (Y1 & Vm0 & Va0). destruct (V 1%nat r1 y2 h2 N1 Q1 Ah1 Ag1 B1) as (Y2 & Vm1 & Va1).
  assert (MB : mb = (h1 + h2) / 2). { unfold mb. cbn [INR]. lra. }
  exists ds', r0, r1, h1, h2. split; [exact E|]. split; [exact Rs|]. rewrite <- MB.
  split; constructor; first [assumption|unfold value; rewrite ?N0, ?N1; assumption].
Qed.

Example C134_nonvacuous y1 y2 : exists ds' m1 m2,
  is_table (two_refs y1 y2) /\
  all_cells (two_refs y1 y2) "reference_good" (fun v => is_null v \/ exists g : bool, v = VBool g) /\
  calibrate sec_env [] (two_refs y1 y2) = Ok ds' /\
  let x := fun i : nat => match i with O => y1 | _ => y2 end in let m := fun i : nat => match i with O => m1 | _ => m2 end in
  let off := fun i : nat => match i with O => (y2 - y1) / 2 | _ => (y1 - y2) / 2 end in
  (forall i, In i [0; 1]%nat <-> exists r, nth_error (f_rows ds') i = Some r /\ good_reference (VInt 1) r <> []) /\
  (forall i, In i [0; 1]%nat -> value ds' i "analysis_batch" = Some (VInt 1) /\
     (exists a, value ds' i "alkalinity" = Some (VNum (Fin a))) /\ value ds' i "alkalinity_offset" = Some (VNum (Fin (off i))) /\
     exists r, nth_error (f_rows ds') i = Some r /\ solved_reference sec_env [] r (x i) (m i) 500000).
Proof.
  destruct wf_line as (d & L). destruct (two_refs_run d y1 y2 L) as (ds' & r0 & r1 & m1 & m2 & E & Rs & F0 & F1).
  destruct (two_refs_table y1 y2) as [W RG]. exists ds', m1, m2. split; [exact W|]. split; [exact RG|]. split; [exact E|]. intros x m off.
  destruct F0 as [N0 G0 Q0 _ _ Y1 B0 Vm0 Va0]. destruct F1 as [N1 G1 Q1 _ _ Y2 B1 Vm1 Va1]. split.
  - intros i. split.
    + intros [<-|[<-|[]]]; [exists r0|exists r1]; (split; [assumption|]); [rewrite G0|rewrite G1]; discriminate.
    + intros (r & N & _). destruct i as [|[|i]]; cbn; auto. rewrite Rs in N. destruct i; discriminate.
  - intros i [<-|[<-|[]]].
    + split; [exact B0|]. split; [eauto|]. split; [|exists r0; split; [assumption|exact Q0]].
      rewrite (C134_offset sec_env [] _ ds' 0 r0 y1 m1 500000 _ _ W ltac:(constructor) E N0 Q0 Vm0 Va0). do 3 f_equal. unfold off. lra.
    + split; [exact B1|]. split; [eauto|]. split; [|exists r1; split; [assumption|exact Q1]].
      rewrite (C134_offset sec_env [] _ ds' 1 r1 y2 m2 500000 _ _ W ltac:(constructor) E N1 Q1 Vm1 Va1). do 3 f_equal. unfold off. lra.
Qed.
