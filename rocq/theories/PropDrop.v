(* PropDrop.v -- C138: rows that are not references play no part in the calibration of the others *)
From Coq Require Import List Lia.
From Verif Require Import Files Dataset DictLemmas SpecDataset SpecSettings SettingsProofs TableProofs CalProofs RowProofs DatasetProofs PropBatch.
From Coq Require Import Reals.
From Verif Require Import XR XRLemmas PropTransfer PropWorkflow.
Import ListNotations.
Open Scope string_scope.
Open Scope list_scope.

(* ------------------------------------------------------------------ *)
(** * Specification *)

(* the rows the user keeps: ds[keep] *)
Fixpoint select {A} (keep : list bool) (l : list A) : list A :=
  match keep, l with
  | true :: keep', x :: l' => x :: select keep' l'
  | false :: keep', _ :: l' => select keep' l'
  | _, _ => []
  end.

(* row i took part in the calibration: it is a good reference and has a molinity of its own *)
Definition took_part {T} `{Num T} (ds : frame T) (i : nat) : Prop :=
  exists x, value ds i "reference_good" = Some (VBool true) /\ value ds i "titrant_molinity_here" = Some (VNum x) /\ nisnan x = false.

(* ------------------------------------------------------------------ *)

Lemma select_in {A} keep (l : list A) x : In x (select keep l) -> In x l.
Proof.
  revert l. induction keep as [|[|] keep IH]; intros [|y l] I; cbn in *; try tauto; [destruct I as [->|I]; auto|auto].
Qed.

Lemma Forall2_select {A B} (P : A -> B -> Prop) keep l l' : Forall2 P l l' -> Forall2 P (select keep l) (select keep l').
Proof.
  intros F. revert keep. induction F as [|x y l l' Pxy F IH]; intros [|[|] keep]; cbn; try constructor; auto.
Qed.

Lemma flat_map_select {A B} (g : A -> list B) keep l : length keep = length l ->
  (forall i x, nth_error keep i = Some false -> nth_error l i = Some x -> g x = []) -> flat_map g (select keep l) = flat_map g l.
Proof.
  revert l. induction keep as [|b keep IH]; intros [|x l] L P; cbn in L; try discriminate; [reflexivity|].
  assert (R : flat_map g (select keep l) = flat_map g l) by (apply IH; [lia|]; intros i y I J; exact (P (S i) y I J)).
  destruct b; cbn [select flat_map]; rewrite R; [reflexivity|]. now rewrite (P O x eq_refl eq_refl).
Qed.

Lemma select_map2 {A B C} (f : A -> B -> C) keep : forall l l', select keep (map2 f l l') = map2 f (select keep l) (select keep l').
Proof.
  induction keep as [|[|] keep IH]; intros [|x l] [|y l']; cbn; try reflexivity; [f_equal; apply IH|destruct (select keep l); reflexivity|apply IH].
Qed.

Section P.
Context {T : Type} `{Num T}.

(* Taking rows that took no part out of the table changes nothing in the other rows. *)
Theorem C138_drop_rows : forall (e : env T) kw ds ds' keep, nisnan (nnan : T) = true -> is_table ds ->
  all_cells ds "reference_good" (fun v => is_null v \/ exists b, v = VBool b) ->
  calibrate e kw ds = Ok ds' -> length keep = n_rows ds ->
  (forall i, nth_error keep i = Some false -> ~ took_part ds' i) ->
  calibrate e kw (with_rows ds (select keep (f_rows ds))) = Ok (with_rows ds' (select keep (f_rows ds'))).
Proof.
  intros e kw ds ds' keep NN W F E Lk Out.
  destruct (calibrate_stages e kw ds ds' W E) as (rows & Er & G).
  assert (Er' := Er). apply mapM_Forall2 in Er'.
  assert (Q : Forall2 (fun rr r2 : row T => (exists x, dget "titrant_molinity_here" rr = Some (VNum x)) /\
     (exists k, dget "analysis_batch" rr = Some k) /\ (exists v, dget "reference_good" rr = Some v /\ flag v) /\
     forall k, In k ["analysis_batch"; "reference_good"; "titrant_molinity_here"] -> dget k r2 = dget k rr) rows (f_rows ds')).
  { eapply Forall2_mono; [|exact G]. cbn beta. intros rr r2 I _ (m & _ & _ & X & A).
    destruct (Forall2_in_r _ _ _ _ Er' I) as (r0 & I0 & R0).
    destruct (ref_one_flags e kw (f_cols ds) r0 rr (proj2 W r0 I0) R0) as [B C]; [intros v Gv; exact (F r0 v I0 Gv)|]. auto. }
  apply calibrate_inv in E. destruct E as (ds1 & E1 & E2).
  apply calibrate_only_inv in E1. destruct E1 as (O & C1 & rows' & ms & Er2 & Em & R1).
  assert (rows' = rows) by (pose proof (eq_trans (eq_sym Er2) Er) as X; now injection X). subst rows'. clear Er2.
  apply solve_inv in E2. destruct E2 as (O2 & C2 & M2).
  assert (Lr : length rows = length (f_rows ds')) by (clear - G; induction G; cbn; congruence).
  assert (Ld : length rows = length (f_rows ds)) by (apply mapM_ok in Er; exact (proj1 Er)).
  assert (Gm : forall b, good_molinities (filter (in_batch b) (select keep rows)) = good_molinities (filter (in_batch b) rows)).
  { intros b. rewrite (good_molinities_spec _ _ b NN Q), (good_molinities_spec _ _ b NN (Forall2_select _ keep _ _ Q)). f_equal.
    apply flat_map_select; [unfold n_rows in Lk; unfold row in *; lia|]. intros i r Ki Ir. specialize (Out i Ki). unfold good_reference.
    destruct (dget "analysis_batch" r); [|reflexivity]. destruct (dget "reference_good" r) as [[|[|]| | | | |]|] eqn:Gr; try reflexivity.
    destruct (dget "titrant_molinity_here" r) as [[| | |x| | |]|] eqn:Gh; try reflexivity.
    destruct (nisnan x) eqn:Nx; [now rewrite Bool.andb_false_r|]. exfalso. apply Out. exists x. unfold value. rewrite Ir. auto. }
  assert (Bm : forall rr, batch_molinity (select keep rows) rr = batch_molinity rows rr).
  { intros rr. unfold batch_molinity, get_group_calibration. cbv zeta. now rewrite (Gm (cell "analysis_batch" rr)). }
  assert (Sel : forall A B (f : A -> res B) l l', mapM f l = Ok l' -> mapM f (select keep l) = Ok (select keep l')).
  { intros A B f l l' X. apply mapM_Forall2. apply Forall2_select. now apply mapM_Forall2. }
  assert (Em2 : mapM (batch_molinity (select keep rows)) (select keep rows) = Ok (select keep ms)).
  { apply mapM_Forall2. assert (X := Forall2_select _ keep _ _ (proj1 (mapM_Forall2 _ _ _) Em)).
    eapply Forall2_mono; [|exact X]. cbn beta. intros rr m _ _ Y. now rewrite Bm. }
  apply calibrate_inv. exists (with_rows ds1 (select keep (f_rows ds1))). split.
  - apply calibrate_only_inv. cbn [with_rows f_cols f_rows]. split; [exact O|]. split; [exact C1|].
    exists (select keep rows), (select keep ms). split; [now apply Sel|]. split; [exact Em2|]. rewrite R1. apply select_map2.
  - apply solve_inv. cbn [with_rows f_cols f_rows]. split; [exact O2|]. split; [exact C2|]. now apply Sel.
Qed.
End P.

(* a reference and a sample: the reference keeps its results without the sample *)
Example C138_nonvacuous (c : R) : exists y ds' r0 r1,
  is_table (wf_table y) /\ all_cells (wf_table y) "reference_good" (fun v => is_null v \/ exists g : bool, v = VBool g) /\
  calibrate sec_env [] (wf_table y) = Ok ds' /\ length [true; false] = n_rows (wf_table y) /\
  (forall i, nth_error [true; false] i = Some false -> ~ took_part ds' i) /\
  f_rows ds' = [r0; r1] /\ dget "titrant_molinity" r1 = Some (VNum (Fin c)) /\
  calibrate sec_env [] (with_rows (wf_table y) [wf_row 2 (Fin y)]) = Ok (with_rows ds' [r0]).
Proof.
  destruct (C128_nonvacuous c) as (A0 & A1 & ds' & W & F & E & _ & _ & Vg & Vm & _). set (y := (1000000 * A0)%R) in *.
  exists y, ds'.
  assert (L : length (f_rows ds') = 2%nat).
  { destruct (calibrate_stages sec_env [] _ ds' W E) as (rows & Er & G). apply mapM_ok in Er. destruct Er as [Er _].
    assert (Lr : length rows = length (f_rows ds')) by (clear - G; induction G; cbn; congruence). rewrite <- Lr. exact Er. }
  assert (exists r0 r1, f_rows ds' = [r0; r1]) as (r0 & r1 & Rs).
  { destruct (f_rows ds') as [|r0 [|r1 [|]]]; try discriminate. eauto. }
  assert (Out : forall i, nth_error [true; false] i = Some false -> ~ took_part ds' i).
  { intros i I (x & G & _). assert (i = 1%nat) by (destruct i as [|[|[|]]]; try discriminate; reflexivity). subst i. congruence. }
  exists r0, r1. split; [exact W|]. split; [exact F|]. split; [exact E|]. split; [reflexivity|]. split; [exact Out|]. split; [exact Rs|].
  split; [unfold value in Vm; rewrite Rs in Vm; exact Vm|].
  assert (X := C138_drop_rows sec_env [] (wf_table y) ds' [true; false] eq_refl W F E eq_refl Out). rewrite Rs in X. exact X.
Qed.
