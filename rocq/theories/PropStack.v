(* PropStack.v -- C140: tables without a batch in common can be processed together or apart *)
From Coq Require Import List Lia.
From Verif Require Import Files Dataset DictLemmas SpecDataset SpecSettings SettingsProofs TableProofs CalProofs RowProofs DatasetProofs PropDataset PropBatch.
From Coq Require Import Reals Lra.
From Verif Require Import XR XRLemmas PropTransfer PropCases PropWorkflow.
Import ListNotations.
Open Scope string_scope.
Open Scope list_scope.

(* ------------------------------------------------------------------ *)
(** * Specification *)

(* pd.concat([A, B]) for tables with the same columns *)
Definition stack {T} `{Num T} (A B : frame T) : frame T := with_rows A (f_rows A ++ f_rows B).

(* no row of A is in the batch of a row of B *)
Definition no_common_batch {T} `{Num T} (A B : frame T) : Prop :=
  forall i j a b, value A i "analysis_batch" = Some a -> value B j "analysis_batch" = Some b ->
    key_eqb a b = false /\ key_eqb b a = false.

(* ------------------------------------------------------------------ *)

Lemma Forall2_app_split {A B} (P : A -> B -> Prop) l1 l2 l : Forall2 P (l1 ++ l2) l ->
  exists a b, l = a ++ b /\ Forall2 P l1 a /\ Forall2 P l2 b.
Proof. intros F. apply Forall2_app_inv_l in F. destruct F as (a & b & Fa & Fb & ->). eauto. Qed.

Lemma mapM_app_ok {A B} (f : A -> res B) l1 l2 l : mapM f (l1 ++ l2) = Ok l <->
  exists a b, mapM f l1 = Ok a /\ mapM f l2 = Ok b /\ l = a ++ b.
Proof.
  split.
  - intros E. apply mapM_Forall2 in E. destruct (Forall2_app_split _ _ _ _ E) as (a & b & -> & Fa & Fb).
    exists a, b. split; [now apply mapM_Forall2|]. split; [now apply mapM_Forall2|reflexivity].
  - intros (a & b & Ea & Eb & ->). apply mapM_Forall2. apply Forall2_app; now apply mapM_Forall2.
Qed.

Lemma map2_app {A B C} (f : A -> B -> C) l1 l2 : forall m1 m2, length l1 = length m1 ->
  map2 f (l1 ++ l2) (m1 ++ m2) = map2 f l1 m1 ++ map2 f l2 m2.
Proof.
  induction l1 as [|x l1 IH]; intros [|y m1] m2 L; cbn in L; try discriminate; [reflexivity|].
  cbn. f_equal. apply IH. lia.
Qed.

Lemma mapM_ext_in {A B} (f g : A -> res B) l : (forall x, In x l -> f x = g x) -> mapM f l = mapM g l.
Proof.
  induction l as [|x l IH]; intros E; cbn [mapM]; [reflexivity|].
  rewrite (E x (or_introl eq_refl)), IH; [reflexivity|]. intros y I. apply E. now right.
Qed.

Section P.
Context {T : Type} `{Num T}.

Theorem C140_solve_stacked : forall (e : env T) kw A B ds', f_cols A = f_cols B ->
  solve e kw (stack A B) = Ok ds' <->
  exists A' B', solve e kw A = Ok A' /\ solve e kw B = Ok B' /\ ds' = stack A' B' /\ f_cols A' = f_cols B'.
Proof.
  intros e kw A B ds' K. rewrite solve_inv. cbn [stack with_rows f_cols f_rows]. split.
  - intros (O & C & M). apply mapM_app_ok in M. destruct M as (a & b & Ea & Eb & R).
    exists {| f_cols := f_cols ds'; f_rows := a |}, {| f_cols := f_cols ds'; f_rows := b |}.
    split; [apply solve_inv; cbn [f_cols f_rows]; auto|]. split; [apply solve_inv; cbn [f_cols f_rows]; rewrite <- K; auto|].
    split; [|reflexivity]. unfold stack, with_rows. cbn [f_cols f_rows]. rewrite <- R. now destruct ds'.
  - intros (A' & B' & EA & EB & -> & KC). apply solve_inv in EA, EB. destruct EA as (O & C & M). destruct EB as (O' & C' & M').
    cbn [stack with_rows f_cols f_rows]. split; [exact O|]. split; [exact C|]. apply mapM_app_ok. rewrite <- K in M'. eauto.
Qed.

Lemma ref_one_batch e kw cols (r rr : row T) : mem_str "analysis_batch" cols = true -> ref_one e kw cols r = Ok rr ->
  dget "analysis_batch" rr = dget "analysis_batch" r.
Proof.
  intros M E. destruct (ref_one_inv _ _ _ _ _ E) as (r1 & x & P & _ & ->). unfold flag_row. rewrite M. cbv zeta.
  rewrite <- (prep_row_get e cols r r1 "analysis_batch" P) by (cbn; intuition discriminate).
  destruct (mem_str "reference_good" cols); rewrite ?dget_dset_other by discriminate; reflexivity.
Qed.

(* the batches of one table take no notice of rows of other batches *)
Lemma batch_alone (rows extra : list (row T)) r :
  (forall x, In x extra -> in_batch (cell "analysis_batch" r) x = false) ->
  batch_molinity (rows ++ extra) r = batch_molinity rows r /\ batch_molinity (extra ++ rows) r = batch_molinity rows r.
Proof.
  intros N.
  assert (F : filter (in_batch (cell "analysis_batch" r)) extra = []).
  { induction extra as [|x l IH]; [reflexivity|]. cbn [filter]. rewrite (N x (or_introl eq_refl)). apply IH. intros y I. apply N. now right. }
  unfold batch_molinity. cbv zeta. rewrite !filter_app, F, app_nil_r. cbn [app]. split; reflexivity.
Qed.

Lemma not_in_batch (e : env T) kw (A B : frame T) (ra rb : list (row T)) :
  is_table A -> is_table B -> f_cols A = f_cols B -> In "analysis_batch" (f_cols A) -> no_common_batch A B ->
  mapM (ref_one e kw (f_cols A)) (f_rows A) = Ok ra -> mapM (ref_one e kw (f_cols A)) (f_rows B) = Ok rb ->
  forall x y, In x ra -> In y rb ->
    in_batch (cell "analysis_batch" x) y = false /\ in_batch (cell "analysis_batch" y) x = false.
Proof.
  intros WA WB K IA N EA EB x y Ix Iy. apply mapM_Forall2 in EA, EB.
  destruct (Forall2_in_r _ _ _ _ EA Ix) as (x0 & Ix0 & Ex). destruct (Forall2_in_r _ _ _ _ EB Iy) as (y0 & Iy0 & Ey).
  assert (MA : mem_str "analysis_batch" (f_cols A) = true) by (now apply mem_str_spec).
  apply (ref_one_batch _ _ _ _ _ MA) in Ex. apply (ref_one_batch _ _ _ _ _ MA) in Ey.
  assert (exists va, dget "analysis_batch" x0 = Some va) as (va & Va)
    by (apply dmem_true_get, dget_in_keys; rewrite (proj2 WA x0 Ix0); exact IA).
  assert (exists vb, dget "analysis_batch" y0 = Some vb) as (vb & Vb)
    by (apply dmem_true_get, dget_in_keys; rewrite (proj2 WB y0 Iy0), <- K; exact IA).
  apply In_nth_error in Ix0, Iy0. destruct Ix0 as (i & Ii). destruct Iy0 as (j & Ij).
  destruct (N i j va vb) as [N1 N2]; [unfold value; now rewrite Ii|unfold value; now rewrite Ij|].
  unfold in_batch, cell. rewrite Ex, Ey, Va, Vb. auto.
Qed.

(* Calibrating the stacked table succeeds exactly if calibrating each of the two does, and
   then gives the stacked results. *)
Theorem C140_calibrate_stacked : forall (e : env T) kw A B ds',
  is_table A -> is_table B -> f_cols A = f_cols B -> In "analysis_batch" (f_cols A) -> no_common_batch A B ->
  calibrate e kw (stack A B) = Ok ds' <->
  exists A' B', calibrate e kw A = Ok A' /\ calibrate e kw B = Ok B' /\ ds' = stack A' B' /\ f_cols A' = f_cols B'.
Proof.
  intros e kw A B ds' WA WB K IA N. split.
  - intros E. apply calibrate_inv in E. destruct E as (ds1 & E1 & E2).
    apply calibrate_only_inv in E1. cbn [stack with_rows f_cols f_rows] in E1. destruct E1 as (O & C1 & rows & ms & Er & Em & R1).
    apply mapM_app_ok in Er. destruct Er as (ra & rb & Ea & Eb & ->).
    assert (NB := not_in_batch e kw A B ra rb WA WB K IA N Ea Eb).
    apply mapM_app_ok in Em. destruct Em as (ma & mb & Ema & Emb & ->).
    rewrite (mapM_ext_in _ (batch_molinity ra)) in Ema
      by (intros x Ix; apply batch_alone; intros y Iy; apply (NB x y Ix Iy)).
    rewrite (mapM_ext_in _ (batch_molinity rb)) in Emb
      by (intros y Iy; apply batch_alone; intros x Ix; apply (NB x y Ix Iy)).
    assert (La := proj1 (mapM_ok _ _ _ Ema)). rewrite map2_app in R1 by (symmetry; exact La).
    set (A1 := {| f_cols := f_cols ds1; f_rows := map2 (fun r m => dset "titrant_molinity" (VNum m) r) ra ma |} : frame T).
    set (B1 := {| f_cols := f_cols ds1; f_rows := map2 (fun r m => dset "titrant_molinity" (VNum m) r) rb mb |} : frame T).
    assert (S : ds1 = stack A1 B1).
    { transitivity {| f_cols := f_cols ds1; f_rows := f_rows ds1 |}; [now destruct ds1|].
      unfold stack, with_rows, A1, B1. cbn [f_cols f_rows]. f_equal. exact R1. }
    rewrite S in E2. apply C140_solve_stacked in E2; [|reflexivity]. destruct E2 as (A' & B' & SA & SB & -> & KC).
    exists A', B'. split; [|split; [|split; [reflexivity|exact KC]]]; apply calibrate_inv.
    + exists A1. split; [|exact SA]. apply calibrate_only_inv. split; [exact O|]. split; [exact C1|]. exists ra, ma. auto.
    + exists B1. split; [|exact SB]. apply calibrate_only_inv. rewrite <- K. split; [exact O|]. split; [exact C1|]. exists rb, mb. auto.
  - intros (A' & B' & EA & EB & -> & KC). apply calibrate_inv in EA, EB. destruct EA as (A1 & EA1 & EA2). destruct EB as (B1 & EB1 & EB2).
    apply calibrate_only_inv in EA1, EB1. rewrite <- K in EB1.
    destruct EA1 as (O & C1 & ra & ma & Ea & Ema & Ra). destruct EB1 as (_ & C1' & rb & mb & Eb & Emb & Rb).
    assert (NB := not_in_batch e kw A B ra rb WA WB K IA N Ea Eb).
    assert (Xa : mapM (batch_molinity (ra ++ rb)) ra = Ok ma).
    { rewrite <- Ema. apply mapM_ext_in. intros x Ix. apply batch_alone. intros y Iy. apply (NB x y Ix Iy). }
    assert (Xb : mapM (batch_molinity (ra ++ rb)) rb = Ok mb).
    { rewrite <- Emb. apply mapM_ext_in. intros y Iy. apply batch_alone. intros x Ix. apply (NB x y Ix Iy). }
    apply calibrate_inv. exists (stack A1 B1). split.
    + apply calibrate_only_inv. cbn [stack with_rows f_cols f_rows]. split; [exact O|]. split; [exact C1|].
      exists (ra ++ rb), (ma ++ mb). split; [apply mapM_app_ok; exists ra, rb; auto|]. split; [apply mapM_app_ok; exists ma, mb; auto|].
      rewrite Ra, Rb. symmetry. apply map2_app. symmetry. exact (proj1 (mapM_ok _ _ _ Ema)).
    + apply C140_solve_stacked; [now rewrite C1, C1'|]. exists A', B'. auto.
Qed.
End P.

(* two cruises: a reference and a sample each, in batches 1 and 2 *)
Definition second_row (M : R) (cert : xr) : row xr := dset "analysis_batch" (VInt 2) (wf_row M cert).
Definition second_table (cert : R) : frame xr :=
  {| f_cols := f_cols (wf_table cert); f_rows := [second_row 2 (Fin cert); second_row 1 NaN] |}.

Example C140_nonvacuous (c : R) : exists ds' A' B',
  is_table (wf_table c) /\ is_table (second_table c) /\ f_cols (wf_table c) = f_cols (second_table c) /\
  In "analysis_batch" (f_cols (wf_table c)) /\ no_common_batch (wf_table c) (second_table c) /\
  calibrate sec_env [] (stack (wf_table c) (second_table c)) = Ok ds' /\
  calibrate sec_env [] (wf_table c) = Ok A' /\ calibrate sec_env [] (second_table c) = Ok B' /\ ds' = stack A' B' /\ n_rows ds' = 4%nat.
Proof.
  assert (WA : is_table (wf_table c)).
  { split; [repeat constructor; cbn; intuition discriminate|]. intros r [<-|[<-|[]]]; reflexivity. }
  assert (WB : is_table (second_table c)).
  { split; [repeat constructor; cbn; intuition discriminate|]. intros r [<-|[<-|[]]]; reflexivity. }
  assert (WS : is_table (stack (wf_table c) (second_table c))).
  { split; [exact (proj1 WA)|]. intros r I. apply in_app_or in I. destruct I as [I|I]; [exact (proj2 WA r I)|exact (proj2 WB r I)]. }
  assert (IA : In "analysis_batch" (f_cols (wf_table c))) by (apply mem_str_spec; reflexivity).
  assert (N : no_common_batch (wf_table c) (second_table c)).
  { intros i j a b Va Vb.
    assert (a = VInt 1) by (destruct i as [|[|[|i]]]; cbn in Va; try discriminate; apply some_inj in Va; now subst).
    assert (b = VInt 2) by (destruct j as [|[|[|j]]]; cbn in Vb; try discriminate; apply some_inj in Vb; now subst).
    subst a b. unfold key_eqb. cbn [as_num].
    assert (X : forall p q : Z, p <> q -> neqb (nofZ p : xr) (nofZ q) = false).
    { intros p q D. cbn. unfold reqb. destruct (Req_EM_T _ _) as [X|]; [|reflexivity]. exfalso. apply D.
      unfold Q2R in X. cbn in X. rewrite !RMicromega.Rinv_1 in X || rewrite Rinv_1 in X. apply eq_IZR. lra. }
    split; apply X; discriminate. }
  destruct (C54_calibrate_completes_partial sec_env [] (stack (wf_table c) (second_table c))) as (ds' & E).
  { exact WS. } { split; reflexivity. }
  { intros k I. cbn in I. destruct I as [<-|[<-|[<-|[]]]]; apply mem_str_spec; reflexivity. }
  { left. apply mem_str_spec; reflexivity. }
  { intros k I r v [<-|[<-|[<-|[<-|[]]]]] G; cbn in I; destruct I as [<-|[<-|[<-|[]]]]; cbn in G; try discriminate; apply some_inj in G; subst v;
      first [left; reflexivity|right; eexists; reflexivity]. }
  { intros r v [<-|[<-|[<-|[<-|[]]]]] G; cbn in G; apply some_inj in G; subst v; (split; [discriminate|right; eexists; reflexivity]). }
  { intros r v [<-|[<-|[<-|[<-|[]]]]] G; discriminate. }
  destruct (proj1 (C140_calibrate_stacked sec_env [] _ _ ds' WA WB eq_refl IA N) E) as (A' & B' & EA & EB & S & _).
  exists ds', A', B'. repeat (split; [assumption || reflexivity|]).
  destruct (calibrate_stages sec_env [] _ ds' WS E) as (rows & Er & G). apply mapM_ok in Er. destruct Er as [Er _].
  assert (Lr : length rows = length (f_rows ds')) by (clear - G; induction G; cbn; congruence). unfold n_rows. rewrite <- Lr. exact Er.
Qed.
