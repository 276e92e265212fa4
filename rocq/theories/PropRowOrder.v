(* PropRowOrder.v -- C116: the order of the rows; C117: a batch without references *)
From Coq Require Import Reals Qreals Lra Permutation.
From Verif Require Import Dataset SpecDataset DictLemmas SettingsProofs PropSettings DatasetProofs RowProofs CalProofs PropDataset PropBatch XR XRLemmas Witness PropReference PropCases.
Open Scope string_scope.
Open Scope list_scope.

Lemma mapM_comp {A B C} (f : A -> res B) (g : B -> res C) l a b : mapM f l = Ok a -> mapM g a = Ok b ->
  mapM (fun x => y <- f x ;; g y) l = Ok b.
Proof.
  intros E1 E2. apply mapM_Forall2 in E1, E2. apply mapM_Forall2. revert b E2.
  induction E1 as [|x y l a F E1 IH]; intros b E2; inversion E2; subst; constructor; [rewrite F; assumption|]. now apply IH.
Qed.
Lemma mapM_comp_inv {A B C} (f : A -> res B) (g : B -> res C) l a b : mapM f l = Ok a ->
  mapM (fun x => y <- f x ;; g y) l = Ok b -> mapM g a = Ok b.
Proof.
  intros E1 E2. apply mapM_Forall2 in E1, E2. apply mapM_Forall2. revert b E2.
  induction E1 as [|x y l a F E1 IH]; intros b E2; inversion E2 as [|? z ? b' Fz E2']; subst; constructor; [rewrite F in Fz; exact Fz|]. now apply IH.
Qed.

Lemma mapM_permute {A B} (f : A -> res B) l l2 : Permutation l l2 -> forall l', mapM f l = Ok l' ->
  exists l2', mapM f l2 = Ok l2' /\ Permutation (combine l l') (combine l2 l2').
Proof.
  induction 1 as [|x l l2 P IH|x y l|l l2 l3 P1 IH1 P2 IH2]; intros l' E.
  - exists l'. split; [exact E|apply Permutation_refl].
  - cbn [mapM] in *. apply DictLemmas.bind_ok in E. destruct E as (z & Ez & E). apply DictLemmas.bind_ok in E. destruct E as (zs & Ezs & E).
    injection E as <-. destruct (IH zs Ezs) as (l2' & E2 & P2). exists (z :: l2'). rewrite Ez, E2. cbn. split; [reflexivity|]. now constructor.
  - cbn [mapM] in *. apply DictLemmas.bind_ok in E. destruct E as (z & Ez & E). apply DictLemmas.bind_ok in E. destruct E as (zs & Ezs & E).
    apply DictLemmas.bind_ok in Ezs. destruct Ezs as (z2 & Ez2 & Ezs). apply DictLemmas.bind_ok in Ezs. destruct Ezs as (zs2 & Ezs2 & Ezs).
    injection Ezs as <-. injection E as <-. exists (z2 :: z :: zs2). rewrite Ez, Ez2, Ezs2. cbn. split; [reflexivity|constructor].
  - destruct (IH1 l' E) as (l2' & E2 & Q1). destruct (IH2 l2' E2) as (l3' & E3 & Q2). exists l3'. split; [exact E3|]. eapply Permutation_trans; eassumption.
Qed.

Lemma Forall2_flip' {A B} (R : A -> B -> Prop) l l' : Forall2 R l l' -> Forall2 (fun y x => R x y) l' l.
Proof. induction 1; constructor; auto. Qed.

(* ------------------------------------------------------------------ *)
(** * Means do not depend on the order *)

Lemma xadd_comm (x y : xr) : x ⊕ y = y ⊕ x.
Proof. destruct x, y; cbn; try reflexivity. now rewrite Rplus_comm. Qed.
Lemma xadd_assoc (x y z : xr) : x ⊕ y ⊕ z = x ⊕ (y ⊕ z).
Proof. destruct x, y, z; cbn; try reflexivity. now rewrite Rplus_assoc. Qed.

Lemma nsum_permute (l l2 : list xr) : Permutation l l2 -> nsum l = nsum l2.
Proof.
  unfold nsum. generalize (n0 : xr). intros a P. revert a.
  induction P as [|x l l2 P IH|x y l|l l2 l3 P1 IH1 P2 IH2]; intros a; cbn [fold_left].
  - reflexivity.
  - apply IH.
  - f_equal. rewrite !xadd_assoc. f_equal. apply xadd_comm.
  - rewrite IH1. apply IH2.
Qed.
Lemma nmean_permute (l l2 : list xr) : Permutation l l2 -> nmean l = nmean l2.
Proof. intros P. unfold nmean. now rewrite (nsum_permute _ _ P), (Permutation_length P). Qed.

Lemma good_permute (rows rows2 : list (row xr)) : Permutation rows rows2 -> forall l, good_molinities rows = Ok l ->
  exists l2, good_molinities rows2 = Ok l2 /\ Permutation l l2.
Proof.
  induction 1 as [|x l l2 P IH|x y l|l l2 l3 P1 IH1 P2 IH2]; intros o E.
  - exists o. split; [exact E|apply Permutation_refl].
  - cbn [good_molinities] in *. apply DictLemmas.bind_ok in E. destruct E as (rest & E1 & E). destruct (IH rest E1) as (r2 & E2 & P2). rewrite E2. cbn [bind].
    apply DictLemmas.bind_ok in E. destruct E as (b & Eb & E). rewrite Eb. cbn [bind].
    apply DictLemmas.bind_ok in E. destruct E as (v & Ev & E). rewrite Ev. cbn [bind]. apply ok_inj in E; subst o.
    eexists. split; [reflexivity|]. destruct (b && negb (nisnan v)); [apply perm_skip; exact P2|exact P2].
  - cbn [good_molinities] in *. apply DictLemmas.bind_ok in E. destruct E as (rest & E1 & E). apply DictLemmas.bind_ok in E1. destruct E1 as (rest2 & E2 & E1). rewrite E2. cbn [bind].
    apply DictLemmas.bind_ok in E. destruct E as (b & Eb & E). rewrite Eb. cbn [bind].
    apply DictLemmas.bind_ok in E. destruct E as (v & Ev & E). rewrite Ev. cbn [bind]. apply ok_inj in E; subst o.
    apply DictLemmas.bind_ok in E1. destruct E1 as (b1 & Eb1 & E1). rewrite Eb1. cbn [bind].
    apply DictLemmas.bind_ok in E1. destruct E1 as (v1 & Ev1 & E1). rewrite Ev1. cbn [bind]. apply ok_inj in E1; subst rest.
    eexists. split; [reflexivity|]. destruct (b && negb (nisnan v)), (b1 && negb (nisnan v1)); try apply Permutation_refl. apply perm_swap.
  - destruct (IH1 o E) as (o2 & E2 & Q1). destruct (IH2 o2 E2) as (o3 & E3 & Q2). exists o3. split; [exact E3|]. eapply Permutation_trans; eassumption.
Qed.

Lemma filter_permute {A} (p : A -> bool) l l2 : Permutation l l2 -> Permutation (filter p l) (filter p l2).
Proof.
  induction 1 as [|x l l2 P IH|x y l|l l2 l3 P1 IH1 P2 IH2]; cbn [filter].
  - constructor.
  - destruct (p x); [now constructor|exact IH].
  - destruct (p x), (p y); try apply Permutation_refl. apply perm_swap.
  - eapply Permutation_trans; eassumption.
Qed.

Lemma batch_permute (rows rows2 : list (row xr)) r m : Permutation rows rows2 ->
  batch_molinity rows r = Ok m -> batch_molinity rows2 r = Ok m.
Proof.
  intros P E. unfold batch_molinity in *. cbv zeta in *.
  assert (Q : forall k : val xr, (if isnull k then Err (KeyError "analysis_batch") else b <- get_group_calibration (filter (in_batch k) rows) ;; Ok (b_molinity b)) = Ok m ->
     (if isnull k then Err (KeyError "analysis_batch") else b <- get_group_calibration (filter (in_batch k) rows2) ;; Ok (b_molinity b)) = Ok m).
  { intros k. destruct (isnull k); [discriminate|]. unfold get_group_calibration. intros Ek.
    destruct (good_molinities (filter (in_batch k) rows)) as [l|] eqn:G; cbn [bind] in Ek; [|discriminate].
    destruct (good_permute _ _ (filter_permute (in_batch k) _ _ P) l G) as (l2 & G2 & P2). rewrite G2. cbn [bind b_molinity].
    rewrite <- Ek. cbn [b_molinity]. now rewrite (nmean_permute _ _ P2). }
  destruct (cell "analysis_batch" r); try discriminate; apply Q; exact E.
Qed.

(** Listing the rows in another order lists the results in that order: which molinity each batch
    gets, and every result, stay with their row. *)
Theorem C116_calibrate_permute : forall (e : env xr) kw ds ds' rows2,
  calibrate e kw ds = Ok ds' -> Permutation (f_rows ds) rows2 ->
  exists rows2', calibrate e kw (with_rows ds rows2) = Ok (with_rows ds' rows2') /\
    Permutation (combine (f_rows ds) (f_rows ds')) (combine rows2 rows2').
Proof.
  intros e kw ds ds' rows2 E P. apply calibrate_inv in E. destruct E as (ds1 & E1 & E2).
  apply calibrate_only_inv in E1. destruct E1 as (O & C1 & rows & ms & Er & Em & R1).
  apply solve_inv in E2. destruct E2 as (O2 & C2 & M2).
  set (g := fun rr => m <- batch_molinity rows rr ;; Ok (dset "titrant_molinity" (VNum m) rr)).
  assert (Eg : mapM g rows = Ok (f_rows ds1)).
  { rewrite R1. apply mapM_Forall2 in Em. apply mapM_Forall2. clear - Em. unfold g.
    assert (X : forall rs l1 l2, Forall2 (fun x y => batch_molinity rs x = Ok y) l1 l2 ->
        Forall2 (fun x y => (m <- batch_molinity rs x ;; Ok (dset "titrant_molinity" (VNum m) x)) = Ok y) l1 (map2 (fun r m => dset "titrant_molinity" (VNum m) r) l1 l2)).
    { intros rs l1 l2 F. induction F as [|x y l l' B _ IH]; cbn [map2]; constructor; [now rewrite B|exact IH]. }
    exact (X rows _ _ Em). }
  set (s := solve_one e kw (f_cols ds1)) in *.
  set (all := fun r => y <- ref_one e kw (f_cols ds) r ;; (z <- g y ;; s z)).
  assert (Ea : mapM all (f_rows ds) = Ok (f_rows ds')).
  { apply (mapM_comp _ (fun y => z <- g y ;; s z) _ rows); [exact Er|]. apply (mapM_comp _ s _ (f_rows ds1)); assumption. }
  destruct (mapM_permute all _ _ P _ Ea) as (rows2' & Ea2 & P2). exists rows2'. split; [|exact P2].
  destruct (mapM_permute (ref_one e kw (f_cols ds)) _ _ P _ Er) as (rr2 & Er2 & Pr).
  assert (Pr' : Permutation rows rr2).
  { apply (Permutation_map snd) in Pr. apply mapM_Forall2 in Er, Er2.
    assert (X : forall l1 l2, Forall2 (fun x y => ref_one e kw (f_cols ds) x = Ok y) l1 l2 -> map snd (combine l1 l2) = l2).
    { induction 1; cbn; [reflexivity|]. now f_equal. }
    rewrite (X _ _ Er), (X _ _ Er2) in Pr. exact Pr. }
  assert (Ez := mapM_comp_inv _ (fun y => z <- g y ;; s z) _ _ _ Er2 Ea2).
  destruct (mapM_total (batch_molinity rr2) rr2) as (ms2 & Em2).
  { intros r I. apply (Permutation_in _ (Permutation_sym Pr')) in I. apply mapM_Forall2 in Em.
    destruct (Forall2_in_l _ _ _ _ Em I) as (m & _ & X). exists m. now apply (batch_permute rows). }
  set (l1 := map2 (fun r m => dset "titrant_molinity" (VNum m) r) rr2 ms2).
  assert (Eg2 : mapM g rr2 = Ok l1).
  { apply mapM_Forall2 in Em2. apply mapM_Forall2. unfold l1, g.
    assert (X : forall l1 l2, Forall2 (fun x y => batch_molinity rr2 x = Ok y) l1 l2 ->
        Forall2 (fun x y => (m <- batch_molinity rows x ;; Ok (dset "titrant_molinity" (VNum m) x)) = Ok y) l1 (map2 (fun r m => dset "titrant_molinity" (VNum m) r) l1 l2)).
    { intros a b F. induction F as [|x y l l' B _ IH]; cbn [map2]; constructor; [|exact IH].
      now rewrite (batch_permute rr2 rows _ _ (Permutation_sym Pr') B). }
    exact (X _ _ Em2). }
  assert (Es := mapM_comp_inv _ s _ _ _ Eg2 Ez).
  apply calibrate_inv. exists (with_rows ds1 l1). split.
  - apply calibrate_only_inv. cbn [with_rows f_cols f_rows]. split; [exact O|]. split; [exact C1|]. exists rr2, ms2. auto.
  - apply solve_inv. cbn [with_rows f_cols f_rows]. auto.
Qed.

(* ------------------------------------------------------------------ *)
(** * C117: no reference, no result *)

(** The titrations of a batch without a single good reference get no molinity and blank results:
    never a number from another batch, from a default or from an earlier run. *)
Theorem C117_no_reference_no_result : forall (e : env xr) kw ds ds' i b, is_table ds ->
  all_cells ds "reference_good" (fun v => is_null v \/ exists b, v = VBool b) ->
  calibrate e kw ds = Ok ds' -> value ds' i "analysis_batch" = Some b ->
  batch_references ds' b = [] ->
  value ds' i "titrant_molinity" = Some (VNum NaN) /\ is_blank ds' i.
Proof.
  intros e kw ds ds' i b W F E V B.
  assert (Vm := C53_batch_mean_real e kw ds ds' i b [] W F E V B). cbn in Vm. split; [exact Vm|].
  assert (W' := E). apply calibrate_inv in W'. destruct W' as (ds1 & E1 & E2).
  assert (W1 := wff_calibrate_only e kw ds ds1 W E1).
  refine (proj1 (C52_solve_ignores_bad_files e e kw ds1 ds' ds' i W1 _ E2 E2 _)); [repeat split|].
  right. exists (VNum NaN). split; [|reflexivity].
  apply solve_inv in E2. destruct E2 as (_ & _ & M). apply mapM_Forall2 in M. unfold value in *.
  destruct (nth_error (f_rows ds') i) as [r'|] eqn:N'; [|discriminate].
  destruct (Forall2_nth _ _ _ _ _ (Forall2_flip' _ _ _ M) N') as (r & N & S). rewrite N.
  rewrite <- Vm. symmetry. apply (solve_one_get _ _ _ _ _ _ S). cbn. intuition discriminate.
Qed.

(* ------------------------------------------------------------------ *)
(** * Non-vacuity *)

Example C116_nonvacuous : exists ds' rows2', calibrate tiny_env [] (ref_table [VInt 1; VInt 2; VStr "b"]) = Ok ds' /\
  calibrate tiny_env [] (ref_table [VStr "b"; VInt 2; VInt 1]) = Ok (with_rows ds' rows2').
Proof.
  destruct C54_nonvacuous as (ds' & E).
  destruct (C116_calibrate_permute tiny_env [] _ ds' (map ref_row [VStr "b"; VInt 2; VInt 1]) E) as (r2 & E2 & _).
  { cbn [f_rows ref_table]. apply Permutation_map. apply (Permutation_rev [VInt 1; VInt 2; VStr "b"]). }
  exists ds', r2. split; [exact E|exact E2].
Qed.

Definition alone_row (v : val xr) : row xr := tiny_row "gen.dat" ++ [("alkalinity_certified", v); ("analysis_batch", VStr "a")].
Definition alone_table : frame xr := {| f_cols := dkeys (alone_row VNone); f_rows := [alone_row VNone] |}.

Example C117_nonvacuous : exists ds', is_table alone_table /\
  all_cells alone_table "reference_good" (fun v => is_null v \/ exists b, v = VBool b) /\
  calibrate tiny_env [] alone_table = Ok ds' /\ value ds' 0 "analysis_batch" = Some (VStr "a") /\
  batch_references ds' (VStr "a") = [].
Proof.
  assert (W : is_table alone_table).
  { split; [repeat constructor; cbn; intuition discriminate|]. intros r [<-|[]]. reflexivity. }
  assert (RG : all_cells alone_table "reference_good" (fun v => is_null v \/ exists b, v = VBool b)).
  { intros r v [<-|[]] G. discriminate. }
  destruct (C54_calibrate_completes_partial tiny_env [] alone_table W) as (ds' & E).
  - split; reflexivity.
  - intros c I. cbn in I. destruct I as [<-|[<-|[<-|[]]]]; cbn; tauto.
  - left. cbn. tauto.
  - intros c I r v [<-|[]] G. cbn in I. destruct I as [<-|[<-|[<-|[]]]]; cbn in G; [|discriminate|]; injection G as <-; [right; eexists; reflexivity|left; reflexivity].
  - intros r v [<-|[]] G. cbn in G. injection G as <-. split; [discriminate|left; eauto].
  - exact RG.
  - exists ds'. split; [exact W|]. split; [exact RG|]. split; [exact E|].
    destruct (calibrate_stages tiny_env [] alone_table ds' W E) as (rows & Er & F).
    assert (H0 : value ds' 0 "titrant_molinity_here" = Some (VNum NaN)).
    { apply (C52_calibrate_ignores_bad_files tiny_env [] alone_table ds' 0 W E). right. exists VNone. split; reflexivity. }
    apply mapM_Forall2 in Er. inversion Er as [|r0 rr l l' R0 E0]; subst. inversion E0; subst.
    destruct (f_rows ds') as [|r2 l2] eqn:N; [inversion F|]. inversion F as [|? ? ? ? (m & _ & _ & _ & A) F2]; subst. inversion F2; subst.
    unfold value, batch_references, good_reference in *. rewrite N in *. cbn [nth_error flat_map] in *.
    assert (B : dget "analysis_batch" r2 = Some (VStr "a")).
    { rewrite A by (cbn; tauto). destruct (ref_one_inv _ _ _ _ _ R0) as (r1 & x & P & _ & R).
      rewrite R. unfold flag_row. replace (mem_str "analysis_batch" (f_cols alone_table)) with true by reflexivity. cbv zeta.
      replace (mem_str "reference_good" (f_cols alone_table)) with false by reflexivity. rewrite !dget_dset_other by discriminate.
      rewrite (prep_row_get tiny_env (f_cols alone_table) _ r1 "analysis_batch" P) by (cbn; intuition discriminate). reflexivity. }
    split; [exact B|]. rewrite H0, B. destruct (dget "reference_good" r2) as [[| [] | | | | |]|]; try reflexivity.
Qed.

Print Assumptions C116_calibrate_permute.
Print Assumptions C117_no_reference_no_result.
