(* PropLeaveOut.v -- C136: marking a reference as bad takes exactly that reference out of its batch *)
From Coq Require Import Reals Qreals Lra Lia List.
From Verif Require Import Files Dataset DictLemmas SpecDataset SpecSettings SettingsProofs TableProofs CalProofs PropBatch PropSupplied PropReference PropModes PropCalibrate PropCases PropReport RowProofs DatasetProofs PropHistory PropIgnored PropCalHistory.
From Verif Require Import XR XRLemmas SpecConvert SpecCore SpecSimulate SimProofs SolveProofs PropSolve PropMonotone Witness PropSulfuric PropTransfer PropWorkflow PropOffsets.
Import ListNotations.
Open Scope R_scope.
Open Scope string_scope.
Open Scope list_scope.

(* ------------------------------------------------------------------ *)
(** * Specification *)

Fixpoint update {A} (j : nat) (f : A -> A) (l : list A) : list A :=
  match l, j with
  | [], _ => []
  | x :: l', O => f x :: l'
  | x :: l', S j' => x :: update j' f l'
  end.

(* what the user does: ds.loc[j, c] = v *)
Definition set_cell {T} (j : nat) (c : string) (v : val T) (ds : frame T) : frame T :=
  with_rows ds (update j (dset c v) (f_rows ds)).
Definition mark_bad {T} (j : nat) (ds : frame T) : frame T := set_cell j "reference_good" (VBool false) ds.

(* rows i and j belong to the same analysis batch *)
Definition same_batch {T} `{Num T} (ds : frame T) (i j : nat) : Prop :=
  exists bi bj, value ds i "analysis_batch" = Some bi /\ value ds j "analysis_batch" = Some bj /\ key_eqb bj bi = true.

(* ------------------------------------------------------------------ *)
(** * Lists *)

Lemma nth_update {A} (f : A -> A) l : forall i j, nth_error (update j f l) i =
  if Nat.eqb i j then option_map f (nth_error l i) else nth_error l i.
Proof. induction l as [|x l IH]; intros [|i] [|j]; cbn; try reflexivity; [now destruct (Nat.eqb i j)|apply IH]. Qed.
Lemma length_update {A} (f : A -> A) l : forall j, length (update j f l) = length l.
Proof. induction l as [|x l IH]; intros [|j]; cbn; auto. Qed.
Lemma in_update {A} (f : A -> A) l x : forall j, In x (update j f l) -> In x l \/ exists y, In y l /\ x = f y.
Proof.
  induction l as [|y l IH]; intros [|j] I; cbn in *; [tauto|tauto| |].
  - destruct I as [<-|I]; [right; exists y; auto|auto].
  - destruct I as [<-|I]; [auto|]. destruct (IH j I) as [?|(z & ? & ?)]; [auto|right; exists z; auto].
Qed.

Lemma filter_one {A} (p : A -> bool) : forall j l1 l2, length l1 = length l2 ->
  (forall i, i <> j -> nth_error l2 i = nth_error l1 i) ->
  (forall x, nth_error l1 j = Some x -> p x = false) -> (forall x, nth_error l2 j = Some x -> p x = false) ->
  filter p l2 = filter p l1.
Proof.
  intros j l1. revert j. induction l1 as [|a l1 IH]; intros j [|b l2] L N A1 A2; cbn in L; try discriminate; [reflexivity|].
  cbn [filter]. destruct j as [|j].
  - rewrite (A1 a eq_refl), (A2 b eq_refl). f_equal. clear - L N.
    assert (X : forall i, nth_error l2 i = nth_error l1 i) by (intros i; apply (N (S i)); lia).
    clear N. apply f_equal with (f := pred) in L. cbn in L. revert l2 L X. induction l1 as [|x l1 IH]; intros [|y l2] L X; try discriminate; [reflexivity|].
    f_equal; [specialize (X O); cbn in X; congruence|]. apply IH; [cbn in L; lia|]. intros i. apply (X (S i)).
  - assert (E := N O ltac:(lia)). cbn in E. apply some_inj in E. subst b.
    rewrite (IH j l2); [reflexivity|cbn in L; lia|..].
    + intros i I. apply (N (S i)). lia.
    + intros x I. apply A1, I.
    + intros x I. apply A2, I.
Qed.

Lemma flat_map_one {A B} (g : A -> list B) : forall j l1 l2 a b, length l1 = length l2 ->
  (forall i x y, i <> j -> nth_error l1 i = Some x -> nth_error l2 i = Some y -> g y = g x) ->
  nth_error l1 j = Some a -> nth_error l2 j = Some b -> g b = [] ->
  exists P Q, flat_map g l1 = P ++ g a ++ Q /\ flat_map g l2 = P ++ Q.
Proof.
  intros j l1. revert j. induction l1 as [|x l1 IH]; intros j [|y l2] a b L N Ga Gb Z; cbn in L; try discriminate; [destruct j; discriminate|].
  destruct j as [|j].
  - apply some_inj in Ga, Gb. subst x y. exists [], (flat_map g l1). split; [reflexivity|]. cbn [flat_map]. rewrite Z. cbn [app].
    assert (X : forall i u v, nth_error l1 i = Some u -> nth_error l2 i = Some v -> g v = g u) by (intros i u v; apply (N (S i)); lia).
    clear - L X. apply f_equal with (f := pred) in L. cbn in L. revert l2 L X. induction l1 as [|u l1 IH]; intros [|v l2] L X; try discriminate; [reflexivity|].
    cbn [flat_map]. f_equal; [apply (X O); reflexivity|]. apply IH; [cbn in L; lia|]. intros i. apply (X (S i)).
  - destruct (IH j l2 a b) as (P & Q & E1 & E2); auto.
    + intros i u v I. apply (N (S i)). lia.
    + exists (g x ++ P), Q. cbn [flat_map]. rewrite E1, E2, (N O x y ltac:(lia) eq_refl eq_refl). now rewrite <- !app_assoc.
Qed.

Lemma nth_map2 {A B C} (f : A -> B -> C) l1 : forall l2 i, nth_error (map2 f l1 l2) i =
  match nth_error l1 i, nth_error l2 i with Some a, Some b => Some (f a b) | _, _ => None end.
Proof.
  induction l1 as [|a l1 IH]; intros [|b l2] [|i]; cbn; try reflexivity; [now destruct (nth_error l1 i)|apply IH].
Qed.

Lemma nth_map2_some {A B C} (f : A -> B -> C) l1 l2 i a b : nth_error l1 i = Some a -> nth_error l2 i = Some b ->
  nth_error (map2 f l1 l2) i = Some (f a b).
Proof. intros E F. now rewrite nth_map2, E, F. Qed.

Ltac rlia := unfold row in *; cbn [with_rows f_rows] in *; lia.

Section P.
Context {T : Type} `{Num T}.

(* ------------------------------------------------------------------ *)
(** * One row *)

(* what is filled in before calibrating does not depend on the flag or on the certified value *)
Lemma prep_set (e : env T) cols (r p p2 : row T) c v : dkeys r = cols -> In c cols -> In c ["reference_good"; "alkalinity_certified"] ->
  prep_row e cols r = Ok p -> prep_row e cols (dset c v r) = Ok p2 -> forall k, k <> c -> dget k p2 = dget k p.
Proof.
  intros K M Ic P P2.
  assert (K2 : dkeys (dset c v r) = cols) by (rewrite dkeys_dset, K; apply addc_in; now apply mem_str_spec).
  assert (D : forall k, k <> c -> dget k (dset c v r) = dget k r) by (intros k N; now apply dget_dset_other).
  assert (D' : forall k, mem_str k ["reference_good"; "alkalinity_certified"] = false -> dget k (dset c v r) = dget k r).
  { intros k N. apply D. intros ->. apply mem_str_false in N. contradiction. }
  destruct (prep_dget e cols r p K P) as (B1 & S1 & M1 & G1 & U1). destruct (prep_dget e cols _ p2 K2 P2) as (B2 & S2 & M2 & G2 & U2).
  assert (Db : def_borate (dset c v r) = def_borate r) by (unfold def_borate, cell; now rewrite D' by reflexivity).
  assert (Sa : forall k, In k salts -> dget k p2 = dget k p).
  { intros k I. destruct (S1 k I) as (s1 & V1 & ->). destruct (S2 k I) as (s2 & V2 & ->).
    assert (Ev : salt_val e k (dset c v r) = salt_val e k r).
    { unfold salt_val, cell. rewrite Db, !D'; [reflexivity|reflexivity|]. cbn in I. destruct I as [<-|[<-|[<-|[]]]]; reflexivity. }
    rewrite Ev in V2. congruence. }
  intros k N. destruct (mem_str k prep_keys) eqn:Mk.
  - apply mem_str_spec in Mk. cbn in Mk. destruct Mk as [<-|[<-|[<-|[<-|[<-|[<-|[<-|[]]]]]]]].
    + now rewrite B1, B2, Db.
    + apply Sa; cbn; tauto. + apply Sa; cbn; tauto. + apply Sa; cbn; tauto.
    + rewrite M1, M2. unfold mass_of. now rewrite D' by reflexivity.
    + rewrite U1, U2. unfold unit_of. now rewrite D' by reflexivity.
    + rewrite G1, G2. unfold good_of. now rewrite D' by reflexivity.
  - apply mem_str_false in Mk. rewrite (prep_row_get e cols _ p2 k P2 Mk), (prep_row_get e cols r p k P Mk). apply D, N.
Qed.

(* the calibration of a row does not read reference_good *)
Lemma here_without_flag (e : env T) kw cols (r rr rr2 : row T) v : wfd kw -> dkeys r = cols -> mem_str "reference_good" cols = true ->
  ref_one e kw cols r = Ok rr -> ref_one e kw cols (dset "reference_good" v r) = Ok rr2 ->
  dget "titrant_molinity_here" rr2 = dget "titrant_molinity_here" rr /\ dget "analysis_batch" rr2 = dget "analysis_batch" rr /\
  dget "reference_good" rr2 = Some v.
Proof.
  intros W K M E E2.
  assert (K2 : dkeys (dset "reference_good" v r) = cols) by (rewrite dkeys_dset, K; now apply addc_in).
  destruct (ref_one_inv _ _ _ _ _ E) as (p & x & P & Cx & _). destruct (ref_one_inv _ _ _ _ _ E2) as (p2 & x2 & P2 & Cx2 & _).
  destruct (ref_one_get e kw cols r rr p K M P E) as (y & Cy & Hy & By & Gy & _).
  destruct (ref_one_get e kw cols _ rr2 p2 K2 M P2 E2) as (y2 & Cy2 & Hy2 & By2 & Gy2 & _).
  assert (A : forall k, In k cal_keys -> dget k p2 = dget k p).
  { intros k I. apply (prep_set e cols r p p2 "reference_good" v K (proj1 (mem_str_spec _ _) M) ltac:(cbn; tauto) P P2).
    intros ->. assert (X : mem_str "reference_good" cal_keys = false) by reflexivity. apply mem_str_spec in I. congruence. }
  assert (Cs := calibrate_row_agree e kw p2 p W A). rewrite Cy2, Cy in Cs. apply ok_inj in Cs. subst y2.
  split; [congruence|]. split; [|rewrite Gy2; apply dget_dset_same].
  rewrite By, By2. unfold batch_of. now rewrite dget_dset_other by discriminate.
Qed.

(* the stages of two calibrations of which the second has one cell of row j changed *)
Lemma two_runs (e : env T) kw ds d1 d2 j c v : is_table ds ->
  calibrate e kw ds = Ok d1 -> calibrate e kw (set_cell j c v ds) = Ok d2 ->
  exists (rows rows2 : list (row T)),
    length rows = length (f_rows d1) /\ length rows2 = length rows /\ length (f_rows d2) = length rows /\
    (forall i, i <> j -> nth_error rows2 i = nth_error rows i) /\
    (forall i rr rr2, nth_error rows i = Some rr -> nth_error rows2 i = Some rr2 ->
       exists r0, dkeys r0 = f_cols ds /\ ref_one e kw (f_cols ds) r0 = Ok rr /\
         ref_one e kw (f_cols ds) (if Nat.eqb i j then dset c v r0 else r0) = Ok rr2) /\
    (forall i rr r, nth_error rows i = Some rr -> nth_error (f_rows d1) i = Some r ->
       exists m, batch_molinity rows rr = Ok m /\ solve_one e kw (addc "titrant_molinity" (ref_cols (f_cols ds))) (dset "titrant_molinity" (VNum m) rr) = Ok r /\
       forall k, In k ["analysis_batch"; "reference_good"; "titrant_molinity_here"] -> dget k r = dget k rr) /\
    (forall i rr r, nth_error rows2 i = Some rr -> nth_error (f_rows d2) i = Some r ->
       exists m, batch_molinity rows2 rr = Ok m /\ solve_one e kw (addc "titrant_molinity" (ref_cols (f_cols ds))) (dset "titrant_molinity" (VNum m) rr) = Ok r /\
       forall k, In k ["analysis_batch"; "reference_good"; "titrant_molinity_here"] -> dget k r = dget k rr).
Proof.
  intros W E E2.
  assert (X : forall rs d, calibrate e kw (with_rows ds rs) = Ok d -> exists rows,
     mapM (ref_one e kw (f_cols ds)) rs = Ok rows /\ length (f_rows d) = length rows /\
     (forall i rr r, nth_error rows i = Some rr -> nth_error (f_rows d) i = Some r ->
       exists m, batch_molinity rows rr = Ok m /\
         solve_one e kw (addc "titrant_molinity" (ref_cols (f_cols ds))) (dset "titrant_molinity" (VNum m) rr) = Ok r)).
  { intros rs d Q. apply calibrate_inv in Q. destruct Q as (q1 & Q1 & Q2). apply calibrate_only_inv in Q1.
    cbn [with_rows f_cols f_rows] in Q1. destruct Q1 as (_ & C1 & rows & ms & Er & Em & R1).
    apply solve_inv in Q2. destruct Q2 as (_ & _ & M2). rewrite C1, R1 in M2. exists rows. split; [exact Er|].
    apply mapM_ok in Em. destruct Em as [Lm Nm]. apply mapM_ok in M2. destruct M2 as [L2 N2].
    assert (Lr : length (map2 (fun r m => dset "titrant_molinity" (VNum m) r) rows ms) = length rows).
    { clear - Lm. revert ms Lm. induction rows as [|x l IH]; intros [|m ms] L; cbn in *; try discriminate; auto. }
    split; [exact (eq_trans L2 Lr)|]. intros i rr r I Ir. destruct (Nm i rr I) as (m & Im & Bm). exists m. split; [exact Bm|].
    destruct (N2 i (dset "titrant_molinity" (VNum m) rr)) as (r' & Ir' & S).
    - exact (nth_map2_some _ _ _ _ _ _ I Im).
    - rewrite Ir in Ir'. apply some_inj in Ir'. now subst r'. }
  destruct (X (f_rows ds) d1) as (rows & Er & L1 & N1).
  { replace (with_rows ds (f_rows ds)) with ds by now destruct ds. exact E. }
  destruct (X _ d2 E2) as (rows2 & Er2 & L2 & N2).
  apply mapM_ok in Er, Er2. destruct Er as [Lr Nr], Er2 as [Lr2 Nr2]. rewrite length_update in Lr2.
  assert (Dr : forall rr r m, solve_one e kw (addc "titrant_molinity" (ref_cols (f_cols ds))) (dset "titrant_molinity" (VNum m) rr) = Ok r ->
     forall k, In k ["analysis_batch"; "reference_good"; "titrant_molinity_here"] -> dget k r = dget k rr).
  { intros rr r m S k I. rewrite (solve_one_get _ _ _ _ _ k S).
    - apply dget_dset_other. intros ->. cbn in I. intuition discriminate.
    - intros J. cbn in I. destruct I as [<-|[<-|[<-|[]]]]; cbn in J; intuition discriminate. }
  assert (Pr : forall i rr rr2, nth_error rows i = Some rr -> nth_error rows2 i = Some rr2 ->
       exists r0, dkeys r0 = f_cols ds /\ ref_one e kw (f_cols ds) r0 = Ok rr /\
         ref_one e kw (f_cols ds) (if Nat.eqb i j then dset c v r0 else r0) = Ok rr2).
  { intros i rr rr2 I I2. destruct (nth_error (f_rows ds) i) as [r|] eqn:Ir.
    + destruct (Nr i r Ir) as (y & Iy & R1). destruct (Nr2 i (if Nat.eqb i j then dset c v r else r)) as (y2 & Iy2 & R2).
      { rewrite nth_update, Ir. now destruct (Nat.eqb i j). }
      rewrite I in Iy. rewrite I2 in Iy2. apply some_inj in Iy, Iy2. subst y y2. exists r. split; [apply W; eapply nth_error_In; eauto|auto].
    + apply nth_error_None in Ir. rewrite (proj2 (nth_error_None rows i)) in I by rlia. discriminate. }
  exists rows, rows2.
  split; [rlia|]. split; [rlia|]. split; [rlia|]. split; [|split; [exact Pr|split]].
  - intros i Ni. destruct (nth_error rows i) as [rr|] eqn:I.
    + destruct (nth_error rows2 i) as [rr2|] eqn:I2.
      * destruct (Pr i rr rr2 I I2) as (r0 & _ & R1 & R2). apply Nat.eqb_neq in Ni. rewrite Ni in R2. congruence.
      * assert (Li : (i < length rows)%nat) by (apply nth_error_Some; congruence). apply nth_error_None in I2. rlia.
    + apply nth_error_None in I. apply nth_error_None. rlia.
  - intros i rr r I Ir. destruct (N1 i rr r I Ir) as (m & Bm & S). exists m. split; [exact Bm|]. split; [exact S|]. exact (Dr rr r m S).
  - intros i rr r I Ir. destruct (N2 i rr r I Ir) as (m & Bm & S). exists m. split; [exact Bm|]. split; [exact S|]. exact (Dr rr r m S).
Qed.

(* a cell that does not move row j to another batch leaves the other batches alone *)
Lemma other_batches (e : env T) kw ds d1 d2 j c v : is_table ds -> calibrate e kw ds = Ok d1 -> calibrate e kw (set_cell j c v ds) = Ok d2 ->
  value d2 j "analysis_batch" = value d1 j "analysis_batch" ->
  length (f_rows d2) = length (f_rows d1) /\
  (forall i k, i <> j -> In k ["titrant_molinity_here"; "analysis_batch"; "reference_good"] -> value d2 i k = value d1 i k) /\
  (forall i, i <> j -> ~ same_batch d1 i j -> forall k, value d2 i k = value d1 i k).
Proof.
  intros W E E2 Vb.
  destruct (two_runs e kw ds d1 d2 j c v W E E2) as (rows & rows2 & L1 & L2 & L3 & Ne & _ & N1 & N2).
  assert (Both : forall i, (exists rr r rr2 r2, nth_error rows i = Some rr /\ nth_error (f_rows d1) i = Some r /\ nth_error rows2 i = Some rr2 /\ nth_error (f_rows d2) i = Some r2)
                        \/ (nth_error (f_rows d1) i = None /\ nth_error (f_rows d2) i = None)).
  { intros i. destruct (nth_error rows i) as [rr|] eqn:A.
    - left. assert (Li : (i < length rows)%nat) by (apply nth_error_Some; congruence).
      destruct (nth_error (f_rows d1) i) as [r|] eqn:B; [|apply nth_error_None in B; rlia].
      destruct (nth_error rows2 i) as [rr2|] eqn:C; [|apply nth_error_None in C; rlia].
      destruct (nth_error (f_rows d2) i) as [r2|] eqn:D; [|apply nth_error_None in D; rlia]. eauto 10.
    - right. apply nth_error_None in A. split; apply nth_error_None; rlia. }
  split; [rlia|]. split.
  - intros i k Ni I. unfold value. destruct (Both i) as [(rr & r & rr2 & r2 & A & B & C & D)|[-> ->]]; [|reflexivity]. rewrite B, D.
    destruct (N1 i rr r A B) as (_ & _ & _ & K1). destruct (N2 i rr2 r2 C D) as (_ & _ & _ & K2).
    rewrite K1, K2 by (cbn in I |- *; tauto). rewrite (Ne i Ni), A in C. apply some_inj in C. now subst rr2.
  - intros i Ni NB k. unfold value. destruct (Both i) as [(rr & r & rr2 & r2 & A & B & C & D)|[-> ->]]; [|reflexivity]. rewrite B, D.
    destruct (N1 i rr r A B) as (m & Bm & S & K1). destruct (N2 i rr2 r2 C D) as (m2 & Bm2 & S2 & K2).
    assert (rr2 = rr) by (rewrite (Ne i Ni), A in C; now apply some_inj in C). subst rr2.
    enough (m2 = m) by (subst m2; rewrite S in S2; apply ok_inj in S2; now subst r2).
    assert (Fl : filter (in_batch (cell "analysis_batch" rr)) rows2 = filter (in_batch (cell "analysis_batch" rr)) rows).
    { assert (Gi : forall x, (nth_error rows j = Some x \/ nth_error rows2 j = Some x) -> in_batch (cell "analysis_batch" rr) x = false).
      { intros x Ix. destruct (Both j) as [(sr & s & sr2 & s2 & A' & B' & C' & D')|[Z1 Z2]].
        2:{ apply nth_error_None in Z1. destruct Ix as [Ix|Ix]; apply f_equal with (f := fun o => match o with Some _ => true | None => false end) in Ix;
            rewrite (proj2 (nth_error_None _ j)) in Ix by rlia; discriminate. }
        destruct (N1 j sr s A' B') as (_ & _ & _ & K1'). destruct (N2 j sr2 s2 C' D') as (_ & _ & _ & K2').
        unfold value in Vb. rewrite B', D' in Vb.
        assert (Gx : dget "analysis_batch" x = dget "analysis_batch" s).
        { destruct Ix as [Ix|Ix]; [rewrite A' in Ix|rewrite C' in Ix]; apply some_inj in Ix; subst x; [|rewrite <- Vb]; symmetry; [apply K1'|apply K2']; cbn; tauto. }
        destruct (in_batch (cell "analysis_batch" rr) x) eqn:Q; [|reflexivity]. exfalso. apply NB.
        unfold in_batch, cell in Q. rewrite Gx in Q. rewrite <- (K1 "analysis_batch") in Q by (cbn; tauto).
        destruct (dget "analysis_batch" s) as [bj|] eqn:Gj; [|discriminate].
        destruct (dget "analysis_batch" r) as [bi|] eqn:Gi; [|destruct bj; discriminate].
        exists bi, bj. unfold value. rewrite B, B'. auto. }
      apply (filter_one _ j); [rlia|exact Ne| |]; intros x Ix; apply Gi; auto. }
    unfold batch_molinity in Bm, Bm2. cbv zeta in Bm, Bm2. rewrite Fl in Bm2. rewrite Bm in Bm2. now apply ok_inj in Bm2.
Qed.

Lemma marked_row (e : env T) kw ds d1 d2 j : is_table ds -> wfd kw -> mem_str "reference_good" (f_cols ds) = true ->
  calibrate e kw ds = Ok d1 -> calibrate e kw (mark_bad j ds) = Ok d2 ->
  value d2 j "titrant_molinity_here" = value d1 j "titrant_molinity_here" /\ value d2 j "analysis_batch" = value d1 j "analysis_batch" /\
  forall v, value d2 j "reference_good" = Some v -> v = VBool false.
Proof.
  intros W Wk M E E2.
  destruct (two_runs e kw ds d1 d2 j _ _ W E E2) as (rows & rows2 & L1 & L2 & L3 & Ne & Pr & N1 & N2). unfold value.
  destruct (nth_error rows j) as [rr|] eqn:A.
  - assert (Li : (j < length rows)%nat) by (apply nth_error_Some; congruence).
    destruct (nth_error (f_rows d1) j) as [r|] eqn:B; [|apply nth_error_None in B; rlia].
    destruct (nth_error rows2 j) as [rr2|] eqn:C; [|apply nth_error_None in C; rlia].
    destruct (nth_error (f_rows d2) j) as [r2|] eqn:D; [|apply nth_error_None in D; rlia].
    destruct (N1 j rr r A B) as (_ & _ & _ & K1). destruct (N2 j rr2 r2 C D) as (_ & _ & _ & K2).
    destruct (Pr j rr rr2 A C) as (r0 & K & R1 & R2). rewrite Nat.eqb_refl in R2.
    destruct (here_without_flag e kw (f_cols ds) r0 rr rr2 _ Wk K M R1 R2) as (Hh & Hb & Hg).
    rewrite !K1, !K2 by (cbn; tauto). split; [exact Hh|]. split; [exact Hb|]. intros v Gv. rewrite Hg in Gv. now apply some_inj in Gv.
  - apply nth_error_None in A. rewrite (proj2 (nth_error_None (f_rows d1) j)), (proj2 (nth_error_None (f_rows d2) j)) by rlia.
    split; [reflexivity|]. split; [reflexivity|]. discriminate.
Qed.

(* the molinities of the single titrations stay, and so does everything in the other batches *)
Theorem C136_only_its_batch : forall (e : env T) kw ds d1 d2 j, is_table ds -> NoDup (dkeys kw) ->
  In "reference_good" (f_cols ds) -> calibrate e kw ds = Ok d1 -> calibrate e kw (mark_bad j ds) = Ok d2 ->
  n_rows d2 = n_rows d1 /\
  (forall i c, In c ["titrant_molinity_here"; "analysis_batch"] -> value d2 i c = value d1 i c) /\
  (forall i, i <> j -> ~ same_batch d1 i j -> forall c, value d2 i c = value d1 i c).
Proof.
  intros e kw ds d1 d2 j W Wk M E E2. apply mem_str_spec in M.
  destruct (marked_row e kw ds d1 d2 j W Wk M E E2) as (Hh & Hb & _).
  destruct (other_batches e kw ds d1 d2 j _ _ W E E2 Hb) as (L & O & B).
  split; [exact L|]. split; [|exact B].
  intros i c I. destruct (Nat.eq_dec i j) as [->|Ni]; [|apply O; [exact Ni|cbn in I |- *; tauto]].
  cbn in I. destruct I as [<-|[<-|[]]]; assumption.
Qed.

End P.

Lemma sum_app l1 l2 : fold_right Rplus 0 (l1 ++ l2) = fold_right Rplus 0 l1 + fold_right Rplus 0 l2.
Proof. induction l1 as [|x l1 IH]; cbn; [lra|]. rewrite IH. lra. Qed.

Lemma map_fin_app (l : list xr) P Q : forall xs, map Fin xs = P ++ Q -> exists p q, xs = p ++ q /\ P = map Fin p /\ Q = map Fin q.
Proof.
  induction P as [|a P IH]; intros xs E; cbn [app] in E.
  - exists [], xs. auto.
  - destruct xs as [|x xs]; [discriminate|]. cbn [map] in E. assert (Ea : Fin x = a) by exact (f_equal (hd NaN) E).
    assert (Et : map Fin xs = P ++ Q) by exact (f_equal (@tl xr) E). destruct (IH xs Et) as (p & q & -> & -> & ->).
    exists (x :: p), q. subst a. auto.
Qed.

(* the molinity of the batch moves away from the reference that was left out, by its distance from the mean over the number
   of references that are left; without any other reference the batch has no molinity *)
Theorem C136_leave_one_out : forall (e : env xr) kw ds d1 d2 i j b x xs m, is_table ds -> NoDup (dkeys kw) ->
  In "reference_good" (f_cols ds) -> all_cells ds "reference_good" (fun v => is_null v \/ exists g, v = VBool g) ->
  calibrate e kw ds = Ok d1 -> calibrate e kw (mark_bad j ds) = Ok d2 ->
  value d1 i "analysis_batch" = Some b -> batch_references d1 b = map Fin xs ->
  value d1 i "titrant_molinity" = Some (VNum (Fin m)) ->
  (* row j is one of these references, with molinity x *)
  (exists r, nth_error (f_rows d1) j = Some r /\ good_reference b r = [Fin x]) ->
  value d2 i "titrant_molinity" =
    Some (VNum (if Nat.eqb (length xs) 1 then NaN else Fin (m + (m - x) / (INR (length xs) - 1)))).
Proof.
  intros e kw ds d1 d2 i j b x xs m W Wk M F E E2 Vb Br Vm (r & Ir & Gr).
  assert (M' := M). apply mem_str_spec in M'.
  destruct (marked_row e kw ds d1 d2 j W Wk M' E E2) as (_ & Hb & Hg).
  destruct (other_batches e kw ds d1 d2 j _ _ W E E2 Hb) as (L & O & _).
  destruct (C136_only_its_batch e kw ds d1 d2 j W Wk M E E2) as (_ & Sv & _).
  destruct (nth_error (f_rows d2) j) as [r2|] eqn:D.
  2:{ apply nth_error_None in D. assert (Lj : (j < length (f_rows d1))%nat) by (apply nth_error_Some; congruence). rlia. }
  assert (Z : good_reference b r2 = []).
  { unfold value in Hg. rewrite D in Hg. unfold good_reference. destruct (dget "analysis_batch" r2); [|reflexivity].
    destruct (dget "reference_good" r2) as [fl|]; [|reflexivity]. now rewrite (Hg fl eq_refl). }
  destruct (flat_map_one (good_reference b) j (f_rows d1) (f_rows d2) r r2) as (P & Q & E1' & E2'); auto.
  { intros k y z Nk Iy Iz. unfold value in O. unfold good_reference.
    assert (Y : forall c, In c ["titrant_molinity_here"; "analysis_batch"; "reference_good"] -> dget c z = dget c y) by (intros c Ic; specialize (O k c Nk Ic); now rewrite Iy, Iz in O).
    now rewrite !Y by (cbn; tauto). }
  unfold batch_references in Br. rewrite E1', Gr in Br. symmetry in Br. cbn [app] in Br.
  destruct (map_fin_app [] P (Fin x :: Q) xs Br) as (p & q' & -> & -> & Eq).
  destruct q' as [|x' q]; [discriminate|]. cbn [map] in Eq. assert (Fin x = Fin x') by exact (f_equal (hd NaN) Eq).
  assert (EQ : Q = map Fin q) by exact (f_equal (@tl xr) Eq). assert (x' = x) by (symmetry; now apply fin_inj). subst x' Q.
  assert (B2 : batch_references d2 b = map Fin (p ++ q)) by (unfold batch_references; rewrite E2'; now rewrite map_app).
  assert (B1 : batch_references d1 b = map Fin (p ++ x :: q)) by (unfold batch_references; rewrite E1', Gr; now rewrite map_app).
  assert (Wm : is_table (mark_bad j ds)).
  { split; [exact (proj1 W)|]. intros y Iy. cbn [mark_bad set_cell with_rows f_rows f_cols] in *. destruct (in_update _ _ _ _ Iy) as [I|(z & I & ->)]; [now apply W|].
    rewrite dkeys_dset, (proj2 W z I). now apply addc_in. }
  assert (Fm : all_cells (mark_bad j ds) "reference_good" (fun v => is_null v \/ exists g, v = VBool g)).
  { intros y v Iy G. destruct (in_update _ _ _ _ Iy) as [I|(z & I & ->)]; [exact (F y v I G)|]. rewrite dget_dset_same in G. apply some_inj in G. subst v. right. eauto. }
  rewrite (C53_batch_mean_real e kw _ d2 i b (p ++ q) Wm Fm E2) by (rewrite ?Sv by (cbn; tauto); assumption).
  rewrite (C53_batch_mean_real e kw ds d1 i b (p ++ x :: q) W F E Vb B1) in Vm. apply some_inj in Vm.
  assert (Vm' : (if p ++ x :: q then NaN else Fin (fold_right Rplus 0 (p ++ x :: q) / INR (length (p ++ x :: q)))) = Fin m) by exact (f_equal (fun v => match v with VNum y => y | _ => NaN end) Vm).
  destruct (p ++ x :: q) as [|u us] eqn:U; [discriminate|]. apply fin_inj in Vm'. rewrite <- U in *. clear u us U.
  rewrite !sum_app, !app_length in *. cbn [fold_right length] in *. rewrite !plus_INR in *. rewrite S_INR in *.
  do 2 f_equal. destruct (p ++ q) as [|u us] eqn:U.
  - destruct p; [|discriminate]. cbn [app] in U. subst q. reflexivity.
  - assert (Lp : (0 < length p + length q)%nat) by (rewrite <- app_length, U; cbn; rlia).
    destruct (Nat.eqb_spec (length p + S (length q)) 1) as [Z1|Z1]; [rlia|].
    f_equal. assert (Pos : 0 < INR (length p) + INR (length q)) by (rewrite <- plus_INR; now apply lt_0_INR).
    rewrite <- Vm'. field. lra.
Qed.

(* ------------------------------------------------------------------ *)
(** * Two references of which the second is left out *)

Definition two_flagged (y1 y2 : R) : frame xr := set_col_list "reference_good" [VBool true; VBool true] (two_refs y1 y2).
Definition wf_flag (y : R) (g : bool) : row xr := dset "reference_good" (VBool g) (wf_row 2 (Fin y)).
Definition wf_flag_prepped (y : R) (g : bool) : row xr :=
  wf_flag y g ++ [("opt_total_borate", VInt 1); ("total_sulfate", VNum (nofZ 35)); ("total_borate", VNum (nofZ 35)); ("total_fluoride", VNum (nofZ 35))].

Lemma flag_prep y g : prep_row sec_env (dkeys (wf_flag 0 true)) (wf_flag y g) = Ok (wf_flag_prepped y g).
Proof. unfold prep_row. rewrite salt_row_spec. rewrite !(wf_salt _ (wf_flag y g) 35) by reflexivity. cbn [bind]. reflexivity. Qed.

Lemma flag_calibrated y g : exists m, calibrate_row sec_env [] (wf_flag_prepped y g) = Ok (Fin m).
Proof.
  destruct (wf_calibrated y) as (m & Ca). exists m.
  rewrite (calibrate_row_agree sec_env [] (wf_flag_prepped y g) (wf_prepped 2 (Fin y))).
  - unfold calibrate_row, calibrate_row_try.
    replace (backcompat [] (wf_prepped 2 (Fin y))) with (Ok [] : res (kwargs xr)) by reflexivity.
    cbn [bind]. rewrite wf_settings. unfold attr.
    cbn [dget wf_prepped wf_row app String.eqb Ascii.eqb Bool.eqb of_opt bind notnull isnull nisnan NumXR x_isnan negb truthy andb].
    rewrite Ca. reflexivity.
  - constructor.
  - intros k I. cbn in I. repeat (destruct I as [<-|I]; [reflexivity|]). destruct I.
Qed.

Lemma flagged_calibrates y1 y2 g : exists d, calibrate sec_env []
  {| f_cols := dkeys (wf_flag 0 true); f_rows := [wf_flag y1 true; wf_flag y2 g] |} = Ok d.
Proof.
  apply C54_calibrate_completes_partial.
  - split; [repeat constructor; cbn; intuition discriminate|]. intros r [<-|[<-|[]]]; reflexivity.
  - split; reflexivity.
  - intros k I. cbn in I. destruct I as [<-|[<-|[<-|[]]]]; cbn; tauto.
  - left. cbn. tauto.
  - intros k I r v [<-|[<-|[]]] G; cbn in I; destruct I as [<-|[<-|[<-|[]]]]; cbn in G; try discriminate; apply some_inj in G; subst v;
      first [left; reflexivity|right; eexists; reflexivity].
  - intros r v [<-|[<-|[]]] G; cbn in G; apply some_inj in G; subst v; (split; [discriminate|right; eexists; reflexivity]).
  - intros r v [<-|[<-|[]]] G; cbn in G; apply some_inj in G; subst v; right; eauto.
Qed.

(* two titrations with the certified values y1 and y2: leaving the second one out, the molinity is that of the first *)
Example C136_nonvacuous y1 y2 : exists d1 d2 m1 m2,
  is_table (two_flagged y1 y2) /\ In "reference_good" (f_cols (two_flagged y1 y2)) /\
  all_cells (two_flagged y1 y2) "reference_good" (fun v => is_null v \/ exists g, v = VBool g) /\
  calibrate sec_env [] (two_flagged y1 y2) = Ok d1 /\ calibrate sec_env [] (mark_bad 1 (two_flagged y1 y2)) = Ok d2 /\
  value d1 0 "analysis_batch" = Some (VInt 1) /\ batch_references d1 (VInt 1) = map Fin [m1; m2] /\
  (exists r, nth_error (f_rows d1) 1 = Some r /\ good_reference (VInt 1) r = [Fin m2]) /\
  value d1 0 "titrant_molinity" = Some (VNum (Fin ((m1 + m2) / 2))) /\
  value d2 0 "titrant_molinity" = Some (VNum (Fin m1)).
Proof.
  destruct (flagged_calibrates y1 y2 true) as (d1 & E1). destruct (flagged_calibrates y1 y2 false) as (d2 & E2).
  destruct (flag_calibrated y1 true) as (m1 & Ca1). destruct (flag_calibrated y2 true) as (m2 & Ca2).
  change {| f_cols := dkeys (wf_flag 0 true); f_rows := [wf_flag y1 true; wf_flag y2 true] |} with (two_flagged y1 y2) in E1.
  change {| f_cols := dkeys (wf_flag 0 true); f_rows := [wf_flag y1 true; wf_flag y2 false] |} with (mark_bad 1 (two_flagged y1 y2)) in E2.
  exists d1, d2, m1, m2.
  assert (W : is_table (two_flagged y1 y2)).
  { split; [repeat constructor; cbn; intuition discriminate|]. intros r [<-|[<-|[]]]; reflexivity. }
  assert (F : all_cells (two_flagged y1 y2) "reference_good" (fun v => is_null v \/ exists g, v = VBool g)).
  { intros r v [<-|[<-|[]]] G; cbn in G; apply some_inj in G; subst v; right; eauto. }
  assert (M : In "reference_good" (f_cols (two_flagged y1 y2))) by (cbn; tauto).
  destruct (calibrate_stages sec_env [] _ d1 W E1) as (rows & Er & St). apply mapM_Forall2 in Er.
  change (f_rows (two_flagged y1 y2)) with [wf_flag y1 true; wf_flag y2 true] in Er.
  change (f_cols (two_flagged y1 y2)) with (dkeys (wf_flag 0 true)) in Er.
  inversion Er as [|? rr1 ? l1 R1 Er1 Ea Eb]. subst. inversion Er1 as [|? rr2 ? l2 R2 Er2 Ea Eb]. subst. inversion Er2. subst.
  inversion St as [|? r1 ? q1 S1 St1 Ea Eb]. subst. inversion St1 as [|? r2 ? q2 S2 St2 Ea Eb']. subst. inversion St2. subst.
  assert (X : forall y m rr r, calibrate_row sec_env [] (wf_flag_prepped y true) = Ok (Fin m) ->
     ref_one sec_env [] (dkeys (wf_flag 0 true)) (wf_flag y true) = Ok rr ->
     (forall k, In k ["analysis_batch"; "reference_good"; "titrant_molinity_here"] -> dget k r = dget k rr) ->
     dget "analysis_batch" r = Some (VInt 1) /\ good_reference (VInt 1) r = [Fin m]).
  { intros y m rr r Ca R A.
    destruct (ref_one_get sec_env [] (dkeys (wf_flag 0 true)) (wf_flag y true) rr (wf_flag_prepped y true) eq_refl eq_refl (flag_prep y true) R) as (x & Cx & Hx & Bx & Gx & _).
    rewrite Ca in Cx. apply ok_inj in Cx. subst x.
    assert (Gb : dget "analysis_batch" r = Some (VInt 1)) by (rewrite A by (cbn; tauto); exact Bx).
    split; [exact Gb|]. unfold good_reference. rewrite Gb, !A by (cbn; tauto). rewrite Gx, Hx. cbn [dget wf_flag wf_row dset app String.eqb Ascii.eqb Bool.eqb].
    replace (key_eqb (VInt 1 : val xr) (VInt 1)) with true; [reflexivity|]. cbn. unfold reqb. now destruct (Req_EM_T _ _). }
  destruct S1 as (n1 & _ & _ & _ & A1). destruct S2 as (n2 & _ & _ & _ & A2).
  destruct (X y1 m1 rr1 r1 Ca1 R1 A1) as [B1 G1]. destruct (X y2 m2 rr2 r2 Ca2 R2 A2) as [B2 G2].
  assert (Rs : f_rows d1 = [r1; r2]) by (first [symmetry; assumption|assumption|congruence]).
  assert (BR : batch_references d1 (VInt 1) = map Fin [m1; m2]) by (unfold batch_references; rewrite Rs; cbn [flat_map]; rewrite G1, G2; reflexivity).
  assert (Vb : value d1 0 "analysis_batch" = Some (VInt 1)) by (unfold value; rewrite Rs; exact B1).
  assert (Vm : value d1 0 "titrant_molinity" = Some (VNum (Fin ((m1 + m2) / 2)))).
  { rewrite (C53_batch_mean_real sec_env [] _ d1 0 (VInt 1) [m1; m2] W F E1 Vb BR). cbn. do 3 f_equal. lra. }
  assert (Gj : exists r, nth_error (f_rows d1) 1 = Some r /\ good_reference (VInt 1) r = [Fin m2]) by (exists r2; rewrite Rs; split; [reflexivity|exact G2]).
  assert (K : NoDup (dkeys ([] : kwargs xr))) by constructor.
  split; [exact W|]. split; [exact M|]. split; [exact F|]. split; [exact E1|]. split; [exact E2|]. split; [exact Vb|].
  split; [exact BR|]. split; [first [exact Gj|rewrite <- Rs; exact Gj]|]. split; [exact Vm|].
  rewrite (C136_leave_one_out sec_env [] _ d1 d2 0 1 (VInt 1) m2 [m1; m2] _ W K M F E1 E2 Vb BR Vm Gj).
  cbn [length Nat.eqb]. do 3 f_equal. cbn. lra.
Qed.
