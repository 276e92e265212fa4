(* PropMissing.v -- C109: titration points that are missing or outside the pH window *)
From Coq Require Import Reals Qreals Lra Lia Sorted Arith.
From Verif Require Import Core SpecCore SpecConvert DictLemmas SolveProofs GranProofs XR XRLemmas PropSolve PropEmf PropGran.
Open Scope R_scope.
Open Scope string_scope.
Open Scope list_scope.

(* ------------------------------------------------------------------ *)
(** * What it is to delete points *)

(* the titration (tm', pH', totals', ks') consists of the points of (tm, pH, totals, ks) at the
   positions kept, in the same order *)
Definition only_points (kept : list nat) (tm pH tm' pH' : list xr) (totals ks totals' ks' : dict (nd xr)) : Prop :=
  StronglySorted lt kept /\ length tm' = length kept /\ length pH' = length kept /\
  forall j i, nth_error kept j = Some i ->
    (i < length tm)%nat /\ nth_error tm' j = nth_error tm i /\ nth_error pH' j = nth_error pH i /\
    slice_at totals' j = slice_at totals i /\ slice_at ks' j = slice_at ks i.

(* no reading, or one outside the window *)
Definition outside (pmin pmax : R) (x : xr) : Prop := ~ inside pmin pmax x.

(* ------------------------------------------------------------------ *)
(** * Lemmas *)

Lemma sorted_same : forall a b : list nat, StronglySorted lt a -> StronglySorted lt b -> (forall x, In x a <-> In x b) -> a = b.
Proof.
  induction a as [|x a IH]; intros [|y b] Ha Hb E.
  - reflexivity.
  - exfalso. apply (E y). now left.
  - exfalso. apply (proj1 (E x)). now left.
  - inversion Ha as [|? ? Ha1 Ha2]; inversion Hb as [|? ? Hb1 Hb2]; subst.
    rewrite Forall_forall in Ha2, Hb2.
    assert (x = y).
    { destruct (proj1 (E x) (or_introl eq_refl)) as [H|H]; [auto|]. destruct (proj2 (E y) (or_introl eq_refl)) as [H'|H']; [auto|].
      apply Hb2 in H. apply Ha2 in H'. lia. }
    subst y. f_equal. apply IH; [assumption..|]. intros z. split; intros Hz.
    + destruct (proj1 (E z) (or_intror Hz)) as [<-|H]; [|assumption]. apply Ha2 in Hz. lia.
    + destruct (proj2 (E z) (or_intror Hz)) as [<-|H]; [|assumption]. apply Hb2 in Hz. lia.
Qed.

Lemma filter_sorted P : forall l : list nat, StronglySorted lt l -> StronglySorted lt (filter P l).
Proof.
  induction l as [|x l IH]; intros Hs; [constructor|]. inversion Hs as [|? ? H1 H2]; subst. cbn [filter].
  destruct (P x); [|auto]. constructor; [auto|]. rewrite Forall_forall in *. intros y Hy. apply filter_In in Hy as [Hy _]. auto.
Qed.

Lemma seq_sorted : forall n s, StronglySorted lt (seq s n).
Proof.
  induction n as [|n IH]; intros s; cbn [seq]; constructor; [apply IH|].
  rewrite Forall_forall. intros x Hx. apply in_seq in Hx. lia.
Qed.

Lemma mask_by {A B} (f : B -> bool) (g : B -> A) l : mask (map f l) (map g l) = map g (filter f l).
Proof. induction l as [|x l IH]; [reflexivity|]. cbn [map mask filter]. destruct (f x); cbn [map]; now rewrite IH. Qed.

Lemma as_map {A} (d : A) l : l = map (fun i => nth i l d) (seq 0 (length l)).
Proof.
  induction l as [|x l IH]; [reflexivity|]. cbn [length seq map nth]. f_equal. rewrite <- seq_shift, map_map. exact IH.
Qed.

Lemma nth_some {A} (d : A) l i x : nth_error l i = Some x -> nth i l d = x.
Proof. intros H. apply nth_error_nth with (d := d) in H. exact H. Qed.

Lemma nth_error_ext_eq {A} : forall l l' : list A, (forall i, nth_error l i = nth_error l' i) -> l = l'.
Proof.
  induction l as [|x l IH]; intros [|y l'] E; [reflexivity|pose proof (E 0%nat); discriminate..|].
  pose proof (E 0%nat) as H. cbn in H. f_equal; [congruence|]. apply IH. intros i. exact (E (S i)).
Qed.

(* selecting the same elements from all points and from the points kept *)
Lemma mask_kept {A} (kept : list nat) (u u' : list bool) (l l' : list A) :
  StronglySorted lt kept -> length u = length l ->
  length u' = length kept -> length l' = length kept ->
  (forall j i, nth_error kept j = Some i -> (i < length l)%nat /\ nth_error u' j = nth_error u i /\ nth_error l' j = nth_error l i) ->
  (forall i, nth_error u i = Some true -> In i kept) ->
  mask u' l' = mask u l.
Proof.
  intros Hs Hl Hu' Hl' Hj Hk. destruct l as [|d l0] eqn:El.
  - destruct kept as [|k kept].
    + destruct u'; [|discriminate]. destruct u; [reflexivity|discriminate].
    + exfalso. destruct (Hj 0%nat k eq_refl) as [H _]. cbn in H. lia.
  - rewrite <- El in *. clear El l0.
    assert (Eu' : u' = map (fun i => nth i u false) kept).
    { apply nth_error_ext_eq. intros j. rewrite nth_error_map. destruct (nth_error kept j) as [i|] eqn:E; cbn [option_map].
      - destruct (Hj j i E) as [Hi [H _]]. rewrite H. destruct (nth_error u i) as [b|] eqn:Eb.
        + f_equal. symmetry. exact (nth_some false _ _ _ Eb).
        + apply nth_error_None in Eb. lia.
      - apply nth_error_None. apply nth_error_None in E. lia. }
    assert (El' : l' = map (fun i => nth i l d) kept).
    { apply nth_error_ext_eq. intros j. rewrite nth_error_map. destruct (nth_error kept j) as [i|] eqn:E; cbn [option_map].
      - destruct (Hj j i E) as [Hi [_ H]]. rewrite H. destruct (nth_error l i) as [b|] eqn:Eb.
        + f_equal. symmetry. exact (nth_some d _ _ _ Eb).
        + apply nth_error_None in Eb. lia.
      - apply nth_error_None. apply nth_error_None in E. lia. }
    assert (Em : mask u l = map (fun i => nth i l d) (filter (fun i => nth i u false) (seq 0 (length l)))).
    { rewrite <- mask_by. rewrite <- as_map. f_equal. rewrite <- Hl. apply as_map. }
    rewrite Eu', El', mask_by, Em. f_equal. apply sorted_same.
    + now apply filter_sorted.
    + apply filter_sorted, seq_sorted.
    + intros i. rewrite !filter_In, in_seq. split.
      * intros [H1 H2]. apply In_nth_error in H1 as [j H1]. destruct (Hj j i H1) as [H _]. split; [lia|assumption].
      * intros [H1 H2]. split; [|assumption]. apply Hk. rewrite <- H2. apply nth_error_nth'. lia.
Qed.

Lemma mask_self_length : forall u, length (mask u u) = SpecCore.n_used u.
Proof. induction u as [|[] u IH]; [reflexivity| |exact IH]. cbn. f_equal. exact IH. Qed.

Lemma window_nth pmin pmax (pH : list xr) i : nth_error (in_window pmin pmax pH) i =
  option_map (fun p => ngeb p pmin && nleb p pmax) (nth_error pH i).
Proof. unfold in_window. apply nth_error_map. Qed.

Lemma window_length pmin pmax (pH : list xr) : length (in_window pmin pmax pH) = length pH.
Proof. unfold in_window. apply map_length. Qed.

Lemma kept_in_window kept pmin pmax (pH : list xr) :
  (forall i p, nth_error pH i = Some p -> ~ In i kept -> outside pmin pmax p) ->
  forall i, nth_error (in_window (Fin pmin) (Fin pmax) pH) i = Some true -> In i kept.
Proof.
  intros Ho i Hi. destruct (in_dec Nat.eq_dec i kept) as [|N]; [assumption|]. exfalso.
  assert (U : used_at (in_window (Fin pmin) (Fin pmax) pH) i) by exact Hi.
  apply window_used in U as [p [Hp Hw]]. apply (Ho i (Fin p) Hp N). exists p. auto.
Qed.

(* ------------------------------------------------------------------ *)
(** * C109 *)

(* in the pH modes a point that is missing or outside the window can be deleted *)
Theorem C109_deleting_points_pH_partial : forall kept c tm pH temps tm' pH' temps' M totals ks totals' ks' pmin pmax n r r',
  solve_pH c tm pH temps M totals ks (Fin pmin) (Fin pmax) n = Ok r ->
  solve_pH c tm' pH' temps' M totals' ks' (Fin pmin) (Fin pmax) n = Ok r' ->
  only_points kept tm pH tm' pH' totals ks totals' ks' ->
  (forall i p, nth_error pH i = Some p -> ~ In i kept -> outside pmin pmax p) ->
  sp_alkalinity r' = sp_alkalinity r /\ sp_alkalinity_std r' = sp_alkalinity_std r /\
  SpecCore.n_used (sp_used r') = SpecCore.n_used (sp_used r).
Proof.
  intros kept c tm pH temps tm' pH' temps' M totals ks totals' ks' pmin pmax n r r' Hr Hr' [Hs [Lt [Lp Hk]]] Ho.
  apply solve_pH_inv in Hr as [Hl [_ [Hu [Hall [-> ->]]]]].
  apply solve_pH_inv in Hr' as [Hl' [_ [Hu' [Hall' [-> ->]]]]].
  destruct (alkalinity_all_spec _ _ _ _ _ _ _ _ Hl Hall) as [_ [_ [Hla Hpt]]].
  destruct (alkalinity_all_spec _ _ _ _ _ _ _ _ Hl' Hall') as [_ [_ [Hla' Hpt']]].
  assert (Hw : forall j i, nth_error kept j = Some i -> nth_error (sp_used r') j = nth_error (sp_used r) i).
  { intros j i E. destruct (Hk j i E) as [_ [_ [H _]]]. now rewrite Hu, Hu', !window_nth, H. }
  assert (Em : mask (sp_used r') (sp_alkalinity_all r') = mask (sp_used r) (sp_alkalinity_all r)).
  { apply (mask_kept kept); [assumption| | | | |].
    - rewrite Hu, window_length. congruence.
    - rewrite Hu', window_length. congruence.
    - congruence.
    - intros j i E. destruct (Hk j i E) as [Hi [Htm [HpH [Ht HK]]]]. split; [congruence|]. split; [now apply Hw|].
      destruct (nth_error tm i) as [m|] eqn:Em; [|apply nth_error_None in Em; lia].
      destruct (nth_error pH i) as [p|] eqn:Ep; [|apply nth_error_None in Ep; lia].
      destruct (Hpt i p m Ep Em) as [s [Es ->]]. destruct (Hpt' j p m HpH Htm) as [s' [Es' ->]].
      rewrite Ht, HK in Es'. congruence.
    - rewrite Hu. now apply kept_in_window. }
  rewrite Em. split; [reflexivity|]. split; [reflexivity|].
  assert (E1 : mask (sp_used r') (sp_used r') = mask (sp_used r) (sp_used r)).
  { apply (mask_kept kept); [assumption|reflexivity| | | |].
    - rewrite Hu', window_length. congruence.
    - rewrite Hu', window_length. congruence.
    - intros j i E. destruct (Hk j i E) as [Hi _]. split; [rewrite Hu, window_length; congruence|]. split; now apply Hw.
    - rewrite Hu. now apply kept_in_window. }
  rewrite <- !mask_self_length. now rewrite E1.
Qed.

Theorem C109_deleting_points_pH_gran_partial : forall kept c tm pH temps tm' pH' temps' M totals ks totals' ks' pmin pmax n r r',
  solve_pH_gran c tm pH temps M totals ks (Fin pmin) (Fin pmax) n = Ok r ->
  solve_pH_gran c tm' pH' temps' M totals' ks' (Fin pmin) (Fin pmax) n = Ok r' ->
  only_points kept tm pH tm' pH' totals ks totals' ks' ->
  (forall i p, nth_error pH i = Some p -> ~ In i kept -> outside pmin pmax p) ->
  sg_alkalinity r' = sg_alkalinity r.
Proof.
  intros kept c tm pH temps tm' pH' temps' M totals ks totals' ks' pmin pmax n r r' Hr Hr' [Hs [Lt [Lp Hk]]] Ho.
  apply solve_pH_gran_inv in Hr as [Hl [_ [Hu [Hg [Hlr ->]]]]].
  apply solve_pH_gran_inv in Hr' as [Hl' [_ [Hu' [Hg' [Hlr' ->]]]]].
  assert (Hw : forall j i, nth_error kept j = Some i -> nth_error (sg_used r') j = nth_error (sg_used r) i).
  { intros j i E. destruct (Hk j i E) as [_ [_ [H _]]]. now rewrite Hu, Hu', !window_nth, H. }
  assert (Hw' : forall i, nth_error (sg_used r) i = Some true -> In i kept) by (rewrite Hu; now apply kept_in_window).
  assert (L1 : length (sg_used r) = length pH) by (rewrite Hu; apply window_length).
  assert (L2 : length (sg_used r') = length pH') by (rewrite Hu'; apply window_length).
  assert (Lg : length (sg_gfunc r) = length tm) by (rewrite Hg, map2_length; lia).
  assert (Lg' : length (sg_gfunc r') = length tm') by (rewrite Hg', map2_length; lia).
  assert (E1 : mask (sg_used r') tm' = mask (sg_used r) tm).
  { apply (mask_kept kept); [assumption|congruence|congruence|congruence| |exact Hw']. intros j i E. destruct (Hk j i E) as [Hi [Htm _]]. split; [assumption|]. split; [now apply Hw|assumption]. }
  assert (E2 : mask (sg_used r') (sg_gfunc r') = mask (sg_used r) (sg_gfunc r)).
  { apply (mask_kept kept); [assumption|congruence|congruence|congruence| |exact Hw']. intros j i E. destruct (Hk j i E) as [Hi [Htm [HpH _]]]. split; [lia|]. split; [now apply Hw|].
    rewrite Hg, Hg', !nth_error_map2, Htm, HpH. reflexivity. }
  rewrite E1, E2 in Hlr'. rewrite Hlr in Hlr'. injection Hlr' as ->. reflexivity.
Qed.

(* in the emf modes one missing reading stops every solve *)
Lemma nmax_nan : forall (l : list xr) mx, nmax l = Ok mx -> In NaN l -> mx = NaN.
Proof.
  assert (F : forall l a, (a = NaN \/ In NaN l) -> fold_left nmax2 l a = (NaN : xr)).
  { induction l as [|x l IH]; intros a Ha; cbn [fold_left].
    - destruct Ha as [|[]]; assumption.
    - apply IH. destruct Ha as [->|[->|H]]; [left; reflexivity| |right; exact H].
      left. unfold nmax2. cbn. destruct a; reflexivity. }
  intros [|x l] mx E I; cbn in E; [discriminate|]. injection E as <-. apply F. destruct I as [->|I]; auto.
Qed.

Lemma used_from_first_none : forall l, Forall (fun b => b = false) l -> used_from_first l = None.
Proof. induction l as [|b l IH]; intros H; [reflexivity|]. inversion H; subst. cbn. now rewrite IH. Qed.

Lemma mask_none {A} : forall u (l : list A), Forall (fun b => b = false) u -> mask u l = [].
Proof. induction u as [|b u IH]; intros [|x l] H; try reflexivity. inversion H; subst. cbn. now apply IH. Qed.

Lemma gran_nan_reading (tm emf temps : list xr) M c n logic : In NaN emf ->
  exists e, gran_alkalinity tm emf temps M c n logic = Err e.
Proof.
  intros I. destruct (gran_alkalinity tm emf temps M c n logic) as [g|e] eqn:E; [|now exists e]. exfalso. revert E.
  unfold gran_alkalinity. destruct (same_len tm emf temps) eqn:L; cbn [negb]; [|discriminate].
  unfold same_len in L. apply andb_prop in L as [L1 L2]. apply Nat.eqb_eq in L1, L2.
  set (g' := map3 _ tm emf temps).
  assert (Ig : In NaN g').
  { apply In_nth_error in I as [i Hi]. assert (Li : (i < length emf)%nat) by (apply nth_error_Some; congruence).
    destruct (nth_error tm i) as [m|] eqn:Em; [|apply nth_error_None in Em; lia].
    destruct (nth_error temps i) as [t|] eqn:Et; [|apply nth_error_None in Et; lia].
    apply nth_error_In with i. unfold g'. rewrite nth_error_map3, Em, Hi, Et. f_equal. unfold gran_function.
    cbn. destruct (x_add m M); reflexivity. }
  clearbody g'.
  assert (N : forall (q : Q) g, ngtb g (nofQ q ⊗ (NaN : xr)) = false) by (intros q x; unfold ngtb; destruct x; reflexivity).
  unfold gran_used. destruct (String.eqb logic "v23.7+").
  - destruct (nmax g') as [mx|] eqn:Mx; cbn [bind]; [|discriminate]. rewrite (nmax_nan _ _ Mx Ig).
    rewrite used_from_first_none; [discriminate|]. rewrite Forall_map, Forall_forall. intros x _. apply N.
  - destruct (String.eqb logic "legacy"); [|discriminate].
    destruct (nmax g') as [mx|] eqn:Mx; cbn [bind]; [|discriminate]. rewrite (nmax_nan _ _ Mx Ig).
    rewrite mask_none; [discriminate|]. rewrite Forall_map, Forall_forall. intros x _. now rewrite N.
Qed.

Theorem C109_missing_emf_raises : forall st c tm emf temps M totals ks ai double ei logic pmin pmax n,
  In NaN emf -> exists e,
  solve_emf st c tm emf temps M totals ks ai double ei logic pmin pmax n = Err e.
Proof.
  intros st c tm emf temps M totals ks ai double ei logic pmin pmax n I.
  destruct (gran_nan_reading tm emf temps M c n logic I) as [e E]. exists e.
  unfold solve_emf, solve_emf_once, gran_guesses. rewrite E. reflexivity.
Qed.

(* the same titration without the missing reading is solved *)
Theorem C109_missing_emf_refuted : exists st c tm emf temps M ai ei pmin pmax n r e,
  solve_emf st (Fin c) tm emf temps (Fin M) [] [] ai false ei "v23.7+" (Fin pmin) (Fin pmax) (Fin n) = Ok r /\
  solve_emf st (Fin c) (tm ++ [Fin 3]) (emf ++ [NaN]) (temps ++ [Fin 25]) (Fin M) [] [] ai false ei "v23.7+" (Fin pmin) (Fin pmax) (Fin n) = Err e.
Proof.
  destruct C36_nonvacuous as [r [E _]].
  destruct (C109_missing_emf_raises st38 (Fin 1) (map Fin [1; 2] ++ [Fin 3]) (map Fin [0; 10] ++ [NaN]) (map Fin [25; 25] ++ [Fin 25]) (Fin 1) [] []
    (Some (Fin 0)) false (Some (Fin 0)) "v23.7+" (Fin (- (K25 / 2))) (Fin (3 * K25 / 2)) (Fin 1)) as [e He].
  - apply in_or_app. right. now left.
  - eexists st38, 1, _, _, _, 1, _, _, _, _, 1, r, e. split; [exact E|exact He].
Qed.

Example C109_nonvacuous : exists r r',
  solve_pH (Fin (1/2)) [Fin 1; Fin 2] [Fin 0; NaN] [Fin 25; Fin 25] (Fin 1) [] [("k_water", NdS (Fin 1))] (Fin (-1)) (Fin 1) (Fin 1) = Ok r /\
  solve_pH (Fin (1/2)) [Fin 1] [Fin 0] [Fin 25] (Fin 1) [] [("k_water", NdS (Fin 1))] (Fin (-1)) (Fin 1) (Fin 1) = Ok r' /\
  only_points [0%nat] [Fin 1; Fin 2] [Fin 0; NaN] [Fin 1] [Fin 0] [] [("k_water", NdS (Fin 1))] [] [("k_water", NdS (Fin 1))] /\
  sp_alkalinity r = Fin 500000.
Proof.
  destruct C30_nonvacuous as [r' [E' [A _]]].
  destruct (solve_pH (Fin (1/2)) [Fin 1; Fin 2] [Fin 0; NaN] [Fin 25; Fin 25] (Fin 1) [] [("k_water", NdS (Fin 1))] (Fin (-1)) (Fin 1) (Fin 1))
    as [r|e] eqn:E.
  - exists r, r'. split; [reflexivity|]. split; [exact E'|].
    assert (O : only_points [0%nat] [Fin 1; Fin 2] [Fin 0; NaN] [Fin 1] [Fin 0] [] [("k_water", NdS (Fin 1))] [] [("k_water", NdS (Fin 1))]).
    { split; [repeat constructor|]. split; [reflexivity|]. split; [reflexivity|].
      intros [|j] i; cbn [nth_error]; [|destruct j; discriminate]. intros [= <-]. repeat split; cbn; lia. }
    split; [exact O|].
    destruct (C109_deleting_points_pH_partial [0%nat] _ _ _ _ _ _ _ _ _ _ _ _ _ _ _ r r' E E' O) as [H _]; [|now rewrite <- H].
    intros [|[|i]] p; cbn [nth_error].
    + intros _ N. exfalso. apply N. now left.
    + intros [= <-] _ [q [Hq _]]. discriminate.
    + destruct i; discriminate.
  - exfalso. revert E. unfold solve_pH. cbn [length Nat.eqb negb]. rewrite x_ltb_fin_t by lra. cbn. discriminate.
Qed.

Print Assumptions C109_deleting_points_pH_partial.
Print Assumptions C109_deleting_points_pH_gran_partial.
Print Assumptions C109_missing_emf_raises.
Print Assumptions C109_missing_emf_refuted.
