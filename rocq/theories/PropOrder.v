(* PropOrder.v -- C96: the order of the data points *)
From Coq Require Import Reals Qreals Lra Permutation.
From Verif Require Export PropSolve.
Open Scope list_scope.
Open Scope R_scope.

(** The data points in another order: the point that was number (nth j order) is now
    number j.  A scalar, and an array with one element, belongs to all points. *)
Definition reorder {A} (d : A) (order : list nat) (l : list A) : list A := map (fun i => nth i l d) order.
Definition nd_reorder (order : list nat) (v : nd xr) : nd xr :=
  match v with
  | NdS x => NdS x
  | NdA [x] => NdA [x]
  | NdA l => NdA (reorder NaN order l)
  end.
Definition is_order (N : nat) (order : list nat) : Prop := Permutation order (seq 0 N).

(* ------------------------------------------------------------------ *)
(** * sums do not depend on the order *)

Lemma fold_perm {A B} (f : A -> B -> A) (l l' : list B) a :
  (forall a x y, f (f a x) y = f (f a y) x) -> Permutation l l' -> fold_left f l a = fold_left f l' a.
Proof.
  intros Hf Hp. revert a. induction Hp as [|x l l' _ IH|x y l|l1 l2 l3 _ IH1 _ IH2]; intros a; cbn [fold_left].
  - reflexivity.
  - apply IH.
  - now rewrite Hf.
  - now rewrite IH1.
Qed.

Lemma nsum_perm (l l' : list xr) : Permutation l l' -> nsum l = nsum l'.
Proof.
  intros Hp. unfold nsum. apply fold_perm; [|assumption].
  intros a x y. rewrite <- !x_add_assoc. f_equal. apply x_add_comm.
Qed.
Lemma nmean_perm (l l' : list xr) : Permutation l l' -> nmean l = nmean l'.
Proof. intros Hp. unfold nmean. now rewrite (nsum_perm l l' Hp), (Permutation_length Hp). Qed.
Lemma nstd_perm (l l' : list xr) : Permutation l l' -> nstd l = nstd l'.
Proof.
  intros Hp. unfold nstd. cbv zeta. rewrite (nmean_perm l l' Hp). f_equal. apply nmean_perm.
  now apply Permutation_map.
Qed.

Lemma map2_combine {A B C} (f : A -> B -> C) x y : map2 f x y = map (fun ab => f (fst ab) (snd ab)) (combine x y).
Proof. revert y; induction x as [|a x IH]; intros [|b y]; cbn; try reflexivity. now rewrite IH. Qed.
Lemma combine_fst {A B} (x : list A) (y : list B) : length x = length y -> map fst (combine x y) = x.
Proof. revert y; induction x as [|a x IH]; intros [|b y]; cbn; try discriminate; [reflexivity|]. intros [= E]. now rewrite IH. Qed.
Lemma combine_snd {A B} (x : list A) (y : list B) : length x = length y -> map snd (combine x y) = y.
Proof. revert y; induction x as [|a x IH]; intros [|b y]; cbn; try discriminate; [reflexivity|]. intros [= E]. now rewrite IH. Qed.

Lemma cov_perm (x y x' y' : list xr) : length x = length y -> length x' = length y' ->
  Permutation (combine x y) (combine x' y') ->
  cov x x = cov x' x' /\ cov x y = cov x' y' /\ cov y y = cov y' y' /\ nmean x = nmean x' /\ nmean y = nmean y'.
Proof.
  intros L L' Hp.
  assert (Px : Permutation x x').
  { rewrite <- (combine_fst x y L), <- (combine_fst x' y' L'). now apply Permutation_map. }
  assert (Py : Permutation y y').
  { rewrite <- (combine_snd x y L), <- (combine_snd x' y' L'). now apply Permutation_map. }
  assert (cd : forall z z' : list xr, Permutation z z' -> cov z z = cov z' z').
  { intros z z' Pz. unfold cov. cbv zeta. rewrite (nmean_perm z z' Pz). apply nmean_perm.
    assert (E : forall (g : xr -> xr -> xr) w, map2 g w w = map (fun a => g a a) w)
      by (intros g; induction w as [|? ? IH]; cbn; [reflexivity|now rewrite IH]).
    rewrite !E. now apply Permutation_map. }
  split; [now apply cd|]. split; [|split; [now apply cd|split; now apply nmean_perm]].
  unfold cov. cbv zeta. rewrite (nmean_perm x x' Px), (nmean_perm y y' Py). apply nmean_perm.
  rewrite !map2_combine. now apply Permutation_map.
Qed.

Lemma x_eqb_trans (a b c : xr) : neqb a b = true -> neqb a c = true -> neqb b c = true.
Proof.
  destruct a, b, c; cbn; try discriminate; try reflexivity. unfold reqb.
  destruct (Req_EM_T r r0); [|discriminate]. destruct (Req_EM_T r r1); [|discriminate].
  intros _ _. destruct (Req_EM_T r0 r1); [reflexivity|congruence].
Qed.
Lemma x_eqb_sym (a b : xr) : neqb a b = neqb b a.
Proof.
  destruct a, b; cbn; try reflexivity. unfold reqb.
  destruct (Req_EM_T r r0), (Req_EM_T r0 r); try reflexivity; congruence.
Qed.

Lemma all_same_spec (x : list xr) :
  all_same x = Nat.leb 2 (length x) && forallb (fun a => forallb (fun b => neqb a b) x) x.
Proof.
  destruct x as [|a [|b x]]; [reflexivity|reflexivity|]. cbn [length Nat.leb andb].
  change (all_same (a :: b :: x)) with (forallb (fun c => neqb a c) (b :: x)).
  apply eq_true_iff_eq. rewrite !forallb_forall. split.
  - intros Ha c Hc. apply forallb_forall. intros d Hd.
    assert (Haa : forall e, In e (a :: b :: x) -> neqb a e = true).
    { intros e [<-|He]; [|exact (Ha e He)]. pose proof (Ha b (or_introl eq_refl)) as E.
      pose proof E as E'. rewrite x_eqb_sym in E'. exact (x_eqb_trans b a a E' E'). }
    exact (x_eqb_trans a c d (Haa c Hc) (Haa d Hd)).
  - intros Hf c Hc. pose proof (Hf a (or_introl eq_refl)) as Ha. rewrite forallb_forall in Ha.
    apply Ha. now right.
Qed.

Lemma forallb_perm {A} (f : A -> bool) l l' : Permutation l l' -> forallb f l = forallb f l'.
Proof.
  intros Hp. apply eq_true_iff_eq. rewrite !forallb_forall. split; intros Hf x Hx; apply Hf.
  - now apply (Permutation_in x (Permutation_sym Hp)).
  - now apply (Permutation_in x Hp).
Qed.

Lemma linregress_perm (x y x' y' : list xr) : length x = length y -> length x' = length y' ->
  Permutation (combine x y) (combine x' y') -> linregress x y = linregress x' y'.
Proof.
  intros L L' Hp. destruct (cov_perm x y x' y' L L' Hp) as [Exx [Exy [Eyy [Ex Ey]]]].
  assert (Px : Permutation x x').
  { rewrite <- (combine_fst x y L), <- (combine_fst x' y' L'). now apply Permutation_map. }
  assert (Es : all_same x = all_same x').
  { rewrite !all_same_spec, (Permutation_length Px). f_equal.
    rewrite (forallb_perm _ x x' Px). clear - Px.
    assert (E : forall a, forallb (fun b => neqb a b) x = forallb (fun b => neqb a b) x')
      by (intros a; now apply forallb_perm).
    induction x' as [|a l IH] at 1 3; cbn [forallb]; [reflexivity|]. now rewrite E, IH. }
  pose proof (Permutation_length Px) as El.
  unfold linregress. destruct x as [|a x], x' as [|a' x']; try discriminate El; [reflexivity|].
  rewrite Es, Exx, Exy, Eyy, Ex, Ey. reflexivity.
Qed.

(* ------------------------------------------------------------------ *)
(** * reordering *)

Lemma order_length N order : is_order N order -> length order = N.
Proof. intros Hp. apply Permutation_length in Hp. now rewrite seq_length in Hp. Qed.
Lemma order_lt N order i : is_order N order -> In i order -> (i < N)%nat.
Proof. intros Hp Hi. apply (Permutation_in i Hp), in_seq in Hi. lia. Qed.

Lemma reorder_length {A} (d : A) order l : length (reorder d order l) = length order.
Proof. apply map_length. Qed.

Lemma map_seq_nth {A} (d : A) (l : list A) : map (fun i => nth i l d) (seq 0 (length l)) = l.
Proof.
  induction l as [|a l IH]; [reflexivity|]. cbn [length seq map nth]. f_equal.
  rewrite <- seq_shift, map_map. exact IH.
Qed.

Lemma reorder_perm {A} (d : A) order l : is_order (length l) order -> Permutation (reorder d order l) l.
Proof.
  intros Hp. pose proof (Permutation_map (fun i => nth i l d) Hp) as X. rewrite map_seq_nth in X. exact X.
Qed.

Lemma reorder_indep {A} (d d' : A) order l : is_order (length l) order -> reorder d order l = reorder d' order l.
Proof.
  intros Hp. unfold reorder. apply map_ext_in. intros i Hi. apply nth_indep. eapply order_lt; eassumption.
Qed.

Lemma reorder_map {A B} (f : A -> B) d order l : reorder (f d) order (map f l) = map f (reorder d order l).
Proof. unfold reorder. rewrite map_map. apply map_ext. intros i. apply map_nth. Qed.

Lemma reorder_combine {A B} (d : A) (e : B) order x y : length x = length y ->
  combine (reorder d order x) (reorder e order y) = reorder (d, e) order (combine x y).
Proof.
  intros L. unfold reorder. induction order as [|i order IH]; [reflexivity|]. cbn [map combine]. rewrite IH.
  f_equal. now rewrite combine_nth.
Qed.

Lemma reorder_map2 {A B C} (f : A -> B -> C) d e order x y : length x = length y ->
  map2 f (reorder d order x) (reorder e order y) = reorder (f d e) order (map2 f x y).
Proof.
  intros L. rewrite !map2_combine, (reorder_combine d e order x y L).
  symmetry. exact (reorder_map (fun ab : A * B => f (fst ab) (snd ab)) (d, e) order (combine x y)).
Qed.

Lemma mask_filter {A} u (l : list A) : mask u l = map snd (filter fst (combine u l)).
Proof.
  revert l; induction u as [|b u IH]; intros [|x l]; cbn; try reflexivity.
  destruct b; cbn; now rewrite IH.
Qed.

Lemma filter_perm {A} (f : A -> bool) l l' : Permutation l l' -> Permutation (filter f l) (filter f l').
Proof.
  induction 1 as [|x l l' _ IH|x y l|l1 l2 l3 _ IH1 _ IH2]; cbn.
  - constructor.
  - destruct (f x); [now constructor|assumption].
  - destruct (f x), (f y); try reflexivity. constructor.
  - now transitivity (filter f l2).
Qed.

Lemma mask_reorder {A} (d : A) order u l : length u = length l -> is_order (length l) order ->
  Permutation (mask (reorder false order u) (reorder d order l)) (mask u l).
Proof.
  intros L Hp. rewrite !mask_filter. apply Permutation_map, filter_perm.
  rewrite reorder_combine by assumption. apply reorder_perm. rewrite combine_length, L, Nat.min_id. assumption.
Qed.

Lemma mask_combine {A B} u (x : list A) (y : list B) : combine (mask u x) (mask u y) = mask u (combine x y).
Proof.
  revert x y; induction u as [|b u IH]; intros [|a x] [|c y]; cbn; try reflexivity.
  - destruct b; [reflexivity|]. destruct (mask u x); reflexivity.
  - destruct b; cbn; now rewrite IH.
Qed.

Lemma mask_pairs_reorder {A B} (d : A) (e : B) order u x y : length u = length x -> length y = length x ->
  is_order (length x) order ->
  Permutation (combine (mask (reorder false order u) (reorder d order x)) (mask (reorder false order u) (reorder e order y)))
              (combine (mask u x) (mask u y)).
Proof.
  intros Lu Ly Hp. rewrite !mask_combine, reorder_combine by congruence.
  assert (Lc : length (combine x y) = length x) by (rewrite combine_length, Ly; apply Nat.min_id).
  apply mask_reorder; rewrite Lc; [assumption|assumption].
Qed.

Lemma window_reorder pmin pmax order (pH : list xr) : is_order (length pH) order ->
  in_window pmin pmax (reorder NaN order pH) = reorder false order (in_window pmin pmax pH).
Proof.
  intros Hp. unfold in_window. set (w := fun p => ngeb p pmin && nleb p pmax).
  rewrite <- (reorder_map w NaN order pH). apply reorder_indep. now rewrite map_length.
Qed.

(* what a point of the reordered titration sees *)
Lemma nd_at_reorder order (v : nd xr) j i : nd_fits (length order) v = true -> nth_error order j = Some i ->
  nd_at (nd_reorder order v) j = nd_at v i.
Proof.
  intros Hf Hj. destruct v as [x|l]; [reflexivity|]. destruct l as [|x [|y l]]; [|reflexivity|].
  - cbn in Hf. destruct order; [destruct j; discriminate|discriminate].
  - set (l0 := x :: y :: l) in *. change (nd_reorder order (NdA l0)) with (NdA (reorder NaN order l0)).
    assert (E : forall w : list xr, length w = length order -> (2 <= length w)%nat -> nd_at (NdA w) j = nth j w NaN).
    { intros w _ Hw. destruct w as [|? [|? ?]]; cbn in Hw; try lia. reflexivity. }
    assert (Ll : length l0 = length order).
    { unfold nd_fits in Hf. apply orb_true_iff in Hf as [Hf|Hf]; [now apply Nat.eqb_eq in Hf|discriminate Hf]. }
    rewrite E; [|apply reorder_length|rewrite reorder_length, <- Ll; cbn; lia].
    change (nd_at (NdA l0) i) with (nth i l0 NaN). unfold reorder.
    apply nth_error_nth with (d := NaN). rewrite nth_error_map, Hj. reflexivity.
Qed.

Lemma fits_reorder order (v : nd xr) : nd_fits (length order) v = true ->
  nd_fits (length order) (nd_reorder order v) = true.
Proof.
  intros Hf. destruct v as [x|[|x [|y l]]]; try assumption.
  - unfold nd_reorder, nd_fits. rewrite reorder_length, Nat.eqb_refl. reflexivity.
  - unfold nd_reorder, nd_fits. rewrite reorder_length, Nat.eqb_refl. reflexivity.
Qed.

Lemma all_fit_reorder order d : all_fit (length order) d = true ->
  all_fit (length order) (dmap (nd_reorder order) d) = true.
Proof.
  unfold all_fit. rewrite !forallb_forall. intros Hf kv Hin. unfold dmap in Hin.
  apply in_map_iff in Hin as [[k v] [<- Hin]]. cbn [snd]. apply fits_reorder. exact (Hf (k, v) Hin).
Qed.

Lemma slice_reorder order d j i : all_fit (length order) d = true -> nth_error order j = Some i ->
  slice_at (dmap (nd_reorder order) d) j = slice_at d i.
Proof.
  intros Hf Hj. unfold slice_at, dmap. rewrite map_map. apply map_ext_in. intros [k v] Hin. cbn [fst snd].
  f_equal. apply nd_at_reorder; [|assumption]. unfold all_fit in Hf. rewrite forallb_forall in Hf. exact (Hf (k, v) Hin).
Qed.

Lemma nth_error_ext {A} (l l' : list A) : (forall i, nth_error l i = nth_error l' i) -> l = l'.
Proof.
  revert l'; induction l as [|a l IH]; intros [|a' l'] E; try reflexivity.
  - discriminate (E 0%nat).
  - discriminate (E 0%nat).
  - pose proof (E 0%nat) as E0. injection E0 as ->. f_equal. apply IH. intros i. exact (E (S i)).
Qed.

Lemma reorder_nth {A} (d : A) order l j : is_order (length l) order ->
  nth_error (reorder d order l) j = match nth_error order j with Some i => nth_error l i | None => None end.
Proof.
  intros Hp. unfold reorder. rewrite nth_error_map. destruct (nth_error order j) as [i|] eqn:E; [|reflexivity].
  cbn [option_map]. symmetry. apply nth_error_nth'. eapply order_lt; [eassumption|]. eapply nth_error_In; eassumption.
Qed.

Lemma arr_reorder order (pH : list xr) totals ks l : is_order (length pH) order ->
  alkalinity_arr pH totals ks 3 = Ok l ->
  alkalinity_arr (reorder NaN order pH) (dmap (nd_reorder order) totals) (dmap (nd_reorder order) ks) 3
  = Ok (reorder NaN order l).
Proof.
  intros Hp Hl. pose proof (order_length _ _ Hp) as Lo.
  destruct pH as [|p0 pH'].
  { destruct order; [|discriminate Lo]. revert Hl. unfold alkalinity_arr. cbn [length reorder map].
    destruct (all_fit 0 totals) eqn:F1; [|discriminate]. destruct (all_fit 0 ks) eqn:F2; [|discriminate].
    assert (E : forall d : dict (nd xr), all_fit 0 d = true -> dmap (nd_reorder []) d = d).
    { unfold all_fit. induction d as [|[k v] d IH]; [reflexivity|]. cbn [forallb snd dmap map fst].
      intros F. apply andb_true_iff in F as [Fv Fd]. unfold dmap in IH. rewrite (IH Fd). f_equal. f_equal.
      destruct v as [x|[|x [|y w]]]; try reflexivity. discriminate Fv. }
    rewrite (E totals F1), (E ks F2), F1, F2. intros Hb. rewrite Hb. cbn [andb] in Hb.
    apply bind_ok in Hb as [u [_ Hm]]. cbn in Hm. injection Hm as <-. reflexivity. }
  pose proof Hl as Hl0. apply alkalinity_arr_spec in Hl as [F1 [F2 [L Hpt]]].
  remember (p0 :: pH') as pH eqn:EpH.
  assert (Hne : reorder NaN order pH <> []).
  { intros E. apply (f_equal (@length xr)) in E. rewrite reorder_length, Lo, EpH in E. discriminate. }
  rewrite <- Lo in F1, F2.
  assert (Hat : forall j q, nth_error (reorder NaN order pH) j = Some q -> exists i a, nth_error order j = Some i /\
     nth_error l i = Some a /\
     alkalinity q (slice_at (dmap (nd_reorder order) totals) j) (slice_at (dmap (nd_reorder order) ks) j) 3 = Ok a).
  { intros j q Hq. rewrite reorder_nth in Hq by assumption.
    destruct (nth_error order j) as [i|] eqn:Ei; [|discriminate]. destruct (Hpt i q Hq) as [a [Ha Hs]].
    exists i, a. split; [reflexivity|]. split; [assumption|].
    rewrite (slice_reorder order totals j i F1 Ei), (slice_reorder order ks j i F2 Ei). exact Hs. }
  destruct (alkalinity_arr_total (reorder NaN order pH) (dmap (nd_reorder order) totals) (dmap (nd_reorder order) ks) 3 Hne)
    as [l' Hl'].
  { rewrite reorder_length. now apply all_fit_reorder. }
  { rewrite reorder_length. now apply all_fit_reorder. }
  { intros j q Hq. destruct (Hat j q Hq) as [i [a [_ [_ E]]]]. eauto. }
  rewrite Hl'. f_equal. apply alkalinity_arr_spec in Hl' as [_ [_ [L' Hpt']]]. rewrite reorder_length in L'.
  apply nth_error_ext. intros j. rewrite reorder_nth by now rewrite L.
  destruct (nth_error order j) as [i|] eqn:Ei.
  - assert (Hlt : (i < length pH)%nat) by (eapply order_lt; [eassumption|eapply nth_error_In; eassumption]).
    destruct (nth_error pH i) as [q|] eqn:Eq; [|apply nth_error_None in Eq; lia].
    assert (Hq : nth_error (reorder NaN order pH) j = Some q) by (rewrite reorder_nth, Ei by assumption; exact Eq).
    destruct (Hat j q Hq) as [i' [a [Ei' [Ha Hs]]]]. assert (i' = i) by congruence. subst i'.
    destruct (Hpt' j q Hq) as [a' [Ha' Hs']]. congruence.
  - apply nth_error_None. apply nth_error_None in Ei. lia.
Qed.

(* ------------------------------------------------------------------ *)
(** * C96: the pH solvers *)

Theorem C96_solve_pH_order : forall c tm pH temps M totals ks pmin pmax n r order,
  solve_pH c tm pH temps M totals ks pmin pmax n = Ok r -> is_order (length tm) order ->
  exists r', solve_pH c (reorder NaN order tm) (reorder NaN order pH) (reorder NaN order temps) M
               (dmap (nd_reorder order) totals) (dmap (nd_reorder order) ks) pmin pmax n = Ok r' /\
    sp_alkalinity r' = sp_alkalinity r /\ sp_alkalinity_std r' = sp_alkalinity_std r /\
    sp_used r' = reorder false order (sp_used r) /\
    sp_alkalinity_all r' = reorder NaN order (sp_alkalinity_all r).
Proof.
  intros c tm pH temps M totals ks pmin pmax n r order Hr Hp.
  pose proof Hr as Hr0. apply solve_pH_inv in Hr as [L [Hw [Hu [Hall [Ha Hs]]]]].
  unfold alkalinity_all in Hall. apply bind_ok in Hall as [sim [Hsim Hall]].
  assert (Hp' : is_order (length pH) order) by now rewrite L.
  pose proof (arr_reorder order pH totals ks sim Hp' Hsim) as Hsim'.
  apply alkalinity_arr_spec in Hsim as [_ [_ [Lsim _]]].
  apply (f_equal (fun x => match x with Ok v => v | Err _ => [] end)) in Hall. cbv beta iota in Hall.
  set (f := fun s m : xr => nofQ 1000000 ⊗ (s ⊕ (m ⊗ c ⊗ n) ⊘ (m ⊕ M)) ⊘ get_dilution_factor m M) in *.
  assert (Lall : length (sp_alkalinity_all r) = length tm) by (rewrite <- Hall, map2_length; congruence).
  assert (Eall : map2 f (reorder NaN order sim) (reorder NaN order tm) = reorder NaN order (sp_alkalinity_all r)).
  { rewrite reorder_map2 by congruence. rewrite Hall. apply reorder_indep. now rewrite Lall. }
  assert (Lu : length (sp_used r) = length tm) by (rewrite Hu; unfold in_window; now rewrite map_length).
  assert (Eu : in_window pmin pmax (reorder NaN order pH) = reorder false order (sp_used r)).
  { rewrite window_reorder by assumption. now rewrite Hu. }
  assert (Pm : Permutation (mask (reorder false order (sp_used r)) (reorder NaN order (sp_alkalinity_all r)))
                           (mask (sp_used r) (sp_alkalinity_all r))).
  { apply mask_reorder; [congruence|now rewrite Lall]. }
  unfold solve_pH. rewrite !reorder_length, Nat.eqb_refl. cbn [negb]. rewrite Hw. cbn [assert_ bind].
  unfold alkalinity_all. change default_opt_pH_scale with 3%Z in *. rewrite Hsim'. cbn [bind]. fold f. rewrite Eall.
  eexists. split; [reflexivity|]. cbn [sp_alkalinity sp_alkalinity_std sp_used sp_alkalinity_all].
  rewrite Eu, Ha, Hs. split; [now apply nmean_perm|]. split; [now apply nstd_perm|]. split; reflexivity.
Qed.

Theorem C96_solve_pH_gran_order : forall c tm pH temps M totals ks pmin pmax n r order,
  solve_pH_gran c tm pH temps M totals ks pmin pmax n = Ok r -> is_order (length tm) order ->
  exists r', solve_pH_gran c (reorder NaN order tm) (reorder NaN order pH) (reorder NaN order temps) M
               (dmap (nd_reorder order) totals) (dmap (nd_reorder order) ks) pmin pmax n = Ok r' /\
    sg_alkalinity r' = sg_alkalinity r /\ sg_used r' = reorder false order (sg_used r).
Proof.
  intros c tm pH temps M totals ks pmin pmax n r order Hr Hp.
  apply solve_pH_gran_inv in Hr as [L [Hw [Hu [Hg [Hlr Ha]]]]].
  set (f := fun m p : xr => (m ⊕ M) ⊗ npow10 (nopp p)) in *.
  assert (Lg : length (sg_gfunc r) = length tm) by (rewrite Hg, map2_length; congruence).
  assert (Eg : map2 f (reorder NaN order tm) (reorder NaN order pH) = reorder NaN order (sg_gfunc r)).
  { rewrite reorder_map2 by congruence. rewrite <- Hg. apply reorder_indep. now rewrite Lg. }
  assert (Lu : length (sg_used r) = length tm) by (rewrite Hu; unfold in_window; now rewrite map_length).
  assert (Eu : in_window pmin pmax (reorder NaN order pH) = reorder false order (sg_used r)).
  { rewrite window_reorder by now rewrite L. now rewrite Hu. }
  assert (El : linregress (mask (reorder false order (sg_used r)) (reorder NaN order tm))
                          (mask (reorder false order (sg_used r)) (reorder NaN order (sg_gfunc r))) = Ok (sg_lr r)).
  { rewrite <- Hlr. apply linregress_perm.
    - apply mask_length_eq. now rewrite !reorder_length.
    - apply mask_length_eq. congruence.
    - apply mask_pairs_reorder; [assumption|congruence|assumption]. }
  unfold solve_pH_gran. rewrite !reorder_length, Nat.eqb_refl. cbn [negb]. rewrite Hw. cbn [assert_ bind].
  fold f. rewrite Eg, Eu, El. cbn [bind]. eexists. split; [reflexivity|]. cbn [sg_alkalinity sg_used].
  rewrite Ha. split; reflexivity.
Qed.

(* ------------------------------------------------------------------ *)
(** * the Gran-plot first guesses *)

Lemma nmax2_comm (a b : xr) : nmax2 a b = nmax2 b a.
Proof.
  unfold nmax2. destruct a as [x| | |], b as [y| | |]; cbn; try reflexivity. unfold rltb.
  destruct (Rlt_dec x y), (Rlt_dec y x); try reflexivity; try lra. f_equal. lra.
Qed.
Lemma nmax2_assoc (a b c : xr) : nmax2 (nmax2 a b) c = nmax2 a (nmax2 b c).
Proof.
  unfold nmax2. destruct a as [x| | |], b as [y| | |], c as [z| | |]; cbn; try reflexivity;
    repeat (unfold rltb in *; match goal with |- context [Rlt_dec ?x ?y] => destruct (Rlt_dec x y) end; cbn);
    try reflexivity; try (f_equal; lra).
Qed.
Lemma nmax2_bottom (a : xr) : nmax2 NInf a = a.
Proof. destruct a; reflexivity. Qed.

Lemma nmax_perm (l l' : list xr) : Permutation l l' -> nmax l = nmax l'.
Proof.
  intros Hp. assert (E : forall x w, nmax (x :: w : list xr) = Ok (fold_left nmax2 (x :: w) NInf)).
  { intros x w. cbn [nmax fold_left]. now rewrite nmax2_bottom. }
  pose proof (Permutation_length Hp) as L. destruct l as [|x l], l' as [|x' l']; try discriminate L; [reflexivity|].
  rewrite !E. f_equal. apply fold_perm; [|assumption].
  intros a u v. rewrite !nmax2_assoc. f_equal. apply nmax2_comm.
Qed.

Lemma map3_reorder {A B C D} (f : A -> B -> C -> D) a b c d order x y z :
  length y = length x -> length z = length x -> is_order (length x) order ->
  map3 f (reorder a order x) (reorder b order y) (reorder c order z) = reorder d order (map3 f x y z).
Proof.
  intros Ly Lz Hp. apply nth_error_ext. intros j. rewrite nth_error_map3.
  rewrite !reorder_nth; [|rewrite ?map3_length by assumption; assumption || congruence..].
  destruct (nth_error order j) as [i|]; [|reflexivity]. now rewrite nth_error_map3.
Qed.

Theorem C96_legacy_gran_order : forall tm emf temps M c n g order,
  gran_guesses tm emf temps M c n "legacy" = Ok g -> is_order (length tm) order ->
  exists g', gran_guesses (reorder NaN order tm) (reorder NaN order emf) (reorder NaN order temps) M c n "legacy" = Ok g' /\
    ga_alkalinity (gg_ga g') = ga_alkalinity (gg_ga g) /\ gg_emf0 g' = gg_emf0 g /\
    ga_used (gg_ga g') = reorder false order (ga_used (gg_ga g)) /\ gg_pH g' = reorder NaN order (gg_pH g).
Proof.
  intros tm emf temps M c n g order Hg Hp. unfold gran_guesses in *.
  apply bind_ok in Hg as [ga [Hga Hg]].
  unfold gran_alkalinity in Hga |- *. unfold same_len in *. rewrite !reorder_length, Nat.eqb_refl. cbn [andb negb].
  destruct (Nat.eqb_spec (length emf) (length tm)) as [Le|]; [|discriminate].
  destruct (Nat.eqb_spec (length temps) (length tm)) as [Lt|]; [|discriminate]. cbn [andb negb] in Hga.
  set (f := fun m e t => gran_function m e t M) in *.
  rewrite (map3_reorder f NaN NaN NaN NaN order tm emf temps Le Lt Hp).
  set (G := map3 f tm emf temps) in *.
  assert (LG : length G = length tm) by (unfold G; now rewrite map3_length).
  apply bind_ok in Hga as [u [Hu Hga]]. apply bind_ok in Hga as [lr [Hlr Hga]].
  unfold gran_used in *. change (String.eqb "legacy" "v23.7+") with false in *.
  change (String.eqb "legacy" "legacy") with true in *. cbv beta iota in Hu |- *.
  rewrite (nmax_perm (reorder NaN order G) G) by (apply reorder_perm; now rewrite LG).
  destruct (nmax G) as [mx|]; [|discriminate]. cbn [bind] in Hu |- *.
  set (w := fun g0 => ngtb g0 (nofQ 0.1 ⊗ mx) && nltb g0 (nofQ 0.9 ⊗ mx)) in *.
  assert (Hu' : map w G = u) by congruence. clear Hu.
  assert (Lu : length u = length tm) by (rewrite <- Hu', map_length; assumption).
  assert (Eu : map w (reorder NaN order G) = reorder false order u).
  { rewrite <- reorder_map, Hu'. apply reorder_indep. now rewrite Lu. }
  rewrite Eu.
  assert (El : linregress (mask (reorder false order u) (reorder NaN order tm))
                          (mask (reorder false order u) (reorder NaN order G)) = Ok lr).
  { rewrite <- Hlr. apply linregress_perm.
    - apply mask_length_eq. now rewrite !reorder_length.
    - apply mask_length_eq. congruence.
    - apply mask_pairs_reorder; [assumption|congruence|assumption]. }
  rewrite El. cbn [bind].
  assert (Ega : ga_alkalinity ga = nopp (lr_intercept lr) ⊘ lr_slope lr ⊗ c ⊗ n ⊘ M /\ ga_used ga = u).
  { injection Hga as <-. split; reflexivity. }
  destruct Ega as [Ega Eus].
  eexists. split; [reflexivity|].
  assert (Eg : gg_ga g = ga /\ gg_emf0 g = nmean (mask u (map3 (fun m e t => gran_emf0 m e t M c (ga_alkalinity ga) n) tm emf temps))
    /\ gg_pH g = emf_to_pH_arr emf (gg_emf0 g) temps).
  { injection Hg as <-. cbn. rewrite Eus. auto. }
  destruct Eg as [Eg1 [Eg2 Eg3]]. rewrite Eg1.
  cbn [gg_ga gg_emf0 gg_pH ga_alkalinity ga_used]. rewrite <- Ega.
  split; [reflexivity|].
  set (h := fun m e t => gran_emf0 m e t M c (ga_alkalinity ga) n) in *.
  assert (Em : nmean (mask (reorder false order u) (map3 h (reorder NaN order tm) (reorder NaN order emf) (reorder NaN order temps)))
               = gg_emf0 g).
  { rewrite Eg2, (map3_reorder h NaN NaN NaN NaN order tm emf temps Le Lt Hp). apply nmean_perm.
    assert (Lh : length (map3 h tm emf temps) = length tm) by now rewrite map3_length.
    apply mask_reorder; [congruence|now rewrite Lh]. }
  split; [exact Em|]. split; [now rewrite Eus|].
  rewrite Eg3. fold h. rewrite Em. unfold emf_to_pH_arr.
  rewrite reorder_map2 by congruence. apply reorder_indep. rewrite map2_length by congruence. now rewrite Le.
Qed.

(* ------------------------------------------------------------------ *)
(** * the default Gran logic does depend on the order *)

(* an electrode reading that makes the Gran function small: exp(-4) *)
Definition low_emf : R := -4 * (Rcst * TK 25) / Fcst.

Lemma GR_low M m : GR M 25 m low_emf = (m + M) * exp (-4).
Proof.
  unfold GR, low_emf. pose proof Rcst_pos. pose proof (TK_pos 25 ltac:(lra)). unfold Fcst. do 2 f_equal. field. lra.
Qed.
Lemma GR_zero M m : GR M 25 m 0 = m + M.
Proof. unfold GR. replace (0 * Fcst / (Rcst * TK 25)) with 0 by (unfold Rdiv; ring). rewrite exp_0. ring. Qed.
Lemma exp_m4 : 0 < exp (-4) < 0.3.
Proof.
  split; [apply exp_pos|]. replace (-4) with (- (4)) by ring. rewrite exp_Ropp. assert (5 <= exp 4) by (pose proof (exp_ineq1_le 4); lra).
  apply (Rmult_lt_reg_r (exp 4)); [lra|]. rewrite Rinv_l by lra. lra.
Qed.

Lemma gran_low (tm : list R) (emf : list R) (G : list R) (u : list bool) :
  length emf = length tm -> G = map2 (GR 1 25) tm emf ->
  gran_used "v23.7+" (map Fin G) = Ok u -> two_distinct (mask u tm) ->
  exists g, gran_guesses (map Fin tm) (map Fin emf) (map (fun _ => Fin 25) tm) (Fin 1) (Fin 1) (Fin 1) "v23.7+" = Ok g /\
    ga_used (gg_ga g) = u /\
    ga_alkalinity (gg_ga g) = Fin (- interceptR (mask u tm) (mask u G)) ⊘ Fin (slopeR (mask u tm) (mask u G)) ⊗ Fin 1 ⊗ Fin 1 ⊘ Fin 1.
Proof.
  intros Le EG Hu Hd. unfold gran_guesses, gran_alkalinity.
  assert (Hs : same_len (map Fin tm) (map Fin emf) (map (fun _ => Fin 25) tm) = true).
  { unfold same_len. now rewrite !map_length, Le, !Nat.eqb_refl. }
  rewrite Hs. cbn [negb].
  assert (EG' : map3 (fun m e t => gran_function m e t (Fin 1)) (map Fin tm) (map Fin emf) (map (fun _ => Fin 25) tm) = map Fin G).
  { rewrite (map3_const _ _ _ _ (Fin 25)); [|now rewrite !map_length, Le|now rewrite !map_length|].
    - rewrite EG. apply map2_fin. intros a b. apply gran_function_fin. lra.
    - apply Forall_forall. intros v Hv. apply in_map_iff in Hv as [? [<- _]]. reflexivity. }
  rewrite EG', Hu. cbn [bind]. rewrite !mask_map.
  assert (LG : length G = length tm) by (rewrite EG, map2_length; congruence).
  destruct (linregress_fin (mask u tm) (mask u G) Hd (mask_length_eq u G tm LG)) as [lr [El [E1 E2]]].
  rewrite El. cbn [bind]. eexists. split; [reflexivity|]. cbn [gg_ga ga_used ga_alkalinity].
  rewrite E1, E2. split; reflexivity.
Qed.

Lemma three {A} (a b c a' b' c' : A) : a = a' -> b = b' -> c = c' -> [a; b; c] = [a'; b'; c'].
Proof. congruence. Qed.
Lemma mean2 a b : Rmean [a; b] = (a + b) / 2.
Proof. unfold Rmean, Rsum. cbn. field. Qed.
Lemma mean3 a b c : Rmean [a; b; c] = (a + b + c) / 3.
Proof. unfold Rmean, Rsum. cbn. field. Qed.

Theorem C96_default_gran_depends_on_order : exists tm emf temps order g g',
  is_order (length tm) order /\
  gran_guesses tm emf temps (Fin 1) (Fin 1) (Fin 1) "v23.7+" = Ok g /\
  gran_guesses (reorder NaN order tm) (reorder NaN order emf) (reorder NaN order temps) (Fin 1) (Fin 1) (Fin 1) "v23.7+" = Ok g' /\
  ga_alkalinity (gg_ga g') <> ga_alkalinity (gg_ga g).
Proof.
  exists (map Fin [0; 1; 2]), (map Fin [low_emf; 0; 0]), (map (fun _ => Fin 25) [0; 1; 2]), [1; 2; 0]%nat.
  pose proof exp_m4 as He. set (e := exp (-4)) in *.
  destruct (gran_low [0; 1; 2] [low_emf; 0; 0] [e; 2; 3] [false; true; true]) as [g [Eg [_ Ea]]].
  { reflexivity. }
  { cbn [map2]. rewrite GR_low, !GR_zero. fold e. apply three; ring. }
  { unfold gran_used. change (String.eqb "v23.7+" "v23.7+") with true. cbv beta iota.
    rewrite (nmax_of_max [e; 2; 3] 3) by (split; [cbn; auto|intros v [<-|[<-|[<-|[]]]]; lra]).
    cbn [bind map]. unfold ngtb. change (nofQ 0.1) with (Fin (Q2R 0.1)). rewrite fin_mul.
    rewrite (x_ltb_fin_f _ e), (x_ltb_fin_t _ 2), (x_ltb_fin_t _ 3); [reflexivity|unfold Q2R; cbn; lra..]. }
  { exists 1, 2. cbn. repeat split; auto; lra. }
  destruct (gran_low [1; 2; 0] [0; 0; low_emf] [2; 3; e] [true; true; true]) as [g' [Eg' [_ Ea']]].
  { reflexivity. }
  { cbn [map2]. rewrite GR_low, !GR_zero. fold e. apply three; ring. }
  { unfold gran_used. change (String.eqb "v23.7+" "v23.7+") with true. cbv beta iota.
    rewrite (nmax_of_max [2; 3; e] 3) by (split; [cbn; auto|intros v [<-|[<-|[<-|[]]]]; lra]).
    cbn [bind map]. unfold ngtb. change (nofQ 0.1) with (Fin (Q2R 0.1)). rewrite fin_mul.
    rewrite (x_ltb_fin_f _ e), (x_ltb_fin_t _ 2), (x_ltb_fin_t _ 3); [reflexivity|unfold Q2R; cbn; lra..]. }
  { exists 1, 2. cbn. repeat split; auto; lra. }
  exists g, g'. split.
  { change (is_order 3 [1; 2; 0]%nat). unfold is_order. cbn [seq].
    apply (Permutation_trans (l' := [1; 0; 2]%nat)); [constructor; constructor|constructor]. }
  split; [exact Eg|]. split; [exact Eg'|].
  rewrite Ea, Ea'. cbn [mask].
  assert (S1 : slopeR [1; 2] [2; 3] = 1) by (unfold slopeR, Rcov; cbn [map2]; rewrite !mean2; field).
  assert (I1 : interceptR [1; 2] [2; 3] = 1) by (unfold interceptR; rewrite S1, !mean2; field).
  assert (S2 : slopeR [1; 2; 0] [2; 3; e] = (3 - e) / 2) by (unfold slopeR, Rcov; cbn [map2]; rewrite !mean3; field).
  assert (I2 : interceptR [1; 2; 0] [2; 3; e] = (1 + 5 * e) / 6) by (unfold interceptR; rewrite S2, !mean3; field).
  rewrite S1, I1, S2, I2. rewrite !fin_div, !fin_mul, !fin_div by lra. intros [= E].
  apply (Rmult_eq_compat_r (3 * (3 - e))) in E. field_simplify in E; [|lra..]. lra.
Qed.

(* a titration with a point outside the window, back to front *)
Example C96_nonvacuous : exists r r',
  solve_pH (Fin 1) (map Fin [1; 3]) (map Fin [9; 0]) [] (Fin 1) [("dic", NdA [Fin 1; Fin 2])]
    [("k_carbonic_1", NdS (Fin 1)); ("k_carbonic_2", NdA [Fin 1])] (Fin (-1)) (Fin 1) (Fin 1) = Ok r /\
  is_order 2 [1; 0]%nat /\
  solve_pH (Fin 1) (map Fin [3; 1]) (map Fin [0; 9]) [NaN; NaN] (Fin 1) [("dic", NdA [Fin 2; Fin 1])]
    [("k_carbonic_1", NdS (Fin 1)); ("k_carbonic_2", NdA [Fin 1])] (Fin (-1)) (Fin 1) (Fin 1) = Ok r' /\
  sp_alkalinity r' = sp_alkalinity r.
Proof.
  assert (Ho : is_order 2 [1; 0]%nat) by (unfold is_order; cbn [seq]; constructor).
  assert (Hr : exists r, solve_pH (Fin 1) (map Fin [1; 3]) (map Fin [9; 0]) [] (Fin 1) [("dic", NdA [Fin 1; Fin 2])]
    [("k_carbonic_1", NdS (Fin 1)); ("k_carbonic_2", NdA [Fin 1])] (Fin (-1)) (Fin 1) (Fin 1) = Ok r).
  { eexists. unfold solve_pH. cbn [length map Nat.eqb negb]. rewrite x_ltb_fin_t by lra. reflexivity. }
  destruct Hr as [r Hr]. destruct (C96_solve_pH_order _ _ _ _ _ _ _ _ _ _ _ [1; 0]%nat Hr Ho) as [r' [Hr' [Ea _]]].
  exists r, r'. split; [exact Hr|]. split; [exact Ho|]. split; [exact Hr'|exact Ea].
Qed.

Print Assumptions C96_solve_pH_order.
Print Assumptions C96_solve_pH_gran_order.
Print Assumptions C96_legacy_gran_order.
