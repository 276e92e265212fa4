(* PropAlign.v -- C79: which titrant mass the high-resolution values of the DIC loss model belong to *)
From Coq Require Import Reals Qreals Lra Psatz Sorted.
From Verif Require Import PropLoss Loss XRLemmas SpecLoss PropText.
Open Scope list_scope.
Open Scope R_scope.

(* ------------------------------------------------------------------ *)
(** * Lemmas about masks and grids *)

Lemma mask_split {A} (P : A -> bool) (hi lo : list A) {B} (l : list B) :
  length l = length (hi ++ lo) -> forallb P hi = true -> forallb (fun x => negb (P x)) lo = true ->
  mask (map P (hi ++ lo)) l = firstn (length hi) l.
Proof.
  revert l. induction hi as [|x hi IH]; intros l Hl Hhi Hlo.
  - cbn [app length firstn]. clear Hhi. revert l Hl. cbn [app].
    induction lo as [|y lo IH]; intros [|b l] Hl; try discriminate; [reflexivity|].
    cbn [forallb] in Hlo. apply andb_true_iff in Hlo as [H1 H2]. apply negb_true_iff in H1.
    cbn [map mask]. rewrite H1. apply IH; [assumption|cbn in *; lia].
  - destruct l as [|b l]; [discriminate|]. cbn [forallb] in Hhi. apply andb_true_iff in Hhi as [H1 H2].
    cbn [app map mask length firstn]. rewrite H1. f_equal. apply IH; try assumption. cbn in *. lia.
Qed.

Lemma mask_split_rest {A} (P : A -> bool) (hi lo : list A) {B} (l : list B) :
  length l = length (hi ++ lo) -> forallb (fun x => negb (P x)) hi = true -> forallb P lo = true ->
  mask (map P (hi ++ lo)) l = skipn (length hi) l.
Proof.
  revert l. induction hi as [|x hi IH]; intros l Hl Hhi Hlo.
  - cbn [app length skipn]. clear Hhi. revert l Hl. cbn [app].
    induction lo as [|y lo IH]; intros [|b l] Hl; try discriminate; [reflexivity|].
    cbn [forallb] in Hlo. apply andb_true_iff in Hlo as [H1 H2].
    cbn [map mask]. rewrite H1. f_equal. apply IH; [assumption|cbn in *; lia].
  - destruct l as [|b l]; [discriminate|]. cbn [forallb] in Hhi. apply andb_true_iff in Hhi as [H1 H2].
    apply negb_true_iff in H1. cbn [app map mask length skipn]. rewrite H1. apply IH; try assumption. cbn in *. lia.
Qed.

Lemma nceil_spec y : IZR (nceil (Fin y)) - 1 < y <= IZR (nceil (Fin y)).
Proof.
  unfold nceil. change (nround 0 (Fin y)) with (round_even (y * 10 ^ 0)).
  replace (y * 10 ^ 0) with y by (cbn; ring).
  pose proof (round_even_close y) as C. unfold Rabs in C.
  rewrite fin_Z. destruct (Rlt_le_dec (IZR (round_even y)) y) as [L|G].
  - rewrite x_ltb_fin_t by assumption. rewrite plus_IZR. destruct (Rcase_abs _); lra.
  - rewrite x_ltb_fin_f by assumption. destruct (Rcase_abs _); lra.
Qed.

Lemma arange_grid stop step : 0 <= stop -> 0 < step ->
  exists n, arange (Fin 0) (Fin stop) (Fin step) = Ok (map Fin (grid step n)) /\
    INR n - 1 < stop / step <= INR n.
Proof.
  intros Hs Hp. unfold arange. rewrite fin_sub, fin_div by lra. rewrite fin_isfinite.
  rewrite fin_add, fin_sub. set (q := (stop - 0) / step).
  assert (Hq : 0 <= q) by (unfold q; apply Rmult_le_pos; [lra|left; apply Rinv_0_lt_compat; assumption]).
  pose proof (nceil_spec q) as [A B].
  assert (Z0 : (0 <= nceil (Fin q))%Z).
  { destruct (Z_le_gt_dec 0 (nceil (Fin q))) as [L|G]; [exact L|].
    assert (IZR (nceil (Fin q)) <= -1) by (apply (IZR_le _ (-1)); lia). lra. }
  exists (Z.to_nat (nceil (Fin q))). split.
  - f_equal. unfold grid. rewrite map_map. apply map_ext. intros i.
    rewrite fin_Z, fin_mul, fin_add. f_equal. rewrite <- INR_IZR_INZ. lra.
  - rewrite INR_IZR_INZ, Z2Nat.id by assumption. unfold q in *.
    replace (stop / step) with ((stop - 0) / step) by (f_equal; ring). lra.
Qed.

Lemma nanmax_fin l : l <> [] -> exists m, nanmax (map Fin l) = Ok m.
Proof.
  intros Hl. destruct l as [|x l]; [contradiction|]. unfold nanmax. cbn [map].
  destruct (nmax _); eexists; reflexivity.
Qed.

Lemma fill_nan_fin v l : fill_nan v (map Fin l) = map Fin l.
Proof. unfold fill_nan. rewrite map_map. apply map_ext. reflexivity. Qed.

Lemma map_fin_sub l a : map (fun x => nsub x (Fin a)) (map Fin l) = map Fin (map (fun x => x - a) l).
Proof. rewrite !map_map. apply map_ext. reflexivity. Qed.

Lemma of_opt_ok {A} (o : option A) e x : of_opt o e = Ok x -> o = Some x.
Proof. destruct o; cbn; congruence. Qed.

Lemma bind_ok {A B} (r : res A) (f : A -> res B) y : bind r f = Ok y -> exists x, r = Ok x /\ f x = Ok y.
Proof. destruct r; cbn; [eauto|discriminate]. Qed.

Ltac inv_bind H :=
  match type of H with
  | bind _ _ = Ok _ => let x := fresh "x" in let E := fresh "E" in apply bind_ok in H as [x [E H]]
  end.

Lemma fitted_length k M step : forall ds ms x l, fitted_steps (T := xr) k M step x ms ds = Ok l -> length l = length ds.
Proof.
  induction ds as [|d ds IH]; intros ms x l E; [destruct ms; discriminate|].
  destruct ds as [|d' ds].
  - destruct ms; cbn in E; injection E as <-; reflexivity.
  - destruct ms as [|m ms]; [discriminate|].
    change (fitted_steps k M step x (m :: ms) (d :: d' :: ds)) with
      (rest <- fitted_steps k M step (x ⊗ get_dilution_factor step (M ⊕ m) ⊖ k ⊗ d ⊗ step)%num ms (d' :: ds) ;;
       Ok (x :: rest)) in E.
    inv_bind E. injection E as <-. cbn [length]. f_equal. exact (IH _ _ _ E0).
Qed.

Lemma nth_firstn {A} (l : list A) n j : (j < n)%nat -> nth_error (firstn n l) j = nth_error l j.
Proof. revert n l. induction j as [|j IH]; intros [|n] [|x l] Hj; try lia; try reflexivity. cbn. apply IH. lia. Qed.

Lemma nth_skipn {A} (l : list A) n j : nth_error (skipn n l) j = nth_error l (n + j).
Proof. revert l. induction n as [|n IH]; intros [|x l]; try reflexivity; [destruct j; reflexivity|]. cbn. apply IH. Qed.

(* A run in which every interpolation succeeds is the run with an interpolation that always does. *)
Lemma hires_total st pchip (f : list xr -> list xr -> xr -> xr) tm pH dicl fs k0s k1s k2s M c air split h :
  (forall xs ys qs l, pchip xs ys qs = Ok l -> l = map (f xs ys) qs) ->
  get_dic_loss_hires st pchip tm pH dicl fs k0s k1s k2s M c air split = Ok h ->
  get_dic_loss_hires st (fun xs ys qs => Ok (map (f xs ys) qs)) tm pH dicl fs k0s k1s k2s M c air split = Ok h.
Proof.
  intros Hf E. unfold get_dic_loss_hires in *. cbv zeta in *. unfold pchip1 in *.
  destruct (nanmax fs) as [mxf|]; cbn [bind] in *; [|discriminate].
  destruct (nmax tm) as [mxm|]; cbn [bind] in *; [|discriminate].
  destruct (arange _ _ _) as [a|]; cbn [bind] in *; [|discriminate].
  apply bind_ok in E as [a_pH [E0 E]]. apply Hf in E0. subst a_pH.
  apply bind_ok in E as [l1 [E1 E]]. apply Hf in E1. subst l1.
  apply bind_ok in E as [l2 [E2 E]]. apply Hf in E2. subst l2.
  apply bind_ok in E as [l3 [E3 E]]. apply Hf in E3. subst l3.
  apply bind_ok in E as [l4 [E4 E]]. apply Hf in E4. subst l4.
  apply bind_ok in E as [l5 [E5 E]]. apply Hf in E5. subst l5.
  apply bind_ok in E as [l6 [E6 E]]. apply Hf in E6. subst l6.
  apply bind_ok in E as [ml [Em E]]. rewrite Em. cbn [bind].
  apply bind_ok in E as [p1 [F1 E]]. apply bind_ok in F1 as [q1 [G1 F1]]. apply Hf in G1. subst q1. rewrite F1. cbn [bind].
  apply bind_ok in E as [p2 [F2 E]]. apply bind_ok in F2 as [q2 [G2 F2]]. apply Hf in G2. subst q2. rewrite F2. cbn [bind].
  apply bind_ok in E as [p3 [F3 E]]. apply bind_ok in F3 as [q3 [G3 F3]]. apply Hf in G3. subst q3. rewrite F3. cbn [bind].
  apply bind_ok in E as [p4 [F4 E]]. apply bind_ok in F4 as [q4 [G4 F4]]. apply Hf in G4. subst q4. rewrite F4. cbn [bind].
  exact E.
Qed.

(* ------------------------------------------------------------------ *)
(** * C79 *)

(* When the pH goes through the split value once, the arrays are aligned: the j-th delta_fCO2 is the
   measured one interpolated to the j-th titrant mass in the fitted part, and belongs to the j-th dic
   and to the pH and constants at the j-th titrant mass in the forecast part, except at the first
   forecast point (C80).  Missing: pH series that cross the split more than once, for which the claim
   is false (below). *)
Theorem C79_one_crossing_partial :
  forall st pchip (f : list xr -> list xr -> xr -> xr) tm pH dicl fs k0s k1s k2s M c air split h hi lo,
  (forall xs ys qs l, pchip xs ys qs = Ok l -> l = map (f xs ys) qs) ->
  get_dic_loss_hires st pchip tm pH dicl (map Fin fs) k0s k1s k2s M c (Fin air) (Fin split) = Ok h ->
  hr_pH h = map Fin hi ++ map Fin lo ->
  Forall (fun p => split <= p) hi -> Forall (fun p => p < split) lo ->
  length (hr_pH h) = length (hr_titrant_mass h) /\
  length (hr_dic h) = length (hr_titrant_mass h) /\
  length (hr_delta_fCO2 h) = length (hr_titrant_mass h) /\
  forall j m, nth_error (hr_titrant_mass h) j = Some m ->
    ((j < length hi)%nat ->
     nth_error (hr_delta_fCO2 h) j = Some (f tm (map Fin (map (fun x => x - air) fs)) m)) /\
    (forall x, (length hi < j)%nat -> nth_error (hr_dic h) j = Some x ->
     nth_error (hr_delta_fCO2 h) j =
     Some (nsub (get_fCO2_from_dic_pH x (f tm pH m) (f tm k0s m) (f tm k1s m) (f tm k2s m)) (Fin air))).
Proof.
  intros st pchip f tm pH dicl fs k0s k1s k2s M c air split h hi lo Hf E HpH Hhi Hlo.
  apply (hires_total _ _ f) in E; [|exact Hf]. clear Hf.
  assert (Hf : forall xs ys qs, (fun xs ys qs => Ok (map (f xs ys) qs)) xs ys qs = Ok (map (f xs ys) qs)) by reflexivity.
  revert E Hf. generalize (fun xs ys qs => Ok (map (f xs ys) qs)). clear pchip. intros pchip E Hf.
  unfold get_dic_loss_hires in E. cbv zeta in E. unfold pchip1 in E.
  inv_bind E. rewrite fill_nan_fin, map_fin_sub in E. set (dl := map Fin (map (fun x0 => x0 - air) fs)) in *.
  inv_bind E. inv_bind E. rename x1 into a_tm.
  rewrite !Hf in E. cbn [bind] in E. rewrite !Hf in E. cbn [bind] in E.
  set (a_pH := map (f tm pH) a_tm) in *.
  set (itm := mask (map (fun p => ngeb p (Fin split)) a_pH) a_tm) in *.
  set (ftm := mask (map (fun p => nltb p (Fin split)) a_pH) a_tm) in *.
  apply bind_ok in E as [mlast [Em E]]. rewrite !Hf in E. cbn [bind map nth_error of_opt] in E.
  apply bind_ok in E as [o [Eo E]]. apply bind_ok in E as [k [Ek E]]. apply bind_ok in E as [idic [Ei E]].
  apply bind_ok in E as [dlast [Ed E]]. apply bind_ok in E as [xlast [Ex E]].
  apply bind_ok in E as [[fdic fdelta] [Ef E]]. apply ok_inj in E. subst h.
  cbn [hr_pH hr_titrant_mass hr_dic hr_delta_fCO2] in *.
  pose proof (f_equal (@length xr) HpH) as HL. unfold a_pH in HL. rewrite map_length in HL.
  assert (Hitm : itm = firstn (length hi) a_tm).
  { unfold itm. rewrite HpH. rewrite <- (map_length Fin hi).
    apply mask_split; [assumption| |]; apply forallb_forall; intros y Hy; apply in_map_iff in Hy as [r [<- Hr]].
    - rewrite Forall_forall in Hhi. apply x_leb_fin_t. auto.
    - rewrite Forall_forall in Hlo. unfold ngeb. rewrite x_leb_fin_f; [reflexivity|auto]. }
  assert (Hftm : ftm = skipn (length hi) a_tm).
  { unfold ftm. rewrite HpH. rewrite <- (map_length Fin hi).
    apply mask_split_rest; [assumption| |]; apply forallb_forall; intros y Hy; apply in_map_iff in Hy as [r [<- Hr]].
    - rewrite Forall_forall in Hhi. rewrite x_ltb_fin_f; [reflexivity|auto].
    - rewrite Forall_forall in Hlo. apply x_ltb_fin_t. auto. }
  rewrite app_length, !map_length in HL.
  assert (L1 : length itm = length hi) by (rewrite Hitm, firstn_length; lia).
  assert (L2 : length ftm = length lo) by (rewrite Hftm, skipn_length; lia).
  pose proof (fitted_length _ _ _ _ _ _ _ Ei) as L3. rewrite map_length in L3.
  destruct (C80_later_steps_partial _ _ _ _ _ _ _ _ _ _ _ _ _ _ _ _ _ _ _ Ef) as [L4 [L5 Hlater]].
  rewrite !app_length, map_length.
  split; [unfold a_pH; apply map_length|]. split; [lia|]. split; [lia|].
  intros j m Hj. split.
  - intros Hjn. rewrite nth_error_app1 by (rewrite map_length; lia). apply map_nth_error.
    rewrite Hitm, nth_firstn by assumption. assumption.
  - intros x1 Hjn Hx1. rewrite nth_error_app2 in Hx1 by lia.
    rewrite nth_error_app2 by (rewrite map_length; lia). rewrite map_length.
    replace (length idic) with (length itm) in Hx1 by lia.
    assert (Hm : nth_error ftm (j - length itm) = Some m).
    { rewrite Hftm, nth_skipn. rewrite <- Hj. f_equal. lia. }
    apply Hlater; [lia|assumption| | | |]; apply map_nth_error; assumption.
Qed.
Print Assumptions C79_one_crossing_partial.

(* ------------------------------------------------------------------ *)
(** * Runs of the model *)

(* an optimiser that returns its starting point *)
Definition lazy_strategy : strategy xr := {| s_next := fun _ => None; s_pick := fun _ => 0%nat; s_max := 0 |}.

Definition pointwise (f : list R -> list R -> R -> R) (pchip : pchip_t xr) : Prop :=
  forall xs ys qs, StronglySorted Rlt xs -> length ys = length xs ->
    pchip (map Fin xs) (map Fin ys) (map Fin qs) = Ok (map Fin (map (f xs ys) qs)).

Lemma pyindex_last {A} (l : list A) : (0 < length l)%nat -> exists x, pyindex l (-1) = Some x.
Proof.
  intros Hl. unfold pyindex. change (-1 <? 0)%Z with true. cbv iota.
  destruct (-1 + Z.of_nat (length l) <? 0)%Z eqn:E; [apply Z.ltb_lt in E; lia|].
  destruct (nth_error l (Z.to_nat (-1 + Z.of_nat (length l)))) eqn:N; [eauto|].
  apply nth_error_None in N. lia.
Qed.

Lemma hires_run f pchip tm pH dicl fs k0s k1s k2s M c air split mx step10 a itm ftm m0 :
  pointwise f pchip -> StronglySorted Rlt tm ->
  length pH = length tm -> length dicl = length tm -> length fs = length tm -> length k0s = length tm ->
  length k1s = length tm -> length k2s = length tm ->
  0 < M -> 0 < step10 -> Forall (fun m => 0 <= m) a ->
  nmax (map Fin tm) = Ok (Fin mx) -> median (diff (map Fin tm)) = Fin step10 ->
  arange (Fin 0) (Fin mx) (Fin (step10 / 10)) = Ok (map Fin a) ->
  mask (map (fun p => ngeb p (Fin split)) (map Fin (map (f tm pH) a))) (map Fin a) = map Fin (itm ++ [m0]) ->
  mask (map (fun p => nltb p (Fin split)) (map Fin (map (f tm pH) a))) (map Fin a) = map Fin ftm ->
  ftm <> [] -> Forall (fun m => 0 <= m) (itm ++ [m0]) ->
  exists h, get_dic_loss_hires lazy_strategy pchip (map Fin tm) (map Fin pH) (map Fin dicl) (map Fin fs)
      (map Fin k0s) (map Fin k1s) (map Fin k2s) (Fin M) (Fin c) (Fin air) (Fin split) = Ok h /\
    hr_titrant_mass h = map Fin a /\ hr_pH h = map Fin (map (f tm pH) a) /\
    exists rest, hr_delta_fCO2 h = map Fin (map (f tm (map (fun x => x - air) fs)) (itm ++ [m0])) ++ rest.
Proof.
  intros Hf Hs L1 L2 L3 L4 L5 L6 HM Hst Ha Emx Emed Ear Ei Ef Hne Hi.
  unfold get_dic_loss_hires. cbv zeta. unfold pchip1.
  rewrite !fill_nan_fin. 
  assert (Hfs : fs <> []). { intros ->. destruct tm; [discriminate Emx|discriminate L3]. }
  destruct (nanmax_fin fs Hfs) as [mm Emm]. rewrite Emm. cbn [bind].
  rewrite Emx. cbn [bind]. rewrite fill_nan_fin, map_fin_sub, Emed, fin_q, fin_div by (q2r; lra).
  rewrite fin_n0. replace (Q2R 10) with 10 by (q2r; lra). rewrite Ear. cbn [bind].
  rewrite (Hf tm pH a) by assumption. cbn [bind]. rewrite Ei, Ef.
  rewrite (Hf tm dicl (itm ++ [m0])) by assumption. cbn [bind].
  rewrite (Hf tm (map (fun x => x - air) fs) (itm ++ [m0])) by (try rewrite map_length; assumption). cbn [bind].
  rewrite (Hf tm pH ftm) by assumption. cbn [bind].
  rewrite (Hf tm k0s ftm) by assumption. cbn [bind].
  rewrite (Hf tm k1s ftm) by assumption. cbn [bind].
  rewrite (Hf tm k2s ftm) by assumption. cbn [bind].
  assert (Hlast : forall l : list R, pyindex (map Fin (l ++ [m0])) (-1) = Some (Fin m0)).
  { intros l. unfold pyindex. rewrite map_length, app_length. cbn [length]. change (-1 <? 0)%Z with true.
    cbv iota. destruct (-1 + Z.of_nat (length l + 1) <? 0)%Z eqn:E; [apply Z.ltb_lt in E; lia|].
    replace (Z.to_nat (-1 + Z.of_nat (length l + 1))) with (length l) by lia.
    rewrite map_app, nth_error_app2, map_length, Nat.sub_diag by (rewrite map_length; lia). reflexivity. }
  rewrite Hlast. cbn [of_opt bind].
  assert (Hf1 : forall ys, length ys = length tm -> pchip (map Fin tm) (map Fin ys) [Fin m0] = Ok [Fin (f tm ys m0)])
    by (intros ys Hy; exact (Hf tm ys [m0] Hs Hy)).
  rewrite (Hf1 pH) by assumption. cbn [bind map nth_error of_opt].
  rewrite (Hf1 k0s) by assumption. cbn [bind map nth_error of_opt].
  rewrite (Hf1 k1s) by assumption. cbn [bind map nth_error of_opt].
  rewrite (Hf1 k2s) by assumption. cbn [bind map nth_error of_opt].
  set (dl := map (f tm (map (fun x => x - air) fs)) (itm ++ [m0])).
  set (dd := map (f tm dicl) (itm ++ [m0])).
  assert (Ldl : length dl = length (itm ++ [m0])) by apply map_length.
  assert (Ldd : length dd = length (itm ++ [m0])) by apply map_length.
  assert (Hdl : dl <> []). { intros E. rewrite E, app_length in Ldl. cbn in Ldl. lia. }
  destruct (C77_affine_in_k M (step10 / 10) c (itm ++ [m0]) dl HM ltac:(lra) Hi Hdl ltac:(lia))
    as [b [s [Lb [Ls [Eaff _]]]]].
  unfold least_squares. rewrite fin_n1. cbn [existsb]. rewrite fin_isnan. cbn [orb].
  unfold lsqfun_dic_loss_model at 1. rewrite (Eaff 1). cbn [bind].
  assert (Lab : length (affine 1 b s) = length dd) by (rewrite affine_length; congruence).
  rewrite !map_length, Lab, Nat.eqb_refl. rewrite map2_fin_sub.
  replace (forallb nisfinite (map Fin (map2 Rminus (affine 1 b s) dd))) with true
    by (symmetry; apply forallb_forall; intros y Hy; apply in_map_iff in Hy as [r [<- _]]; reflexivity).
  cbn [lsq_loop s_max lazy_strategy snd s_pick nth fst or_x bind nth_error of_opt].
  rewrite (Eaff 1). cbn [bind].
  destruct (pyindex_last (map Fin dl)) as [dlast Edl]; [rewrite map_length, Ldl, app_length; cbn; lia|].
  rewrite Edl. cbn [of_opt bind].
  destruct (pyindex_last (map Fin (affine 1 b s))) as [xlast Exl]; [rewrite map_length, Lab, Ldd, app_length; cbn; lia|].
  rewrite Exl.
  cbn [of_opt bind]. unfold dic_loss_model_future.
  rewrite !map_length, Nat.eqb_refl. cbn [andb negb].
  destruct ftm as [|mf ftm]; [contradiction|]. cbn [map].
  destruct (future_steps _ _ _ _ _ _ _ _) as [fd fdelta]. cbn [bind].
  eexists. split; [reflexivity|]. repeat split. eexists. reflexivity.
Qed.

(* ------------------------------------------------------------------ *)
(** * Piecewise linear interpolation is shape preserving *)

Fixpoint plin (xs ys : list R) (x : R) : R :=
  match xs, ys with
  | x1 :: ((x2 :: _) as xs'), y1 :: ((y2 :: _) as ys') =>
      if Rle_dec x x2 then y1 + (y2 - y1) * ((x - x1) / (x2 - x1)) else plin xs' ys' x
  | _, y1 :: _ => y1
  | _, [] => 0
  end.

Lemma plin_cons x1 x2 xs y1 y2 ys x :
  plin (x1 :: x2 :: xs) (y1 :: y2 :: ys) x =
  if Rle_dec x x2 then y1 + (y2 - y1) * ((x - x1) / (x2 - x1)) else plin (x2 :: xs) (y2 :: ys) x.
Proof. reflexivity. Qed.

Lemma sorted_nth_lt xs : StronglySorted Rlt xs -> forall i j x y,
  nth_error xs i = Some x -> nth_error xs j = Some y -> (i < j)%nat -> x < y.
Proof.
  induction 1 as [|a xs Hs IH Ha]; intros i j x y Hi Hj Hij; [destruct i; discriminate|].
  destruct j as [|j]; [lia|]. cbn in Hj. destruct i as [|i].
  - cbn in Hi. injection Hi as ->. rewrite Forall_forall in Ha. apply Ha. eapply nth_error_In. eassumption.
  - cbn in Hi. apply (IH i j); try assumption. lia.
Qed.

Lemma between_mix y1 y2 t : 0 <= t <= 1 -> between (y1 + (y2 - y1) * t) y1 y2.
Proof.
  intros Ht. unfold between, Rmin, Rmax. destruct (Rle_dec y1 y2); nra.
Qed.

Lemma plin_shape : shape_preserving plin.
Proof.
  constructor.
  - induction xs as [|x1 xs IH]; intros ys i x y Hs Hl Hi Hy; [destruct i; discriminate|].
    destruct ys as [|y1 ys]; [discriminate|].
    destruct xs as [|x2 xs].
    + destruct i as [|i]; [|destruct i; discriminate]. cbn in Hy. injection Hy as ->. reflexivity.
    + destruct ys as [|y2 ys]; [discriminate|]. rewrite plin_cons.
      inversion Hs as [|? ? Hs' Hx1]. subst. inversion Hx1. subst.
      destruct i as [|[|i]].
      * cbn in Hi, Hy. injection Hi as ->. injection Hy as ->. destruct (Rle_dec x x2); [field; lra|lra].
      * cbn in Hi, Hy. injection Hi as ->. injection Hy as ->. destruct (Rle_dec x x); [field; lra|lra].
      * assert (x2 < x). { apply (sorted_nth_lt (x2 :: xs) Hs' 0 (S i)); [reflexivity|exact Hi|lia]. }
        destruct (Rle_dec x x2); [lra|]. apply (IH (y2 :: ys) (S i)); try assumption. cbn in *. lia.
  - induction xs as [|x1 xs IH]; intros ys i xa xb ya yb x Hs Hl Ha Hb Hya Hyb Hx; [destruct i; discriminate|].
    destruct ys as [|y1 ys]; [discriminate|].
    destruct xs as [|x2 xs]; [destruct i; discriminate|].
    destruct ys as [|y2 ys]; [discriminate|]. rewrite plin_cons.
    inversion Hs as [|? ? Hs' Hx1]. subst. inversion Hx1. subst.
    destruct i as [|i].
    + cbn in Ha, Hb, Hya, Hyb. injection Ha as ->. injection Hb as ->. injection Hya as ->. injection Hyb as ->.
      destruct (Rle_dec x xb); [|lra]. apply between_mix.
      assert (Hd : 0 < / (xb - xa)) by (apply Rinv_0_lt_compat; lra).
      split; [apply Rmult_le_pos; lra|]. apply (Rmult_le_reg_r (xb - xa)); [lra|].
      unfold Rdiv. rewrite Rmult_assoc, Rinv_l by lra. lra.
    + destruct (Rle_dec x x2) as [Hle|Hgt].
      * assert (xa = x2 /\ i = 0%nat).
        { destruct i as [|i]; [cbn in Ha; injection Ha as ->; auto|].
          assert (x2 < xa) by (apply (sorted_nth_lt (x2 :: xs) Hs' 0 (S i)); [reflexivity|exact Ha|lia]). lra. }
        destruct H as [-> ->]. cbn in Hya. injection Hya as ->. assert (x = x2) by lra. subst x.
        replace (y1 + (ya - y1) * ((x2 - x1) / (x2 - x1))) with (ya + (yb - ya) * 0) by (field; lra).
        apply between_mix. lra.
      * apply (IH (y2 :: ys) i xa xb); try assumption. cbn in *. lia.
  - induction xs as [|x1 xs IH]; intros a b lo hi x Hs Hlo Hhi Hx; [discriminate|].
    destruct xs as [|x2 xs].
    + cbn in Hlo, Hhi. injection Hlo as ->. injection Hhi as ->. cbn. assert (x = hi) by lra. subst. reflexivity.
    + cbn [map]. rewrite plin_cons. inversion Hs as [|? ? Hs' Hx1]. subst. inversion Hx1. subst.
      cbn in Hlo. injection Hlo as ->.
      destruct (Rle_dec x x2); [field; lra|].
      apply (IH a b x2 hi x Hs'); [reflexivity|exact Hhi|lra].
Qed.

(* ------------------------------------------------------------------ *)
(** * C79 refuted when the pH crosses the split more than once *)

Lemma mask_true {A B} (g : A -> B) l : mask (map (fun _ => true) l) (map g l) = map g l.
Proof. induction l as [|x l IH]; [reflexivity|]. cbn. rewrite IH. reflexivity. Qed.
Lemma mask_false {A B} (g : A -> B) l : mask (map (fun _ => false) l) (map g l) = [].
Proof. induction l as [|x l IH]; [reflexivity|]. cbn. assumption. Qed.

Lemma insert_hit a b l : a <= b -> insert (Fin a) (Fin b :: l) = Fin a :: Fin b :: l.
Proof. intros Hab. cbn [insert]. rewrite x_leb_fin_t by assumption. reflexivity. Qed.

Lemma grid_int n : grid (10 / 10) n = map INR (seq 0 n).
Proof. unfold grid. apply map_ext. intros i. field. Qed.

(* selecting from 0, 1, 2, ... when the second value is on the other side *)
Lemma mask_dip (P : xr -> bool) (hi lo : R) (g : nat -> R) s : P (Fin hi) = true -> P (Fin lo) = false ->
  mask (map P (map Fin (hi :: lo :: map (fun _ => hi) s))) (map Fin (g 0%nat :: g 1%nat :: map g s))
  = map Fin (g 0%nat :: map g s).
Proof.
  intros Hh Hl. cbn [map mask]. rewrite Hh, Hl. f_equal. rewrite !map_map.
  rewrite (map_ext (fun _ : nat => P (Fin hi)) (fun _ => true)) by (intros; assumption).
  rewrite <- (mask_true (fun x => Fin (g x)) s) at 2. reflexivity.
Qed.
Lemma mask_dip' (P : xr -> bool) (hi lo : R) (g : nat -> R) s : P (Fin hi) = false -> P (Fin lo) = true ->
  mask (map P (map Fin (hi :: lo :: map (fun _ => hi) s))) (map Fin (g 0%nat :: g 1%nat :: map g s))
  = map Fin [g 1%nat].
Proof.
  intros Hh Hl. cbn [map mask]. rewrite Hh, Hl. f_equal. rewrite !map_map.
  rewrite (map_ext (fun _ : nat => P (Fin hi)) (fun _ => false)) by (intros; assumption).
  exact (mask_false (fun x => Fin (g x)) s).
Qed.

Theorem C79_alignment_refuted : forall f pchip, shape_preserving f -> pointwise f pchip ->
  exists st tm pH dicl fs k0s k1s k2s M c h j m p d,
    get_dic_loss_hires st pchip (map Fin tm) (map Fin pH) (map Fin dicl) (map Fin fs)
      (map Fin k0s) (map Fin k1s) (map Fin k2s) (Fin M) (Fin c) (Fin 450) (Fin 5.5) = Ok h /\
    nth_error (hr_titrant_mass h) j = Some (Fin m) /\
    nth_error (hr_pH h) j = Some (Fin p) /\ 5.5 <= p /\
    nth_error (hr_delta_fCO2 h) j = Some (Fin d) /\
    d <> f tm (map (fun x => x - 450) fs) m.
Proof.
  intros f pchip Hsp Hf.
  set (tm := [0; 1; 2; 12; 22; 32]). set (pH := [8; 3; 8; 8; 8; 8]).
  set (fs := map (fun x => 1 * x + 450) tm). set (one := [1; 1; 1; 1; 1; 1]).
  assert (Hs : StronglySorted Rlt tm) by (unfold tm; repeat constructor; lra).
  assert (F0 : f tm pH 0 = 8) by (apply (sp_knots _ Hsp _ _ 0); trivial).
  assert (F1 : f tm pH 1 = 3) by (apply (sp_knots _ Hsp _ _ 1); trivial).
  assert (F2 : forall x, 2 <= x <= 32 -> f tm pH x = 8).
  { assert (B : forall i x1 x2 x, nth_error tm i = Some x1 -> nth_error tm (S i) = Some x2 ->
      nth_error pH i = Some 8 -> nth_error pH (S i) = Some 8 -> x1 <= x <= x2 -> f tm pH x = 8).
    { intros i x1 x2 x A1 A2 A3 A4 A5.
      pose proof (sp_between _ Hsp tm pH i x1 x2 8 8 x Hs eq_refl A1 A2 A3 A4 A5) as Q.
      unfold between, Rmin, Rmax in Q. destruct (Rle_dec 8 8); lra. }
    intros x Hx. destruct (Rle_dec x 12); [apply (B 2%nat 2 12); trivial; lra|].
    destruct (Rle_dec x 22); [apply (B 3%nat 12 22); trivial; lra|apply (B 4%nat 22 32); trivial; lra]. }
  assert (Fd : forall x, 0 <= x <= 32 -> f tm (map (fun x => x - 450) fs) x = x).
  { intros x Hx. replace (map (fun x => x - 450) fs) with (map (fun x => 1 * x + 0) tm).
    2:{ unfold fs. rewrite map_map. apply map_ext. intros; ring. }
    rewrite (sp_lines _ Hsp tm 1 0 0 32 x Hs); trivial; lra. }
  destruct (arange_grid 32 (10 / 10) ltac:(lra) ltac:(lra)) as [n [Ear Hn]].
  assert (n = 32%nat).
  { replace (32 / (10 / 10)) with 32 in Hn by field. 
    assert (A : INR n < INR 33) by (rewrite (INR_IZR_INZ 33); cbn [Z.of_nat Pos.of_succ_nat Pos.succ]; lra).
    assert (B : INR 32 <= INR n) by (rewrite (INR_IZR_INZ 32); cbn [Z.of_nat Pos.of_succ_nat Pos.succ]; lra).
    apply INR_lt in A. apply INR_le in B. lia. }
  subst n. rewrite grid_int in Ear.
  set (a := map INR (seq 0 32)) in *.
  assert (Ea : a = INR 0 :: INR 1 :: map INR (seq 2 30)) by reflexivity.
  assert (Eitm : map Fin (INR 0 :: map INR (seq 2 30)) = map Fin ((0 :: map INR (seq 2 29)) ++ [31])).
  { f_equal. change (seq 2 30) with (seq 2 29 ++ [31%nat]). rewrite map_app. cbn [map app].
    rewrite (INR_IZR_INZ 31). reflexivity. }
  clearbody a.
  assert (Hafter : forall i, (2 <= i <= 31)%nat -> f tm pH (INR i) = 8).
  { intros i Hi. apply F2. split.
    - replace 2 with (INR 2) by (cbn; ring). apply le_INR. lia.
    - replace 32 with (INR 32) by (rewrite INR_IZR_INZ; reflexivity). apply le_INR. lia. }
  assert (EpH : map (f tm pH) a = 8 :: 3 :: map (fun _ => 8) (seq 2 30)).
  { rewrite Ea. cbn [map]. change (INR 0) with 0.
    change (INR 1) with 1. rewrite F0, F1. f_equal. f_equal. rewrite map_map. apply map_ext_in.
    intros i Hi. apply in_seq in Hi. apply Hafter. lia. }
  assert (Eh : ngeb (Fin 8) (Fin 5.5) = true) by (apply x_leb_fin_t; q2r; lra).
  assert (El : ngeb (Fin 3) (Fin 5.5) = false) by (apply x_leb_fin_f; q2r; lra).
  assert (Eh' : nltb (Fin 8) (Fin 5.5) = false) by (apply x_ltb_fin_f; q2r; lra).
  assert (El' : nltb (Fin 3) (Fin 5.5) = true) by (apply x_ltb_fin_t; q2r; lra).
  destruct (hires_run f pchip tm pH one fs one one one 100 0 450 5.5 32 10 a (0 :: map INR (seq 2 29)) [1] 31 Hf Hs)
    as [h [E [Etm [EpHs [rest Ed]]]]]; try reflexivity; try lra.
  - rewrite Ea. apply Forall_forall. intros x Hx. change (INR 0 :: INR 1 :: map INR (seq 2 30)) with (map INR (seq 0 32)) in Hx.
    apply in_map_iff in Hx as [i [<- _]]. apply pos_INR.
  - unfold tm. cbn [map nmax fold_left]. unfold nmax2. rewrite !fin_isnan.
    rewrite (x_ltb_fin_t 0 1), !fin_isnan, (x_ltb_fin_t 1 2), !fin_isnan, (x_ltb_fin_t 2 12), !fin_isnan,
      (x_ltb_fin_t 12 22), !fin_isnan, (x_ltb_fin_t 22 32) by lra. reflexivity.
  - unfold tm. cbn [map diff]. rewrite !fin_sub.
    replace (1 - 0) with 1 by ring. replace (2 - 1) with 1 by ring. replace (12 - 2) with 10 by ring.
    replace (22 - 12) with 10 by ring. replace (32 - 22) with 10 by ring.
    unfold median. cbn [existsb]. rewrite !fin_isnan. cbn [orb]. unfold sort. cbn [fold_right].
    change (insert (Fin 10) []) with [Fin 10]. rewrite !insert_hit by lra. reflexivity.
  - exact Ear.
  - rewrite EpH, Ea. exact (eq_trans (mask_dip (fun p => ngeb p (Fin 5.5)) 8 3 INR (seq 2 30) Eh El) Eitm).
  - rewrite EpH, Ea. exact (mask_dip' (fun p => nltb p (Fin 5.5)) 8 3 INR (seq 2 30) Eh' El').
  - discriminate.
  - apply Forall_app. split; [|repeat constructor; lra]. constructor; [lra|].
    apply Forall_forall. intros x Hx. apply in_map_iff in Hx as [i [<- _]]. apply pos_INR.
  - exists lazy_strategy, tm, pH, one, fs, one, one, one, 100, 0, h, 2%nat, (INR 2), 8, (INR 3).
    split; [exact E|]. rewrite Etm, EpHs, EpH, Ed, Ea. repeat split; try (q2r; lra).
    + cbn [seq map app nth_error]. rewrite Fd; [reflexivity|]. cbn. lra.
    + rewrite Fd by (cbn; lra). cbn. lra.
Qed.
Print Assumptions C79_alignment_refuted.

(* piecewise linear interpolation as an oracle *)
Definition real (x : xr) : R := match x with Fin r => r | _ => 0 end.
Definition plin_oracle : pchip_t xr :=
  fun xs ys qs => Ok (map (fun q => Fin (plin (map real xs) (map real ys) (real q))) qs).

Lemma map_real l : map real (map Fin l) = l.
Proof. rewrite map_map. apply map_id. Qed.

Lemma plin_pointwise : pointwise plin plin_oracle.
Proof.
  intros xs ys qs _ _. unfold plin_oracle. rewrite !map_real, !map_map. reflexivity.
Qed.

Example C79_nonvacuous : shape_preserving plin /\ pointwise plin plin_oracle.
Proof. split; [exact plin_shape|exact plin_pointwise]. Qed.

(* a titration whose pH falls through 5.5 once *)
Lemma one_crossing_run pchip : pointwise plin pchip -> exists h hi lo,
  get_dic_loss_hires lazy_strategy pchip (map Fin [0; 10; 20]) (map Fin [8; 3; 3]) (map Fin [1; 1; 1])
    (map Fin [500; 600; 700]) (map Fin [1; 1; 1]) (map Fin [1; 1; 1]) (map Fin [1; 1; 1]) (Fin 100) (Fin 1)
    (Fin 450) (Fin 5.5) = Ok h /\
  hr_pH h = map Fin hi ++ map Fin lo /\
  Forall (fun p => 5.5 <= p) hi /\ Forall (fun p => p < 5.5) lo /\ (length hi = 6 /\ length lo = 14)%nat.
Proof.
  intros Hpw. set (tm := [0; 10; 20]). set (pH := [8; 3; 3]).
  assert (Hs : StronglySorted Rlt tm) by (unfold tm; repeat constructor; lra).
  destruct (arange_grid 20 (10 / 10) ltac:(lra) ltac:(lra)) as [n [Ear Hn]].
  assert (n = 20%nat).
  { replace (20 / (10 / 10)) with 20 in Hn by field.
    assert (A : INR n < INR 21) by (rewrite (INR_IZR_INZ 21); cbn [Z.of_nat Pos.of_succ_nat Pos.succ]; lra).
    assert (B : INR 20 <= INR n) by (rewrite (INR_IZR_INZ 20); cbn [Z.of_nat Pos.of_succ_nat Pos.succ]; lra).
    apply INR_lt in A. apply INR_le in B. lia. }
  subst n. rewrite grid_int in Ear.
  set (g := fun i => plin tm pH (INR i)).
  assert (Ghi : forall i, (i <= 5)%nat -> 5.5 <= g i).
  { intros i Hi. assert (INR i <= 5).
    { replace 5 with (INR 5) by (rewrite INR_IZR_INZ; reflexivity). apply le_INR. assumption. }
    pose proof (pos_INR i). unfold g, tm, pH. rewrite plin_cons. destruct (Rle_dec (INR i) 10); [|lra].
    replace (8 + (3 - 8) * ((INR i - 0) / (10 - 0))) with (8 - INR i / 2) by field. q2r. lra. }
  assert (Glo : forall i, (6 <= i <= 19)%nat -> g i < 5.5).
  { intros i [Hi Hi']. assert (6 <= INR i).
    { replace 6 with (INR 6) by (rewrite INR_IZR_INZ; reflexivity). apply le_INR. assumption. }
    assert (INR i <= 19).
    { replace 19 with (INR 19) by (rewrite INR_IZR_INZ; reflexivity). apply le_INR. assumption. }
    unfold g, tm, pH. rewrite plin_cons. destruct (Rle_dec (INR i) 10).
    - replace (8 + (3 - 8) * ((INR i - 0) / (10 - 0))) with (8 - INR i / 2) by field. q2r. lra.
    - rewrite plin_cons. destruct (Rle_dec (INR i) 20); [|lra].
      replace (3 + (3 - 3) * ((INR i - 10) / (20 - 10))) with 3 by field. q2r. lra. }
  assert (Eg : map (plin tm pH) (map INR (seq 0 20)) = map g (seq 0 6) ++ map g (seq 6 14)).
  { rewrite map_map, <- map_app. reflexivity. }
  clearbody g.
  set (hi := map g (seq 0 6)) in *. set (lo := map g (seq 6 14)) in *.
  assert (Hhi : Forall (fun p => 5.5 <= p) hi).
  { apply Forall_forall. intros p Hp. apply in_map_iff in Hp as [i [<- Hi]]. apply in_seq in Hi. apply Ghi. lia. }
  assert (Hlo : Forall (fun p => p < 5.5) lo).
  { apply Forall_forall. intros p Hp. apply in_map_iff in Hp as [i [<- Hi]]. apply in_seq in Hi. apply Glo. lia. }
  assert (Lhi : length hi = 6%nat) by reflexivity. assert (Llo : length lo = 14%nat) by reflexivity.
  clearbody hi lo.
  assert (La : length (map Fin (map INR (seq 0 20))) = length (map Fin hi ++ map Fin lo)).
  { rewrite app_length, !map_length, Lhi, Llo. reflexivity. }
  rewrite Forall_forall in Hhi, Hlo.
  destruct (hires_run plin pchip tm pH [1; 1; 1] [500; 600; 700] [1; 1; 1] [1; 1; 1] [1; 1; 1] 100 1 450 5.5
              20 10 (map INR (seq 0 20)) (map INR (seq 0 5)) (map INR (seq 6 14)) (INR 5) Hpw Hs)
    as [h [E [_ [Eh _]]]]; try reflexivity; try lra.
  - apply Forall_forall. intros x Hx. apply in_map_iff in Hx as [i [<- _]]. apply pos_INR.
  - unfold tm. cbn [map nmax fold_left]. unfold nmax2. rewrite !fin_isnan.
    rewrite (x_ltb_fin_t 0 10), !fin_isnan, (x_ltb_fin_t 10 20) by lra. reflexivity.
  - unfold tm. cbn [map diff]. rewrite !fin_sub.
    replace (10 - 0) with 10 by ring. replace (20 - 10) with 10 by ring.
    unfold median. cbn [existsb]. rewrite !fin_isnan. cbn [orb]. unfold sort. cbn [fold_right].
    change (insert (Fin 10) []) with [Fin 10]. rewrite insert_hit by lra.
    cbn [length Nat.odd Nat.even negb Nat.div2 nth Nat.sub]. rewrite fin_add, fin_Z, fin_div by lra. f_equal. field.
  - exact Ear.
  - rewrite Eg, map_app. rewrite mask_split.
    + rewrite map_length, Lhi. change (map INR (seq 0 5) ++ [INR 5]) with (map INR (seq 0 6)). reflexivity.
    + exact La.
    + apply forallb_forall. intros y Hy. apply in_map_iff in Hy as [r [<- Hr]]. apply x_leb_fin_t. auto.
    + apply forallb_forall. intros y Hy. apply in_map_iff in Hy as [r [<- Hr]].
      unfold ngeb. rewrite x_leb_fin_f by auto. reflexivity.
  - rewrite Eg, map_app. rewrite mask_split_rest.
    + rewrite map_length, Lhi. reflexivity.
    + exact La.
    + apply forallb_forall. intros y Hy. apply in_map_iff in Hy as [r [<- Hr]]. rewrite x_ltb_fin_f by auto. reflexivity.
    + apply forallb_forall. intros y Hy. apply in_map_iff in Hy as [r [<- Hr]]. apply x_ltb_fin_t. auto.
  - discriminate.
  - change (map INR (seq 0 5) ++ [INR 5]) with (map INR (seq 0 6)).
    apply Forall_forall. intros x Hx. apply in_map_iff in Hx as [i [<- _]]. apply pos_INR.
  - exists h, hi, lo. split; [exact E|]. rewrite Eh, Eg, map_app.
    repeat split; try assumption; apply Forall_forall; assumption.
Qed.

Example C79_nonvacuous_partial : exists h hi lo,
  (forall xs ys qs, plin_oracle xs ys qs =
     Ok (map ((fun xs ys q => Fin (plin (map real xs) (map real ys) (real q))) xs ys) qs)) /\
  get_dic_loss_hires lazy_strategy plin_oracle (map Fin [0; 10; 20]) (map Fin [8; 3; 3]) (map Fin [1; 1; 1])
    (map Fin [500; 600; 700]) (map Fin [1; 1; 1]) (map Fin [1; 1; 1]) (map Fin [1; 1; 1]) (Fin 100) (Fin 1)
    (Fin 450) (Fin 5.5) = Ok h /\
  hr_pH h = map Fin hi ++ map Fin lo /\
  Forall (fun p => 5.5 <= p) hi /\ Forall (fun p => p < 5.5) lo /\ (length hi = 6 /\ length lo = 14)%nat.
Proof.
  destruct (one_crossing_run _ plin_pointwise) as [h [hi [lo R]]]. exists h, hi, lo. split; [reflexivity|exact R].
Qed.
