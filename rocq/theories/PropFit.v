(* PropFit.v -- C98: what a fitted alkalinity means *)
From Coq Require Import Reals Qreals Lra.
From Verif Require Export PropOrder PropEmf.
Open Scope list_scope.
Open Scope R_scope.

Definition sum_of_squares (l : list R) : R := fold_right Rplus 0 (map (fun v => v * v) l).

(* the residuals that solve_emf minimises, at another alkalinity (mol/kg) and the returned EMF0 *)
Definition residuals_at (r : emf_result xr) (n : xr) (A : R) : res (list xr) :=
  lsqfun_solve_emf (se_titrant_molinity r) (mask (se_used r) (se_titrant_mass r)) (mask (se_used r) (se_emf r))
    (mask (se_used r) (se_temperature r)) (se_analyte_mass r)
    (dmap (nd_mask (se_used r)) (se_totals r)) (dmap (nd_mask (se_used r)) (se_k_constants r)) n [Fin A; se_emf0 r].

Lemma once_echo st (c : xr) tm emf temps M totals ks ai ei logic pmin pmax n r :
  solve_emf_once st c tm emf temps M totals ks ai ei logic pmin pmax n = Ok r ->
  se_titrant_molinity r = c /\ se_titrant_mass r = tm /\ se_emf r = emf /\ se_temperature r = temps /\
  se_analyte_mass r = M /\ se_totals r = totals /\ se_k_constants r = ks.
Proof.
  unfold solve_emf_once. intros Hr. apply bind_ok in Hr as [gg [_ Hr]]. apply bind_ok in Hr as [? [_ Hr]].
  destruct (negb _); [discriminate|]. apply bind_ok in Hr as [o [_ Hr]]. apply bind_ok in Hr as [a [_ Hr]].
  apply bind_ok in Hr as [e0 [_ Hr]]. apply bind_ok in Hr as [l [_ Hr]]. injection Hr as <-. cbn. auto 10.
Qed.

Definition df (M m : R) : R := M / (m + M).

Lemma add_fin_l x b c : x ⊕ Fin b = Fin c -> exists a, x = Fin a.
Proof. destruct x; cbn; intros E; try discriminate E; eauto. Qed.
Lemma mul_fin_l x b c : x ⊗ Fin b = Fin c -> exists a, x = Fin a.
Proof. destruct x; cbn; unfold inf_times; intros E; eauto; repeat destruct (rltb _ _) in E; discriminate E. Qed.
Lemma mul_fin_r x b c : Fin b ⊗ x = Fin c -> exists a, x = Fin a.
Proof. destruct x; cbn; unfold inf_times; intros E; eauto; repeat destruct (rltb _ _) in E; discriminate E. Qed.
Lemma div_fin_l x b c : x ⊘ Fin b = Fin c -> exists a, x = Fin a.
Proof.
  destruct x; cbn; unfold inf_times; intros E; eauto;
    repeat match type of E with context [if ?q then _ else _] => destruct q end; discriminate E.
Qed.

Lemma estimate_inv s m M c n a : 0 < M -> 0 <= m -> estimate s (Fin m) (Fin M) (Fin c) (Fin n) = Fin a ->
  s = Fin ((a / 1000000 * M - m * c * n) / (m + M)).
Proof.
  intros HM Hm E. assert (Hs : exists s', s = Fin s').
  { unfold estimate in E. rewrite df_fin in E by lra. rewrite !fin_mul, fin_add, fin_div in E by lra.
    apply div_fin_l in E as [q E]. change (@nofQ xr _ 1000000) with (Fin (Q2R 1000000)) in E.
    apply mul_fin_r in E as [q' E]. now apply add_fin_l in E. }
  destruct Hs as [s' ->]. rewrite estimate_fin in E by assumption. injection E as <-. f_equal. field. lra.
Qed.

(** Every residual is the distance of one estimate from the fitted alkalinity, diluted. *)
Lemma residuals_are st c tm emf temps M totals ks ai double ei logic pmin pmax n r est :
  masses_ok tm M ->
  solve_emf st (Fin c) (map Fin tm) emf temps (Fin M) totals ks ai double ei logic pmin pmax (Fin n) = Ok r ->
  se_alkalinity_all r = map Fin est ->
  length est = length tm /\ length (se_used r) = length tm /\
  (forall A, residuals_at r (Fin n) A = Ok (map Fin (map2 (fun a m => df M m * (a / 1000000 - A)) (mask (se_used r) est) (mask (se_used r) tm)))) /\
  (forall A, se_alkalinity r = Fin (1000000 * A) -> residuals_at r (Fin n) A = Ok (or_fun (se_opt_result r))).
Proof.
  intros [HM Htm] Hr Hest. apply solve_emf_inv in Hr as [ai' [ei' [logic' Hr]]].
  pose proof (once_echo _ _ _ _ _ _ _ _ _ _ _ _ _ _ _ Hr) as [E1 [E2 [E3 [E4 [E5 [E6 E7]]]]]].
  apply once_inv in Hr as [_ [He [Ht [Hu [Hft [Hfk [[a [Hx Ha]] [Hfun [HpH [Hall Hstd]]]]]]]]]].
  rewrite map_length in He, Ht.
  assert (Hlu : length (se_used r) = length tm).
  { rewrite Hu. unfold in_window, emf_to_pH_arr. rewrite map_length, map2_length by congruence. assumption. }
  assert (Hlp : length (se_pH r) = length tm).
  { rewrite HpH. unfold emf_to_pH_arr. rewrite map2_length by congruence. assumption. }
  assert (Hlp' : length (se_pH r) = length (map Fin tm)) by (rewrite map_length; exact Hlp).
  destruct (alkalinity_all_spec _ _ _ _ _ _ _ _ Hlp' Hall) as [_ [_ [Hla Hpa]]].
  rewrite Hest, !map_length in Hla.
  split; [assumption|]. split; [assumption|].
  unfold residuals_at. rewrite E1, E2, E3, E4, E5, E6, E7. rewrite Hx in Hfun.
  set (u := se_used r) in *.
  unfold lsqfun_solve_emf in Hfun |- *. apply bind_ok in Hfun as [sim [Hsim Hfun]].
  change default_opt_pH_scale with 3%Z in *. rewrite Hsim. cbn [bind].
  assert (Esim : sim = map Fin (map2 (fun a m => (a / 1000000 * M - m * c * n) / (m + M)) (mask u est) (mask u tm))).
  { apply alkalinity_arr_spec in Hsim as [_ [_ [Ls Hpt]]].
    assert (Lm : length (emf_to_pH_arr (mask u emf) (se_emf0 r) (mask u temps)) = length (mask u tm)).
    { unfold emf_to_pH_arr. rewrite map2_length; [apply mask_length_eq; congruence|apply mask_length_eq; congruence]. }
    apply nth_error_ext. intros j. rewrite nth_error_map, nth_error_map2.
    destruct (nth_error (mask u tm) j) as [m|] eqn:Em.
    2:{ destruct (nth_error (mask u est) j); cbn [option_map]; apply nth_error_None; apply nth_error_None in Em; lia. }
    destruct (mask_rank_inv u tm j m Em) as [i [Hi [Hj Hm]]]. subst j.
    destruct (nth_error_lt_ex tm emf i m He Hm) as [v Hv]. destruct (nth_error_lt_ex tm temps i m Ht Hm) as [t Htt].
    destruct (nth_error_lt_ex tm est i m Hla Hm) as [x Hxe].
    rewrite (mask_rank u est i Hi), Hxe. cbn [option_map].
    destruct (Hpt (rank u i) (emf_to_pH v (se_emf0 r) t)) as [s [Hs Hsa]].
    { unfold emf_to_pH_arr. rewrite nth_error_map2, !mask_rank by assumption. now rewrite Hv, Htt. }
    rewrite (slice_masked u totals), (slice_masked u ks) in Hsa by assumption.
    destruct (Hpa i (emf_to_pH v (se_emf0 r) t) (Fin m)) as [s' [Hs' Hn']].
    { rewrite HpH. unfold emf_to_pH_arr. now rewrite nth_error_map2, Hv, Htt. }
    { now apply nth_error_map_fin. }
    assert (s' = s) by congruence. subst s'. rewrite Hs. f_equal.
    rewrite Hest, nth_error_map, Hxe in Hn'. cbn [option_map] in Hn'.
    apply estimate_inv; [assumption|eapply Forall_nth_error in Htm; eassumption|congruence]. }
  assert (Hres : forall A, map2 (fun s m : xr => s ⊖ Fin A ⊗ get_dilution_factor m (Fin M) ⊕ m ⊗ Fin c ⊗ Fin n ⊘ (m ⊕ Fin M))
      sim (mask u (map Fin tm)) = map Fin (map2 (fun a m => df M m * (a / 1000000 - A)) (mask u est) (mask u tm))).
  { intros A. rewrite Esim, mask_map.
    assert (Hmt : Forall (fun m => 0 <= m) (mask u tm)).
    { apply Forall_forall. intros m Hm. apply in_mask in Hm as [i [_ Hm]]. eapply Forall_nth_error in Htm; eassumption. }
    clear - HM Hmt. revert Hmt. generalize (mask u tm). generalize (mask u est).
    induction l as [|x l IH]; intros [|m l'] Hmt; try reflexivity. inversion Hmt; subst. cbn [map2 map]. f_equal; [|now apply IH].
    rewrite df_fin by lra. rewrite !fin_mul, fin_add, fin_div, fin_sub, fin_add by lra. f_equal. unfold df. field. lra. }
  split.
  - intros A. now rewrite Hres.
  - intros A HA. assert (Ea : a = Fin A).
    { rewrite HA in Ha. change (@nofQ xr _ 1000000) with (Fin (Q2R 1000000)) in Ha. symmetry in Ha.
      pose proof Ha as Hb. apply mul_fin_l in Hb as [a' ->]. rewrite fin_mul in Ha. injection Ha as Ha. f_equal.
      unfold Q2R in Ha. cbn in Ha. lra. }
    rewrite <- Hfun. now rewrite Ea.
Qed.

(* ------------------------------------------------------------------ *)
(** * C98 *)

Lemma quadratic M xs ms : exists C, forall A,
  sum_of_squares (map2 (fun a m => df M m * (a / 1000000 - A)) xs ms) =
  Rsum (map2 (fun _ m => df M m * df M m) xs ms) * (A * A)
  - 2 * A * (Rsum (map2 (fun a m => df M m * df M m * a) xs ms) / 1000000) + C.
Proof.
  revert ms; induction xs as [|x xs IH]; intros [|m ms]; try (exists 0; intros A; unfold sum_of_squares, Rsum; cbn; field).
  destruct (IH ms) as [C HC]. exists (C + df M m * df M m * (x / 1000000) * (x / 1000000)). intros A.
  cbn [map2]. rewrite !Rsum_cons. unfold sum_of_squares in *. cbn [map fold_right]. rewrite HC. field.
Qed.

Lemma df_sq_pos M m : 0 < M -> 0 <= m -> 0 < df M m * df M m.
Proof. intros HM Hm. pose proof (df_pos m M HM Hm). unfold df. nra. Qed.

Lemma weighted_between M lo hi xs ms A : 0 < M -> Forall (fun m => 0 <= m) ms -> length xs = length ms -> xs <> [] ->
  A * Rsum (map2 (fun _ m => df M m * df M m) xs ms) = Rsum (map2 (fun a m => df M m * df M m * a) xs ms) ->
  Forall (fun x => lo <= x <= hi) xs -> lo <= A <= hi.
Proof.
  intros HM Hms Hl Hne HA Hb.
  assert (G : forall xs ms, length xs = length ms -> Forall (fun m => 0 <= m) ms -> Forall (fun x => lo <= x <= hi) xs ->
     lo * Rsum (map2 (fun _ m => df M m * df M m) xs ms) <= Rsum (map2 (fun a m => df M m * df M m * a) xs ms)
       <= hi * Rsum (map2 (fun _ m => df M m * df M m) xs ms) /\
     0 <= Rsum (map2 (fun _ m => df M m * df M m) xs ms) /\
     (xs <> [] -> 0 < Rsum (map2 (fun _ m => df M m * df M m) xs ms))).
  { clear - HM. induction xs as [|x xs IH]; intros [|m ms] Hl Hms Hb; try discriminate Hl.
    - unfold Rsum; cbn. repeat split; try lra. congruence.
    - inversion Hms; subst. inversion Hb; subst. cbn [map2]. rewrite !Rsum_cons.
      destruct (IH ms ltac:(now injection Hl) H2 H4) as [[I1 I2] [I3 _]].
      pose proof (df_sq_pos M m HM H1). repeat split; try nra. }
  destruct (G xs ms Hl Hms Hb) as [[G1 G2] [_ G3]]. specialize (G3 Hne). rewrite <- HA in G1, G2. split.
  - apply Rmult_le_reg_r with (1 := G3). lra.
  - apply Rmult_le_reg_r with (1 := G3). lra.
Qed.

(* the weights (M/(m+M))^2 of the used points *)
Definition fit_weights (r : emf_result xr) (tm : list R) (M : R) : list R :=
  map (fun m => (M / (m + M)) * (M / (m + M))) (mask (se_used r) tm).

(** The alkalinity is as close to the mean of the used estimates, weighted with the squared
    dilution factors, as the optimiser is to the least sum of squares: if no other alkalinity
    lowers the sum of squared residuals by more than eps (at the returned EMF0), then
    (A - mean)^2 * (sum of weights) <= 10^12 eps. *)
Theorem C98_alkalinity_near_weighted_mean :
  forall eps st c tm emf temps M totals ks ai double ei logic pmin pmax n r est A,
  masses_ok tm M ->
  solve_emf st (Fin c) (map Fin tm) emf temps (Fin M) totals ks ai double ei logic pmin pmax (Fin n) = Ok r ->
  se_alkalinity_all r = map Fin est -> se_alkalinity r = Fin A ->
  (exists i, used_at (se_used r) i) ->
  (forall y A' y', or_fun (se_opt_result r) = map Fin y -> residuals_at r (Fin n) A' = Ok (map Fin y') ->
     sum_of_squares y <= sum_of_squares y' + eps) ->
  let w := fit_weights r tm M in
  let mean := fold_right Rplus 0 (map2 Rmult w (mask (se_used r) est)) / fold_right Rplus 0 w in
  0 < fold_right Rplus 0 w /\
  (A - mean) * (A - mean) * fold_right Rplus 0 w <= 1000000000000 * eps /\
  (forall lo hi, (forall i v, used_at (se_used r) i -> nth_error est i = Some v -> lo <= v <= hi) -> lo <= mean <= hi).
Proof.
  intros eps st c tm emf temps M totals ks ai double ei logic pmin pmax n r est A Hok Hr Hest HA [i0 Hi0] Hmin w mean.
  destruct (residuals_are _ _ _ _ _ _ _ _ _ _ _ _ _ _ _ _ _ Hok Hr Hest) as [Le [Lu [Hres Hfun]]].
  set (u := se_used r) in *. pose proof Hok as [HM Htm].
  assert (HA' : se_alkalinity r = Fin (1000000 * (A / 1000000))) by (rewrite HA; f_equal; field).
  specialize (Hfun _ HA'). rewrite (Hres (A / 1000000)) in Hfun.
  assert (Efun : or_fun (se_opt_result r) = map Fin (map2 (fun a m => df M m * (a / 1000000 - A / 1000000)) (mask u est) (mask u tm)))
    by congruence.
  destruct (quadratic M (mask u est) (mask u tm)) as [C HC].
  set (W := Rsum (map2 (fun _ m => df M m * df M m) (mask u est) (mask u tm))) in *.
  set (B := Rsum (map2 (fun a m => df M m * df M m * a) (mask u est) (mask u tm))) in *.
  assert (Hmt : Forall (fun m => 0 <= m) (mask u tm)).
  { apply Forall_forall. intros m Hm. apply in_mask in Hm as [i [_ Hm]]. eapply Forall_nth_error in Htm; eassumption. }
  assert (Lm : length (mask u est) = length (mask u tm)) by now apply mask_length_eq.
  assert (Hne : mask u est <> []).
  { apply mask_cons_used; [congruence|]. exists i0. exact Hi0. }
  assert (HW : 0 < W).
  { unfold W. clear - HM Hmt Lm Hne. revert Lm Hmt Hne. generalize (mask u tm). generalize (mask u est).
    assert (P : forall (l l' : list R), Forall (fun m => 0 <= m) l' -> 0 <= Rsum (map2 (fun _ m => df M m * df M m) l l')).
    { induction l as [|x l IH]; intros [|m l'] Hm; try (unfold Rsum; cbn; lra). inversion Hm; subst.
      cbn [map2]. rewrite Rsum_cons. pose proof (df_sq_pos M m HM H1). specialize (IH l' H2). lra. }
    intros [|x l] [|m l'] Lm Hmt Hne; try discriminate; try congruence. inversion Hmt; subst. cbn [map2]. rewrite Rsum_cons.
    pose proof (df_sq_pos M m HM H1). pose proof (P l l' H2). lra. }
  pose proof (Hmin _ (B / W / 1000000) _ Efun (Hres _)) as Hle. rewrite !HC in Hle.
  assert (EW : fold_right Rplus 0 w = W).
  { unfold w, fit_weights, W, Rsum. fold u. f_equal. clear - Lm. revert Lm. generalize (mask u tm). generalize (mask u est).
    induction l as [|x l IH]; intros [|m l'] L; try discriminate L; [reflexivity|]. cbn [map map2]. f_equal.
    apply IH. now injection L. }
  assert (EB : fold_right Rplus 0 (map2 Rmult w (mask u est)) = B).
  { unfold w, fit_weights, B, Rsum. fold u. f_equal. clear - Lm. revert Lm. generalize (mask u tm). generalize (mask u est).
    induction l as [|x l IH]; intros [|m l'] L; try discriminate L; [reflexivity|]. cbn [map map2]. f_equal.
    apply IH. now injection L. }
  unfold mean. rewrite EW, EB. split; [assumption|]. split.
  - set (D := A - B / W). assert (ED : A = D + B / W) by (unfold D; ring). rewrite ED in Hle.
    replace (W * ((D + B / W) / 1000000 * ((D + B / W) / 1000000)) - 2 * ((D + B / W) / 1000000) * (B / 1000000) + C)
      with (D * D * W / 1000000000000 + (W * (B / W / 1000000 * (B / W / 1000000)) - 2 * (B / W / 1000000) * (B / 1000000) + C)) in Hle
      by (field; lra). lra.
  - intros lo hi Hb. apply (weighted_between M lo hi (mask u est) (mask u tm)); try assumption.
    + fold W. fold B. field. lra.
    + apply Forall_forall. intros v Hv. apply in_mask in Hv as [i [Hi Hv]]. exact (Hb i v Hi Hv).
Qed.

(** An optimiser that reaches the least sum of squares returns exactly that mean, which lies
    between the extremes of the used estimates. *)
Theorem C98_best_fit_is_weighted_mean :
  forall st c tm emf temps M totals ks ai double ei logic pmin pmax n r est A,
  masses_ok tm M ->
  solve_emf st (Fin c) (map Fin tm) emf temps (Fin M) totals ks ai double ei logic pmin pmax (Fin n) = Ok r ->
  se_alkalinity_all r = map Fin est -> se_alkalinity r = Fin A ->
  (exists i, used_at (se_used r) i) ->
  (forall y A' y', or_fun (se_opt_result r) = map Fin y -> residuals_at r (Fin n) A' = Ok (map Fin y') ->
     sum_of_squares y <= sum_of_squares y') ->
  A * fold_right Rplus 0 (fit_weights r tm M) = fold_right Rplus 0 (map2 Rmult (fit_weights r tm M) (mask (se_used r) est)) /\
  (forall lo hi, (forall i v, used_at (se_used r) i -> nth_error est i = Some v -> lo <= v <= hi) -> lo <= A <= hi).
Proof.
  intros st c tm emf temps M totals ks ai double ei logic pmin pmax n r est A Hok Hr Hest HA Hi Hmin.
  destruct (C98_alkalinity_near_weighted_mean 0 _ _ _ _ _ _ _ _ _ _ _ _ _ _ _ _ _ _ Hok Hr Hest HA Hi) as [HW [Hm Hb]].
  { intros y A' y' E1 E2. pose proof (Hmin y A' y' E1 E2). lra. }
  set (W := fold_right Rplus 0 (fit_weights r tm M)) in *.
  set (B := fold_right Rplus 0 (map2 Rmult (fit_weights r tm M) (mask (se_used r) est))) in *.
  assert (E : A = B / W).
  { assert ((A - B / W) * (A - B / W) <= 0) by (apply Rmult_le_reg_r with W; [assumption|]; lra). nra. }
  split; [rewrite E; field; lra|]. intros lo hi Hlh. rewrite E. now apply Hb.
Qed.

(** The residual that the optimiser sees for a used point is the distance of that point's
    estimate from the alkalinity, in mol/kg, times the point's dilution factor. *)
Theorem C98_residual_of_a_point :
  forall st c tm emf temps M totals ks ai double ei logic pmin pmax n r est A i m a,
  masses_ok tm M ->
  solve_emf st (Fin c) (map Fin tm) emf temps (Fin M) totals ks ai double ei logic pmin pmax (Fin n) = Ok r ->
  se_alkalinity_all r = map Fin est -> se_alkalinity r = Fin A ->
  used_at (se_used r) i -> nth_error tm i = Some m -> nth_error est i = Some a ->
  nth_error (or_fun (se_opt_result r)) (rank (se_used r) i) = Some (Fin (M / (m + M) * (a - A) / 1000000)).
Proof.
  intros st c tm emf temps M totals ks ai double ei logic pmin pmax n r est A i m a Hok Hr Hest HA Hi Hm Ha.
  destruct (residuals_are _ _ _ _ _ _ _ _ _ _ _ _ _ _ _ _ _ Hok Hr Hest) as [Le [Lu [Hres Hfun]]].
  assert (HA' : se_alkalinity r = Fin (1000000 * (A / 1000000))) by (rewrite HA; f_equal; field).
  specialize (Hfun _ HA'). rewrite Hres in Hfun. injection Hfun as <-.
  destruct Hok as [HM Htm]. eapply Forall_nth_error in Htm; [|eassumption].
  rewrite nth_error_map, nth_error_map2, !mask_rank, Ha, Hm by assumption. cbn [option_map]. unfold df. do 2 f_equal. field. lra.
Qed.

Example C98_nonvacuous : exists r est A,
  solve_emf st38 (Fin 1) (map Fin [1; 2]) (map Fin [0; 10]) (map Fin [25; 25]) (Fin 1) [] []
    (Some (Fin 0)) false (Some (Fin 0)) "v23.7+" (Fin (- (K25 / 2))) (Fin (3 * K25 / 2)) (Fin 1) = Ok r /\
  masses_ok [1; 2] 1 /\ se_alkalinity_all r = map Fin est /\ se_alkalinity r = Fin A /\ used_at (se_used r) 0 /\
  (forall y A' y', or_fun (se_opt_result r) = map Fin y -> residuals_at r (Fin 1) A' = Ok (map Fin y') ->
     sum_of_squares y <= sum_of_squares y').
Proof.
  destruct (pass38 0 0) as [r [H1 [Hu [_ [[A HA] [Hf Hp]]]]]]; [lra|].
  assert (Hs : solve_emf st38 (Fin 1) (map Fin [1; 2]) (map Fin [0; 10]) (map Fin [25; 25]) (Fin 1) [] []
    (Some (Fin 0)) false (Some (Fin 0)) "v23.7+" (Fin (- (K25 / 2))) (Fin (3 * K25 / 2)) (Fin 1) = Ok r).
  { unfold solve_emf. rewrite H1. reflexivity. }
  assert (Ha : exists est, se_alkalinity_all r = map Fin est).
  { apply once_inv in H1 as [_ [_ [_ [_ [_ [_ [_ [_ [_ [Hall _]]]]]]]]]]. rewrite Hp in Hall.
    apply alkalinity_all_spec in Hall as [_ [_ [Hl Hpt]]]; [|reflexivity].
    destruct (Hpt 0%nat _ _ eq_refl eq_refl) as [s0 [E0 N0]]. destruct (Hpt 1%nat _ _ eq_refl eq_refl) as [s1 [E1 N1]].
    cbn [slice_at map] in E0, E1. rewrite alk_free_only in E0, E1. injection E0 as <-. injection E1 as <-.
    rewrite estimate_fin in N0, N1 by lra. destruct (se_alkalinity_all r) as [|x [|y [|z l]]]; try discriminate Hl.
    cbn [nth_error] in N0, N1. injection N0 as ->. injection N1 as ->.
    match goal with |- exists est, [Fin ?a; Fin ?b] = _ => exists [a; b] end. reflexivity. }
  destruct Ha as [est Hest]. exists r, est, A. split; [exact Hs|]. split; [apply ex_masses|]. split; [exact Hest|].
  split; [exact HA|]. split; [rewrite Hu; reflexivity|].
  intros y A' y' E _. rewrite Hf in E. destruct y as [|y0 [|]]; try discriminate E. injection E as <-.
  replace (sum_of_squares [0]) with 0 by (unfold sum_of_squares; cbn; ring).
  unfold sum_of_squares. induction y' as [|v y' IH]; cbn; [lra|]. nra.
Qed.

Print Assumptions C98_alkalinity_near_weighted_mean.
Print Assumptions C98_best_fit_is_weighted_mean.
Print Assumptions C98_residual_of_a_point.
