(* PropVouch.v -- C129: a perfect EMF fit vouches for the titrant and for the certified value too *)
From Coq Require Import Reals Qreals Lra Lia List.
From Verif Require Import PropCalibrate LsqProofs PropEmf PropUnique.
Import ListNotations.
Open Scope list_scope.
Open Scope R_scope.

(* ------------------------------------------------------------------ *)
(** * algebra *)

Lemma quadratic_zero a b c x y z :
  a * (x * x) + b * x + c = 0 -> a * (y * y) + b * y + c = 0 -> a * (z * z) + b * z + c = 0 ->
  x <> y -> y <> z -> x <> z -> a = 0 /\ b = 0 /\ c = 0.
Proof.
  intros Hx Hy Hz Nxy Nyz Nxz.
  pose proof (quadratic_three_roots a b c x y z Hx Hy Hz Nxy Nyz Nxz) as ->.
  assert (b = 0). { apply Rmult_eq_reg_l with (x - y); [lra|lra]. }
  subst b. repeat split; lra.
Qed.

(* one point that is consistent with both (A, g, h) and (A', g', q h) *)
Lemma one_point_two kw g g' M A A' q m h :
  0 < h -> 0 < q -> q <> 1 -> 0 < M + m ->
  (M + m) * oh_minus_h kw h = M * A - m * g ->
  (M + m) * oh_minus_h kw (q * h) = M * A' - m * g' ->
  let l := q * M * (A - A') / (q - 1) in
  let k := q * (g' - g) / (q - 1) in
  (l + k * m - (M * A - m * g)) * (l + k * m + q * (M * A - m * g)) = (1 + q) * (1 + q) * kw * ((M + m) * (M + m)).
Proof.
  intros Hh Hq Hq1 HV E1 E2 l k. unfold oh_minus_h in E1, E2.
  set (u := (M + m) * h). set (w := (M + m) * (kw / h)).
  assert (L1 : w - u = M * A - m * g) by (unfold w, u; rewrite <- E1; ring).
  assert (L2 : w / q - q * u = M * A' - m * g') by (rewrite <- E2; unfold w, u; field; split; lra).
  assert (HP : w + q * u = l + k * m).
  { unfold l, k. replace (q * M * (A - A') / (q - 1) + q * (g' - g) / (q - 1) * m)
      with (q * ((M * A - m * g) - (M * A' - m * g')) / (q - 1)) by (field; lra).
    rewrite <- L1, <- L2. field. split; lra. }
  assert (Huw : u * w = kw * ((M + m) * (M + m))) by (unfold u, w; field; lra).
  rewrite <- HP, <- L1.
  replace ((w + q * u - (w - u)) * (w + q * u + q * (w - u))) with ((1 + q) * (1 + q) * (u * w)) by ring.
  rewrite Huw. ring.
Qed.

Lemma three_points_two kw g g' M A A' q m1 m2 m3 h1 h2 h3 :
  0 < kw -> A + g <> 0 -> 0 < M -> 0 < q ->
  0 <= m1 -> 0 <= m2 -> 0 <= m3 -> m1 <> m2 -> m2 <> m3 -> m1 <> m3 ->
  0 < h1 -> 0 < h2 -> 0 < h3 ->
  (M + m1) * oh_minus_h kw h1 = M * A - m1 * g -> (M + m1) * oh_minus_h kw (q * h1) = M * A' - m1 * g' ->
  (M + m2) * oh_minus_h kw h2 = M * A - m2 * g -> (M + m2) * oh_minus_h kw (q * h2) = M * A' - m2 * g' ->
  (M + m3) * oh_minus_h kw h3 = M * A - m3 * g -> (M + m3) * oh_minus_h kw (q * h3) = M * A' - m3 * g' ->
  q = 1 /\ A' = A /\ g' = g.
Proof.
  intros Hkw Hg HM Hq P1 P2 P3 N12 N23 N13 H1 H2 H3 A1 B1 A2 B2 A3 B3.
  destruct (Req_dec q 1) as [->|Nq].
  - split; [reflexivity|]. rewrite Rmult_1_l, A1 in B1. rewrite Rmult_1_l, A2 in B2.
    assert (G : g' = g). { apply Rmult_eq_reg_l with (m1 - m2); lra. }
    subst g'. split; [|reflexivity]. apply Rmult_eq_reg_l with M; lra.
  - exfalso. assert (V1 : 0 < M + m1) by lra. assert (V2 : 0 < M + m2) by lra. assert (V3 : 0 < M + m3) by lra.
    pose proof (one_point_two _ _ _ _ _ _ _ _ _ H1 Hq Nq V1 A1 B1) as Q1.
    pose proof (one_point_two _ _ _ _ _ _ _ _ _ H2 Hq Nq V2 A2 B2) as Q2.
    pose proof (one_point_two _ _ _ _ _ _ _ _ _ H3 Hq Nq V3 A3 B3) as Q3.
    cbv zeta in Q1, Q2, Q3. clear A1 B1 A2 B2 A3 B3.
    set (l := q * M * (A - A') / (q - 1)) in *. set (k := q * (g' - g) / (q - 1)) in *. clearbody l k.
    set (K := (1 + q) * (1 + q) * kw) in *. assert (PK : 0 < K) by (unfold K; nra). clearbody K.
    assert (F : forall m, (l + k * m - (M * A - m * g)) * (l + k * m + q * (M * A - m * g)) = K * ((M + m) * (M + m)) ->
      ((k + g) * (k - q * g) - K) * (m * m) + ((l - M * A) * (k - q * g) + (k + g) * (l + q * (M * A)) - 2 * K * M) * m
      + ((l - M * A) * (l + q * (M * A)) - K * (M * M)) = 0) by (intros m E; rewrite <- (Rminus_diag_eq _ _ E); ring).
    apply F in Q1. apply F in Q2. apply F in Q3. clear F.
    destruct (quadratic_zero _ _ _ _ _ _ Q1 Q2 Q3 N12 N23 N13) as (C2 & C1 & C0). clear Q1 Q2 Q3.
    (* written around m = -M *)
    set (s := l - k * M) in *. set (t := M * (A + g)).
    assert (Z0 : (s - t) * (s + q * t) = 0).
    { replace ((s - t) * (s + q * t)) with
        (((k + g) * (k - q * g) - K) * (M * M) - ((l - M * A) * (k - q * g) + (k + g) * (l + q * (M * A)) - 2 * K * M) * M
         + ((l - M * A) * (l + q * (M * A)) - K * (M * M))) by (unfold s, t; ring). rewrite C2, C1, C0. ring. }
    assert (Z1 : (s - t) * (k - q * g) + (s + q * t) * (k + g) = 0).
    { replace ((s - t) * (k - q * g) + (s + q * t) * (k + g)) with
        (((l - M * A) * (k - q * g) + (k + g) * (l + q * (M * A)) - 2 * K * M) - 2 * M * ((k + g) * (k - q * g) - K)) by (unfold s, t; ring).
      rewrite C2, C1. ring. }
    assert (N1 : k + g <> 0) by (intros E; rewrite E in C2; lra). assert (N2 : k - q * g <> 0) by (intros E; rewrite E in C2; lra).
    assert (Nt : t <> 0) by (unfold t; apply Rmult_integral_contrapositive_currified; lra).
    clearbody s t. apply Rmult_integral in Z0. destruct Z0 as [Z0|Z0]; rewrite Z0 in Z1.
    + assert (Y : (s + q * t) * (k + g) = 0) by lra. apply Rmult_integral in Y. destruct Y as [Y|Y]; [|contradiction].
      apply Nt. apply Rmult_eq_reg_l with (1 + q); lra.
    + assert (Y : (s - t) * (k - q * g) = 0) by lra. apply Rmult_integral in Y. destruct Y as [Y|Y]; [|contradiction].
      apply Nt. apply Rmult_eq_reg_l with (1 + q); lra.
Qed.

(* ------------------------------------------------------------------ *)
(** * solve_emf *)

(** A strong-acid titration solved with whatever molinity c' and normality n'.  If the fit is perfect, and three of the
    points it used were taken after different additions and are exact readings of a titration of a sample of alkalinity A
    with acid of molinity c and normality n at EMF0 = E, then the acid put in was the true one, and what comes out is
    that titration's alkalinity and EMF0.  A wrong molinity never fits. *)
Theorem C129_perfect_fit_fixes_the_titrant :
  forall st c' n' c n tm emf temps M kw ai double ei logic pmin pmax r t A E i1 i2 i3 m1 m2 m3 e1 e2 e3,
  masses_ok tm M -> -273.15 < t -> Forall (fun x => x = t) temps -> 0 < kw -> A + c * n <> 0 ->
  solve_emf st (Fin c') (map Fin tm) (map Fin emf) (map Fin temps) (Fin M) [] (water_only kw)
    ai double ei logic pmin pmax (Fin n') = Ok r ->
  Forall (fun v => v = Fin 0) (or_fun (se_opt_result r)) ->
  used_at (se_used r) i1 -> nth_error tm i1 = Some m1 -> nth_error emf i1 = Some e1 -> true_reading kw c n M A E t m1 e1 ->
  used_at (se_used r) i2 -> nth_error tm i2 = Some m2 -> nth_error emf i2 = Some e2 -> true_reading kw c n M A E t m2 e2 ->
  used_at (se_used r) i3 -> nth_error tm i3 = Some m3 -> nth_error emf i3 = Some e3 -> true_reading kw c n M A E t m3 e3 ->
  m1 <> m2 -> m2 <> m3 -> m1 <> m3 ->
  c' * n' = c * n /\ se_alkalinity r = Fin (1000000 * A) /\ se_emf0 r = Fin E.
Proof.
  intros st c' n' c n tm emf temps M kw ai double ei logic pmin pmax r t A E i1 i2 i3 m1 m2 m3 e1 e2 e3
    [HM Htm] Ht Htemps Hkw Hg Hr Hz U1 N1 E1 T1 U2 N2 E2 T2 U3 N3 E3 T3 D12 D23 D13.
  apply solve_emf_inv in Hr as [ai' [ei' [logic' Hr]]].
  apply once_inv in Hr as [_ [He [Hlt [Hu [Hft [Hfk [[a [Hx Ha]] [Hfun [_ _]]]]]]]]].
  rewrite !map_length in He, Hlt.
  assert (Hlu : length (se_used r) = length tm).
  { rewrite Hu. unfold in_window, emf_to_pH_arr. rewrite map_length, map2_length; rewrite !map_length; congruence. }
  rewrite Hx in Hfun.
  assert (Hl1 : length (mask (se_used r) (map Fin emf)) = length (mask (se_used r) (map Fin tm)))
    by (apply mask_length_eq; rewrite !map_length; assumption).
  assert (Hl2 : length (mask (se_used r) (map Fin temps)) = length (mask (se_used r) (map Fin tm)))
    by (apply mask_length_eq; rewrite !map_length; assumption).
  destruct (lsqfun_spec _ _ _ _ _ _ _ _ _ _ _ Hl1 Hl2 Hfun) as [_ Hpt].
  assert (Hused : forall i m e, used_at (se_used r) i -> nth_error tm i = Some m -> nth_error emf i = Some e ->
     0 <= m /\ exists A' E', a = Fin A' /\ se_emf0 r = Fin E' /\ (M + m) * oh_minus_h kw (nernst_h e E' t) = M * A' - m * (c' * n')).
  { intros i m e Hi Hm Hv.
    assert (Hm0 : 0 <= m) by (eapply Forall_nth_error in Htm; eassumption). split; [assumption|].
    destruct (nth_error_lt_ex tm temps i m Hlt Hm) as [t' Htt].
    assert (t' = t) as -> by (eapply Forall_nth_error in Htemps; eassumption).
    destruct (Hpt (rank (se_used r) i) (Fin m) (Fin e) (Fin t)) as [s [Hs Hn]].
    { rewrite mask_rank by assumption. apply nth_error_map_fin. assumption. }
    { rewrite mask_rank by assumption. apply nth_error_map_fin. assumption. }
    { rewrite mask_rank by assumption. apply nth_error_map_fin. assumption. }
    rewrite (slice_masked _ []), (slice_masked _ (water_only kw)) in Hs by (rewrite ?map_length in *; assumption).
    pose proof (Forall_nth_error _ _ _ _ Hz Hn) as Hzero. cbv beta in Hzero.
    destruct (residual_zero_inv _ _ _ _ _ _ HM Hm0 Hzero) as [sr [ar [-> [-> Har]]]].
    change (slice_at [] i) with (@nil (string * xr)) in Hs.
    change (slice_at (water_only kw) i) with [("k_water"%string, Fin kw)] in Hs.
    destruct (alk_water_finite _ _ _ Hkw Hs) as [x Hpx].
    destruct (pH_finite _ _ _ _ Ht Hpx) as [E' HE']. exists ar, E'. split; [reflexivity|]. split; [assumption|].
    rewrite HE', emf_to_pH_nernst in Hs by assumption. rewrite alk_water, pow10_pH in Hs by apply exp_pos.
    injection Hs as Hs. rewrite Har, <- Hs. field. lra. }
  destruct (Hused _ _ _ U1 N1 E1) as [P1 [A' [E' [EA [EE B1]]]]].
  destruct (Hused _ _ _ U2 N2 E2) as [P2 [A2 [E2' [EA2 [EE2 B2]]]]].
  destruct (Hused _ _ _ U3 N3 E3) as [P3 [A3 [E3' [EA3 [EE3 B3]]]]].
  assert (A2 = A') as -> by congruence. assert (A3 = A') as -> by congruence.
  assert (E2' = E') as -> by congruence. assert (E3' = E') as -> by congruence.
  rewrite (nernst_shift e1 E) in B1. rewrite (nernst_shift e2 E) in B2. rewrite (nernst_shift e3 E) in B3.
  set (q := exp ((E - E') * 96.4853365 / (8.3144621 * (t + 273.15)))) in *.
  unfold true_reading in T1, T2, T3. rewrite !Rmult_assoc in T1, T2, T3.
  destruct (three_points_two kw (c * n) (c' * n') M A A' q m1 m2 m3 (nernst_h e1 E t) (nernst_h e2 E t) (nernst_h e3 E t)) as [Hq [HA Hc]];
    try assumption; try apply exp_pos; try lra.
  split; [exact Hc|]. split.
  - rewrite Ha, EA, HA. rewrite fin_q, fin_mul. f_equal. q2r. field.
  - rewrite EE. f_equal. unfold q in Hq. rewrite <- exp_0 in Hq. apply exp_inv in Hq.
    assert ((E - E') * 96.4853365 = 0).
    { apply Rmult_eq_reg_r with (/ (8.3144621 * (t + 273.15))); [unfold Rdiv in Hq; lra|]. apply Rinv_neq_0_compat. nra. }
    lra.
Qed.

(* ------------------------------------------------------------------ *)
(** * calibrate_emf *)

Lemma calibrate_emf_ends st tm emf temps M totals ks ai ei double pmin pmax n cert init totals' o :
  calibrate_emf st (Fin cert) tm emf temps M totals ks ai ei double pmin pmax init n [] = (totals', Ok o) ->
  exists c r, or_x o = [c] /\ solve_emf st c tm emf temps M totals ks ai double ei "v23.7+" pmin pmax n = Ok r /\
    or_fun o = [se_alkalinity r ⊖ Fin cert].
Proof.
  unfold calibrate_emf. intros Hc.
  apply (least_squares_inv st _ _ (fun t => t = totals)
    (fun x y => exists c r, x = [c] /\ solve_emf st c tm emf temps M totals ks ai double ei "v23.7+" pmin pmax n = Ok r /\
       y = [se_alkalinity r ⊖ Fin cert])) in Hc as [_ H]; [exact H| |reflexivity].
  clear. intros s x s' r -> Hf y ->. destruct x as [|c [|? x]]; [discriminate| |discriminate].
  cbn [lsqfun_calibrate] in Hf. rewrite add_nothing in Hf.
  destruct (solve_emf st c tm emf temps M totals ks ai double ei "v23.7+" pmin pmax n) as [sr|e] eqn:Es; cbn [bind] in Hf; [|discriminate].
  rewrite add_nothing in Hf. injection Hf as <- <-. split; [reflexivity|]. exists c, sr. auto.
Qed.

(** The same for a calibration.  Whatever value is put in as certified: if the molinity m that calibrate_emf returns
    reproduces it, and solving the titration at that molinity fits perfectly, then m is the acid's true strength and the
    certified value was the sample's true alkalinity.  A wrong certified value always leaves residuals behind. *)
Theorem C129_wrong_certified_value_shows :
  forall st st' cert c n tm emf temps M kw ai ai' ei ei' double double' logic pmin pmax pmin' pmax' init totals' o m r t A E
    i1 i2 i3 m1 m2 m3 e1 e2 e3,
  masses_ok tm M -> -273.15 < t -> Forall (fun x => x = t) temps -> 0 < kw -> A + c * n <> 0 ->
  calibrate_emf st (Fin cert) (map Fin tm) (map Fin emf) (map Fin temps) (Fin M) [] (water_only kw)
    ai ei double pmin pmax init (Fin n) [] = (totals', Ok o) ->
  or_x o = [Fin m] ->
  solve_emf st' (Fin m) (map Fin tm) (map Fin emf) (map Fin temps) (Fin M) [] (water_only kw)
    ai' double' ei' logic pmin' pmax' (Fin n) = Ok r ->
  Forall (fun v => v = Fin 0) (or_fun (se_opt_result r)) ->
  used_at (se_used r) i1 -> nth_error tm i1 = Some m1 -> nth_error emf i1 = Some e1 -> true_reading kw c n M A E t m1 e1 ->
  used_at (se_used r) i2 -> nth_error tm i2 = Some m2 -> nth_error emf i2 = Some e2 -> true_reading kw c n M A E t m2 e2 ->
  used_at (se_used r) i3 -> nth_error tm i3 = Some m3 -> nth_error emf i3 = Some e3 -> true_reading kw c n M A E t m3 e3 ->
  m1 <> m2 -> m2 <> m3 -> m1 <> m3 ->
  m * n = c * n /\ se_alkalinity r = Fin (1000000 * A) /\
  (* with the calibration's own settings, a certified value that was reproduced is the truth *)
  (st' = st -> ai' = ai -> ei' = ei -> double' = double -> logic = "v23.7+"%string -> pmin' = pmin -> pmax' = pmax ->
   or_fun o = [Fin 0] -> cert = 1000000 * A).
Proof.
  intros st st' cert c n tm emf temps M kw ai ai' ei ei' double double' logic pmin pmax pmin' pmax' init totals' o m r t A E
    i1 i2 i3 m1 m2 m3 e1 e2 e3 Hok Ht Htemps Hkw Hg Hc Hx Hr Hz U1 N1 E1 T1 U2 N2 E2 T2 U3 N3 E3 T3 D12 D23 D13.
  destruct (C129_perfect_fit_fixes_the_titrant st' m n c n tm emf temps M kw ai' double' ei' logic pmin' pmax' r t A E
    i1 i2 i3 m1 m2 m3 e1 e2 e3) as (Hm & Ha & _); try assumption.
  split; [exact Hm|]. split; [exact Ha|]. intros -> -> -> -> -> -> -> Hf.
  apply calibrate_emf_ends in Hc as (c0 & r0 & Hx0 & Hr0 & Hf0). rewrite Hx in Hx0. injection Hx0 as <-.
  rewrite Hr in Hr0. injection Hr0 as <-. rewrite Hf, Ha, fin_sub in Hf0. injection Hf0 as Hf0. lra.
Qed.

(* ------------------------------------------------------------------ *)
(** * concrete cases *)

(* the three-addition titration of C114_nonvacuous: kw = M = c = n = 1, A = 2, EMF0 = 0 *)
Example C129_nonvacuous : exists r i1 i2 i3 m1 m2 m3 e1 e2 e3,
  solve_emf accept (Fin 1) (map Fin tm3) (map Fin emf3) (map Fin [25; 25; 25]) (Fin 1) [] (water_only 1)
    (Some (Fin (1000000 * 2))) false (Some (Fin 0)) "v23.7+" (Fin (-2)) (Fin 2) (Fin 1) = Ok r /\
  masses_ok tm3 1 /\ Forall (fun v => v = Fin 0) (or_fun (se_opt_result r)) /\ 2 + 1 * 1 <> 0 /\
  (used_at (se_used r) i1 /\ nth_error tm3 i1 = Some m1 /\ nth_error emf3 i1 = Some e1 /\ true_reading 1 1 1 1 2 0 25 m1 e1) /\
  (used_at (se_used r) i2 /\ nth_error tm3 i2 = Some m2 /\ nth_error emf3 i2 = Some e2 /\ true_reading 1 1 1 1 2 0 25 m2 e2) /\
  (used_at (se_used r) i3 /\ nth_error tm3 i3 = Some m3 /\ nth_error emf3 i3 = Some e3 /\ true_reading 1 1 1 1 2 0 25 m3 e3) /\
  m1 <> m2 /\ m2 <> m3 /\ m1 <> m3.
Proof.
  destruct C114_nonvacuous as (r & Hr & Hok & _ & Hz & Hp).
  exists r, 0%nat, 1%nat, 2%nat, (1/5), 2, (31/5), (reading (1/2)), (reading 1), (reading (4/3)).
  split; [exact Hr|]. split; [exact Hok|]. split; [exact Hz|]. split; [lra|].
  destruct (Hp 0%nat (1/5) (reading (1/2)) eq_refl eq_refl) as [Ua Ta].
  destruct (Hp 1%nat 2 (reading 1) eq_refl eq_refl) as [Ub Tb].
  destruct (Hp 2%nat (31/5) (reading (4/3)) eq_refl eq_refl) as [Uc Tc].
  repeat (split; [assumption || (split; [assumption|split; [reflexivity|split; [reflexivity|assumption]]])|]). repeat split; lra.
Qed.

(* calibrating the same titration from the true molinity, with the true certified value *)
Example C129_calibrate_nonvacuous : exists o r,
  calibrate_emf accept (Fin (1000000 * 2)) (map Fin tm3) (map Fin emf3) (map Fin [25; 25; 25]) (Fin 1) [] (water_only 1)
    (Some (Fin (1000000 * 2))) (Some (Fin 0)) false (Fin (-2)) (Fin 2) (Fin 1) (Fin 1) [] = ([], Ok o) /\
  or_x o = [Fin 1] /\ or_fun o = [Fin 0] /\
  solve_emf accept (Fin 1) (map Fin tm3) (map Fin emf3) (map Fin [25; 25; 25]) (Fin 1) [] (water_only 1)
    (Some (Fin (1000000 * 2))) false (Some (Fin 0)) "v23.7+" (Fin (-2)) (Fin 2) (Fin 1) = Ok r /\
  Forall (fun v => v = Fin 0) (or_fun (se_opt_result r)).
Proof.
  destruct C129_nonvacuous as (r & i1 & i2 & i3 & m1 & m2 & m3 & e1 & e2 & e3 & Hr & Hok & Hz & Hg
    & (U1 & N1 & E1 & T1) & (U2 & N2 & E2 & T2) & (U3 & N3 & E3 & T3) & D12 & D23 & D13).
  assert (Ha : se_alkalinity r = Fin (1000000 * 2)).
  { eapply (C129_perfect_fit_fixes_the_titrant accept 1 1 1 1 tm3 emf3 [25; 25; 25] 1 1 _ _ _ _ _ _ r 25 2 0 i1 i2 i3 m1 m2 m3 e1 e2 e3);
      try eassumption; try lra. repeat constructor. }
  exists {| or_x := [Fin 1]; or_fun := [Fin 0] |}, r. 
  split; [|split; [reflexivity|split; [reflexivity|split; [exact Hr|exact Hz]]]].
  unfold calibrate_emf.
  assert (L : lsqfun_calibrate (fun c totals1 => sr <- solve_emf accept c (map Fin tm3) (map Fin emf3) (map Fin [25; 25; 25]) (Fin 1) totals1 (water_only 1)
     (Some (Fin (1000000 * 2))) false (Some (Fin 0)) "v23.7+" (Fin (-2)) (Fin 2) (Fin 1) ;; Ok (se_alkalinity sr))
     (Fin (1000000 * 2)) (map Fin tm3) (Fin 1) [] [] [Fin 1] = ([], Ok [Fin 0])).
  { cbn [lsqfun_calibrate]. rewrite add_nothing. rewrite Hr. cbn [bind]. rewrite add_nothing, Ha, fin_sub. do 4 f_equal. lra. }
  unfold least_squares. rewrite L. reflexivity.
Qed.

