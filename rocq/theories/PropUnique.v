(* PropUnique.v -- C114: what a perfect fit of solve_emf determines *)
From Coq Require Import Reals Qreals Lra.
From Verif Require Import PropEmf.
Open Scope list_scope.
Open Scope R_scope.

(** Small specification.  A strong-acid titration: the sample holds only water's own ions, so
    at [H+] = h its alkalinity content is [OH-] - [H+] = kw/h - h. *)
Definition water_only (kw : R) : dict (nd xr) := [("k_water", NdS (Fin kw))].
Definition oh_minus_h (kw h : R) : R := kw / h - h.

(* the reading e at EMF0 = E and temperature t is what a sample of mass M and alkalinity A shows
   after m of a titrant of concentration c and alkalinity effect n has gone in *)
Definition true_reading (kw c n M A E t m e : R) : Prop :=
  (M + m) * oh_minus_h kw (nernst_h e E t) = M * A - m * c * n.

(* ------------------------------------------------------------------ *)
(** * algebra *)

Lemma quadratic_three_roots a b c x y z :
  a * (x * x) + b * x + c = 0 -> a * (y * y) + b * y + c = 0 -> a * (z * z) + b * z + c = 0 ->
  x <> y -> y <> z -> x <> z -> a = 0.
Proof.
  intros Hx Hy Hz Nxy Nyz Nxz.
  assert (E1 : a * (x + y) + b = 0).
  { apply Rmult_eq_reg_l with (x - y); [|lra]. rewrite Rmult_0_r.
    replace ((x - y) * (a * (x + y) + b)) with ((a * (x * x) + b * x + c) - (a * (y * y) + b * y + c)) by ring. lra. }
  assert (E2 : a * (x + z) + b = 0).
  { apply Rmult_eq_reg_l with (x - z); [|lra]. rewrite Rmult_0_r.
    replace ((x - z) * (a * (x + z) + b)) with ((a * (x * x) + b * x + c) - (a * (z * z) + b * z + c)) by ring. lra. }
  apply Rmult_eq_reg_r with (y - z); [|lra]. rewrite Rmult_0_l.
  replace (a * (y - z)) with ((a * (x + y) + b) - (a * (x + z) + b)) by ring. lra.
Qed.

(* one point that is consistent with both (A, h) and (A', q h) solves a quadratic in its mass *)
Lemma one_point kw g M A A' q m h :
  0 < h -> 0 < q -> q <> 1 -> 0 < M + m ->
  (M + m) * oh_minus_h kw h = M * A - m * g ->
  (M + m) * oh_minus_h kw (q * h) = M * A' - m * g ->
  let P := q * M * (A - A') / (q - 1) in
  let K := (1 + q) * (1 + q) * kw in
  - (q * (g * g) + K) * (m * m) + (g * (P + q * (M * A)) - q * g * (P - M * A) - 2 * K * M) * m
  + ((P - M * A) * (P + q * (M * A)) - K * (M * M)) = 0.
Proof.
  intros Hh Hq Hq1 HV E1 E2 P K. unfold oh_minus_h in E1, E2.
  set (u := (M + m) * h). set (w := (M + m) * (kw / h)).
  assert (L1 : w - u = M * A - m * g) by (unfold w, u; rewrite <- E1; ring).
  assert (L2 : w / q - q * u = M * A' - m * g) by (rewrite <- E2; unfold w, u; field; split; lra).
  assert (HP : w + q * u = P).
  { unfold P. replace (q * M * (A - A')) with (q * ((M * A - m * g) - (M * A' - m * g))) by ring.
    rewrite <- L1, <- L2. field. split; lra. }
  assert (Huw : u * w = kw * ((M + m) * (M + m))) by (unfold u, w; field; lra).
  assert (Hu : (1 + q) * u = P - (M * A - m * g)) by (rewrite <- HP, <- L1; ring).
  assert (Hw : (1 + q) * w = P + q * (M * A - m * g)) by (rewrite <- HP, <- L1; ring).
  replace (- (q * (g * g) + K) * (m * m) + (g * (P + q * (M * A)) - q * g * (P - M * A) - 2 * K * M) * m
    + ((P - M * A) * (P + q * (M * A)) - K * (M * M)))
    with ((P - (M * A - m * g)) * (P + q * (M * A - m * g)) - K * ((M + m) * (M + m))) by ring.
  rewrite <- Hu, <- Hw. unfold K.
  replace ((1 + q) * u * ((1 + q) * w)) with ((1 + q) * (1 + q) * (u * w)) by ring. rewrite Huw. ring.
Qed.

Lemma three_points kw g M A A' q m1 m2 m3 h1 h2 h3 :
  0 <= kw -> g <> 0 -> 0 < M -> 0 < q ->
  0 <= m1 -> 0 <= m2 -> 0 <= m3 -> m1 <> m2 -> m2 <> m3 -> m1 <> m3 ->
  0 < h1 -> 0 < h2 -> 0 < h3 ->
  (M + m1) * oh_minus_h kw h1 = M * A - m1 * g -> (M + m1) * oh_minus_h kw (q * h1) = M * A' - m1 * g ->
  (M + m2) * oh_minus_h kw h2 = M * A - m2 * g -> (M + m2) * oh_minus_h kw (q * h2) = M * A' - m2 * g ->
  (M + m3) * oh_minus_h kw h3 = M * A - m3 * g -> (M + m3) * oh_minus_h kw (q * h3) = M * A' - m3 * g ->
  q = 1 /\ A' = A.
Proof.
  intros Hkw Hg HM Hq P1 P2 P3 N12 N23 N13 H1 H2 H3 A1 B1 A2 B2 A3 B3.
  destruct (Req_dec q 1) as [->|Nq].
  - split; [reflexivity|]. rewrite Rmult_1_l, A1 in B1 by lra. apply Rmult_eq_reg_l with M; lra.
  - exfalso. assert (V1 : 0 < M + m1) by lra. assert (V2 : 0 < M + m2) by lra. assert (V3 : 0 < M + m3) by lra.
    pose proof (one_point _ _ _ _ _ _ _ _ H1 Hq Nq V1 A1 B1) as Q1.
    pose proof (one_point _ _ _ _ _ _ _ _ H2 Hq Nq V2 A2 B2) as Q2.
    pose proof (one_point _ _ _ _ _ _ _ _ H3 Hq Nq V3 A3 B3) as Q3.
    cbv zeta in Q1, Q2, Q3. pose proof (quadratic_three_roots _ _ _ _ _ _ Q1 Q2 Q3 N12 N23 N13) as E.
    pose proof (Rsqr_pos_lt g Hg) as Hgg. unfold Rsqr in Hgg. assert (0 < q * (g * g)) by nra.
    assert (0 <= (1 + q) * (1 + q) * kw) by nra. lra.
Qed.

(* ------------------------------------------------------------------ *)
(** * the model *)

Lemma pow10_pH h : 0 < h -> pow10R (- pH_of_h h) = h.
Proof.
  intros Hh. unfold pH_of_h. rewrite Ropp_involutive. now apply pow10_log10.
Qed.

Lemma alk_water kw x : alkalinity (Fin x) [] [("k_water", Fin kw)] 3 = Ok (Fin (oh_minus_h kw (pow10R (- x)))).
Proof.
  pose proof (pow10R_pos (- x)) as Hp. unfold alkalinity. cbn. rewrite reqb_false by lra. cbn. f_equal. f_equal.
  unfold oh_minus_h, Q2R; cbn. field. lra.
Qed.

Lemma alk_water_finite kw p s : 0 < kw -> alkalinity p [] [("k_water", Fin kw)] 3 = Ok (Fin s) -> exists x, p = Fin x.
Proof.
  intros Hk. destruct p as [x| | |]; [eauto|..]; intros E; exfalso; revert E; unfold alkalinity; cbn.
  - rewrite reqb_true by reflexivity. unfold inf_times. rewrite rltb_true by assumption. cbn. unfold inf_times.
    rewrite rltb_true by (unfold inject_Z; q2r; lra). discriminate.
  - unfold inf_times. rewrite rltb_false by (unfold inject_Z; q2r; lra). rewrite rltb_true by (unfold inject_Z; q2r; lra). discriminate.
  - discriminate.
Qed.

Lemma pH_finite e e0 t x : -273.15 < t -> emf_to_pH (Fin e) e0 (Fin t) = Fin x -> exists E, e0 = Fin E.
Proof.
  intros Ht. destruct e0 as [E| | |]; [eauto|..]; intros E; exfalso; revert E; unfold emf_to_pH; cbn.
  - unfold inf_times. rewrite rltb_false by lra. rewrite rltb_true by lra. cbn.
    rewrite rltb_false by nra. cbn. rewrite rltb_false by lra. rewrite reqb_true by reflexivity. discriminate.
  - unfold inf_times. rewrite rltb_true by lra. cbn. rewrite rltb_false by nra. discriminate.
  - discriminate.
Qed.

Lemma nernst_shift e E E' t : nernst_h e E' t = exp ((E - E') * 96.4853365 / (8.3144621 * (t + 273.15))) * nernst_h e E t.
Proof.
  unfold nernst_h. rewrite <- exp_plus. f_equal. unfold Rdiv. ring.
Qed.

(** If a fit at one temperature is perfect, and three of the points it used were taken after
    different additions and are exact readings of a strong-acid titration, then what it returns is
    that titration's alkalinity and EMF0: no other pair fits. *)
Theorem C114_perfect_fit_is_the_truth :
  forall st c tm emf temps M kw ai double ei logic pmin pmax n r t A E i1 i2 i3 m1 m2 m3 e1 e2 e3,
  masses_ok tm M -> -273.15 < t -> Forall (fun x => x = t) temps -> 0 < kw -> c * n <> 0 ->
  solve_emf st (Fin c) (map Fin tm) (map Fin emf) (map Fin temps) (Fin M) [] (water_only kw)
    ai double ei logic pmin pmax (Fin n) = Ok r ->
  Forall (fun v => v = Fin 0) (or_fun (se_opt_result r)) ->
  used_at (se_used r) i1 -> nth_error tm i1 = Some m1 -> nth_error emf i1 = Some e1 -> true_reading kw c n M A E t m1 e1 ->
  used_at (se_used r) i2 -> nth_error tm i2 = Some m2 -> nth_error emf i2 = Some e2 -> true_reading kw c n M A E t m2 e2 ->
  used_at (se_used r) i3 -> nth_error tm i3 = Some m3 -> nth_error emf i3 = Some e3 -> true_reading kw c n M A E t m3 e3 ->
  m1 <> m2 -> m2 <> m3 -> m1 <> m3 ->
  se_alkalinity r = Fin (1000000 * A) /\ se_emf0 r = Fin E.
Proof.
  intros st c tm emf temps M kw ai double ei logic pmin pmax n r t A E i1 i2 i3 m1 m2 m3 e1 e2 e3
    [HM Htm] Ht Htemps Hkw Hg Hr Hz U1 N1 E1 T1 U2 N2 E2 T2 U3 N3 E3 T3 D12 D23 D13.
  apply solve_emf_inv in Hr as [ai' [ei' [logic' Hr]]].
  apply once_inv in Hr as [_ [He [Hlt [Hu [Hft [Hfk [[a [Hx Ha]] [Hfun [_ _]]]]]]]]].
  rewrite !map_length in He, Hlt.
  assert (Hlu : length (se_used r) = length tm).
  { rewrite Hu. unfold in_window, emf_to_pH_arr. rewrite map_length, map2_length; rewrite !map_length; congruence. }
  rewrite Hx in Hfun.
  assert (Hl1 : length (mask (se_used r) (map Fin emf)) = length (mask (se_used r) (map Fin tm)))
    by (apply mask_length_eq; rewrite !map_length; assumption).
  assert (Hl2 : length (mask (se_used r) (map Fin temps)) = length (mask (se_used r) (map Fin tm)))
    by (apply mask_length_eq; rewrite !map_length; assumption).
  destruct (lsqfun_spec _ _ _ _ _ _ _ _ _ _ _ Hl1 Hl2 Hfun) as [_ Hpt].
  assert (Hused : forall i m e, used_at (se_used r) i -> nth_error tm i = Some m -> nth_error emf i = Some e ->
     0 <= m /\ exists A' E', a = Fin A' /\ se_emf0 r = Fin E' /\ (M + m) * oh_minus_h kw (nernst_h e E' t) = M * A' - m * (c * n)).
  { intros i m e Hi Hm Hv.
    assert (Hm0 : 0 <= m) by (eapply Forall_nth_error in Htm; eassumption). split; [assumption|].
    destruct (nth_error_lt_ex tm temps i m Hlt Hm) as [t' Htt].
    assert (t' = t) as -> by (eapply Forall_nth_error in Htemps; eassumption).
    destruct (Hpt (rank (se_used r) i) (Fin m) (Fin e) (Fin t)) as [s [Hs Hn]].
    { rewrite mask_rank by assumption. apply nth_error_map_fin. assumption. }
    { rewrite mask_rank by assumption. apply nth_error_map_fin. assumption. }
    { rewrite mask_rank by assumption. apply nth_error_map_fin. assumption. }
    rewrite (slice_masked _ []), (slice_masked _ (water_only kw)) in Hs by (rewrite ?map_length in *; assumption).
    pose proof (Forall_nth_error _ _ _ _ Hz Hn) as Hzero. cbv beta in Hzero.
    destruct (residual_zero_inv _ _ _ _ _ _ HM Hm0 Hzero) as [sr [ar [-> [-> Har]]]].
    change (slice_at [] i) with (@nil (string * xr)) in Hs.
    change (slice_at (water_only kw) i) with [("k_water", Fin kw)] in Hs.
    destruct (alk_water_finite _ _ _ Hkw Hs) as [x Hpx].
    destruct (pH_finite _ _ _ _ Ht Hpx) as [E' HE']. exists ar, E'. split; [reflexivity|]. split; [assumption|].
    rewrite HE', emf_to_pH_nernst in Hs by assumption. rewrite alk_water, pow10_pH in Hs by apply exp_pos.
    injection Hs as Hs. rewrite Har, <- Hs. field. lra. }
  destruct (Hused _ _ _ U1 N1 E1) as [P1 [A' [E' [EA [EE B1]]]]].
  destruct (Hused _ _ _ U2 N2 E2) as [P2 [A2 [E2' [EA2 [EE2 B2]]]]].
  destruct (Hused _ _ _ U3 N3 E3) as [P3 [A3 [E3' [EA3 [EE3 B3]]]]].
  assert (A2 = A') as -> by congruence. assert (A3 = A') as -> by congruence.
  assert (E2' = E') as -> by congruence. assert (E3' = E') as -> by congruence.
  rewrite (nernst_shift e1 E) in B1. rewrite (nernst_shift e2 E) in B2. rewrite (nernst_shift e3 E) in B3.
  set (q := exp ((E - E') * 96.4853365 / (8.3144621 * (t + 273.15)))) in *.
  unfold true_reading in T1, T2, T3. rewrite !Rmult_assoc in T1, T2, T3. 
  destruct (three_points kw (c * n) M A A' q m1 m2 m3 (nernst_h e1 E t) (nernst_h e2 E t) (nernst_h e3 E t)) as [Hq HA];
    try assumption; try apply exp_pos; try lra.
  split.
  - rewrite Ha, EA, HA. rewrite fin_q, fin_mul. f_equal. q2r. field.
  - rewrite EE. f_equal. unfold q in Hq. rewrite <- exp_0 in Hq. apply exp_inv in Hq.
    assert ((E - E') * 96.4853365 = 0).
    { apply Rmult_eq_reg_r with (/ (8.3144621 * (t + 273.15))); [unfold Rdiv in Hq; lra|]. apply Rinv_neq_0_compat. nra. }
    lra.
Qed.

(* ------------------------------------------------------------------ *)
(** * runs that start at a perfect fit *)

(* an optimiser that accepts its starting point *)
Definition accept : strategy xr := {| s_next := fun _ => None; s_pick := fun _ => 0%nat; s_max := 0 |}.

Lemma mask_all_true {X} (u : list bool) (l : list X) :
  length u = length l -> Forall (fun b => b = true) u -> mask u l = l.
Proof.
  revert l; induction u as [|b u IH]; intros [|x l] Hl Hf; try discriminate; [reflexivity|].
  inversion Hf; subst. cbn [mask]. f_equal. apply IH; [cbn in Hl; lia|assumption].
Qed.

Lemma perfect_start c tm emf temps M kw n t A E pmin pmax :
  masses_ok tm M -> tm <> [] -> NoDup tm -> -273.15 < t -> Forall (fun x => x = t) temps ->
  length emf = length tm -> length temps = length tm -> pmin < pmax ->
  (forall i m e, nth_error tm i = Some m -> nth_error emf i = Some e ->
     true_reading kw c n M A E t m e /\ pmin <= pH_of_h (nernst_h e E t) <= pmax) ->
  exists r, solve_emf accept (Fin c) (map Fin tm) (map Fin emf) (map Fin temps) (Fin M) [] (water_only kw)
    (Some (Fin (1000000 * A))) false (Some (Fin E)) "v23.7+" (Fin pmin) (Fin pmax) (Fin n) = Ok r /\
    Forall (fun v => v = Fin 0) (or_fun (se_opt_result r)) /\
    (forall i m, nth_error tm i = Some m -> used_at (se_used r) i) /\
    se_alkalinity r = Fin (1000000 * A) /\ se_emf0 r = Fin E.
Proof.
  intros Hok Hne Hnd Ht Htemps Hle Hlt Hw Hr.
  assert (Hb : Forall (fun t => -273.15 < t) temps) by (eapply Forall_impl; [|exact Htemps]; cbv beta; intros; subst; assumption).
  destruct (C27_raises tm emf temps M (Fin c) (Fin n) "v23.7+" Hok Hb Hle Hlt) as [_ [_ Hg]].
  destruct (Hg Hne Hnd) as [g Eg]. clear Hg.
  set (p := map (fun e => pH_of_h (nernst_h e E t)) emf).
  assert (Hlp : length p = length tm) by (unfold p; rewrite map_length; assumption).
  assert (EpH : emf_to_pH_arr (map Fin emf) (Fin E) (map Fin temps) = map Fin p).
  { unfold p. clear - Htemps Ht Hle Hlt. assert (Hl : length emf = length temps) by congruence. clear Hle Hlt tm.
    revert temps Hl Htemps; induction emf as [|x emf IH]; intros [|s temps] Hl Hf; try discriminate; [reflexivity|].
    inversion Hf as [|? ? -> Hf']; subst. unfold emf_to_pH_arr in *. cbn [map map2].
    rewrite emf_to_pH_nernst by assumption. f_equal. apply IH; [cbn in Hl; lia|assumption]. }
  assert (Eemf : map2 (fun x t => pH_to_emf (Fin x) (Fin E) (Fin t)) p temps = map Fin emf).
  { unfold p. clear - Htemps Ht Hle Hlt. assert (Hl : length emf = length temps) by congruence. clear Hle Hlt tm.
    revert temps Hl Htemps; induction emf as [|x emf IH]; intros [|s temps] Hl Hf; try discriminate; [reflexivity|].
    inversion Hf as [|? ? -> Hf']; subst. cbn [map map2].
    rewrite <- emf_to_pH_nernst, pH_emf_pH by assumption. f_equal. apply IH; [cbn in Hl; lia|assumption]. }
  assert (Hpt : forall i m x, nth_error tm i = Some m -> nth_error p i = Some x ->
     alkalinity (Fin x) (slice_at [] i) (slice_at (water_only kw) i) 3 = Ok (Fin ((M * A - m * c * n) / (M + m))) /\ pmin <= x <= pmax).
  { intros i m x Hm Hx. unfold p in Hx. rewrite nth_error_map in Hx. destruct (nth_error emf i) as [e|] eqn:Ee; [|discriminate].
    injection Hx as <-. destruct (Hr i m e Hm Ee) as [H1 H2]. split; [|assumption].
    change (slice_at [] i) with (@nil (string * xr)). change (slice_at (water_only kw) i) with [("k_water", Fin kw)].
    rewrite alk_water, pow10_pH by apply exp_pos. do 2 f_equal. unfold true_reading in H1. rewrite <- H1.
    destruct Hok as [HM Htm]. assert (0 <= m) by (eapply Forall_nth_error in Htm; eassumption). field. lra. }
  assert (Hres : lsqfun_solve_emf (Fin c) (map Fin tm) (map Fin emf) (map Fin temps) (Fin M) [] (water_only kw) (Fin n) [Fin A; Fin E]
    = Ok (map (fun _ => Fin 0) tm)).
  { rewrite <- Eemf. apply C35_truth_zeroes_residual; try assumption.
    - intros k v [].
    - intros k v [[= <- <-]|[]]. exact I.
    - intros i m x Hm Hx. apply (Hpt i m x Hm Hx). }
  assert (Eu : exists u, in_window (Fin pmin) (Fin pmax) (map Fin p) = u /\ length u = length tm /\ Forall (fun b => b = true) u).
  { eexists. split; [reflexivity|]. split; [unfold in_window; rewrite !map_length; assumption|].
    apply Forall_forall. intros b Hin. unfold in_window in Hin. rewrite map_map in Hin. apply in_map_iff in Hin as [x [<- Hin]].
    apply In_nth_error in Hin as [i Hi]. destruct (nth_error_lt_ex p tm i x (eq_sym Hlp) Hi) as [m Hm].
    destruct (Hpt i m x Hm Hi) as [_ [Hx1 Hx2]]. unfold ngeb. rewrite !x_leb_fin_t by assumption. reflexivity. }
  destruct Eu as [u [Eu [Hlu Hut]]].
  destruct (alkalinity_arr_total (map Fin p) [] (water_only kw) 3) as [sim Hsim].
  { destruct p; [destruct tm; [congruence|discriminate]|discriminate]. }
  { reflexivity. }
  { reflexivity. }
  { intros i x Hx. rewrite nth_error_map in Hx. destruct (nth_error p i) as [x'|] eqn:Ex; [|discriminate]. injection Hx as <-.
    destruct (nth_error_lt_ex p tm i x' (eq_sym Hlp) Ex) as [m Hm]. eexists. apply (Hpt i m x' Hm Ex). }
  unfold solve_emf, solve_emf_once, gran_guesses. rewrite Eg. cbn [bind]. rewrite x_ltb_fin_t by assumption. cbn [assert_ bind].
  rewrite EpH, Eu. change (all_fit (length u) [] && all_fit (length u) (water_only kw))%bool with true. cbn [negb].
  change (dmap (nd_mask u) []) with (@nil (string * nd xr)). change (dmap (nd_mask u) (water_only kw)) with (water_only kw).
  rewrite !mask_all_true by (rewrite ?map_length; congruence || assumption).
  rewrite fin_q, fin_mul. replace (1000000 * A * Q2R 0.000001) with A by (q2r; field).
  unfold least_squares. cbn [existsb]. change (nisnan (Fin A)) with false. change (nisnan (Fin E)) with false. cbn [orb].
  rewrite Hres.
  assert (Hfin : forallb nisfinite (map (fun _ : R => Fin 0) tm) = true).
  { apply forallb_forall. intros v Hin. apply in_map_iff in Hin as [? [<- _]]. reflexivity. }
  rewrite Hfin. cbn [accept s_max lsq_loop s_pick nth fst snd bind or_x or_fun nth_error of_opt].
  rewrite EpH. unfold alkalinity_all. change default_opt_pH_scale with 3%Z. rewrite Hsim. cbn [bind].
  eexists. split; [reflexivity|]. cbn [se_used se_emf0 se_alkalinity se_opt_result or_fun].
  split; [|split; [|split; [|reflexivity]]].
  - apply Forall_forall. intros v Hin. apply in_map_iff in Hin as [? [<- _]]. reflexivity.
  - intros i m Hm. destruct (nth_error_lt_ex tm u i m Hlu Hm) as [b Hb']. unfold used_at.
    eapply Forall_nth_error in Hut; [|eassumption]. cbv beta in Hut. subst b. assumption.
  - rewrite fin_q, fin_mul. f_equal. q2r. field.
Qed.

(* the reading that gives [H+] = h at 25 C and EMF0 = 0 *)
Definition reading (h : R) : R := ex_T25 * ln h.

Lemma reading_h h q : 0 < h -> 0 < q -> nernst_h (reading h) (- reading q) 25 = q * h.
Proof.
  intros Hh Hq. rewrite <- (ex_nernst (q * h)) by nra. unfold nernst_h, reading. f_equal. f_equal. f_equal.
  rewrite ln_mult by assumption. ring.
Qed.
Lemma reading_h0 h : 0 < h -> nernst_h (reading h) 0 25 = h.
Proof. apply ex_nernst. Qed.

Lemma pH_within h : 1/100 <= h <= 100 -> -2 <= pH_of_h h <= 2.
Proof.
  intros [H1 H2]. unfold pH_of_h. pose proof ln10_pos as Hl.
  assert (L : ln 100 = 2 * ln 10) by (replace 100 with (10 * 10) by ring; rewrite ln_mult by lra; ring).
  assert (L' : ln (1/100) = - (2 * ln 10)) by (replace (1/100) with (/ 100) by field; rewrite ln_Rinv by lra; rewrite L; reflexivity).
  assert (U : ln h <= 2 * ln 10).
  { rewrite <- L. destruct (Rle_lt_or_eq_dec _ _ H2) as [Hs| ->]; [left; apply ln_increasing; lra|right; reflexivity]. }
  assert (D : - (2 * ln 10) <= ln h).
  { rewrite <- L'. destruct (Rle_lt_or_eq_dec _ _ H1) as [Hs|<-]; [left; apply ln_increasing; lra|right; reflexivity]. }
  assert (E : ln h = ln h / ln 10 * ln 10) by (field; lra). rewrite E in U, D. set (y := ln h / ln 10) in *. clearbody y.
  split.
  - assert (y <= 2); [|lra]. apply Rmult_le_reg_r with (ln 10); lra.
  - assert (- 2 <= y); [|lra]. apply Rmult_le_reg_r with (ln 10); lra.
Qed.

(** Two additions are not enough: the same data, titrant and constants, with every residual
    exactly zero, yield two different alkalinities and EMF0s. *)
Theorem C114_two_additions_do_not_suffice : exists st c tm emf temps M kw ai ai' ei ei' pmin pmax n r r',
  masses_ok tm M /\ NoDup tm /\ length tm = 2%nat /\ 0 < kw /\ c * n <> 0 /\
  solve_emf st (Fin c) (map Fin tm) (map Fin emf) (map Fin temps) (Fin M) [] (water_only kw)
    ai false ei "v23.7+" (Fin pmin) (Fin pmax) (Fin n) = Ok r /\
  solve_emf st (Fin c) (map Fin tm) (map Fin emf) (map Fin temps) (Fin M) [] (water_only kw)
    ai' false ei' "v23.7+" (Fin pmin) (Fin pmax) (Fin n) = Ok r' /\
  (forall i, (i < 2)%nat -> used_at (se_used r) i /\ used_at (se_used r') i) /\
  Forall (fun v => v = Fin 0) (or_fun (se_opt_result r)) /\ Forall (fun v => v = Fin 0) (or_fun (se_opt_result r')) /\
  se_alkalinity r <> se_alkalinity r' /\ se_emf0 r <> se_emf0 r'.
Proof.
  assert (Ht : Forall (fun x => x = 25) [25; 25]) by (repeat constructor).
  assert (Hok : masses_ok [0; 1] 1) by (split; [lra|repeat constructor; lra]).
  assert (Hnd : NoDup [0; 1]).
  { constructor; [cbn; intros [E|[]]; lra|]. constructor; [intros []|constructor]. }
  destruct (perfect_start 1 [0; 1] [reading (1/30); reading (7/60)] [25; 25] 1 (14/225) 1 25 (11/6) 0 (-2) 2)
    as [r [Hr [Hz [Hu [Ha He]]]]]; try assumption; try reflexivity; try discriminate; try apply ex_t25; try lra.
  { intros [|[|i]] m e Hm Hv; cbn in Hm, Hv; [| |destruct i; discriminate];
      injection Hm as <-; injection Hv as <-; rewrite reading_h0 by lra; unfold true_reading; rewrite reading_h0 by lra;
      (split; [unfold oh_minus_h; field|apply pH_within; lra]). }
  destruct (perfect_start 1 [0; 1] [reading (1/30); reading (7/60)] [25; 25] 1 (14/225) 1 25 (1/3) (- reading 4) (-2) 2)
    as [r' [Hr' [Hz' [Hu' [Ha' He']]]]]; try assumption; try reflexivity; try discriminate; try apply ex_t25; try lra.
  { intros [|[|i]] m e Hm Hv; cbn in Hm, Hv; [| |destruct i; discriminate];
      injection Hm as <-; injection Hv as <-; rewrite reading_h by lra; unfold true_reading; rewrite reading_h by lra;
      (split; [unfold oh_minus_h; field|apply pH_within; lra]). }
  exists accept, 1, [0; 1], [reading (1/30); reading (7/60)], [25; 25], 1, (14/225),
    (Some (Fin (1000000 * (11/6)))), (Some (Fin (1000000 * (1/3)))), (Some (Fin 0)), (Some (Fin (- reading 4))), (-2), 2, 1, r, r'.
  split; [assumption|]. split; [assumption|]. split; [reflexivity|]. split; [lra|]. split; [lra|].
  split; [exact Hr|]. split; [exact Hr'|]. split.
  { intros [|[|i]] Hi; [split; [eapply Hu|eapply Hu']; reflexivity|split; [eapply Hu|eapply Hu']; reflexivity|lia]. }
  split; [exact Hz|]. split; [exact Hz'|]. rewrite Ha, Ha', He, He'. split.
  - intros E. apply fin_inj in E. lra.
  - intros E. apply fin_inj in E. unfold reading, ex_T25 in E.
    pose proof Fcst_pos. pose proof Rcst_pos. pose proof (TK_pos 25 ex_t25).
    assert (0 < ln 4) by (rewrite <- ln_1; apply ln_increasing; lra).
    assert (0 < Rcst * TK 25 / Fcst) by (apply Rdiv_lt_0_compat; nra). nra.
Qed.

(* a titration with three additions: kw = M = c = n = 1, A = 2, [H+] = 1/2, 1, 4/3 *)
Definition tm3 : list R := [1/5; 2; 31/5].
Definition emf3 : list R := [reading (1/2); reading 1; reading (4/3)].

Example C114_nonvacuous : exists r,
  solve_emf accept (Fin 1) (map Fin tm3) (map Fin emf3) (map Fin [25; 25; 25]) (Fin 1) [] (water_only 1)
    (Some (Fin (1000000 * 2))) false (Some (Fin 0)) "v23.7+" (Fin (-2)) (Fin 2) (Fin 1) = Ok r /\
  masses_ok tm3 1 /\ NoDup tm3 /\ Forall (fun v => v = Fin 0) (or_fun (se_opt_result r)) /\
  (forall i m e, nth_error tm3 i = Some m -> nth_error emf3 i = Some e ->
     used_at (se_used r) i /\ true_reading 1 1 1 1 2 0 25 m e).
Proof.
  assert (Hok : masses_ok tm3 1) by (split; [lra|repeat constructor; lra]).
  assert (Hnd : NoDup tm3).
  { unfold tm3. constructor; [cbn; intros [E|[E|[]]]; lra|]. constructor; [cbn; intros [E|[]]; lra|].
    constructor; [intros []|constructor]. }
  assert (Hp : forall i m e, nth_error tm3 i = Some m -> nth_error emf3 i = Some e ->
     true_reading 1 1 1 1 2 0 25 m e /\ -2 <= pH_of_h (nernst_h e 0 25) <= 2).
  { intros [|[|[|i]]] m e Hm Hv; cbn in Hm, Hv; [| | |destruct i; discriminate];
      injection Hm as <-; injection Hv as <-; rewrite reading_h0 by lra; unfold true_reading; rewrite reading_h0 by lra;
      (split; [unfold oh_minus_h; field|apply pH_within; lra]). }
  destruct (perfect_start 1 tm3 emf3 [25; 25; 25] 1 1 1 25 2 0 (-2) 2)
    as [r [Hr [Hz [Hu _]]]]; try assumption; try reflexivity; try discriminate; try apply ex_t25; try lra.
  { repeat constructor. }
  exists r. split; [exact Hr|]. split; [assumption|]. split; [assumption|]. split; [assumption|].
  intros i m e Hm Hv. split; [eapply Hu; eassumption|apply (Hp i m e Hm Hv)].
Qed.

Print Assumptions C114_perfect_fit_is_the_truth.
Print Assumptions C114_two_additions_do_not_suffice.
