(* PropLoss.v -- C76-C80, C90: the model of DIC loss *)
From Coq Require Import Reals Qreals Lra Psatz Sorted.
From Verif Require Import SimProofs ConvertProofs Loss XRLemmas SpecSimulate SpecLoss.
Open Scope list_scope.
Open Scope R_scope.

(* ------------------------------------------------------------------ *)
(** * C76 without gas exchange DIC only dilutes *)

Lemma fitted_steps_dilution M step : 0 < M -> 0 <= step -> forall n a c ds,
  length ds = S n -> 
  fitted_steps (Fin 0) (Fin M) (Fin step) (Fin (c * (M / (M + INR a * step))))
    (map Fin (map (fun i => INR i * step) (seq a (S n)))) (map Fin ds)
  = Ok (map Fin (map (fun i => c * (M / (M + INR i * step))) (seq a (S n)))).
Proof.
  intros HM Hs. induction n as [|n IH]; intros a c ds Hd.
  - destruct ds as [|d [|]]; try discriminate. reflexivity.
  - destruct ds as [|d [|d' ds]]; try discriminate.
    change (seq a (S (S n))) with (a :: seq (S a) (S n)).
    remember (seq (S a) (S n)) as sq. cbn [map fitted_steps].
    assert (Ha : 0 <= INR a * step) by (apply Rmult_le_pos; [apply pos_INR|assumption]).
    rewrite fin_add, df_fin by lra. rewrite !fin_mul, fin_sub.
    replace (c * (M / (M + INR a * step)) * ((M + INR a * step) / (step + (M + INR a * step))) - 0 * d * step)
      with (c * (M / (M + INR (S a) * step))).
    2:{ rewrite S_INR. field. lra. }
    subst sq. specialize (IH (S a) c (d' :: ds) ltac:(cbn in *; lia)).
    cbn [map] in IH. rewrite IH. reflexivity.
Qed.

Theorem C76_no_loss_is_dilution : forall M step c deltas n,
  0 < M -> 0 <= step -> length deltas = S n ->
  dic_loss_model_fitted (Fin 0) (map Fin (grid step (S n))) (map Fin deltas) (Fin c) (Fin M) (Fin step)
  = Ok (map Fin (map (fun m => c * 1000000 * (M / (M + m))) (grid step (S n)))).
Proof.
  intros M step c deltas n HM Hs Hd. unfold dic_loss_model_fitted.
  pose proof (fitted_steps_dilution M step HM Hs n 0%nat (c * 1000000) deltas Hd) as E.
  unfold grid. rewrite (map_map _ (fun m => c * 1000000 * (M / (M + m)))). rewrite <- E. f_equal.
  rewrite fin_q, fin_mul. f_equal. q2r. change (INR 0) with 0. field. lra.
Qed.
Print Assumptions C76_no_loss_is_dilution.

Example C76_nonvacuous : 0 < 0.1 /\ 0 <= 0.0001 /\ length [100; 300; 500] = 3%nat /\
  nth_error (grid 0.0001 3) 2 = Some 0.0002.
Proof. repeat split; try (q2r; lra). cbn. f_equal. q2r. lra. Qed.

(* ------------------------------------------------------------------ *)
(** * C77 modelled DIC is affine and decreasing in k_dic_loss *)

(* y = b - k s *)
Definition affine (k : R) (b s : list R) : list R := map2 (fun b s => b - k * s) b s.

Lemma fitted_steps_affine M step : 0 < M -> 0 <= step -> forall ds ms b0 s0,
  (length ds <= length ms)%nat -> ds <> [] -> Forall (fun m => 0 <= m) ms ->
  exists b s, length b = length ds /\ length s = length ds /\ hd_error b = Some b0 /\ hd_error s = Some s0 /\
    (forall k, fitted_steps (Fin k) (Fin M) (Fin step) (Fin (b0 - k * s0)) (map Fin ms) (map Fin ds)
               = Ok (map Fin (affine k b s))) /\
    (Forall (fun d => 0 <= d) ds -> 0 <= s0 -> Forall (fun s => 0 <= s) s) /\
    (0 < step -> Forall (fun d => 0 < d) ds -> 0 <= s0 -> Forall (fun s => 0 < s) (tl s)).
Proof.
  intros HM Hs. induction ds as [|d ds IH]; intros ms b0 s0 Hl Hne Hms; [contradiction|].
  destruct ds as [|d' ds].
  - exists [b0], [s0]. repeat split; try reflexivity; intros; [destruct ms; reflexivity| |constructor].
    constructor; [assumption|constructor].
  - destruct ms as [|m ms]; [cbn in Hl; lia|].
    inversion Hms as [|? ? Hm Hms']. subst.
    set (q := (M + m) / (step + (M + m))).
    assert (Hq : 0 < q). { unfold q. apply Rdiv_lt_0_compat; lra. }
    destruct (IH ms (b0 * q) (s0 * q + d * step) ltac:(cbn in *; lia) ltac:(discriminate) Hms')
      as [b [s [Hb [Hs' [Hb0 [Hs0 [E [Hnn Hpos]]]]]]]].
    exists (b0 :: b), (s0 :: s). repeat split; try (cbn [length] in *; congruence).
    + intros k. cbn [map fitted_steps]. rewrite fin_add, df_fin by lra. fold q.
      rewrite !fin_mul, fin_sub.
      replace ((b0 - k * s0) * q - k * d * step) with (b0 * q - k * (s0 * q + d * step)) by ring.
      specialize (E k). cbn [map] in E. rewrite E. reflexivity.
    + intros Hd H0. inversion Hd. subst. constructor; [assumption|]. apply Hnn; [assumption|].
      assert (0 <= s0 * q) by (apply Rmult_le_pos; lra).
      assert (0 <= d * step) by (apply Rmult_le_pos; lra). lra.
    + intros Hst Hd H0. cbn [tl]. inversion Hd. subst.
      assert (0 <= s0 * q) by (apply Rmult_le_pos; lra).
      assert (0 < d * step) by (apply Rmult_lt_0_compat; lra).
      destruct s as [|s1 s]; [constructor|]. cbn in Hs0. injection Hs0 as ->.
      constructor; [lra|]. apply (Hpos Hst); [assumption|lra].
Qed.

Theorem C77_affine_in_k : forall M step c ms deltas,
  0 < M -> 0 <= step -> Forall (fun m => 0 <= m) ms ->
  deltas <> [] -> (length deltas <= length ms)%nat ->
  exists base slope,
    length base = length deltas /\ length slope = length deltas /\
    (forall k, dic_loss_model_fitted (Fin k) (map Fin ms) (map Fin deltas) (Fin c) (Fin M) (Fin step)
               = Ok (map Fin (affine k base slope))) /\
    (Forall (fun d => 0 <= d) deltas -> Forall (fun s => 0 <= s) slope) /\
    (0 < step -> Forall (fun d => 0 < d) deltas -> Forall (fun s => 0 < s) (tl slope)).
Proof.
  intros M step c ms deltas HM Hs Hms Hne Hl.
  destruct (fitted_steps_affine M step HM Hs deltas ms (c * 1000000) 0 Hl Hne Hms)
    as [b [s [Hb [Hs' [_ [_ [E [Hnn Hpos]]]]]]]].
  exists b, s. repeat split; try assumption.
  - intros k. rewrite <- (E k). unfold dic_loss_model_fitted. f_equal. rewrite fin_q, fin_mul. f_equal.
    q2r. lra.
  - intros Hd. apply Hnn; [assumption|lra].
  - intros Hst Hd. apply Hpos; [assumption|assumption|lra].
Qed.
Print Assumptions C77_affine_in_k.

Lemma affine_le k k' : k <= k' -> forall b s, Forall (fun s => 0 <= s) s ->
  Forall2 Rle (affine k' b s) (affine k b s).
Proof.
  intros Hk. induction b as [|x b IH]; intros [|y s] Hs; try constructor.
  - inversion Hs. subst. assert (k * y <= k' * y) by (apply Rmult_le_compat_r; assumption). lra.
  - apply IH. inversion Hs. assumption.
Qed.

Theorem C77_nonincreasing_in_k : forall M step c ms deltas k k' dic dic',
  0 < M -> 0 <= step -> Forall (fun m => 0 <= m) ms -> Forall (fun d => 0 <= d) deltas ->
  (length deltas <= length ms)%nat -> k <= k' ->
  dic_loss_model_fitted (Fin k) (map Fin ms) (map Fin deltas) (Fin c) (Fin M) (Fin step) = Ok dic ->
  dic_loss_model_fitted (Fin k') (map Fin ms) (map Fin deltas) (Fin c) (Fin M) (Fin step) = Ok dic' ->
  exists l l', dic = map Fin l /\ dic' = map Fin l' /\ Forall2 Rle l' l.
Proof.
  intros M step c ms deltas k k' dic dic' HM Hs Hms Hd Hl Hk E E'.
  assert (Hne : deltas <> []) by (intros ->; destruct ms; discriminate E).
  destruct (C77_affine_in_k M step c ms deltas HM Hs Hms Hne Hl) as [b [s [_ [_ [Ea [Hnn _]]]]]].
  rewrite Ea in E, E'. injection E as <-. injection E' as <-.
  exists (affine k b s), (affine k' b s). repeat split. apply affine_le; auto.
Qed.
Print Assumptions C77_nonincreasing_in_k.

Example C77_nonvacuous :
  0 < 0.1 /\ 0 <= 0.0001 /\ Forall (fun m => 0 <= m) [0; 0.0001; 0.0002] /\
  Forall (fun d => 0 <= d) [100; 300; 500] /\ 1 <= 2 /\
  exists dic, dic_loss_model_fitted (Fin 2) (map Fin [0; 0.0001; 0.0002]) (map Fin [100; 300; 500]) (Fin 0.002)
                (Fin 0.1) (Fin 0.0001) = Ok dic /\ length dic = 3%nat.
Proof.
  repeat split; try (q2r; lra); try (repeat constructor; q2r; lra).
  eexists. split; reflexivity.
Qed.

(* ------------------------------------------------------------------ *)
(** * C90 the fit of k_dic_loss has one best value and no other stationary point *)

Definition residuals (M step c : R) (ms deltas data : list R) (k : R) : option (list R) :=
  match lsqfun_dic_loss_model (map Fin ms) (map Fin deltas) (Fin c) (Fin M) (Fin step) (map Fin data) [Fin k] with
  | Ok l => Some (map (fun x => match x with Fin r => r | _ => 0 end) l)
  | Err _ => None
  end.

Lemma map2_fin_sub l l' : map2 nsub (map Fin l) (map Fin l') = map Fin (map2 Rminus l l').
Proof. revert l'. induction l as [|x l IH]; intros [|y l']; try reflexivity. cbn [map map2]. rewrite IH. reflexivity. Qed.

Lemma affine_length k : forall b s, length b = length s -> length (affine k b s) = length b.
Proof. unfold affine. induction b as [|x b IH]; intros [|y s] Hl; try discriminate; cbn in *; auto. Qed.

(* a quadratic in k: q(k) = q(k0) - 2 (k - k0) g + (k - k0)^2 S with S the sum of squared slopes *)
Lemma sumsq_affine : forall b s y k k0, length b = length s -> length y = length s ->
  sumsq (map2 Rminus (affine k b s) y) =
  sumsq (map2 Rminus (affine k0 b s) y)
  - 2 * (k - k0) * fold_right Rplus 0 (map2 Rmult (map2 Rminus (affine k0 b s) y) s)
  + (k - k0) ^ 2 * sumsq s.
Proof.
  induction b as [|x b IH]; intros [|z s] [|w y] k k0 Hb Hy; try discriminate.
  - cbn. ring.
  - change (affine k (x :: b) (z :: s)) with ((x - k * z) :: affine k b s).
    change (affine k0 (x :: b) (z :: s)) with ((x - k0 * z) :: affine k0 b s).
    cbn [map2 sumsq fold_right]. fold (sumsq (map2 Rminus (affine k b s) y)).
    fold (sumsq (map2 Rminus (affine k0 b s) y)). fold (sumsq s).
    rewrite (IH s y k k0) by (cbn in *; lia). ring.
Qed.

Lemma sumsq_nonneg l : 0 <= sumsq l.
Proof. induction l as [|x l IH]; cbn [sumsq fold_right]; [lra|]. fold (sumsq l). nra. Qed.

Lemma sumsq_pos l : Exists (fun x => x <> 0) l -> 0 < sumsq l.
Proof.
  induction 1 as [x l Hx|x l Hx IH]; cbn [sumsq fold_right]; fold (sumsq l).
  - pose proof (sumsq_nonneg l). assert (0 < x ^ 2) by nra. lra.
  - nra.
Qed.

(* the residuals at the k where the fit is stationary: the sum of squares is a parabola in k, so the
   stationary point, if there is a nonzero slope, exists, is unique and is the best value *)
Theorem C90_unique_best_fit : forall M step c ms deltas data,
  0 < M -> 0 < step -> Forall (fun m => 0 <= m) ms -> Forall (fun d => 0 < d) deltas ->
  (2 <= length deltas <= length ms)%nat -> length data = length deltas ->
  exists kbest rbest, residuals M step c ms deltas data kbest = Some rbest /\
    forall k, k <> kbest -> exists r, residuals M step c ms deltas data k = Some r /\ sumsq rbest < sumsq r.
Proof.
  intros M step c ms deltas data HM Hs Hms Hd [Hl2 Hl] Hy.
  assert (Hne : deltas <> []) by (intros ->; cbn in Hl2; lia).
  destruct (C77_affine_in_k M step c ms deltas HM ltac:(lra) Hms Hne Hl) as [b [s [Hb [Hs' [E [_ Hpos]]]]]].
  specialize (Hpos Hs Hd).
  assert (Hr : forall k, residuals M step c ms deltas data k = Some (map2 Rminus (affine k b s) data)).
  { intros k. unfold residuals, lsqfun_dic_loss_model. rewrite E. cbn [bind].
    rewrite !map_length, affine_length, Hb, Hy, Nat.eqb_refl by congruence.
    rewrite map2_fin_sub, map_map, map_id. reflexivity. }
  assert (HS : 0 < sumsq s).
  { apply sumsq_pos. destruct s as [|s0 [|s1 s]]; cbn in Hs'; try lia.
    apply Exists_cons_tl, Exists_cons_hd. cbn [tl] in Hpos. inversion Hpos. lra. }
  set (g := fold_right Rplus 0 (map2 Rmult (map2 Rminus (affine 0 b s) data) s)).
  set (kb := g / sumsq s).
  exists kb, (map2 Rminus (affine kb b s) data). split; [apply Hr|].
  intros k Hk. eexists. split; [apply Hr|].
  rewrite (sumsq_affine b s data k 0), (sumsq_affine b s data kb 0) by congruence. fold g.
  set (q := sumsq (map2 Rminus (affine 0 b s) data)).
  assert (Hg : g = kb * sumsq s) by (unfold kb; field; lra).
  rewrite Hg. assert (0 < (k - kb) ^ 2) by (pose proof (Rsqr_pos_lt (k - kb) ltac:(lra)) as Q; unfold Rsqr in Q; lra).
  assert (0 < (k - kb) ^ 2 * sumsq s) by (apply Rmult_lt_0_compat; assumption). nra.
Qed.
Print Assumptions C90_unique_best_fit.

Example C90_nonvacuous :
  0 < 0.1 /\ 0 < 0.0001 /\ Forall (fun m => 0 <= m) [0; 0.0001; 0.0002] /\
  Forall (fun d => 0 < d) [100; 300; 500] /\ (2 <= length [100; 300; 500])%nat.
Proof. repeat split; try (q2r; lra); try (repeat constructor; q2r; lra); cbn; lia. Qed.

(* ------------------------------------------------------------------ *)
(** * C78 fCO2 in the loss model is the CO2 of the speciation model *)

Theorem C78_fCO2_is_CO2_over_k0 : forall T (HT : Num T) pH totals ks scale c dic k0 k1 k2,
  alkalinity_components pH totals ks scale = Ok c ->
  dget "dic" totals = Some dic -> dget "k_carbonic_1" ks = Some k1 -> dget "k_carbonic_2" ks = Some k2 ->
  exists co2, dget "CO2" c = Some co2 /\ get_fCO2_from_dic_pH dic pH k0 k1 k2 = (co2 ⊘ k0)%num.
Proof.
  intros T HT pH totals ks scale c dic k0 k1 k2 Hc Hd H1 H2.
  rewrite (components_get _ _ _ _ _ DIC "CO2" Hc) by (unfold substs; cbn; tauto).
  unfold out_of, get_ks. cbn [s_name s_ks mapM]. rewrite Hd. unfold dgetE. rewrite H1, H2. cbn [of_opt bind].
  eexists. split; reflexivity.
Qed.
Print Assumptions C78_fCO2_is_CO2_over_k0.

(* in numbers: the CO2 k0 fCO2 is in equilibrium with the HCO3 and CO3 that make up the rest of dic *)
Theorem C78_fCO2_equilibrium : forall dic pH k0 k1 k2,
  0 < k0 -> 0 < k1 -> 0 < k2 ->
  exists f, get_fCO2_from_dic_pH (Fin dic) (Fin pH) (Fin k0) (Fin k1) (Fin k2) = Fin f /\
    let co2 := k0 * f in
    let hco3 := k1 * co2 / h_of pH in
    let co3 := k2 * hco3 / h_of pH in
    co2 + hco3 + co3 = dic.
Proof.
  intros dic pH k0 k1 k2 H0 H1 H2. set (h := h_of pH).
  assert (Hh : 0 < h) by apply pow10R_pos.
  exists (dic / (1 + k1 / h + k1 * k2 / h ^ 2) / k0). split.
  - unfold get_fCO2_from_dic_pH. rewrite fin_opp, fin_pow10. change (pow10R (- pH)) with h.
    rewrite fin_q, fin_pow, fin_mul, !fin_div, !fin_add by nra. 
    assert (0 < k1 / h) by (apply Rdiv_lt_0_compat; assumption).
    assert (0 < k1 * k2 / h ^ 2) by (apply Rdiv_lt_0_compat; [nra|nra]).
    replace (Q2R 1) with 1 by (q2r; lra).
    rewrite !fin_div by lra. reflexivity.
  - cbv zeta. assert (0 < k1 / h) by (apply Rdiv_lt_0_compat; assumption).
    assert (0 < k1 * k2) by nra. field. repeat split; nra.
Qed.
Print Assumptions C78_fCO2_equilibrium.

Theorem C78_fCO2_falls_with_pH : forall dic pH pH' k0 k1 k2 f f',
  0 < dic -> 0 < k0 -> 0 < k1 -> 0 < k2 -> pH < pH' ->
  get_fCO2_from_dic_pH (Fin dic) (Fin pH) (Fin k0) (Fin k1) (Fin k2) = Fin f ->
  get_fCO2_from_dic_pH (Fin dic) (Fin pH') (Fin k0) (Fin k1) (Fin k2) = Fin f' -> f' < f.
Proof.
  intros dic pH pH' k0 k1 k2 f f' Hd H0 H1 H2 Hp E E'.
  destruct (C78_fCO2_equilibrium dic pH k0 k1 k2 H0 H1 H2) as [g [Eg Hg]].
  destruct (C78_fCO2_equilibrium dic pH' k0 k1 k2 H0 H1 H2) as [g' [Eg' Hg']].
  rewrite E in Eg. rewrite E' in Eg'. apply fin_inj in Eg. apply fin_inj in Eg'. subst g g'.
  cbv zeta in Hg, Hg'. set (h := h_of pH) in *. set (h' := h_of pH') in *.
  assert (Hh : 0 < h') by apply pow10R_pos.
  assert (Hlt : h' < h) by (apply pow10R_inc; lra).
  set (r := 1 / h) in *. set (r' := 1 / h').
  assert (Hr : 0 < r < r').
  { unfold r, r'. split; [apply Rdiv_lt_0_compat; lra|]. apply Rmult_lt_compat_l; [lra|].
    apply Rinv_lt_contravar; nra. }
  replace (k0 * f + k1 * (k0 * f) / h + k2 * (k1 * (k0 * f) / h) / h)
    with (f * (k0 * (1 + k1 * r + k1 * k2 * r ^ 2))) in Hg by (unfold r; field; lra).
  replace (k0 * f' + k1 * (k0 * f') / h' + k2 * (k1 * (k0 * f') / h') / h')
    with (f' * (k0 * (1 + k1 * r' + k1 * k2 * r' ^ 2))) in Hg' by (unfold r'; field; lra).
  assert (P1 : 0 < k1 * k2) by nra.
  assert (Q0 : 0 < r ^ 2) by nra. assert (Q1 : r ^ 2 < r' ^ 2) by nra.
  assert (Q2 : 0 < k1 * r) by nra. assert (Q3 : k1 * r < k1 * r') by nra.
  assert (Q4 : 0 < k1 * k2 * r ^ 2) by (apply Rmult_lt_0_compat; assumption).
  assert (Q5 : k1 * k2 * r ^ 2 < k1 * k2 * r' ^ 2) by (apply Rmult_lt_compat_l; assumption).
  assert (D0 : 0 < 1 + k1 * r + k1 * k2 * r ^ 2) by lra.
  assert (D1 : 1 + k1 * r + k1 * k2 * r ^ 2 < 1 + k1 * r' + k1 * k2 * r' ^ 2) by lra.
  set (D := 1 + k1 * r + k1 * k2 * r ^ 2) in *. set (D' := 1 + k1 * r' + k1 * k2 * r' ^ 2) in *.
  assert (0 < k0 * D) by nra. assert (k0 * D < k0 * D') by nra.
  assert (0 < f') by nra. nra.
Qed.
Print Assumptions C78_fCO2_falls_with_pH.

Example C78_nonvacuous : exists c,
  alkalinity_components (Fin 5) [("dic", Fin 0.002)] [("k_carbonic_1", Fin 0.01); ("k_carbonic_2", Fin 0.001)] 3
  = Ok c /\ 0 < 0.002 /\ 0 < 0.01 /\ 0 < 0.001 /\ 5 < 6.
Proof. eexists. repeat split; try (q2r; lra). Qed.

(* ------------------------------------------------------------------ *)
(** * C80 which pH each forecast step uses *)

Lemma ok_inj {A} (x y : A) : Ok x = Ok y -> x = y.
Proof. congruence. Qed.

Section Forecast.
Context {T : Type} {HT : Num T}.

Lemma future_cons k M step air x d m m' ms p a b c pts :
  future_steps k M step air x d (m :: m' :: ms) ((p, a, b, c) :: pts) =
  (let x' := x ⊗ get_dilution_factor step (M ⊕ m) ⊖ k ⊗ d ⊗ step in
   let d' := get_fCO2_from_dic_pH x' p a b c ⊖ air in
   let r := future_steps k M step air x' d' (m' :: ms) pts in
   (x :: fst r, d :: snd r))%num.
Proof.
  change (future_steps k M step air x d (m :: m' :: ms) ((p, a, b, c) :: pts)) with
    (let x' := x ⊗ get_dilution_factor step (M ⊕ m) ⊖ k ⊗ d ⊗ step in
     let d' := get_fCO2_from_dic_pH x' p a b c ⊖ air in
     let (xs, ds) := future_steps k M step air x' d' (m' :: ms) pts in (x :: xs, d :: ds))%num.
  cbv zeta. destruct (future_steps _ _ _ _ _ _ (m' :: ms) pts). reflexivity.
Qed.

Lemma future_lengths k M step air : forall ms x d pts xs ds,
  ms <> [] -> length pts = pred (length ms) ->
  future_steps k M step air x d ms pts = (xs, ds) ->
  length xs = length ms /\ length ds = length ms /\ hd_error xs = Some x /\ hd_error ds = Some d.
Proof.
  induction ms as [|m ms IH]; intros x d pts xs ds Hne Hl E; [contradiction|].
  destruct ms as [|m' ms].
  - cbn in E. injection E as <- <-. repeat split.
  - destruct pts as [|[[[p a] b] c] pts]; [discriminate Hl|]. rewrite future_cons in E.
    cbv zeta in E.
    destruct (future_steps _ _ _ _ _ _ (m' :: ms) pts) as [xs' ds'] eqn:E'. cbn [fst snd] in E.
    injection E as <- <-. apply IH in E' as [L1 [L2 _]]; [|discriminate|cbn in *; lia].
    cbn [length] in *. repeat split; lia.
Qed.

Lemma future_consistent k M step air : forall ms x d pts xs ds j p a b c,
  length pts = pred (length ms) ->
  future_steps k M step air x d ms pts = (xs, ds) ->
  nth_error pts j = Some (p, a, b, c) ->
  exists xj, nth_error xs (S j) = Some xj /\
    nth_error ds (S j) = Some (get_fCO2_from_dic_pH xj p a b c ⊖ air)%num.
Proof.
  induction ms as [|m ms IH]; intros x d pts xs ds j p a b c Hl E Hj.
  - destruct pts; [destruct j; discriminate Hj|discriminate Hl].
  - destruct ms as [|m' ms].
    + destruct pts; [destruct j; discriminate Hj|discriminate Hl].
    + destruct pts as [|[[[p0 a0] b0] c0] pts]; [discriminate Hl|]. rewrite future_cons in E.
      cbv zeta in E.
      destruct (future_steps _ _ _ _ _ _ (m' :: ms) pts) as [xs' ds'] eqn:E'. cbn [fst snd] in E.
      injection E as <- <-. destruct j as [|j].
      * cbn in Hj. injection Hj as -> -> -> ->.
        apply future_lengths in E' as [_ [_ [H1 H2]]]; [|discriminate|cbn in *; lia].
        destruct xs' as [|x1 xs']; [discriminate|]. destruct ds' as [|d1 ds']; [discriminate|].
        cbn in H1, H2. injection H1 as ->. injection H2 as ->. eexists. split; reflexivity.
      * cbn [nth_error] in *. eapply IH; [|exact E'|exact Hj]. cbn in *. lia.
Qed.

End Forecast.

(* Every step after the first is consistent; the first one uses the pH and the constants of the
   last fitted point.  Missing: consistency of the first step, which is false (below). *)
Theorem C80_later_steps_partial : forall T (HT : Num T) k ms pHs k0s k1s k2s dlt x pH0 a0 b0 c0 M step air dic delta,
  dic_loss_model_future k ms pHs k0s k1s k2s dlt x pH0 a0 b0 c0 M step air = Ok (dic, delta) ->
  length dic = length ms /\ length delta = length ms /\
  forall j xj pH k0 k1 k2, (0 < j)%nat ->
    nth_error dic j = Some xj -> nth_error pHs j = Some pH -> nth_error k0s j = Some k0 ->
    nth_error k1s j = Some k1 -> nth_error k2s j = Some k2 ->
    nth_error delta j = Some (get_fCO2_from_dic_pH xj pH k0 k1 k2 ⊖ air)%num.
Proof.
  intros T HT k ms pHs k0s k1s k2s dlt x pH0 a0 b0 c0 M step air dic delta E.
  unfold dic_loss_model_future in E.
  destruct (Nat.eqb (length pHs) (length ms)) eqn:L1; [|discriminate].
  destruct (Nat.eqb (length k0s) (length ms)) eqn:L2; [|discriminate].
  destruct (Nat.eqb (length k1s) (length ms)) eqn:L3; [|discriminate].
  destruct (Nat.eqb (length k2s) (length ms)) eqn:L4; [|discriminate].
  cbn [andb negb] in E. apply Nat.eqb_eq in L1, L2, L3, L4.
  assert (Lc : length (combine (combine (combine pHs k0s) k1s) k2s) = length ms)
    by (rewrite !combine_length; lia).
  destruct ms as [|m0 ms]; [discriminate E|].
  apply ok_inj in E.
  assert (Lt : length (tl (combine (combine (combine pHs k0s) k1s) k2s)) = pred (length (m0 :: ms))).
  { destruct (combine _ _); [discriminate Lc|]. cbn in *. lia. }
  pose proof (future_lengths _ _ _ _ (m0 :: ms) _ _ _ _ _ ltac:(discriminate) Lt E) as [H1 [H2 _]].
  split; [assumption|]. split; [assumption|].
  intros [|j] xj pH k0 k1 k2 Hj Hx Hp Hk0 Hk1 Hk2; [lia|].
  assert (Hn : nth_error (tl (combine (combine (combine pHs k0s) k1s) k2s)) j = Some (pH, k0, k1, k2)).
  { destruct pHs as [|? pHs]; [destruct j; discriminate Hp|]. destruct k0s as [|? k0s]; [destruct j; discriminate Hk0|].
    destruct k1s as [|? k1s]; [destruct j; discriminate Hk1|]. destruct k2s as [|? k2s]; [destruct j; discriminate Hk2|].
    cbn [combine tl nth_error] in *. clear - Hp Hk0 Hk1 Hk2.
    revert pHs k0s k1s k2s Hp Hk0 Hk1 Hk2.
    induction j as [|j IH]; intros [|p ps] [|a s0] [|b s1] [|c s2] Hp Hk0 Hk1 Hk2;
      cbn [combine nth_error] in *; try discriminate; [congruence|]. apply IH; assumption. }
  destruct (future_consistent _ _ _ _ _ _ _ _ _ _ _ _ _ _ _ Lt E Hn) as [xj' [Hx' Hd]].
  rewrite Hx in Hx'. injection Hx' as <-. exact Hd.
Qed.
Print Assumptions C80_later_steps_partial.

Example C80_nonvacuous_partial : exists dic delta,
  dic_loss_model_future (Fin 1) [Fin 1; Fin 2] [Fin 5; Fin 4] [Fin 1; Fin 1] [Fin 1; Fin 1] [Fin 1; Fin 1]
    (Fin 0) (Fin 100) (Fin 6) (Fin 1) (Fin 1) (Fin 1) (Fin 10) (Fin 1) (Fin 450) = Ok (dic, delta) /\
  length delta = 2%nat.
Proof. eexists. eexists. split; reflexivity. Qed.

(* what holds of the first forecast value: its delta fCO2 is that of another pH *)
Theorem C80_first_step_refuted : exists k ms pHs k0s k1s k2s dlt x pH0 k0_0 k1_0 k2_0 M step air dic delta x0 p a b c,
  dic_loss_model_future k ms pHs k0s k1s k2s dlt x pH0 k0_0 k1_0 k2_0 M step air = Ok (dic, delta) /\
  nth_error dic 0 = Some x0 /\ nth_error pHs 0 = Some p /\ nth_error k0s 0 = Some a /\
  nth_error k1s 0 = Some b /\ nth_error k2s 0 = Some c /\
  nth_error delta 0 <> Some (nsub (get_fCO2_from_dic_pH x0 p a b c) air).
Proof.
  exists (Fin 0), [Fin 1], [Fin 5], [Fin 1], [Fin 1], [Fin 1], (Fin 0), (Fin 11), (Fin 6), (Fin 1), (Fin 1), (Fin 1),
    (Fin 10), (Fin 1), (Fin 450).
  do 2 eexists. exists (Fin 10), (Fin 5), (Fin 1), (Fin 1), (Fin 1).
  split; [reflexivity|]. cbn [nth_error tl combine future_steps].
  assert (Hx : (Fin 11 ⊗ get_dilution_factor (Fin 1) (Fin 10 ⊕ Fin 1 ⊖ Fin 1) ⊖ Fin 0 ⊗ Fin 0 ⊗ Fin 1)%num = Fin 10).
  { rewrite fin_add, fin_sub, df_fin by lra. rewrite !fin_mul, fin_sub. f_equal. field. }
  rewrite Hx. repeat split; try reflexivity.
  destruct (C78_fCO2_equilibrium 10 6 1 1 1 ltac:(lra) ltac:(lra) ltac:(lra)) as [f [E _]].
  destruct (C78_fCO2_equilibrium 10 5 1 1 1 ltac:(lra) ltac:(lra) ltac:(lra)) as [f' [E' _]].
  rewrite E, E', !fin_sub. intros Heq. injection Heq as Heq.
  pose proof (C78_fCO2_falls_with_pH 10 5 6 1 1 1 f' f ltac:(lra) ltac:(lra) ltac:(lra) ltac:(lra) ltac:(lra) E' E). lra.
Qed.
Print Assumptions C80_first_step_refuted.
