(* PropSensitive.v -- C125: how far an error in the pH readings can move the alkalinity *)
From Coq Require Import Reals Qreals Lra Ranalysis.
From Verif Require Import PropMonotone SpecSimulate.
Open Scope list_scope.
Open Scope R_scope.

(* ------------------------------------------------------------------ *)
(** * Vocabulary *)

(* a substance that gives off n protons in all buffers at most n^2/4 of its total per unit of ln [H] *)
Definition buffering : list (string * R) :=
  [("dic", 1); ("total_phosphate", 9 / 4); ("total_borate", 1 / 4); ("total_silicate", 1 / 4); ("total_ammonia", 1 / 4);
   ("total_sulfide", 1 / 4); ("total_alpha", 1 / 4); ("total_beta", 1 / 4); ("total_fluoride", 1 / 4); ("total_sulfate", 1 / 4)].

(* most that a solution with these contents and constants can buffer between two pH values *)
Definition capacity (totals ks : dict xr) (low high : R) : R :=
  h_of low + content ks "k_water" / h_of high + Rsum (map (fun nq => snd nq * content totals (fst nq)) buffering).

(* ------------------------------------------------------------------ *)
(** * One substance *)

Definition P (c0 c1 c2 c3 x : R) : R := c0 + c1 * x + c2 * x ^ 2 + c3 * x ^ 3.
Lemma P_der c0 c1 c2 c3 x : derivable_pt_lim (P c0 c1 c2 c3) x (c1 + 2 * c2 * x + 3 * c3 * x ^ 2).
Proof.
  replace (c1 + 2 * c2 * x + 3 * c3 * x ^ 2) with (0 + c1 * 1 + c2 * (INR 2 * x ^ pred 2) + c3 * (INR 3 * x ^ pred 3)) by (cbn; ring).
  change (P c0 c1 c2 c3) with (plus_fct (plus_fct (plus_fct (fct_cte c0) (mult_real_fct c1 id)) (mult_real_fct c2 (fun x => x ^ 2))) (mult_real_fct c3 (fun x => x ^ 3))).
  repeat apply derivable_pt_lim_plus.
  - apply derivable_pt_lim_const.
  - apply derivable_pt_lim_scal, derivable_pt_lim_id.
  - apply derivable_pt_lim_scal, derivable_pt_lim_pow.
  - apply derivable_pt_lim_scal, derivable_pt_lim_pow.
Qed.

(* a quotient falls no faster than q ln h *)
Lemma quotient_bound n0 n1 n2 n3 d0 d1 d2 d3 q h1 h2 : 0 < h1 -> h1 <= h2 ->
  (forall h, 0 < h -> 0 < P d0 d1 d2 d3 h) ->
  (forall h, 0 < h -> h * ((d1 + 2 * d2 * h + 3 * d3 * h ^ 2) * P n0 n1 n2 n3 h - (n1 + 2 * n2 * h + 3 * n3 * h ^ 2) * P d0 d1 d2 d3 h)
     <= q * (P d0 d1 d2 d3 h) ^ 2) ->
  P n0 n1 n2 n3 h1 / P d0 d1 d2 d3 h1 - P n0 n1 n2 n3 h2 / P d0 d1 d2 d3 h2 <= q * (ln h2 - ln h1).
Proof.
  intros H1 [H12|<-] Dp Hb; [|lra].
  set (N := P n0 n1 n2 n3) in *. set (D := P d0 d1 d2 d3) in *.
  set (N' := fun h => n1 + 2 * n2 * h + 3 * n3 * h ^ 2). set (D' := fun h => d1 + 2 * d2 * h + 3 * d3 * h ^ 2).
  set (G := plus_fct (div_fct N D) (mult_real_fct q ln)).
  set (G' := fun h => (N' h * D h - D' h * N h) / Rsqr (D h) + q * / h).
  destruct (MVT_cor2 G G' h1 h2 H12) as (c & E & Hc).
  { intros c Hc. unfold G, G'. apply derivable_pt_lim_plus.
    - apply derivable_pt_lim_div; [apply P_der|apply P_der|]. specialize (Dp c). lra.
    - apply derivable_pt_lim_scal, derivable_pt_lim_ln. lra. }
  assert (0 <= G' c).
  { unfold G'. assert (C0 : 0 < c) by lra. specialize (Dp c C0). specialize (Hb c C0). unfold Rsqr.
    replace ((N' c * D c - D' c * N c) / (D c * D c) + q * / c) with ((q * D c ^ 2 - c * (D' c * N c - N' c * D c)) * / (c * (D c * D c)))
      by (field; lra).
    apply Rmult_le_pos; [unfold D', N'; lra|]. left. apply Rinv_0_lt_compat. apply Rmult_lt_0_compat; [lra|nra]. }
  assert (X : 0 <= G h2 - G h1) by (rewrite E; apply Rmult_le_pos; lra).
  unfold G, plus_fct, div_fct, mult_real_fct in X. lra.
Qed.

Lemma base_bound k h1 h2 : 0 < k -> 0 < h1 -> h1 <= h2 -> k / (k + h1) - k / (k + h2) <= 1 / 4 * (ln h2 - ln h1).
Proof.
  intros K H1 H2.
  replace (k / (k + h1) - k / (k + h2)) with (P k 0 0 0 h1 / P k 1 0 0 h1 - P k 0 0 0 h2 / P k 1 0 0 h2)
    by (unfold P; f_equal; try (apply f_equal); f_equal; ring).
  apply quotient_bound; try assumption; intros h Hh; unfold P; [lra|].
  pose proof (pow2_ge_0 (k - h)). nra.
Qed.

Lemma contrR_slow s t kk h1 h2 q : 0 <= t -> Forall (fun k => 0 < k) kk -> 0 < h1 -> h1 <= h2 ->
  In (s_name s, q) buffering -> contrR s t kk h1 - contrR s t kk h2 <= q * t * (ln h2 - ln h1).
Proof.
  intros Ht Hk H1 H2 Iq.
  assert (L : 0 <= ln h2 - ln h1) by (destruct H2 as [H2|<-]; [apply ln_increasing in H2; lra|lra]).
  assert (Q : q = match s with DIC => 1 | Phosphate => 9 / 4 | _ => 1 / 4 end /\ 0 <= q).
  { destruct s; cbn [s_name buffering In] in Iq;
      repeat (match type of Iq with False => destruct Iq | _ => idtac end; destruct Iq as [Iq|Iq]; [first [discriminate Iq|injection Iq as <-; split; [reflexivity|lra]]|]);
      destruct Iq. }
  destruct Q as [-> _].
  assert (Z : forall q, 0 <= q -> 0 - 0 <= q * t * (ln h2 - ln h1)) by (intros; assert (0 <= q * t) by nra; nra).
  assert (B : forall k, 0 < k -> t * k / (k + h1) - t * k / (k + h2) <= 1 / 4 * t * (ln h2 - ln h1)).
  { intros k K. pose proof (base_bound k h1 h2 K H1 H2) as X.
    replace (t * k / (k + h1) - t * k / (k + h2)) with (t * (k / (k + h1) - k / (k + h2))) by (unfold Rdiv; ring). nra. }
  assert (A : forall k, 0 < k -> - (t * h1 / (k + h1)) - - (t * h2 / (k + h2)) <= 1 / 4 * t * (ln h2 - ln h1)).
  { intros k K. replace (- (t * h1 / (k + h1)) - - (t * h2 / (k + h2))) with (t * k / (k + h1) - t * k / (k + h2)) by (field; lra). now apply B. }
  destruct s; destruct kk as [|k1 [|k2 [|k3 [|k4 kk]]]]; cbn [contrR]; try (apply Z; lra);
    repeat match goal with H : Forall _ (_ :: _) |- _ => inversion H; clear H; subst end;
    try (apply B; assumption); try (apply A; assumption); try (destruct (pK_low k1); [apply A|apply B]; assumption).
  - (* carbonate *)
    assert (X : P (2 * (k1 * k2)) k1 0 0 h1 / P (k1 * k2) k1 1 0 h1 - P (2 * (k1 * k2)) k1 0 0 h2 / P (k1 * k2) k1 1 0 h2 <= 1 * (ln h2 - ln h1)).
    { assert (0 < k1 * k2) by nra. apply quotient_bound; try assumption; intros h Hh; unfold P.
      - assert (0 < k1 * h) by nra. assert (0 < h ^ 2) by (apply pow_lt; lra). lra.
      - match goal with |- ?x <= ?y => cut (0 <= y - x); [lra|] end.
        match goal with |- 0 <= ?x => replace x with ((h ^ 2 - k1 * k2) ^ 2 + k1 * h * (h ^ 2 + k1 * h + k1 * k2)) by ring end.
        assert (0 < k1 * h) by nra. assert (0 < h ^ 2) by (apply pow_lt; lra).
        pose proof (pow2_ge_0 (h ^ 2 - k1 * k2)). assert (0 <= k1 * h * (h ^ 2 + k1 * h + k1 * k2)) by (apply Rmult_le_pos; lra). lra. }
    replace (t * (k1 * h1 + 2 * (k1 * k2)) / (h1 ^ 2 + k1 * h1 + k1 * k2) - t * (k1 * h2 + 2 * (k1 * k2)) / (h2 ^ 2 + k1 * h2 + k1 * k2))
      with (t * (P (2 * (k1 * k2)) k1 0 0 h1 / P (k1 * k2) k1 1 0 h1 - P (2 * (k1 * k2)) k1 0 0 h2 / P (k1 * k2) k1 1 0 h2)).
    2:{ rewrite Rmult_minus_distr_l. unfold Rdiv. rewrite <- !Rmult_assoc. unfold P. f_equal; [|f_equal]; f_equal; try (f_equal; ring); ring. }
    nra.
  - (* phosphate *)
    set (B2 := k1 * k2). set (C := B2 * k3).
    assert (0 < B2) by (unfold B2; nra). assert (0 < C) by (unfold C; nra).
    assert (X : P (2 * C) B2 0 (-1) h1 / P C B2 k1 1 h1 - P (2 * C) B2 0 (-1) h2 / P C B2 k1 1 h2 <= 9 / 4 * (ln h2 - ln h1)).
    { apply quotient_bound; try assumption; intros h Hh; unfold P.
      - assert (0 < B2 * h) by nra. assert (0 < h ^ 2) by (apply pow_lt; lra). assert (0 < k1 * h ^ 2) by nra. assert (0 < h ^ 3) by (apply pow_lt; lra). lra.
      - match goal with |- ?x <= ?y => cut (0 <= y - x); [lra|] end.
        set (a := h ^ 3). set (b := k1 * h ^ 2). set (c := B2 * h).
        match goal with |- 0 <= ?x => replace x with
          (9 / 4 * (a - C) ^ 2 + 9 / 4 * (b ^ 2 + c ^ 2) + 7 / 2 * (a * b + b * c + c * C) + 1 / 2 * (a * c + b * C)) by (unfold a, b, c; field) end.
        assert (0 < a) by (apply pow_lt; lra). assert (0 < h ^ 2) by (apply pow_lt; lra). assert (0 < b) by (unfold b; nra). assert (0 < c) by (unfold c; nra).
        pose proof (pow2_ge_0 (a - C)). pose proof (pow2_ge_0 b). pose proof (pow2_ge_0 c).
        assert (0 < a * b) by nra. assert (0 < b * c) by nra. assert (0 < c * C) by nra. assert (0 < a * c) by nra. assert (0 < b * C) by nra. lra. }
    match goal with |- ?l - ?r <= _ => replace (l - r) with (t * (P (2 * C) B2 0 (-1) h1 / P C B2 k1 1 h1 - P (2 * C) B2 0 (-1) h2 / P C B2 k1 1 h2)) end.
    2:{ rewrite Rmult_minus_distr_l. unfold Rdiv. rewrite <- !Rmult_assoc. unfold P, C, B2. f_equal; [|f_equal]; f_equal; try (f_equal; ring); ring. }
    nra.
Qed.

(* ------------------------------------------------------------------ *)
(** * The whole solution *)

Lemma ln_diff h1 h2 : 0 < h1 -> h1 <= h2 -> h2 - h1 <= h2 * (ln h2 - ln h1).
Proof.
  intros H1 H2.
  (* exp (- x) >= 1 - x with x = ln (h2 / h1) *)
  assert (E : exp (- (ln h2 - ln h1)) = h1 / h2).
  { replace (- (ln h2 - ln h1)) with (ln h1 + - ln h2) by ring. rewrite exp_plus, exp_Ropp, !exp_ln by lra. reflexivity. }
  pose proof (exp_ineq1_le (- (ln h2 - ln h1))) as X. rewrite E in X.
  assert (Y : h2 * (1 + - (ln h2 - ln h1)) <= h2 * (h1 / h2)) by (apply Rmult_le_compat_l; lra).
  replace (h2 * (h1 / h2)) with h1 in Y by (field; lra). lra.
Qed.

Lemma contr_slow totals ks s h1 h2 q : nonneg_totals totals -> pos_constants ks -> 0 < h1 -> h1 <= h2 ->
  In (s_name s, q) buffering -> contr totals ks s h1 - contr totals ks s h2 <= q * content totals (s_name s) * (ln h2 - ln h1).
Proof.
  intros Ht Hk H1 H2 Iq.
  assert (L : 0 <= ln h2 - ln h1) by (destruct H2 as [H2|<-]; [apply ln_increasing in H2; lra|lra]).
  assert (Q0 : 0 <= q).
  { cbn [buffering In] in Iq. repeat (destruct Iq as [Iq|Iq]; [injection Iq as _ <-; lra|]). destruct Iq. }
  unfold contr, content. destruct (dget (s_name s) totals) as [v|] eqn:E; [|nra].
  destruct (Ht _ _ E) as (t & -> & T0). cbn [unfin].
  destruct (get_ks s ks) as [kk|] eqn:Ek; [|assert (0 <= q * t) by nra; nra].
  apply contrR_slow; try assumption. exact (proj2 (get_ks_fin s ks kk (pos_ok _ Hk) Ek)).
Qed.

Lemma sum_slow totals ks (l : list subst) (b : list (string * R)) h1 h2 :
  nonneg_totals totals -> pos_constants ks -> 0 < h1 -> h1 <= h2 ->
  Forall2 (fun s nq => s_name s = fst nq) l b -> (forall nq, In nq b -> In nq buffering) ->
  Rsum (map (fun s => contr totals ks s h1) l) - Rsum (map (fun s => contr totals ks s h2) l) <=
  Rsum (map (fun nq => snd nq * content totals (fst nq)) b) * (ln h2 - ln h1).
Proof.
  intros Ht Hk H1 H2 F. induction F as [|s [nm q] l b E F IH]; intros I.
  - unfold Rsum; cbn. lra.
  - cbn [map fst snd] in *. rewrite !Rsum_cons. specialize (IH (fun nq J => I nq (or_intror J))).
    pose proof (contr_slow totals ks s h1 h2 q Ht Hk H1 H2) as X. rewrite E in X. specialize (X (I _ (or_introl eq_refl))).
    rewrite Rmult_plus_distr_r. lra.
Qed.

Lemma term_nonneg totals nm q : nonneg_totals totals -> 0 <= q -> 0 <= q * content totals nm.
Proof.
  intros Ht Q. unfold content. destruct (dget nm totals) as [v|] eqn:E; [|nra]. destruct (Ht _ _ E) as (t & -> & T0). nra.
Qed.

Lemma all_substs totals ks scale h1 h2 : nonneg_totals totals -> pos_constants ks -> 0 < h1 -> h1 <= h2 ->
  Rsum (map (fun s => contr totals ks s h1) (substs scale)) - Rsum (map (fun s => contr totals ks s h2) (substs scale)) <=
  Rsum (map (fun nq => snd nq * content totals (fst nq)) buffering) * (ln h2 - ln h1).
Proof.
  intros Ht Hk H1 H2.
  assert (L : 0 <= ln h2 - ln h1) by (destruct H2 as [H2|<-]; [apply ln_increasing in H2; lra|lra]).
  (* the full list *)
  pose proof (sum_slow totals ks [DIC; Phosphate; Borate; Silicate; Ammonia; Sulfide; Alpha; Beta; Fluoride; Sulfate] buffering h1 h2 Ht Hk H1 H2) as X.
  assert (F : Forall2 (fun s nq => s_name s = fst nq) [DIC; Phosphate; Borate; Silicate; Ammonia; Sulfide; Alpha; Beta; Fluoride; Sulfate] buffering)
    by (repeat constructor).
  specialize (X F (fun _ I => I)).
  (* leaving out fluoride or sulfate makes the difference smaller *)
  assert (M : forall s, 0 <= contr totals ks s h1 - contr totals ks s h2).
  { intros s. destruct H2 as [H2|<-]; [|lra].
    pose proof (contr_mono totals ks (nonneg_nn _ Ht) (pos_ok _ Hk) s h1 h2 H1 H2). lra. }
  pose proof (M Fluoride). pose proof (M Sulfate).
  eapply Rle_trans; [|exact X].
  unfold substs. destruct (existsb (Z.eqb scale) [1; 3]%Z); destruct (Z.eqb scale 3); cbn [app map]; rewrite !Rsum_cons; lra.
Qed.

Lemma alkR_slow totals ks scale h1 h2 : nonneg_totals totals -> pos_constants ks -> 0 < h1 -> h1 <= h2 ->
  alkR totals ks scale h1 - alkR totals ks scale h2 <=
  (h2 + content ks "k_water" / h1 + Rsum (map (fun nq => snd nq * content totals (fst nq)) buffering)) * (ln h2 - ln h1).
Proof.
  intros Ht Hk H1 H2. pose proof (all_substs totals ks scale h1 h2 Ht Hk H1 H2) as S. pose proof (ln_diff h1 h2 H1 H2) as Hd.
  assert (L : 0 <= ln h2 - ln h1) by (destruct H2 as [H2'|<-]; [apply ln_increasing in H2'; lra|lra]).
  assert (W : waterR ks h1 - waterR ks h2 <= content ks "k_water" / h1 * (ln h2 - ln h1)).
  { unfold waterR, content. destruct (dget "k_water" ks) as [v|] eqn:E; [|unfold Rdiv; nra].
    destruct (Hk _ _ E) as (w & -> & W0). cbn [unfin].
    replace (w / h1 - w / h2) with (w / (h1 * h2) * (h2 - h1)) by (field; lra).
    replace (w / h1 * (ln h2 - ln h1)) with (w / (h1 * h2) * (h2 * (ln h2 - ln h1))) by (field; lra).
    apply Rmult_le_compat_l; [|exact Hd]. left. apply Rdiv_lt_0_compat; [lra|nra]. }
  unfold alkR. lra.
Qed.

Lemma ln_h_of p : ln (h_of p) = - p * ln 10.
Proof. unfold h_of, Rpower. apply ln_exp. Qed.

Theorem C125_buffering_limits_alkalinity : forall p p' totals ks scale a a',
  nonneg_totals totals -> pos_constants ks -> p <= p' ->
  alkalinity (Fin p) totals ks scale = Ok a -> alkalinity (Fin p') totals ks scale = Ok a' ->
  exists A A', a = Fin A /\ a' = Fin A' /\ 0 <= A' - A <= ln 10 * (p' - p) * capacity totals ks p p'.
Proof.
  intros p p' totals ks scale a a' Ht Hk L Ha Ha'.
  apply alkalinity_is in Ha; [|assumption..]. apply alkalinity_is in Ha'; [|assumption..].
  rewrite <- h_of_pow in Ha, Ha'.
  eexists. eexists. split; [exact Ha|]. split; [exact Ha'|].
  assert (Hh : h_of p' <= h_of p).
  { destruct L as [L|<-]; [|lra]. left. rewrite !h_of_pow. apply pow10R_inc. lra. }
  pose proof (h_of_pos p'). split.
  - destruct Hh as [Hh|<-]; [|lra]. pose proof (alkR_mono totals ks (nonneg_nn _ Ht) (pos_ok _ Hk) scale _ _ H Hh). lra.
  - pose proof (alkR_slow totals ks scale _ _ Ht Hk H Hh) as X. rewrite !ln_h_of in X. unfold capacity. lra.
Qed.

(* ------------------------------------------------------------------ *)
(** * A titration *)

Lemma masked_close u (l l' : list R) b : length l = length u -> length l' = length u -> 0 <= b ->
  (forall i v v', used_at u i -> nth_error l i = Some v -> nth_error l' i = Some v' -> Rabs (v' - v) <= b) ->
  Rabs (Rsum (mask u l') - Rsum (mask u l)) <= INR (n_used u) * b.
Proof.
  intros Hl Hl' B0 Hp. revert l l' Hl Hl' Hp. induction u as [|x u IH]; intros [|a l] [|a' l'] Hl Hl' Hp; try discriminate.
  - cbn. unfold Rsum; cbn. replace (0 - 0) with 0 by ring. rewrite Rabs_R0. lra.
  - assert (Hr : Rabs (Rsum (mask u l') - Rsum (mask u l)) <= INR (n_used u) * b).
    { apply IH; [now injection Hl|now injection Hl'|]. intros i v v' Hu. exact (Hp (S i) v v' Hu). }
    destruct x; cbn [mask]; [|exact Hr].
    change (n_used (true :: u)) with (S (n_used u)). rewrite S_INR, !Rsum_cons.
    pose proof (Hp 0%nat a a' eq_refl eq_refl eq_refl) as X.
    replace (a' + Rsum (mask u l') - (a + Rsum (mask u l))) with ((a' - a) + (Rsum (mask u l') - Rsum (mask u l))) by ring.
    eapply Rle_trans; [apply Rabs_triang|]. lra.
Qed.

(* if no reading inside the window is off by more than d, the alkalinity is not off by more than d times the largest
   capacity of a used point, per kg of sample *)
Theorem C125_pH_error_bound : forall c tm pH pH' temps temps' M totals ks pmin pmax n r r' d B,
  masses_ok tm M -> sane (length tm) totals ks ->
  solve_pH (Fin c) (map Fin tm) (map Fin pH) temps (Fin M) totals ks (Fin pmin) (Fin pmax) (Fin n) = Ok r ->
  solve_pH (Fin c) (map Fin tm) (map Fin pH') temps' (Fin M) totals ks (Fin pmin) (Fin pmax) (Fin n) = Ok r' ->
  (forall i p p', nth_error pH i = Some p -> nth_error pH' i = Some p' -> (pmin <= p <= pmax <-> pmin <= p' <= pmax)) ->
  (exists i p, nth_error pH i = Some p /\ pmin <= p <= pmax) ->
  (forall i p p' m, nth_error pH i = Some p -> nth_error pH' i = Some p' -> nth_error tm i = Some m -> pmin <= p <= pmax ->
     Rabs (p' - p) <= d /\ (1 + m / M) * capacity (slice_at totals i) (slice_at ks i) (Rmin p p') (Rmax p p') <= B) ->
  exists a a', sp_alkalinity r = Fin a /\ sp_alkalinity r' = Fin a' /\ Rabs (a' - a) <= 1000000 * ln 10 * d * B.
Proof.
  intros c tm pH pH' temps temps' M totals ks pmin pmax n r r' d B Hok Hs Hr Hr' Hw Hex Hd.
  apply solve_pH_inv in Hr as [Hl [_ [Hu [Hall [Ha _]]]]]. apply solve_pH_inv in Hr' as [Hl' [_ [Hu' [Hall' [Ha' _]]]]].
  rewrite !map_length in Hl, Hl'.
  assert (lt_of : forall i (p : R) (l : list R), nth_error l i = Some p -> length l = length tm -> (i < length tm)%nat).
  { intros i p l E <-. apply nth_error_Some. congruence. }
  destruct (all_finite _ _ _ _ _ _ _ _ Hok Hl (fun i p E => Hs i (lt_of _ _ _ E Hl)) Hall) as [est [Ee [Hle1 Hpt]]].
  destruct (all_finite _ _ _ _ _ _ _ _ Hok Hl' (fun i p E => Hs i (lt_of _ _ _ E Hl')) Hall') as [est' [Ee' [Hle2 Hpt']]].
  assert (Eu : in_window (Fin pmin) (Fin pmax) (map Fin pH) = in_window (Fin pmin) (Fin pmax) (map Fin pH')).
  { assert (Hlen : length pH = length pH') by congruence. clear - Hlen Hw.
    revert pH' Hlen Hw; induction pH as [|p pH IH]; intros [|p' pH'] Hlen Hw; try discriminate Hlen; [reflexivity|].
    cbn [map in_window]. unfold in_window in *. cbn [map]. f_equal.
    - specialize (Hw 0%nat p p' eq_refl eq_refl). unfold ngeb.
      destruct (nleb (Fin pmin) (Fin p) && nleb (Fin p) (Fin pmax)) eqn:B,
               (nleb (Fin pmin) (Fin p') && nleb (Fin p') (Fin pmax)) eqn:B'; try reflexivity; exfalso.
      + apply andb_true_iff in B as [B1 B2]. apply x_leb_fin in B1, B2.
        destruct (proj1 Hw (conj B1 B2)) as [C1 C2]. apply x_leb_fin in C1, C2. rewrite C1, C2 in B'. discriminate.
      + apply andb_true_iff in B' as [B1 B2]. apply x_leb_fin in B1, B2.
        destruct (proj2 Hw (conj B1 B2)) as [C1 C2]. apply x_leb_fin in C1, C2. rewrite C1, C2 in B. discriminate.
    - apply IH; [now injection Hlen|]. intros i q q'. exact (Hw (S i) q q'). }
  rewrite <- Eu in Hu'. rewrite <- Hu in Hu'. rewrite Hu' in Ha'.
  assert (Hlu : length (sp_used r) = length tm).
  { rewrite Hu. unfold in_window. rewrite !map_length. assumption. }
  assert (Hn : (0 < n_used (sp_used r))%nat).
  { destruct Hex as [i [p [Hp Hin]]]. assert (Hui : used_at (sp_used r) i).
    { rewrite Hu. apply window_used. exists p. split; [apply nth_error_map_fin; assumption|assumption]. }
    unfold used_at in Hui. clear Hp Hin. revert i Hui. generalize (sp_used r). clear. unfold n_used.
    induction l as [|b u IH]; intros [|i] Hi; try discriminate Hi.
    - injection Hi as ->. cbn. lia.
    - destruct b; cbn [filter length]; [lia|]. eapply IH. exact Hi. }
  assert (Hne : forall e : list R, length e = length tm -> mask (sp_used r) e <> []).
  { intros e He E0. pose proof (mask_count (sp_used r) e) as X. rewrite E0 in X. cbn in X.
    specialize (X ltac:(congruence)). change (count_true (sp_used r)) with (n_used (sp_used r)) in X. lia. }
  rewrite Ee, mask_map, nmean_fin in Ha by now apply Hne.
  rewrite Ee', mask_map, nmean_fin in Ha' by now apply Hne.
  exists (Rmean (mask (sp_used r) est)), (Rmean (mask (sp_used r) est')).
  split; [exact Ha|]. split; [exact Ha'|].
  assert (Hpos : forall i m, nth_error tm i = Some m -> 0 <= m).
  { intros i m E. destruct Hok as [_ F]. eapply Forall_nth_error in F; eassumption. }
  assert (Hat : forall i, used_at (sp_used r) i -> exists p p' m, nth_error pH i = Some p /\ nth_error pH' i = Some p' /\
    nth_error tm i = Some m /\ pmin <= p <= pmax).
  { intros i Hi. rewrite Hu in Hi. apply window_used in Hi as [p [Hp Hin]].
    rewrite nth_error_map in Hp. destruct (nth_error pH i) as [q|] eqn:Ep; [|discriminate]. injection Hp as ->.
    assert (Hlt : (i < length tm)%nat) by (eapply lt_of; eassumption).
    destruct (nth_error tm i) as [m|] eqn:Em; [|apply nth_error_None in Em; lia].
    destruct (nth_error pH' i) as [p'|] eqn:Ep'; [|apply nth_error_None in Ep'; lia].
    exists p, p', m. auto. }
  assert (HM : 0 < M) by apply Hok. pose proof ln10_pos as L10.
  (* each used estimate *)
  assert (Close : forall i v v', used_at (sp_used r) i -> nth_error est i = Some v -> nth_error est' i = Some v' ->
    Rabs (v' - v) <= 1000000 * ln 10 * d * B).
  { intros i v v' Hui Hv Hv'. destruct (Hat i Hui) as [p [p' [m [Hp [Hp' [Hm Hin]]]]]].
    destruct (Hpt i p m Hp Hm) as [s [Es En]]. destruct (Hpt' i p' m Hp' Hm) as [s' [Es' En']].
    rewrite En in Hv. rewrite En' in Hv'. injection Hv as <-. injection Hv' as <-.
    destruct (Hd i p p' m Hp Hp' Hm Hin) as [Dd DB]. pose proof (Hpos i m Hm) as Hm0.
    destruct (Hs i (lt_of _ _ _ Hp Hl)) as [Ht Hk].
    set (cap := capacity (slice_at totals i) (slice_at ks i) (Rmin p p') (Rmax p p')) in *.
    assert (C : Rabs (s' - s) <= ln 10 * Rabs (p' - p) * cap).
    { destruct (Rle_or_lt p p') as [L|L].
      - destruct (C125_buffering_limits_alkalinity p p' _ _ 3 _ _ Ht Hk L Es Es') as (A & A' & E1 & E2 & Bd).
        injection E1 as <-. injection E2 as <-. unfold cap. rewrite Rmin_left, Rmax_right by exact L.
        rewrite !Rabs_right by lra. lra.
      - destruct (C125_buffering_limits_alkalinity p' p _ _ 3 _ _ Ht Hk (Rlt_le _ _ L) Es' Es) as (A & A' & E1 & E2 & Bd).
        injection E1 as <-. injection E2 as <-. unfold cap. rewrite Rmin_right, Rmax_left by lra.
        rewrite !Rabs_left1 by lra. lra. }
    assert (C0 : 0 <= cap).
    { unfold cap, capacity. apply Rplus_le_le_0_compat; [apply Rplus_le_le_0_compat|].
      - left. apply h_of_pos.
      - unfold content. pose proof (h_of_pos (Rmax p p')) as Y. destruct (dget "k_water" (slice_at ks i)) as [w|] eqn:Ew; [|unfold Rdiv; lra].
        destruct (Hk _ _ Ew) as (k & -> & K0). left. apply Rdiv_lt_0_compat; assumption.
      - unfold buffering. cbn [map fst snd]. rewrite !Rsum_cons.
        repeat (apply Rplus_le_le_0_compat; [apply term_nonneg; [exact Ht|lra]|]). unfold Rsum; cbn. lra. }
    assert (K1 : 0 <= 1 + m / M) by (assert (0 <= m / M) by (apply Rmult_le_pos; [exact Hm0|left; now apply Rinv_0_lt_compat]); lra).
    replace (1000000 * (s' * (m + M) + m * c * n) / M - 1000000 * (s * (m + M) + m * c * n) / M)
      with (1000000 * (1 + m / M) * (s' - s)) by (field; lra).
    rewrite Rabs_mult, (Rabs_right (1000000 * (1 + m / M))) by lra.
    apply (Rle_trans _ (1000000 * (1 + m / M) * (ln 10 * d * cap))).
    - apply Rmult_le_compat_l; [lra|]. eapply Rle_trans; [exact C|]. apply Rmult_le_compat_r; [exact C0|]. apply Rmult_le_compat_l; lra.
    - replace (1000000 * (1 + m / M) * (ln 10 * d * cap)) with (1000000 * ln 10 * d * ((1 + m / M) * cap)) by ring.
      apply Rmult_le_compat_l; [|exact DB]. pose proof (Rabs_pos (p' - p)). apply Rmult_le_pos; lra. }
  assert (B0 : 0 <= 1000000 * ln 10 * d * B).
  { destruct Hex as [i [p [Hp Hin]]]. assert (Hui : used_at (sp_used r) i).
    { rewrite Hu. apply window_used. exists p. split; [apply nth_error_map_fin; assumption|assumption]. }
    assert (Hlt : (i < length tm)%nat) by (eapply lt_of; eassumption).
    destruct (nth_error est i) as [v|] eqn:Ev; [|apply nth_error_None in Ev; lia].
    destruct (nth_error est' i) as [v'|] eqn:Ev'; [|apply nth_error_None in Ev'; lia].
    eapply Rle_trans; [apply Rabs_pos|]. exact (Close i v v' Hui Ev Ev'). }
  pose proof (masked_close (sp_used r) est est' _ ltac:(congruence) ltac:(congruence) B0 Close) as Y.
  unfold Rmean. rewrite !mask_count by congruence.
  change (count_true (sp_used r)) with (n_used (sp_used r)).
  assert (I0 : 0 < INR (n_used (sp_used r))) by now apply lt_0_INR.
  replace (Rsum (mask (sp_used r) est') / INR (n_used (sp_used r)) - Rsum (mask (sp_used r) est) / INR (n_used (sp_used r)))
    with ((Rsum (mask (sp_used r) est') - Rsum (mask (sp_used r) est)) * / INR (n_used (sp_used r))) by (field; lra).
  rewrite Rabs_mult, (Rabs_right (/ _)) by (left; now apply Rinv_0_lt_compat).
  apply (Rmult_le_reg_r (INR (n_used (sp_used r)))); [exact I0|]. rewrite Rmult_assoc, Rinv_l, Rmult_1_r by lra. lra.
Qed.

(* ------------------------------------------------------------------ *)
(** * Examples *)

(* one point of the two is inside the window; its pH is 0 or 1/2, and the totals are as in C94_nonvacuous *)
Example C125_nonvacuous : exists r r' a a', mono_run 0 1 1 = Ok r /\ mono_run (1/2) 1 1 = Ok r' /\
  sp_alkalinity r = Fin a /\ sp_alkalinity r' = Fin a' /\
  a < a' <= a + 1000000 * ln 10 * (1 / 2) * (4 * capacity (slice_at (mono_totals 1 1) 1) (slice_at mono_ks 1) 0 (1 / 2)).
Proof.
  destruct (mono_runs 0 1 1) as [r Hr]. destruct (mono_runs (1/2) 1 1) as [r' Hr'].
  destruct (C125_pH_error_bound 1 [1; 3] [9; 0] [9; 1/2] [] [] 1 (mono_totals 1 1) mono_ks (-1) 1 1 r r' (1/2)
     (4 * capacity (slice_at (mono_totals 1 1) 1) (slice_at mono_ks 1) 0 (1 / 2)))
    as [a [a' [H1 [H2 H3]]]].
  - split; [lra|repeat constructor; lra].
  - apply mono_sane; lra.
  - exact Hr.
  - exact Hr'.
  - intros [|[|i]] p p'; cbn [nth_error]; [| |destruct i; discriminate]; intros [= <-] [= <-]; lra.
  - exists 1%nat, 0. split; [reflexivity|lra].
  - intros [|[|i]] p p' m; cbn [nth_error]; [| |destruct i; discriminate]; intros [= <-] [= <-] [= <-] L; [lra|].
    split; [rewrite Rabs_right; lra|]. rewrite Rmin_left, Rmax_right by lra.
    match goal with |- ?x * ?y <= 4 * ?y => replace x with 4 by field end. apply Rle_refl.
  - destruct (C94_nonvacuous) as (s & s' & b & b' & E1 & E2 & E3 & E4 & L).
    rewrite Hr in E1. injection E1 as <-. rewrite Hr' in E2. injection E2 as <-. rewrite H1 in E3. injection E3 as <-. rewrite H2 in E4. injection E4 as <-.
    exists r, r', a, a'. repeat (split; [assumption|]).
    rewrite Rabs_right in H3 by lra. lra.
Qed.

