(* SimMono.v -- the alkalinity equation as a real function of h: monotone,
   bounded away from the water terms, continuous *)
From Coq Require Import Reals Qreals Lra Ranalysis.
From Verif Require Export SimProofs.
Open Scope list_scope.
Open Scope R_scope.

Lemma div_le_cross a b c d : 0 < b -> 0 < d -> a * d <= c * b -> a / b <= c / d.
Proof.
  intros Hb Hd Hle. apply (Rmult_le_reg_r (b * d)); [nra|].
  replace (a / b * (b * d)) with (a * d) by (field; lra).
  replace (c / d * (b * d)) with (c * b) by (field; lra). assumption.
Qed.

Lemma mono_base t k h1 h2 : 0 <= t -> 0 < k -> 0 < h1 -> h1 < h2 -> t * k / (k + h2) <= t * k / (k + h1).
Proof. intros. apply div_le_cross; try lra. assert (0 <= t * k) by nra. nra. Qed.

Lemma mono_acid t k h1 h2 : 0 <= t -> 0 < k -> 0 < h1 -> h1 < h2 -> - (t * h2 / (k + h2)) <= - (t * h1 / (k + h1)).
Proof. intros. apply Ropp_le_contravar. apply div_le_cross; try lra. assert (0 <= t * k) by nra. nra. Qed.

Lemma mono_dic t k1 k2 h1 h2 : 0 <= t -> 0 < k1 -> 0 < k2 -> 0 < h1 -> h1 < h2 ->
  t * (k1 * h2 + 2 * (k1 * k2)) / (h2 ^ 2 + k1 * h2 + k1 * k2)
  <= t * (k1 * h1 + 2 * (k1 * k2)) / (h1 ^ 2 + k1 * h1 + k1 * k2).
Proof.
  intros Ht H1 H2 Hh1 Hlt. apply div_le_cross; [apply dic_denom_pos; lra|apply dic_denom_pos; lra|].
  rewrite !Rmult_assoc. apply Rmult_le_compat_l; [assumption|].
  cut (0 <= (k1 * h1 + 2 * (k1 * k2)) * (h2 ^ 2 + k1 * h2 + k1 * k2)
            - (k1 * h2 + 2 * (k1 * k2)) * (h1 ^ 2 + k1 * h1 + k1 * k2)); [lra|].
  replace ((k1 * h1 + 2 * (k1 * k2)) * (h2 ^ 2 + k1 * h2 + k1 * k2)
            - (k1 * h2 + 2 * (k1 * k2)) * (h1 ^ 2 + k1 * h1 + k1 * k2))
    with (k1 * (h2 - h1) * (h1 * h2 + 2 * k2 * (h1 + h2) + k1 * k2)) by ring.
  apply Rmult_le_pos; [apply Rmult_le_pos; lra|].
  assert (0 < h1 * h2) by nra. assert (0 < k1 * k2) by nra. assert (0 < k2 * (h1 + h2)) by nra. nra.
Qed.

Lemma mono_po4 t a b c h1 h2 : 0 <= t -> 0 < a -> 0 < b -> 0 < c -> 0 < h1 -> h1 < h2 ->
  t * (- h2 ^ 3 + a * b * h2 + 2 * (a * b * c)) / (h2 ^ 3 + a * h2 ^ 2 + a * b * h2 + a * b * c)
  <= t * (- h1 ^ 3 + a * b * h1 + 2 * (a * b * c)) / (h1 ^ 3 + a * h1 ^ 2 + a * b * h1 + a * b * c).
Proof.
  intros Ht Ha Hb Hc Hh1 Hlt. apply div_le_cross; [apply po4_denom_pos; lra|apply po4_denom_pos; lra|].
  rewrite !Rmult_assoc. apply Rmult_le_compat_l; [assumption|].
  match goal with |- ?x <= ?y => cut (0 <= y - x); [lra|] end.
  (* with B = ab and C = abc: sum over pairs of species *)
  set (B := a * b). assert (HB : 0 < B) by (unfold B; nra).
  assert (HC : 0 < B * c) by nra.
  match goal with |- 0 <= ?e =>
    replace e with
      ((h2 - h1) * (a * (h1 ^ 2 * h2 ^ 2) + 2 * B * (h1 * h2) * (h1 + h2) + 3 * (B * c) * (h1 ^ 2 + h1 * h2 + h2 ^ 2)
                    + a * B * (h1 * h2) + 2 * a * (B * c) * (h1 + h2) + B * (B * c))) by (unfold B; ring) end.
  assert (0 < h2) by lra. assert (0 < h1 * h2) by nra.
  assert (0 < h1 ^ 2) by (apply pow_lt; lra). assert (0 < h2 ^ 2) by (apply pow_lt; lra).
  assert (0 < h1 ^ 2 * h2 ^ 2) by nra. assert (0 < a * (h1 ^ 2 * h2 ^ 2)) by nra.
  assert (0 < B * (h1 * h2)) by nra. assert (0 < B * (h1 * h2) * (h1 + h2)) by nra.
  assert (0 < (B * c) * (h1 ^ 2 + h1 * h2 + h2 ^ 2)) by nra.
  assert (0 < a * B) by nra. assert (0 < a * B * (h1 * h2)) by nra.
  assert (0 < a * (B * c)) by nra. assert (0 < a * (B * c) * (h1 + h2)) by nra.
  assert (0 < B * (B * c)) by nra.
  apply Rmult_le_pos; lra.
Qed.

Lemma contrR_mono s t kk h1 h2 : 0 <= t -> Forall (fun k => 0 < k) kk -> 0 < h1 -> h1 < h2 ->
  contrR s t kk h2 <= contrR s t kk h1.
Proof.
  intros Ht Hkk Hh1 Hlt.
  destruct s; destruct kk as [|k1 [|k2 [|k3 [|k4 kk]]]]; cbn [contrR]; try lra;
    repeat match goal with H : Forall _ (_ :: _) |- _ => inversion H; clear H; subst end;
    try (apply mono_base; assumption); try (apply mono_acid; assumption);
    try (apply mono_dic; assumption); try (apply mono_po4; assumption);
    destruct (pK_low k1); (apply mono_acid; assumption) || (apply mono_base; assumption).
Qed.

Lemma contrR_zero s kk h : contrR s 0 kk h = 0.
Proof.
  destruct s; destruct kk as [|k1 [|k2 [|k3 [|k4 kk]]]]; cbn [contrR]; try reflexivity;
    try (unfold Rdiv; ring); destruct (pK_low k1); unfold Rdiv; ring.
Qed.

Lemma div_bound lo hi n d : 0 < d -> lo * d <= n -> n <= hi * d -> lo <= n / d <= hi.
Proof.
  intros Hd H1 H2. split.
  - apply (Rmult_le_reg_r d); [assumption|]. replace (n / d * d) with n by (field; lra). assumption.
  - apply (Rmult_le_reg_r d); [assumption|]. replace (n / d * d) with n by (field; lra). assumption.
Qed.

Lemma contrR_bound s t kk h : 0 <= t -> Forall (fun k => 0 < k) kk -> 0 < h ->
  - (2 * t) <= contrR s t kk h <= 2 * t.
Proof.
  intros Ht Hkk Hh.
  assert (Hb : forall k, 0 < k -> - (2 * t) <= t * k / (k + h) <= 2 * t)
    by (intros; apply div_bound; try lra; nra).
  assert (Ha : forall k, 0 < k -> - (2 * t) <= - (t * h / (k + h)) <= 2 * t).
  { intros. assert (- (2 * t) <= t * h / (k + h) <= 2 * t) by (apply div_bound; try lra; nra). lra. }
  destruct s; destruct kk as [|k1 [|k2 [|k3 [|k4 kk]]]]; cbn [contrR]; try lra;
    repeat match goal with H : Forall _ (_ :: _) |- _ => inversion H; clear H; subst end;
    auto; try (destruct (pK_low k1); auto; fail).
  - pose proof (dic_denom_pos k1 k2 h ltac:(assumption) ltac:(assumption) Hh) as Hd.
    assert (0 < h ^ 2) by (apply pow_lt; lra). assert (0 < k1 * h) by nra. assert (0 < k1 * k2) by nra.
    apply div_bound; [assumption| |]; nra.
  - pose proof (po4_denom_pos k1 k2 k3 h ltac:(assumption) ltac:(assumption) ltac:(assumption) Hh) as Hd.
    assert (0 < h ^ 3) by (apply pow_lt; lra). assert (0 < h ^ 2) by (apply pow_lt; lra).
    assert (0 < k1 * h ^ 2) by nra. assert (0 < k1 * k2) by nra.
    assert (0 < k1 * k2 * h) by nra. assert (0 < k1 * k2 * k3) by nra.
    apply div_bound; [assumption| |]; nra.
Qed.

Lemma continuity_pt_ext (f g : R -> R) x : (forall y, f y = g y) -> continuity_pt f x -> continuity_pt g x.
Proof.
  intros E Hf eps Heps. destruct (Hf eps Heps) as [d [Hd Hc]]. exists d. split; [assumption|].
  intros y Hy. rewrite <- !E. apply Hc. assumption.
Qed.

Lemma cont_div (f g : R -> R) x : continuity_pt f x -> continuity_pt g x -> g x <> 0 ->
  continuity_pt (fun y => f y / g y) x.
Proof. intros. apply (continuity_pt_div f g); assumption. Qed.

Lemma contrR_cont s t kk h : Forall (fun k => 0 < k) kk -> 0 < h -> continuity_pt (contrR s t kk) h.
Proof.
  intros Hkk Hh.
  assert (Hz : continuity_pt (fun _ : R => 0) h) by (apply continuity_pt_const; intros ? ?; reflexivity).
  assert (Hb : forall k, 0 < k -> continuity_pt (fun h => t * k / (k + h)) h).
  { intros. apply cont_div; [reg|reg|lra]. }
  assert (Ha : forall k, 0 < k -> continuity_pt (fun h => - (t * h / (k + h))) h).
  { intros. apply (continuity_pt_opp (fun h => t * h / (k + h))). apply cont_div; [reg|reg|lra]. }
  destruct s; destruct kk as [|k1 [|k2 [|k3 [|k4 kk]]]]; cbv beta delta [contrR] iota; try exact Hz;
    repeat match goal with H : Forall _ (_ :: _) |- _ => inversion H; clear H; subst end;
    auto; try (destruct (pK_low k1); auto; fail).
  - apply cont_div; [reg|reg|].
    pose proof (dic_denom_pos k1 k2 h ltac:(assumption) ltac:(assumption) Hh). lra.
  - apply cont_div; [reg|reg|].
    pose proof (po4_denom_pos k1 k2 k3 h ltac:(assumption) ltac:(assumption) ltac:(assumption) Hh). lra.
Qed.

(* ------------------------------------------------------------------ *)
Definition tot_nn (totals : dict xr) : Prop :=
  forall s v, dget (s_name s) totals = Some v -> exists r, v = Fin r /\ 0 <= r.

Lemma tot_nn_ok totals : tot_nn totals -> tot_ok totals.
Proof. intros Hn s v E. destruct (Hn s v E) as [r [-> _]]. eauto. Qed.

Section Alk.
Variables (totals ks : dict xr).
Hypothesis Ht : tot_nn totals.
Hypothesis Hk : ks_ok ks.

Lemma contr_cases s :
  (forall h, contr totals ks s h = 0) \/
  exists t kk, 0 <= t /\ Forall (fun k => 0 < k) kk /\ forall h, contr totals ks s h = contrR s t kk h.
Proof.
  unfold contr. destruct (dget (s_name s) totals) as [v|] eqn:E; [|left; reflexivity].
  destruct (get_ks s ks) as [kk|] eqn:Ek; [|left; reflexivity].
  right. destruct (Ht s v E) as [t [-> Hnn]]. destruct (get_ks_fin s ks kk Hk Ek) as [_ Hpos].
  exists t, (map unfin kk). auto.
Qed.

Lemma contr_mono s h1 h2 : 0 < h1 -> h1 < h2 -> contr totals ks s h2 <= contr totals ks s h1.
Proof.
  intros. destruct (contr_cases s) as [E|[t [kk [Hn [Hp E]]]]]; rewrite !E; [lra|]. apply contrR_mono; assumption.
Qed.

Lemma contr_bound s : exists B, 0 <= B /\ forall h, 0 < h -> - B <= contr totals ks s h <= B.
Proof.
  destruct (contr_cases s) as [E|[t [kk [Hn [Hp E]]]]].
  - exists 0. split; [lra|]. intros. rewrite E. lra.
  - exists (2 * t). split; [lra|]. intros. rewrite E. apply contrR_bound; assumption.
Qed.

Lemma contr_cont s h : 0 < h -> continuity_pt (contr totals ks s) h.
Proof.
  intros Hh. destruct (contr_cases s) as [E|[t [kk [Hn [Hp E]]]]].
  - apply (continuity_pt_ext (fun _ => 0)); [intros; rewrite E; reflexivity|].
    apply continuity_pt_const; intros ? ?; reflexivity.
  - apply (continuity_pt_ext (contrR s t kk)); [intros; rewrite E; reflexivity|]. apply contrR_cont; assumption.
Qed.

Lemma sum_mono l h1 h2 : 0 < h1 -> h1 < h2 ->
  Rsum (map (fun s => contr totals ks s h2) l) <= Rsum (map (fun s => contr totals ks s h1) l).
Proof.
  intros. induction l as [|s l IH]; [apply Rle_refl|]. cbn [map]. rewrite !Rsum_cons.
  pose proof (contr_mono s h1 h2). lra.
Qed.

Lemma sum_bound l : exists B, 0 <= B /\
  forall h, 0 < h -> - B <= Rsum (map (fun s => contr totals ks s h) l) <= B.
Proof.
  induction l as [|s l [B [HB IH]]].
  - exists 0. split; [lra|]. intros. unfold Rsum; cbn. lra.
  - destruct (contr_bound s) as [B' [HB' E]]. exists (B + B'). split; [lra|]. intros h Hh. cbn [map]. rewrite Rsum_cons.
    specialize (IH h Hh). specialize (E h Hh). lra.
Qed.

Lemma sum_cont l h : 0 < h -> continuity_pt (fun h => Rsum (map (fun s => contr totals ks s h) l)) h.
Proof.
  intros Hh. induction l as [|s l IH].
  - apply continuity_pt_const; intros ? ?; reflexivity.
  - apply (continuity_pt_ext (fun h => contr totals ks s h + Rsum (map (fun s => contr totals ks s h) l))).
    { intros. cbn [map]. rewrite Rsum_cons. reflexivity. }
    apply (continuity_pt_plus (contr totals ks s)); [apply contr_cont; assumption|assumption].
Qed.

Lemma water_cases : (forall h, waterR ks h = 0) \/ exists kw, 0 < kw /\ forall h, waterR ks h = kw / h.
Proof.
  unfold waterR. destruct (dget "k_water" ks) as [v|] eqn:E; [|left; reflexivity].
  right. destruct (proj2 Hk v E) as [r [-> Hr]]. exists r. auto.
Qed.

Lemma water_mono h1 h2 : 0 < h1 -> h1 < h2 -> waterR ks h2 <= waterR ks h1.
Proof.
  intros. destruct water_cases as [E|[kw [Hkw E]]]; rewrite !E; [lra|].
  apply div_le_cross; try lra. nra.
Qed.

Lemma alkR_mono scale h1 h2 : 0 < h1 -> h1 < h2 -> alkR totals ks scale h2 < alkR totals ks scale h1.
Proof.
  intros. unfold alkR. pose proof (water_mono h1 h2). pose proof (sum_mono (substs scale) h1 h2). lra.
Qed.

Lemma alkR_cont scale h : 0 < h -> continuity_pt (alkR totals ks scale) h.
Proof.
  intros Hh. unfold alkR.
  apply (continuity_pt_plus (fun h => - h + waterR ks h)); [|apply sum_cont; assumption].
  apply (continuity_pt_plus (fun h => - h)); [reg|].
  destruct water_cases as [E|[kw [Hkw E]]].
  - apply (continuity_pt_ext (fun _ => 0)); [intros; rewrite E; reflexivity|].
    apply continuity_pt_const; intros ? ?; reflexivity.
  - apply (continuity_pt_ext (fun h => kw / h)); [intros; rewrite E; reflexivity|].
    apply cont_div; [reg|reg|lra].
Qed.

Lemma alkR_surj scale kw A : dget "k_water" ks = Some (Fin kw) ->
  exists p, alkR totals ks scale (pow10R (- p)) = A.
Proof.
  intros Ekw. assert (Hkw : 0 < kw). { destruct (proj2 Hk _ Ekw) as [r [[= <-] Hr]]. assumption. }
  destruct (sum_bound (substs scale)) as [B [HB Hbd]].
  assert (Hw : forall h, waterR ks h = kw / h) by (intros; unfold waterR; rewrite Ekw; reflexivity).
  set (hl := Rmin 1 (kw / (Rabs A + B + 2))). set (hh := kw + Rabs A + B + 2).
  pose proof (Rabs_pos A) as HA. assert (HA1 : - Rabs A <= A <= Rabs A) by (split; [pose proof (Rle_abs (- A)); rewrite Rabs_Ropp in *; lra|apply Rle_abs]).
  assert (Hl : 0 < hl).
  { unfold hl. apply Rmin_glb_lt; [lra|]. apply Rdiv_lt_0_compat; lra. }
  assert (Hlow : alkR totals ks scale hh < A).
  { unfold alkR. rewrite Hw. specialize (Hbd hh ltac:(unfold hh; lra)).
    assert (kw / hh <= kw).
    { apply (Rmult_le_reg_r hh); [unfold hh; lra|]. replace (kw / hh * hh) with kw by (field; unfold hh; lra).
      assert (1 <= hh) by (unfold hh; lra). nra. }
    unfold hh in *. lra. }
  assert (Hhigh : A < alkR totals ks scale hl).
  { unfold alkR. rewrite Hw. specialize (Hbd hl Hl).
    assert (hl <= 1) by apply Rmin_l. assert (hl <= kw / (Rabs A + B + 2)) by apply Rmin_r.
    assert (Rabs A + B + 2 <= kw / hl).
    { apply (Rmult_le_reg_r hl); [assumption|]. replace (kw / hl * hl) with kw by (field; lra).
      apply (Rmult_le_reg_r (/ (Rabs A + B + 2))); [apply Rinv_0_lt_compat; lra|].
      replace ((Rabs A + B + 2) * hl * / (Rabs A + B + 2)) with hl by (field; lra). assumption. }
    lra. }
  destruct (pow10_surj hh ltac:(unfold hh; lra)) as [ph Eph].
  destruct (pow10_surj hl Hl) as [pl Epl].
  assert (Hph : ph < pl).
  { assert (Hlt : hl < hh) by (unfold hh; assert (hl <= 1) by apply Rmin_l; lra).
    destruct (Rlt_le_dec ph pl) as [|Hge]; [assumption|].
    assert (pow10R (- ph) <= pow10R (- pl)).
    { destruct (Req_dec ph pl) as [->|]; [lra|]. left. apply pow10R_inc. lra. }
    lra. }
  destruct (IVT (fun p => alkR totals ks scale (pow10R (- p)) - A) ph pl) as [z [_ Hz]].
  - intros p. apply (continuity_pt_minus (fun p => alkR totals ks scale (pow10R (- p))));
      [|apply continuity_pt_const; intros ? ?; reflexivity].
    apply (continuity_pt_comp (fun p => pow10R (- p)) (alkR totals ks scale)).
    + unfold pow10R. reg.
    + apply alkR_cont. apply pow10R_pos.
  - assumption.
  - cbn beta. rewrite Eph. lra.
  - cbn beta. rewrite Epl. lra.
  - exists z. cbn beta in Hz. lra.
Qed.

End Alk.
