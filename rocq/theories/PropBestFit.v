(* PropBestFit.v -- C119: the least-squares problem of solve_emf has a solution *)
From Coq Require Import Reals Qreals Lra Ranalysis.
From Verif Require Import PropSimulate PropFit PropUnique.
Open Scope list_scope.
Open Scope R_scope.

(** Small specification: the residuals of the fit that gave [r], at any alkalinity A (mol/kg) and
    EMF0 E.  [sum_of_squares] is what the optimiser is asked to make small (PropFit.v). *)
Definition fit_residuals (r : emf_result xr) (n : xr) (A E : R) : res (list xr) :=
  lsqfun_solve_emf (se_titrant_molinity r) (mask (se_used r) (se_titrant_mass r)) (mask (se_used r) (se_emf r))
    (mask (se_used r) (se_temperature r)) (se_analyte_mass r)
    (dmap (nd_mask (se_used r)) (se_totals r)) (dmap (nd_mask (se_used r)) (se_k_constants r)) n [Fin A; Fin E].

(* ------------------------------------------------------------------ *)
(** * lines y = a d through moving points *)

Definition cost (pts : list ((R -> R) * R)) (a E : R) : R :=
  sum_of_squares (map (fun p => fst p E - a * snd p) pts).

Lemma sos_cons x l : sum_of_squares (x :: l) = x * x + sum_of_squares l.
Proof. reflexivity. Qed.
Lemma sos_nonneg l : 0 <= sum_of_squares l.
Proof. induction l as [|x l IH]; [unfold sum_of_squares; cbn; lra|]. rewrite sos_cons. nra. Qed.
Lemma sos_in x l : In x l -> x * x <= sum_of_squares l.
Proof.
  induction l as [|y l IH]; intros []; rewrite sos_cons.
  - subst. pose proof (sos_nonneg l). lra.
  - specialize (IH H). nra.
Qed.

Definition syy (pts : list ((R -> R) * R)) (E : R) : R := Rsum (map (fun p => fst p E * fst p E) pts).
Definition syd (pts : list ((R -> R) * R)) (E : R) : R := Rsum (map (fun p => fst p E * snd p) pts).
Definition sdd (pts : list ((R -> R) * R)) : R := Rsum (map (fun p => snd p * snd p) pts).

Lemma cost_expand pts a E : cost pts a E = syy pts E - 2 * a * syd pts E + a * a * sdd pts.
Proof.
  unfold cost, syy, syd, sdd. induction pts as [|p pts IH]; [unfold sum_of_squares, Rsum; cbn; ring|].
  cbn [map]. rewrite sos_cons, !Rsum_cons, IH. ring.
Qed.

Lemma sdd_pos pts p : In p pts -> 0 < snd p -> 0 < sdd pts.
Proof.
  intros Hin Hp. assert (N : forall q, 0 <= sdd q).
  { induction q as [|x q IH]; [unfold sdd, Rsum; cbn; lra|]. unfold sdd in *. cbn [map]. rewrite Rsum_cons. nra. }
  induction pts as [|x pts IH]; [destruct Hin|]. unfold sdd in *. cbn [map]. rewrite Rsum_cons. destruct Hin as [->|Hin].
  - specialize (N pts). nra.
  - specialize (IH Hin). nra.
Qed.

Definition profile (pts : list ((R -> R) * R)) (E : R) : R := cost pts (syd pts E / sdd pts) E.

Lemma profile_min pts a E : 0 < sdd pts -> profile pts E <= cost pts a E.
Proof.
  intros H. unfold profile. rewrite !cost_expand. set (s := syd pts E). set (w := sdd pts) in *.
  assert (H0 : 0 <= w * ((a - s / w) * (a - s / w))) by (apply Rmult_le_pos; [lra|apply Rle_0_sqr]).
  replace (w * ((a - s / w) * (a - s / w))) with (a * a * w - 2 * a * s + s / w * s) in H0 by (field; lra).
  replace (s / w * (s / w) * w) with (s / w * s) by (field; lra). lra.
Qed.

Lemma Rsum_cont {X} (l : list X) (f : X -> R -> R) E :
  (forall x, In x l -> continuity_pt (f x) E) -> continuity_pt (fun E => Rsum (map (fun x => f x E) l)) E.
Proof.
  induction l as [|x l IH]; intros H.
  - apply continuity_pt_const; intros ? ?; reflexivity.
  - apply (continuity_pt_ext (fun E => f x E + Rsum (map (fun x => f x E) l))).
    { intros. cbn [map]. rewrite Rsum_cons. reflexivity. }
    apply (continuity_pt_plus (f x)); [apply H; now left|apply IH; intros; apply H; now right].
Qed.

Lemma profile_cont pts E : 0 < sdd pts -> (forall p, In p pts -> continuity_pt (fst p) E) -> continuity_pt (profile pts) E.
Proof.
  intros Hw H.
  assert (C1 : continuity_pt (syy pts) E).
  { apply (Rsum_cont pts (fun p E => fst p E * fst p E)). intros p Hp. apply (continuity_pt_mult (fst p) (fst p)); auto. }
  assert (C2 : continuity_pt (syd pts) E).
  { apply (Rsum_cont pts (fun p E => fst p E * snd p)). intros p Hp. apply (continuity_pt_mult (fst p) (fun _ => snd p)); auto.
    apply continuity_pt_const; intros ? ?; reflexivity. }
  apply (continuity_pt_ext (fun E => syy pts E - syd pts E * syd pts E * / sdd pts)).
  { intros. unfold profile. rewrite cost_expand. field. lra. }
  apply (continuity_pt_minus (syy pts)); [exact C1|].
  apply (continuity_pt_mult (fun E => syd pts E * syd pts E)).
  - apply (continuity_pt_mult (syd pts) (syd pts)); exact C2.
  - apply continuity_pt_const; intros ? ?; reflexivity.
Qed.

Lemma two_points_bound pts a E p q : In p pts -> In q pts -> 
  (fst p E * snd q - fst q E * snd p) ^ 2 <= 2 * (snd p * snd p + snd q * snd q) * cost pts a E.
Proof.
  intros Hp Hq. unfold cost.
  assert (I : forall p, In p pts -> (fst p E - a * snd p) * (fst p E - a * snd p) <= sum_of_squares (map (fun p => fst p E - a * snd p) pts)).
  { intros x Hx. apply sos_in. apply in_map_iff. exists x. auto. }
  pose proof (I p Hp) as H1. pose proof (I q Hq) as H2. set (S := sum_of_squares _) in *. clearbody S.
  set (x := fst p E - a * snd p) in *. set (y := fst q E - a * snd q) in *.
  replace (fst p E * snd q - fst q E * snd p) with (x * snd q - y * snd p) by (unfold x, y; ring).
  set (d := snd p) in *. set (f := snd q) in *. clearbody x y d f.
  assert (L : (x * f - y * d) ^ 2 <= (x * x + y * y) * (d * d + f * f)) by (pose proof (Rle_0_sqr (x * d + y * f)) as Q; unfold Rsqr in Q; lra).
  apply Rle_trans with (1 := L). assert (P : 0 <= d * d + f * f) by nra.
  replace (2 * (d * d + f * f) * S) with ((S + S) * (d * d + f * f)) by ring. apply Rmult_le_compat_r; lra.
Qed.

Lemma best_exists pts p q :
  (forall x, In x pts -> forall E, continuity_pt (fst x) E) ->
  In p pts -> In q pts -> 0 < snd p -> 0 < snd q ->
  (forall G, exists lo hi, forall E, E < lo \/ hi < E -> G < (fst p E * snd q - fst q E * snd p) ^ 2) ->
  exists a E, forall a' E', cost pts a E <= cost pts a' E'.
Proof.
  intros Hc Hp Hq Pp Pq Hco. pose proof (sdd_pos pts p Hp Pp) as Hw.
  set (D := 2 * (snd p * snd p + snd q * snd q)). assert (HD : 0 < D) by (unfold D; nra).
  destruct (Hco (D * profile pts 0)) as [lo [hi Hout]].
  set (lo' := Rmin lo 0). set (hi' := Rmax hi 0).
  assert (Hlh : lo' <= hi') by (unfold lo', hi'; pose proof (Rmin_r lo 0); pose proof (Rmax_r hi 0); lra).
  destruct (continuity_ab_min (profile pts) lo' hi' Hlh) as [E [Hmin _]].
  { intros e _. apply profile_cont; auto. }
  exists (syd pts E / sdd pts), E. intros a' E'. apply Rle_trans with (profile pts E'); [|now apply profile_min].
  change (profile pts E <= profile pts E').
  destruct (Rlt_le_dec E' lo') as [L|L]; [|destruct (Rlt_le_dec hi' E') as [U|U]; [|apply Hmin; lra]].
  1,2: assert (B : D * profile pts 0 < D * profile pts E')
    by (eapply Rlt_le_trans; [apply (Hout E')|apply (two_points_bound pts _ E' p q); assumption];
        unfold lo', hi' in *; pose proof (Rmin_l lo 0); pose proof (Rmax_l hi 0); lra);
    apply Rmult_lt_reg_l in B; [|exact HD];
    apply Rle_trans with (profile pts 0); [apply Hmin; unfold lo', hi'; split; [apply Rmin_r|apply Rmax_r]|lra].
Qed.

(* ------------------------------------------------------------------ *)
(** * - alpha h + gamma / h + (bounded) *)

Lemma blows_up al ga C : al <> 0 -> ga <> 0 -> 0 <= C -> forall G, exists hl hh, 0 < hl /\ hl < hh /\
  forall h B, 0 < h -> Rabs B <= C -> h < hl \/ hh < h -> G < (- al * h + ga / h + B) ^ 2.
Proof.
  intros Ha Hg HC G. pose proof (Rabs_pos_lt al Ha) as Pa. pose proof (Rabs_pos_lt ga Hg) as Pg.
  set (K := Rabs G + 1). assert (HK : 1 <= K) by (unfold K; pose proof (Rabs_pos G); lra).
  assert (HG : G < K * K) by (pose proof (Rle_abs G); unfold K in *; nra).
  set (hh := (K + C + Rabs ga) / Rabs al + 1). set (hl := Rmin (1/2) (Rabs ga / (K + C + Rabs al))).
  assert (H1 : 1 <= hh). { unfold hh. assert (0 < (K + C + Rabs ga) / Rabs al) by (apply Rdiv_lt_0_compat; lra). lra. }
  assert (H2 : 0 < hl). { unfold hl. apply Rmin_glb_lt; [lra|]. apply Rdiv_lt_0_compat; lra. }
  assert (H3 : hl <= 1/2) by apply Rmin_l.
  exists hl, hh. split; [exact H2|]. split; [lra|]. intros h B Hh HB Hor.
  assert (Q : forall z, K <= Rabs z -> G < z ^ 2).
  { intros z Hz. replace (z ^ 2) with (Rabs z * Rabs z) by (rewrite <- Rabs_mult; rewrite Rabs_right; [ring|nra]). nra. }
  apply Q. destruct Hor as [L|U].
  - assert (Bd : K + C + Rabs al <= Rabs (ga / h)).
    { unfold Rdiv. rewrite Rabs_mult, Rabs_inv, (Rabs_right h) by lra.
      apply Rmult_le_reg_r with h; [exact Hh|]. rewrite Rmult_assoc, Rinv_l, Rmult_1_r by lra.
      assert (h <= Rabs ga / (K + C + Rabs al)) by (pose proof (Rmin_r (1/2) (Rabs ga / (K + C + Rabs al))); unfold hl in L; lra).
      apply Rmult_le_reg_r with (/ (K + C + Rabs al)); [apply Rinv_0_lt_compat; lra|].
      replace ((K + C + Rabs al) * h * / (K + C + Rabs al)) with h by (field; lra). exact H. }
    assert (Rabs (- al * h) <= Rabs al).
    { rewrite Rabs_mult, Rabs_Ropp, (Rabs_right h) by lra. nra. }
    pose proof (Rabs_triang_inv (ga / h) (- (- al * h + B))) as T1. pose proof (Rabs_triang (- al * h) B) as T2.
    rewrite Rabs_Ropp in T1. replace (ga / h - - (- al * h + B)) with (- al * h + ga / h + B) in T1 by ring. lra.
  - assert (Bd : K + C + Rabs ga <= Rabs (- al * h)).
    { rewrite Rabs_mult, Rabs_Ropp, (Rabs_right h) by lra.
      assert (X : (K + C + Rabs ga) / Rabs al <= h) by (unfold hh in U; lra).
      apply (Rmult_le_compat_l (Rabs al)) in X; [|lra].
      replace (Rabs al * ((K + C + Rabs ga) / Rabs al)) with (K + C + Rabs ga) in X by (field; lra). exact X. }
    assert (Rabs (ga / h) <= Rabs ga).
    { unfold Rdiv. rewrite Rabs_mult, Rabs_inv, (Rabs_right h) by lra.
      rewrite <- (Rmult_1_r (Rabs ga)) at 2. apply Rmult_le_compat_l; [lra|]. rewrite <- Rinv_1. apply Rinv_le_contravar; lra. }
    pose proof (Rabs_triang_inv (- al * h) (- (ga / h + B))) as T1. pose proof (Rabs_triang (ga / h) B) as T2.
    rewrite Rabs_Ropp in T1. replace (- al * h - - (ga / h + B)) with (- al * h + ga / h + B) in T1 by ring. lra.
Qed.

Lemma some_inj' {X} (a b : X) : Some a = Some b -> a = b.
Proof. now intros [=]. Qed.
Lemma ok_inj' {X} (a b : X) : Ok a = Ok b -> a = b.
Proof. now intros [=]. Qed.
Lemma map_fin_inj l : forall l', map Fin l = map Fin l' -> l = l'.
Proof.
  induction l as [|x l IH]; intros [|y l'] E; try discriminate; [reflexivity|].
  cbn [map] in E. injection E as E1 E2. f_equal; [exact E1|]. now apply IH.
Qed.

(* ------------------------------------------------------------------ *)
(** * the residuals of a fit as such points *)

Lemma pow10_pH' h : 0 < h -> pow10R (- pH_of_h h) = h.
Proof. intros Hh. unfold pH_of_h. rewrite Ropp_involutive. now apply pow10_log10. Qed.

Lemma alk_everywhere totals ks p0 a0 : nonneg_totals totals -> pos_constants ks ->
  alkalinity p0 totals ks 3 = Ok a0 ->
  forall h, 0 < h -> alkalinity (Fin (pH_of_h h)) totals ks 3 = Ok (Fin (alkR totals ks 3 h)).
Proof.
  intros Ht Hk H0 h Hh.
  assert (Hex : exists a, alkalinity (Fin (pH_of_h h)) totals ks 3 = Ok a).
  { apply C23_raises_exactly_when. apply (C23_raises_exactly_when p0). eauto. }
  destruct Hex as [a Ha]. unfold alkalinity in Ha.
  destruct (alkalinity_components (Fin (pH_of_h h)) totals ks 3) as [c|] eqn:Ec; [|discriminate].
  rewrite (alkalinity_fin _ _ _ _ _ (tot_nn_ok _ (nonneg_nn _ Ht)) (pos_ok _ Hk) Ec). now rewrite pow10_pH'.
Qed.

Definition point (c n M m e t : R) (totals ks : dict xr) : (R -> R) * R :=
  (fun E => alkR totals ks 3 (nernst_h e E t) + m * c * n / (m + M), M / (m + M)).

Lemma point_cont c n M m e t totals ks E : nonneg_totals totals -> pos_constants ks -> -273.15 < t ->
  continuity_pt (fst (point c n M m e t totals ks)) E.
Proof.
  intros Ht Hk Htc. cbn [point fst].
  apply (continuity_pt_plus (fun E => alkR totals ks 3 (nernst_h e E t))); [|apply continuity_pt_const; intros ? ?; reflexivity].
  apply (continuity_pt_comp (fun E => nernst_h e E t) (alkR totals ks 3)).
  - unfold nernst_h. apply (continuity_pt_comp (fun E => (e - E) * 96.4853365 / (8.3144621 * (t + 273.15))) exp).
    + unfold Rdiv. reg.
    + apply derivable_continuous_pt. apply derivable_pt_exp.
  - apply alkR_cont; [now apply nonneg_nn|now apply pos_ok|apply exp_pos].
Qed.

(* two points taken at the same temperature *)
Lemma pair_coercive c n M m1 m2 e1 e2 t T1 K1 T2 K2 kw :
  0 < M -> 0 <= m1 -> 0 <= m2 -> -273.15 < t ->
  nonneg_totals T1 -> pos_constants K1 -> nonneg_totals T2 -> pos_constants K2 ->
  dget "k_water" K1 = Some (Fin kw) -> dget "k_water" K2 = Some (Fin kw) ->
  nernst_h e1 0 t * (M + m1) <> nernst_h e2 0 t * (M + m2) ->
  nernst_h e1 0 t * (M + m2) <> nernst_h e2 0 t * (M + m1) ->
  forall G, exists lo hi, forall E, E < lo \/ hi < E ->
    G < (fst (point c n M m1 e1 t T1 K1) E * snd (point c n M m2 e2 t T2 K2)
         - fst (point c n M m2 e2 t T2 K2) E * snd (point c n M m1 e1 t T1 K1)) ^ 2.
Proof.
  intros HM P1 P2 Ht HT1 HK1 HT2 HK2 W1 W2 N1 N2 G.
  destruct (HK1 _ _ W1) as [kw' [Ek Pk]]. apply fin_inj in Ek. subst kw'.
  destruct (sum_bound T1 K1 (nonneg_nn _ HT1) (pos_ok _ HK1) (substs 3)) as [B1 [PB1 Hb1]].
  destruct (sum_bound T2 K2 (nonneg_nn _ HT2) (pos_ok _ HK2) (substs 3)) as [B2 [PB2 Hb2]].
  set (q := exp ((e2 - e1) * 96.4853365 / (8.3144621 * (t + 273.15)))). assert (Pq : 0 < q) by apply exp_pos.
  assert (Eq : forall E, nernst_h e2 E t = q * nernst_h e1 E t).
  { intros E. unfold q, nernst_h. rewrite <- exp_plus. f_equal. unfold Rdiv. ring. }
  set (d1 := M / (m1 + M)). set (d2 := M / (m2 + M)).
  assert (Pd1 : 0 < d1) by (apply Rdiv_lt_0_compat; lra). assert (Pd2 : 0 < d2) by (apply Rdiv_lt_0_compat; lra).
  set (al := d2 - q * d1). set (ga := kw * d2 - kw / q * d1).
  assert (Ph : forall E, 0 < nernst_h e1 E t) by (intros; apply exp_pos).
  assert (Hal : al <> 0).
  { intros Z. apply N2. rewrite Eq. specialize (Ph 0). unfold al, d1, d2 in Z.
    assert (Z' : (m1 + M) = q * (m2 + M)).
    { apply Rmult_eq_reg_l with (M / (m1 + M) / (m2 + M)); [|apply Rgt_not_eq; apply Rdiv_lt_0_compat; [exact Pd1|lra]].
      replace (M / (m1 + M) / (m2 + M) * (m1 + M)) with (M / (m2 + M)) by (field; lra).
      replace (M / (m1 + M) / (m2 + M) * (q * (m2 + M))) with (q * (M / (m1 + M))) by (field; lra). lra. }
    exfalso. apply N1. rewrite Eq. rewrite (Rplus_comm M m1), Z'. ring. }
  assert (Hga : ga <> 0).
  { intros Z. unfold ga, d1, d2 in Z. specialize (Ph 0).
    assert (Z' : q * (m1 + M) = m2 + M).
    { apply Rmult_eq_reg_l with (kw / q * (M / (m1 + M) / (m2 + M)));
        [|apply Rgt_not_eq; apply Rmult_lt_0_compat; [apply Rdiv_lt_0_compat; assumption|apply Rdiv_lt_0_compat; [exact Pd1|lra]]].
      replace (kw / q * (M / (m1 + M) / (m2 + M)) * (q * (m1 + M))) with (kw * (M / (m2 + M))) by (field; lra).
      replace (kw / q * (M / (m1 + M) / (m2 + M)) * (m2 + M)) with (kw / q * (M / (m1 + M))) by (field; lra). lra. }
    apply N2. rewrite Eq. rewrite (Rplus_comm M m2), <- Z'. ring. }
  set (b1 := m1 * c * n / (m1 + M)). set (b2 := m2 * c * n / (m2 + M)).
  set (C := (B1 + Rabs b1) * d2 + (B2 + Rabs b2) * d1).
  assert (HC : 0 <= C). { unfold C. pose proof (Rabs_pos b1). pose proof (Rabs_pos b2). nra. }
  destruct (blows_up al ga C Hal Hga HC G) as [hl [hh [Hhl [Hlh Hout]]]].
  set (tk := 8.3144621 * (t + 273.15)). assert (Ptk : 0 < tk) by (unfold tk; lra).
  (* the EMF0 at which [H+] at the first point is h *)
  set (at_ := fun h => e1 - ln h * tk / 96.4853365).
  assert (Hinv : forall h, 0 < h -> nernst_h e1 (at_ h) t = h).
  { intros h Hh. unfold nernst_h, at_. fold tk. rewrite <- (exp_ln h Hh) at 2. f_equal. field. lra. }
  assert (Hdec : forall E E', E < E' -> nernst_h e1 E' t < nernst_h e1 E t).
  { intros E E' L. unfold nernst_h. fold tk. apply exp_increasing. unfold Rdiv. apply Rmult_lt_compat_r; [now apply Rinv_0_lt_compat|lra]. }
  exists (at_ hh), (at_ hl). intros E Hor.
  assert (Hh' : nernst_h e1 E t < hl \/ hh < nernst_h e1 E t).
  { destruct Hor as [L|L]; apply Hdec in L; rewrite Hinv in L by lra; [right|left]; exact L. }
  set (h := nernst_h e1 E t) in *. assert (Phh : 0 < h) by apply exp_pos.
  cbn [point fst snd]. fold d1 d2 b1 b2. rewrite Eq. fold h.
  set (s1 := Rsum (map (fun s => contr T1 K1 s h) (substs 3))). set (s2 := Rsum (map (fun s => contr T2 K2 s (q * h)) (substs 3))).
  assert (A1 : alkR T1 K1 3 h = - h + kw / h + s1) by (unfold alkR, waterR; rewrite W1; reflexivity).
  assert (A2 : alkR T2 K2 3 (q * h) = - (q * h) + kw / (q * h) + s2) by (unfold alkR, waterR; rewrite W2; reflexivity).
  rewrite A1, A2.
  replace ((- h + kw / h + s1 + b1) * d2 - (- (q * h) + kw / (q * h) + s2 + b2) * d1)
    with (- al * h + ga / h + ((s1 + b1) * d2 - (s2 + b2) * d1)) by (unfold al, ga; field; lra).
  apply Hout; [exact Phh| |exact Hh'].
  assert (S1 : Rabs s1 <= B1) by (apply Rabs_le; apply Hb1; exact Phh).
  assert (S2 : Rabs s2 <= B2) by (apply Rabs_le; apply Hb2; nra).
  unfold Rminus. eapply Rle_trans; [apply Rabs_triang|]. rewrite Rabs_Ropp, !Rabs_mult, (Rabs_right d1), (Rabs_right d2) by lra.
  pose proof (Rabs_triang s1 b1). pose proof (Rabs_triang s2 b2). unfold C. nra.
Qed.

Definition fit_points (c n M : R) (tm emf temps : list R) (totals ks : dict (nd xr)) : list ((R -> R) * R) :=
  map (fun i => point c n M (nth i tm 0) (nth i emf 0) (nth i temps 0) (slice_at totals i) (slice_at ks i)) (seq 0 (length tm)).

Lemma fit_points_spec c n M tm emf temps totals ks a0 e0 y0 :
  tm <> [] -> masses_ok tm M -> Forall (fun t => -273.15 < t) temps -> length emf = length tm -> length temps = length tm ->
  (forall i, (i < length tm)%nat -> nonneg_totals (slice_at totals i) /\ pos_constants (slice_at ks i)) ->
  lsqfun_solve_emf (Fin c) (map Fin tm) (map Fin emf) (map Fin temps) (Fin M) totals ks (Fin n) [a0; e0] = Ok y0 ->
  forall A E, lsqfun_solve_emf (Fin c) (map Fin tm) (map Fin emf) (map Fin temps) (Fin M) totals ks (Fin n) [Fin A; Fin E]
    = Ok (map Fin (map (fun p => fst p E - A * snd p) (fit_points c n M tm emf temps totals ks))).
Proof.
  intros Hne0 [HM Htm] Htemps Le Lt Hd H0 A E.
  assert (Hl1 : length (map Fin emf) = length (map Fin tm)) by (rewrite !map_length; assumption).
  assert (Hl2 : length (map Fin temps) = length (map Fin tm)) by (rewrite !map_length; assumption).
  destruct (lsqfun_spec _ _ _ _ _ _ _ _ _ _ _ Hl1 Hl2 H0) as [_ Hpt0].
  assert (Hat : forall i, (i < length tm)%nat -> exists m e t, nth_error tm i = Some m /\ nth_error emf i = Some e /\
     nth_error temps i = Some t /\ 0 <= m /\ -273.15 < t /\
     alkalinity (emf_to_pH (Fin e) (Fin E) (Fin t)) (slice_at totals i) (slice_at ks i) 3
       = Ok (Fin (alkR (slice_at totals i) (slice_at ks i) 3 (nernst_h e E t)))).
  { intros i Hi. destruct (nth_error tm i) as [m|] eqn:Em; [|apply nth_error_None in Em; lia].
    destruct (nth_error_lt_ex tm emf i m Le Em) as [e Ee]. destruct (nth_error_lt_ex tm temps i m Lt Em) as [t Et].
    exists m, e, t. split; [reflexivity|]. split; [exact Ee|]. split; [exact Et|].
    assert (Ht : -273.15 < t) by (eapply Forall_nth_error in Htemps; eassumption).
    split; [eapply Forall_nth_error in Htm; eassumption|]. split; [exact Ht|].
    destruct (Hpt0 i (Fin m) (Fin e) (Fin t)) as [s [Hs _]]; try (apply nth_error_map_fin; assumption).
    destruct (Hd i Hi) as [Hn Hp]. rewrite emf_to_pH_nernst by exact Ht.
    eapply alk_everywhere; [exact Hn|exact Hp|exact Hs|apply exp_pos]. }
  unfold lsqfun_solve_emf in H0. apply bind_ok in H0 as [sim0 [Hs0 _]].
  change default_opt_pH_scale with 3%Z in Hs0.
  assert (Hne : emf_to_pH_arr (map Fin emf) (Fin E) (map Fin temps) <> [] ).
  { unfold emf_to_pH_arr. destruct tm; [congruence|]. destruct emf, temps; discriminate. }
  apply alkalinity_arr_spec in Hs0 as [Hf1 [Hf2 _]].
  assert (Lp : forall e, length (emf_to_pH_arr (map Fin emf) e (map Fin temps)) = length tm).
  { intros e. unfold emf_to_pH_arr. rewrite map2_length; rewrite !map_length; congruence. }
  rewrite Lp in Hf1, Hf2.
  destruct (alkalinity_arr_total (emf_to_pH_arr (map Fin emf) (Fin E) (map Fin temps)) totals ks 3) as [sim Hsim];
    [exact Hne|rewrite Lp; exact Hf1|rewrite Lp; exact Hf2| |].
  { intros i p Hp. assert (Hi : (i < length tm)%nat) by (rewrite <- (Lp (Fin E)); apply nth_error_Some; congruence).
    destruct (Hat i Hi) as [m [e [t [Em [Ee [Et [_ [_ Ha]]]]]]]].
    unfold emf_to_pH_arr in Hp. rewrite nth_error_map2, !nth_error_map, Ee, Et in Hp. cbn [option_map] in Hp.
    apply some_inj' in Hp. subst p. eauto. }
  assert (Hok : exists y, lsqfun_solve_emf (Fin c) (map Fin tm) (map Fin emf) (map Fin temps) (Fin M) totals ks (Fin n) [Fin A; Fin E] = Ok y).
  { unfold lsqfun_solve_emf. change default_opt_pH_scale with 3%Z. rewrite Hsim. cbn [bind]. eauto. }
  destruct Hok as [y Hy]. rewrite Hy. f_equal.
  destruct (lsqfun_spec _ _ _ _ _ _ _ _ _ _ _ Hl1 Hl2 Hy) as [Hly Hpt]. rewrite map_length in Hly.
  symmetry. apply list_ext; [unfold fit_points; rewrite !map_length, seq_length; congruence|].
  intros i x Hx. assert (Hi : (i < length tm)%nat) by (rewrite <- Hly; apply nth_error_Some; congruence).
  destruct (Hat i Hi) as [m [e [t [Em [Ee [Et [Pm [Ht Ha]]]]]]]].
  destruct (Hpt i (Fin m) (Fin e) (Fin t)) as [s [Hs Hn]]; try (apply nth_error_map_fin; assumption).
  rewrite Ha in Hs. apply ok_inj' in Hs. subst s. rewrite Hx in Hn. apply some_inj' in Hn. subst x.
  unfold fit_points. rewrite !nth_error_map. 
  assert (Es : nth_error (seq 0 (length tm)) i = Some i).
  { rewrite (nth_error_nth' _ 0%nat) by (rewrite seq_length; exact Hi). now rewrite seq_nth. }
  rewrite Es. cbn [option_map point fst snd].
  rewrite (nth_error_nth tm i 0 Em), (nth_error_nth emf i 0 Ee), (nth_error_nth temps i 0 Et).
  f_equal. rewrite df_fin by lra. rewrite fin_add, !fin_mul, fin_div, fin_sub, fin_add by lra. f_equal. field. lra.
Qed.

(** If two of the points that a fit used were taken at the same temperature, and neither
    [H+] x mass nor [H+] / mass is the same at both (as it is not in an acid titration), then some
    alkalinity and EMF0 fit those points at least as well as any other, whatever the sample
    contains: the optimiser is not sent after an optimum that does not exist. *)
Theorem C119_best_fit_exists :
  forall st c tm emf temps M totals ks ai double ei logic pmin pmax n r i1 i2 m1 m2 e1 e2 t kw,
  masses_ok tm M -> Forall (fun t => -273.15 < t) temps ->
  solve_emf st (Fin c) (map Fin tm) (map Fin emf) (map Fin temps) (Fin M) totals ks
    ai double ei logic pmin pmax (Fin n) = Ok r ->
  (forall i, used_at (se_used r) i -> nonneg_totals (slice_at totals i) /\ pos_constants (slice_at ks i)) ->
  used_at (se_used r) i1 -> nth_error tm i1 = Some m1 -> nth_error emf i1 = Some e1 -> nth_error temps i1 = Some t ->
  used_at (se_used r) i2 -> nth_error tm i2 = Some m2 -> nth_error emf i2 = Some e2 -> nth_error temps i2 = Some t ->
  dget "k_water" (slice_at ks i1) = Some (Fin kw) -> dget "k_water" (slice_at ks i2) = Some (Fin kw) ->
  nernst_h e1 0 t * (M + m1) <> nernst_h e2 0 t * (M + m2) ->
  nernst_h e1 0 t * (M + m2) <> nernst_h e2 0 t * (M + m1) ->
  exists A E best, fit_residuals r (Fin n) A E = Ok (map Fin best) /\
    (forall A' E', exists other, fit_residuals r (Fin n) A' E' = Ok (map Fin other) /\
       sum_of_squares best <= sum_of_squares other) /\
    (forall A' E' found, se_alkalinity r = Fin (1000000 * A') -> se_emf0 r = Fin E' ->
       or_fun (se_opt_result r) = map Fin found -> sum_of_squares best <= sum_of_squares found).
Proof.
  intros st c tm emf temps M totals ks ai double ei logic pmin pmax n r i1 i2 m1 m2 e1 e2 t kw
    [HM Htm] Htemps Hr Hd U1 T1 V1 W1 U2 T2 V2 W2 K1 K2 N1 N2.
  apply solve_emf_inv in Hr as [ai' [ei' [logic' Hr]]].
  pose proof (once_echo _ _ _ _ _ _ _ _ _ _ _ _ _ _ _ Hr) as [E1 [E2 [E3 [E4 [E5 [E6 E7]]]]]].
  apply once_inv in Hr as [_ [He [Ht [Hu [Hft [Hfk [[a [Hx Ha]] [Hfun _]]]]]]]].
  rewrite !map_length in He, Ht.
  assert (Hlu : length (se_used r) = length tm).
  { rewrite Hu. unfold in_window, emf_to_pH_arr. rewrite map_length, map2_length; rewrite !map_length; congruence. }
  unfold fit_residuals. rewrite E1, E2, E3, E4, E5, E6, E7. rewrite Hx in Hfun. set (u := se_used r) in *.
  rewrite !mask_map in *. set (tmu := mask u tm) in *. set (emfu := mask u emf) in *. set (tu := mask u temps) in *.
  assert (L1 : length emfu = length tmu) by (apply mask_length_eq; congruence).
  assert (L2 : length tu = length tmu) by (apply mask_length_eq; congruence).
  assert (Hin : forall X (P : X -> Prop) l, Forall P l -> Forall P (mask u l)).
  { intros X P l Hl. apply Forall_forall. intros x Hi. apply in_mask in Hi as [i [_ Hi]]. eapply Forall_nth_error in Hl; eassumption. }
  assert (Hok : masses_ok tmu M) by (split; [exact HM|apply Hin; exact Htm]).
  assert (Htu : Forall (fun t => -273.15 < t) tu) by (apply Hin; exact Htemps).
  set (totu := dmap (nd_mask u) totals) in *. set (ku := dmap (nd_mask u) ks) in *.
  assert (Hdu : forall i, (i < length tmu)%nat -> nonneg_totals (slice_at totu i) /\ pos_constants (slice_at ku i)).
  { intros j Hj. destruct (nth_error tmu j) as [m|] eqn:Em; [|apply nth_error_None in Em; lia].
    destruct (mask_rank_inv u tm j m Em) as [i [Hi [<- _]]]. unfold totu, ku. rewrite !slice_masked by assumption. now apply Hd. }
  assert (Hne : tmu <> []).
  { intros Z. assert (Em : nth_error tmu (rank u i1) = Some m1) by (unfold tmu; now rewrite mask_rank). rewrite Z in Em. destruct (rank u i1); discriminate. }
  pose proof (fit_points_spec c n M tmu emfu tu totu ku a (se_emf0 r) _ Hne Hok Htu L1 L2 Hdu Hfun) as Hres.
  set (pts := fit_points c n M tmu emfu tu totu ku) in *.
  assert (Hin_pt : forall i m e, used_at u i -> nth_error tm i = Some m -> nth_error emf i = Some e -> nth_error temps i = Some t ->
     In (point c n M m e t (slice_at totals i) (slice_at ks i)) pts).
  { intros i m e Ui Mi Vi Wi. unfold pts, fit_points. apply in_map_iff. exists (rank u i).
    assert (Em : nth_error tmu (rank u i) = Some m) by (unfold tmu; now rewrite mask_rank).
    assert (Ee : nth_error emfu (rank u i) = Some e) by (unfold emfu; now rewrite mask_rank).
    assert (Et : nth_error tu (rank u i) = Some t) by (unfold tu; now rewrite mask_rank).
    rewrite (nth_error_nth _ _ 0 Em), (nth_error_nth _ _ 0 Ee), (nth_error_nth _ _ 0 Et).
    unfold totu, ku. rewrite !slice_masked by assumption. split; [reflexivity|]. apply in_seq.
    assert (rank u i < length tmu)%nat by (apply nth_error_Some; congruence). lia. }
  assert (P1 : 0 <= m1) by (eapply Forall_nth_error in Htm; eassumption).
  assert (P2 : 0 <= m2) by (eapply Forall_nth_error in Htm; eassumption).
  assert (Htt : -273.15 < t) by (eapply Forall_nth_error in Htemps; eassumption).
  destruct (Hd i1 U1) as [Q1 R1]. destruct (Hd i2 U2) as [Q2 R2].
  pose proof (Hin_pt i1 m1 e1 U1 T1 V1 W1) as I1. pose proof (Hin_pt i2 m2 e2 U2 T2 V2 W2) as I2.
  destruct (best_exists pts (point c n M m1 e1 t (slice_at totals i1) (slice_at ks i1)) (point c n M m2 e2 t (slice_at totals i2) (slice_at ks i2)))
    as [A [E Hbest]]; try assumption.
  { intros p Hp E. unfold pts, fit_points in Hp. apply in_map_iff in Hp as [j [<- Hj]]. apply in_seq in Hj.
    destruct (Hdu j ltac:(lia)) as [Hn Hp]. apply point_cont; [exact Hn|exact Hp|].
    assert (Lj : (j < length tu)%nat) by lia. apply (nth_error_nth' tu 0) in Lj. eapply Forall_nth_error in Htu; eassumption. }
  { cbn [point snd]. apply Rdiv_lt_0_compat; lra. }
  { cbn [point snd]. apply Rdiv_lt_0_compat; lra. }
  { eapply pair_coercive; eassumption. }
  exists A, E. eexists. split; [apply Hres|].
  assert (Hall : forall A' E', sum_of_squares (map (fun p => fst p E - A * snd p) pts) <= sum_of_squares (map (fun p => fst p E' - A' * snd p) pts))
    by (intros; apply Hbest).
  split.
  - intros A' E'. eexists. split; [apply Hres|apply Hall].
  - intros A' E' found HA HE Hf. rewrite HE in Hfun.
    assert (Ea : a = Fin A').
    { rewrite HA in Ha. change (@nofQ xr _ 1000000) with (Fin (Q2R 1000000)) in Ha. symmetry in Ha.
      pose proof Ha as Hb. apply mul_fin_l in Hb as [a' ->]. rewrite fin_mul in Ha. apply fin_inj in Ha. f_equal.
      unfold Q2R in Ha. cbn in Ha. lra. }
    rewrite Ea, Hres in Hfun. apply ok_inj' in Hfun. rewrite Hf in Hfun. apply map_fin_inj in Hfun. rewrite <- Hfun. apply Hall.
Qed.
Print Assumptions C119_best_fit_exists.

(* a fit of three additions to water, with [H+] = 1/2, 1 and 4/3 *)
Example C119_nonvacuous : exists r,
  solve_emf accept (Fin 1) (map Fin tm3) (map Fin emf3) (map Fin [25; 25; 25]) (Fin 1) [] (water_only 1)
    (Some (Fin (1000000 * 2))) false (Some (Fin 0)) "v23.7+" (Fin (-2)) (Fin 2) (Fin 1) = Ok r /\
  masses_ok tm3 1 /\ used_at (se_used r) 0 /\ used_at (se_used r) 1 /\
  (forall i, nonneg_totals (slice_at [] i) /\ pos_constants (slice_at (water_only 1) i)) /\
  nernst_h (reading (1/2)) 0 25 * (1 + 1/5) <> nernst_h (reading 1) 0 25 * (1 + 2) /\
  nernst_h (reading (1/2)) 0 25 * (1 + 2) <> nernst_h (reading 1) 0 25 * (1 + 1/5).
Proof.
  destruct C114_nonvacuous as [r [Hr [Hm [_ [_ Hu]]]]]. exists r. split; [exact Hr|]. split; [exact Hm|].
  split; [apply (Hu 0%nat _ _ eq_refl eq_refl)|]. split; [apply (Hu 1%nat _ _ eq_refl eq_refl)|]. split.
  - intros i. split; [intros k v E; discriminate E|]. intros k v E. cbn [slice_at dmap water_only map fst snd nd_at dget] in E.
    cbn in E. destruct (String.eqb k "k_water"); [|discriminate]. apply some_inj' in E. subst v. exists 1. split; [reflexivity|lra].
  - rewrite !reading_h0 by lra. lra.
Qed.
