(* PropMonotone.v -- C94, C95: in which direction the alkalinity of solve_pH moves *)
From Coq Require Import Reals Qreals Lra.
From Verif Require Export PropSolve PropSimulate.
Open Scope list_scope.
Open Scope R_scope.

(* ------------------------------------------------------------------ *)
(** * sums over the used points *)

Lemma masked_le u (l l' : list R) : length l = length l' ->
  (forall i v v', used_at u i -> nth_error l i = Some v -> nth_error l' i = Some v' -> v <= v') ->
  Rsum (mask u l) <= Rsum (mask u l').
Proof.
  revert l l'; induction u as [|b u IH]; intros [|a l] [|a' l'] Hl Hp; try discriminate Hl;
    try (destruct b; apply Rle_refl); try apply Rle_refl.
  assert (Hr : Rsum (mask u l) <= Rsum (mask u l')).
  { apply IH; [now injection Hl|]. intros i v v' Hu. exact (Hp (S i) v v' Hu). }
  destruct b; cbn [mask]; [|exact Hr]. rewrite !Rsum_cons.
  pose proof (Hp 0%nat a a' eq_refl eq_refl eq_refl). lra.
Qed.

Lemma masked_lt u (l l' : list R) : length l = length l' ->
  (forall i v v', used_at u i -> nth_error l i = Some v -> nth_error l' i = Some v' -> v <= v') ->
  (exists i v v', used_at u i /\ nth_error l i = Some v /\ nth_error l' i = Some v' /\ v < v') ->
  Rsum (mask u l) < Rsum (mask u l').
Proof.
  revert l l'; induction u as [|b u IH]; intros l l' Hl Hp [i [v [v' [Hu [Hv [Hv' Hlt]]]]]].
  - destruct i; discriminate Hu.
  - destruct l as [|a l], l' as [|a' l']; try discriminate Hl; [destruct i; discriminate Hv|].
    assert (Hl' : length l = length l') by now injection Hl.
    destruct i as [|i].
    + cbn in Hu, Hv, Hv'. injection Hu as ->. injection Hv as ->. injection Hv' as ->.
      cbn [mask]. rewrite !Rsum_cons.
      pose proof (masked_le u l l' Hl' (fun i v v' Hu => Hp (S i) v v' Hu)). lra.
    + assert (Hr : Rsum (mask u l) < Rsum (mask u l')).
      { apply IH; [assumption|exact (fun i v v' Hu => Hp (S i) v v' Hu)|].
        exists i, v, v'. auto. }
      destruct b; cbn [mask]; [|exact Hr]. rewrite !Rsum_cons.
      pose proof (Hp 0%nat a a' eq_refl eq_refl eq_refl). lra.
Qed.

Lemma masked_mean_le u (l l' : list R) : length l = length u -> length l' = length u -> (0 < n_used u)%nat ->
  (forall i v v', used_at u i -> nth_error l i = Some v -> nth_error l' i = Some v' -> v <= v') ->
  Rmean (mask u l) <= Rmean (mask u l') /\
  ((exists i v v', used_at u i /\ nth_error l i = Some v /\ nth_error l' i = Some v' /\ v < v') ->
   Rmean (mask u l) < Rmean (mask u l')).
Proof.
  intros Hl Hl' Hn Hp. unfold Rmean.
  assert (E : length (mask u l) = n_used u) by (apply mask_count; congruence).
  assert (E' : length (mask u l') = n_used u) by (apply mask_count; congruence).
  rewrite E, E'. assert (0 < INR (n_used u)) by now apply lt_0_INR.
  assert (Hi : 0 < / INR (n_used u)) by now apply Rinv_0_lt_compat.
  split; [|intros Hex]; unfold Rdiv.
  - apply Rmult_le_compat_r; [lra|]. apply masked_le; [congruence|assumption].
  - apply Rmult_lt_compat_r; [lra|]. apply masked_lt; [congruence|assumption|assumption].
Qed.

(** alkalinity_all at one point, as a number *)
Lemma estimate_le s s' m c n M : 0 < M -> 0 <= m -> s <= s' ->
  1000000 * (s * (m + M) + m * c * n) / M <= 1000000 * (s' * (m + M) + m * c * n) / M.
Proof.
  intros HM Hm Hs. unfold Rdiv. apply Rmult_le_compat_r; [left; now apply Rinv_0_lt_compat|]. nra.
Qed.
Lemma estimate_lt s s' m c n M : 0 < M -> 0 <= m -> s < s' ->
  1000000 * (s * (m + M) + m * c * n) / M < 1000000 * (s' * (m + M) + m * c * n) / M.
Proof.
  intros HM Hm Hs. unfold Rdiv. apply Rmult_lt_compat_r; [now apply Rinv_0_lt_compat|]. nra.
Qed.

(* every point has contents and constants that make sense *)
Definition sane (N : nat) (totals ks : dict (nd xr)) : Prop :=
  forall i, (i < N)%nat -> nonneg_totals (slice_at totals i) /\ pos_constants (slice_at ks i).

(* comparing two runs of solve_pH on the same additions of titrant *)
Lemma compare_runs c tm pH pH' temps temps' M totals totals' ks ks' pmin pmax n r r' :
  masses_ok tm M -> sane (length tm) totals ks -> sane (length tm) totals' ks' ->
  solve_pH (Fin c) (map Fin tm) (map Fin pH) temps (Fin M) totals ks (Fin pmin) (Fin pmax) (Fin n) = Ok r ->
  solve_pH (Fin c) (map Fin tm) (map Fin pH') temps' (Fin M) totals' ks' (Fin pmin) (Fin pmax) (Fin n) = Ok r' ->
  (forall i p p', nth_error pH i = Some p -> nth_error pH' i = Some p' -> (pmin <= p <= pmax <-> pmin <= p' <= pmax)) ->
  (exists i p, nth_error pH i = Some p /\ pmin <= p <= pmax) ->
  (forall i p p' s s', nth_error pH i = Some p -> nth_error pH' i = Some p' -> pmin <= p <= pmax ->
     alkalinity (Fin p) (slice_at totals i) (slice_at ks i) 3 = Ok (Fin s) ->
     alkalinity (Fin p') (slice_at totals' i) (slice_at ks' i) 3 = Ok (Fin s') -> s <= s') ->
  exists a a', sp_alkalinity r = Fin a /\ sp_alkalinity r' = Fin a' /\ a <= a' /\
    ((exists i p p', nth_error pH i = Some p /\ nth_error pH' i = Some p' /\ pmin <= p <= pmax /\
       forall s s', alkalinity (Fin p) (slice_at totals i) (slice_at ks i) 3 = Ok (Fin s) ->
         alkalinity (Fin p') (slice_at totals' i) (slice_at ks' i) 3 = Ok (Fin s') -> s < s') -> a < a').
Proof.
  intros Hok Hs Hs' Hr Hr' Hw Hex Hle.
  apply solve_pH_inv in Hr as [Hl [_ [Hu [Hall [Ha _]]]]]. apply solve_pH_inv in Hr' as [Hl' [_ [Hu' [Hall' [Ha' _]]]]].
  rewrite !map_length in Hl, Hl'.
  assert (lt_of : forall i (p : R) (l : list R), nth_error l i = Some p -> length l = length tm -> (i < length tm)%nat).
  { intros i p l E <-. apply nth_error_Some. congruence. }
  destruct (all_finite _ _ _ _ _ _ _ _ Hok Hl (fun i p E => Hs i (lt_of _ _ _ E Hl)) Hall) as [est [Ee [Hle1 Hpt]]].
  destruct (all_finite _ _ _ _ _ _ _ _ Hok Hl' (fun i p E => Hs' i (lt_of _ _ _ E Hl')) Hall') as [est' [Ee' [Hle2 Hpt']]].
  assert (Eu : in_window (Fin pmin) (Fin pmax) (map Fin pH) = in_window (Fin pmin) (Fin pmax) (map Fin pH')).
  { assert (Hlen : length pH = length pH') by congruence. clear - Hlen Hw.
    revert pH' Hlen Hw; induction pH as [|p pH IH]; intros [|p' pH'] Hlen Hw; try discriminate Hlen; [reflexivity|].
    cbn [map in_window]. unfold in_window in *. cbn [map]. f_equal.
    - specialize (Hw 0%nat p p' eq_refl eq_refl). unfold ngeb.
      destruct (nleb (Fin pmin) (Fin p) && nleb (Fin p) (Fin pmax)) eqn:B,
               (nleb (Fin pmin) (Fin p') && nleb (Fin p') (Fin pmax)) eqn:B'; try reflexivity; exfalso.
      + apply andb_true_iff in B as [B1 B2]. apply x_leb_fin in B1, B2.
        destruct (proj1 Hw (conj B1 B2)) as [C1 C2]. apply x_leb_fin in C1, C2. rewrite C1, C2 in B'. discriminate.
      + apply andb_true_iff in B' as [B1 B2]. apply x_leb_fin in B1, B2.
        destruct (proj2 Hw (conj B1 B2)) as [C1 C2]. apply x_leb_fin in C1, C2. rewrite C1, C2 in B. discriminate.
    - apply IH; [now injection Hlen|]. intros i q q'. exact (Hw (S i) q q'). }
  rewrite <- Eu in Hu'. rewrite <- Hu in Hu'. rewrite Hu' in Ha'.
  assert (Hlu : length (sp_used r) = length tm).
  { rewrite Hu. unfold in_window. rewrite !map_length. assumption. }
  assert (Hn : (0 < n_used (sp_used r))%nat).
  { destruct Hex as [i [p [Hp Hin]]]. assert (Hui : used_at (sp_used r) i).
    { rewrite Hu. apply window_used. exists p. split; [apply nth_error_map_fin; assumption|assumption]. }
    unfold used_at in Hui. clear Hp Hin. revert i Hui. generalize (sp_used r). clear. unfold n_used.
    induction l as [|b u IH]; intros [|i] Hi; try discriminate Hi.
    - injection Hi as ->. cbn. lia.
    - destruct b; cbn [filter length]; [lia|]. eapply IH. exact Hi. }
  assert (Hne : forall e : list R, length e = length tm -> mask (sp_used r) e <> []).
  { intros e He E0. pose proof (mask_count (sp_used r) e) as X. rewrite E0 in X. cbn in X.
    specialize (X ltac:(congruence)). change (count_true (sp_used r)) with (n_used (sp_used r)) in X. lia. }
  rewrite Ee, mask_map, nmean_fin in Ha by now apply Hne.
  rewrite Ee', mask_map, nmean_fin in Ha' by now apply Hne.
  exists (Rmean (mask (sp_used r) est)), (Rmean (mask (sp_used r) est')).
  split; [exact Ha|]. split; [exact Ha'|].
  assert (Hpos : forall i m, nth_error tm i = Some m -> 0 <= m).
  { intros i m E. destruct Hok as [_ F]. eapply Forall_nth_error in F; eassumption. }
  assert (Hat : forall i, used_at (sp_used r) i -> exists p p' m, nth_error pH i = Some p /\ nth_error pH' i = Some p' /\
    nth_error tm i = Some m /\ pmin <= p <= pmax).
  { intros i Hi. rewrite Hu in Hi. apply window_used in Hi as [p [Hp Hin]].
    rewrite nth_error_map in Hp. destruct (nth_error pH i) as [q|] eqn:Ep; [|discriminate]. injection Hp as ->.
    assert (Hlt : (i < length tm)%nat) by (eapply lt_of; eassumption).
    destruct (nth_error tm i) as [m|] eqn:Em; [|apply nth_error_None in Em; lia].
    destruct (nth_error pH' i) as [p'|] eqn:Ep'; [|apply nth_error_None in Ep'; lia].
    exists p, p', m. auto. }
  assert (Hi : 0 < M) by apply Hok.
  destruct (masked_mean_le (sp_used r) est est') as [G1 G2]; [congruence..|assumption| |].
  { intros i v v' Hui Hv Hv'. destruct (Hat i Hui) as [p [p' [m [Hp [Hp' [Hm Hin]]]]]].
    destruct (Hpt i p m Hp Hm) as [s [Es En]]. destruct (Hpt' i p' m Hp' Hm) as [s' [Es' En']].
    rewrite En in Hv. rewrite En' in Hv'. injection Hv as <-. injection Hv' as <-.
    apply estimate_le; eauto. }
  split; [exact G1|]. intros [i [p [p' [Hp [Hp' [Hin Hlt]]]]]]. apply G2.
  assert (Hui : used_at (sp_used r) i).
  { rewrite Hu. apply window_used. exists p. split; [apply nth_error_map_fin; assumption|assumption]. }
  destruct (Hat i Hui) as [q [q' [m [Hq [Hq' [Hm _]]]]]].
  assert (q = p) by congruence. assert (q' = p') by congruence. subst q q'.
  destruct (Hpt i p m Hp Hm) as [s [Es En]]. destruct (Hpt' i p' m Hp' Hm) as [s' [Es' En']].
  exists i, (1000000 * (s * (m + M) + m * c * n) / M), (1000000 * (s' * (m + M) + m * c * n) / M).
  split; [assumption|]. split; [assumption|]. split; [assumption|].
  apply estimate_lt; eauto.
Qed.

(* ------------------------------------------------------------------ *)
(** * C94 *)

Theorem C94_higher_pH_higher_alkalinity : forall c tm pH pH' temps M totals ks pmin pmax n r r',
  masses_ok tm M -> sane (length tm) totals ks ->
  solve_pH (Fin c) (map Fin tm) (map Fin pH) temps (Fin M) totals ks (Fin pmin) (Fin pmax) (Fin n) = Ok r ->
  solve_pH (Fin c) (map Fin tm) (map Fin pH') temps (Fin M) totals ks (Fin pmin) (Fin pmax) (Fin n) = Ok r' ->
  (* the same points are inside the window, and none of them has a lower pH the second time *)
  (forall i p p', nth_error pH i = Some p -> nth_error pH' i = Some p' ->
     (pmin <= p <= pmax <-> pmin <= p' <= pmax) /\ (pmin <= p <= pmax -> p <= p')) ->
  (exists i p, nth_error pH i = Some p /\ pmin <= p <= pmax) ->
  exists a a', sp_alkalinity r = Fin a /\ sp_alkalinity r' = Fin a' /\ a <= a' /\
    ((exists i p p', nth_error pH i = Some p /\ nth_error pH' i = Some p' /\ pmin <= p <= pmax /\ p < p') -> a < a').
Proof.
  intros c tm pH pH' temps M totals ks pmin pmax n r r' Hok Hs Hr Hr' Hp Hex.
  pose proof Hr as Hr0. apply solve_pH_inv in Hr0 as [Hl _]. rewrite !map_length in Hl.
  assert (Hat : forall i p, nth_error pH i = Some p -> (i < length tm)%nat).
  { intros i p E. rewrite <- Hl. apply nth_error_Some. congruence. }
  destruct (compare_runs c tm pH pH' temps temps M totals totals ks ks pmin pmax n r r' Hok Hs Hs Hr Hr') as
    [a [a' [Ha [Ha' [Hle Hlt]]]]]; [|assumption| |].
  - intros i p p' E E'. exact (proj1 (Hp i p p' E E')).
  - intros i p p' s s' E E' Hin As As'. destruct (Hs i (Hat i p E)) as [Ht Hk].
    destruct (proj2 (Hp i p p' E E') Hin) as [L| <-].
    + destruct (C18_alkalinity_increases_with_pH _ _ _ _ _ _ _ Ht Hk As As' L) as [r1 [r2 [E1 [E2 L']]]].
      injection E1 as ->. injection E2 as ->. lra.
    + rewrite As in As'. injection As' as ->. lra.
  - exists a, a'. split; [assumption|]. split; [assumption|]. split; [assumption|].
    intros [i [p [p' [E [E' [Hin L]]]]]]. apply Hlt. exists i, p, p'. repeat (split; [assumption|]).
    intros s s' As As'. destruct (Hs i (Hat i p E)) as [Ht Hk].
    destruct (C18_alkalinity_increases_with_pH _ _ _ _ _ _ _ Ht Hk As As' L) as [r1 [r2 [E1 [E2 L']]]].
    injection E1 as ->. injection E2 as ->. assumption.
Qed.

(* ------------------------------------------------------------------ *)
(** * C95 *)

(* the bases of these substances take up protons during the titration ... *)
Definition proton_acceptors : list string :=
  ["dic"; "total_borate"; "total_silicate"; "total_ammonia"; "total_sulfide"].
(* ... and hydrogen fluoride and bisulfate count as protons *)
Definition proton_donors : list string := ["total_fluoride"; "total_sulfate"].

(* contents before and after: acceptors may only have gone up, donors only down, and
   nothing else has changed *)
Definition alkaline_change (before after : dict xr) : Prop :=
  forall k, match dget k before, dget k after with
            | None, None => True
            | Some (Fin t), Some (Fin t') =>
                (In k proton_acceptors /\ t <= t') \/ (In k proton_donors /\ t' <= t) \/ t = t'
            | _, _ => False
            end.

Lemma contrR_le s t t' kk h : Forall (fun k => 0 < k) kk -> 0 < h ->
  (In (s_name s) proton_acceptors /\ t <= t') \/ (In (s_name s) proton_donors /\ t' <= t) \/ t = t' ->
  contrR s t kk h <= contrR s t' kk h.
Proof.
  intros Hkk Hh [[I L]|[[I L]|<-]]; [| |apply Rle_refl];
    destruct s; cbn in I;
    repeat match goal with H : _ \/ _ |- _ => destruct H as [H|H]; try discriminate H end; try contradiction;
    destruct kk as [|k1 [|k2 [|k3 kk]]]; cbn [contrR]; try apply Rle_refl;
    repeat match goal with H : Forall _ (_ :: _) |- _ => inversion H; clear H; subst end.
  - unfold Rdiv. apply Rmult_le_compat_r; [left; apply Rinv_0_lt_compat, dic_denom_pos; assumption|].
    assert (0 < k1 * h + 2 * (k1 * k2)) by nra. nra.
  - unfold Rdiv. apply Rmult_le_compat_r; [left; apply Rinv_0_lt_compat; lra|]. nra.
  - unfold Rdiv. apply Rmult_le_compat_r; [left; apply Rinv_0_lt_compat; lra|]. nra.
  - unfold Rdiv. apply Rmult_le_compat_r; [left; apply Rinv_0_lt_compat; lra|]. nra.
  - unfold Rdiv. apply Rmult_le_compat_r; [left; apply Rinv_0_lt_compat; lra|]. nra.
  - apply Ropp_le_contravar. unfold Rdiv. apply Rmult_le_compat_r; [left; apply Rinv_0_lt_compat; lra|]. nra.
  - apply Ropp_le_contravar. unfold Rdiv. apply Rmult_le_compat_r; [left; apply Rinv_0_lt_compat; lra|]. nra.
Qed.

Lemma contrR_lt s t t' kk h : Forall (fun k => 0 < k) kk -> length kk = length (s_ks s) -> 0 < h ->
  (In (s_name s) proton_acceptors /\ t < t') \/ (In (s_name s) proton_donors /\ t' < t) ->
  contrR s t kk h < contrR s t' kk h.
Proof.
  intros Hkk Hl Hh [[I L]|[I L]];
    destruct s; cbn in I;
    repeat match goal with H : _ \/ _ |- _ => destruct H as [H|H]; try discriminate H end; try contradiction;
    cbn [s_ks length] in Hl; destruct kk as [|k1 [|k2 [|k3 kk]]]; try discriminate Hl; cbn [contrR];
    repeat match goal with H : Forall _ (_ :: _) |- _ => inversion H; clear H; subst end.
  - unfold Rdiv. apply Rmult_lt_compat_r; [apply Rinv_0_lt_compat, dic_denom_pos; assumption|].
    assert (0 < k1 * h + 2 * (k1 * k2)) by nra. nra.
  - unfold Rdiv. apply Rmult_lt_compat_r; [apply Rinv_0_lt_compat; lra|]. nra.
  - unfold Rdiv. apply Rmult_lt_compat_r; [apply Rinv_0_lt_compat; lra|]. nra.
  - unfold Rdiv. apply Rmult_lt_compat_r; [apply Rinv_0_lt_compat; lra|]. nra.
  - unfold Rdiv. apply Rmult_lt_compat_r; [apply Rinv_0_lt_compat; lra|]. nra.
  - apply Ropp_lt_contravar. unfold Rdiv. apply Rmult_lt_compat_r; [apply Rinv_0_lt_compat; lra|]. nra.
  - apply Ropp_lt_contravar. unfold Rdiv. apply Rmult_lt_compat_r; [apply Rinv_0_lt_compat; lra|]. nra.
Qed.

Lemma contr_change totals totals' ks s h : nonneg_totals totals -> pos_constants ks -> 0 < h ->
  alkaline_change totals totals' -> contr totals ks s h <= contr totals' ks s h.
Proof.
  intros Ht Hk Hh Hc. specialize (Hc (s_name s)). unfold contr.
  destruct (dget (s_name s) totals) as [x|], (dget (s_name s) totals') as [x'|]; try (destruct x; contradiction);
    try contradiction; [|apply Rle_refl].
  destruct x as [t| | |]; try contradiction. destruct x' as [t'| | |]; try contradiction. cbn [unfin].
  destruct (get_ks s ks) as [kk|] eqn:E; [|apply Rle_refl].
  apply contrR_le; [|assumption..]. exact (proj2 (get_ks_fin s ks kk (pos_ok _ Hk) E)).
Qed.

Lemma alkR_change totals totals' ks scale h : nonneg_totals totals -> pos_constants ks -> 0 < h ->
  alkaline_change totals totals' -> alkR totals ks scale h <= alkR totals' ks scale h.
Proof.
  intros Ht Hk Hh Hc. unfold alkR. apply Rplus_le_compat_l.
  induction (substs scale) as [|s l IH]; [apply Rle_refl|]. cbn [map]. rewrite !Rsum_cons.
  pose proof (contr_change totals totals' ks s h Ht Hk Hh Hc). lra.
Qed.

Lemma alkalinity_is p totals ks scale a : nonneg_totals totals -> pos_constants ks ->
  alkalinity (Fin p) totals ks scale = Ok a -> a = Fin (alkR totals ks scale (pow10R (- p))).
Proof.
  intros Ht Hk Ha. unfold alkalinity in Ha.
  destruct (alkalinity_components (Fin p) totals ks scale) as [c|] eqn:E; cbn in Ha; [|discriminate].
  pose proof (alkalinity_fin p totals ks scale c (tot_nn_ok _ (nonneg_nn _ Ht)) (pos_ok _ Hk) E) as Hf.
  unfold alkalinity in Hf. rewrite E in Hf. cbn in Hf. congruence.
Qed.

Lemma s_name_cover k : In k proton_acceptors \/ In k proton_donors -> exists s, s_name s = k /\ In s (substs 3).
Proof.
  intros [I|I]; cbn in I; repeat (destruct I as [<-|I]); try contradiction.
  - exists DIC. cbn. auto 20.
  - exists Borate. cbn. auto 20.
  - exists Silicate. cbn. auto 20.
  - exists Ammonia. cbn. auto 20.
  - exists Sulfide. cbn. auto 20.
  - exists Fluoride. cbn. auto 20.
  - exists Sulfate. cbn. auto 20.
Qed.

Lemma alkR_change_strict p totals totals' ks a k t t' : nonneg_totals totals -> pos_constants ks ->
  alkaline_change totals totals' -> alkalinity (Fin p) totals ks 3 = Ok a ->
  dget k totals = Some (Fin t) -> dget k totals' = Some (Fin t') ->
  (In k proton_acceptors /\ t < t') \/ (In k proton_donors /\ t' < t) ->
  alkR totals ks 3 (pow10R (- p)) < alkR totals' ks 3 (pow10R (- p)).
Proof.
  intros Ht Hk Hc Ha Et Et' Hd.
  destruct (s_name_cover k) as [s [Hn Hin]]; [tauto|]. rewrite <- Hn in Et, Et', Hd.
  assert (Hh : 0 < pow10R (- p)) by apply pow10R_pos. revert Hh Ha.
  assert (Hks : alkalinity (Fin p) totals ks 3 = Ok a -> exists kk, get_ks s ks = Ok kk).
  { intros Ha. unfold alkalinity in Ha.
    destruct (alkalinity_components (Fin p) totals ks 3) as [c|] eqn:E; [|discriminate].
    rewrite components_run in E. cbn [existsb Z.eqb Pos.eqb orb assert_ bind] in E.
    apply get_ks_ok. apply (proj1 (run_all_ok _ totals ks (substs 3) _) (ex_intro _ c E) s Hin).
    unfold dmem. rewrite Et. reflexivity. }
  intros Hh Ha. destruct (Hks Ha) as [kk Ekk]. clear Hks Ha.
  assert (Hlt : contr totals ks s (pow10R (- p)) < contr totals' ks s (pow10R (- p))).
  { unfold contr. rewrite Et, Et', Ekk. cbn [unfin].
    apply contrR_lt; [exact (proj2 (get_ks_fin s ks kk (pos_ok _ Hk) Ekk))| |assumption..].
    rewrite map_length. exact (get_ks_length s ks kk Ekk). }
  unfold alkR. apply Rplus_lt_compat_l. induction (substs 3) as [|s' l IH]; [destruct Hin|].
  cbn [map]. rewrite !Rsum_cons.
  assert (Hle : Rsum (map (fun s => contr totals ks s (pow10R (- p))) l) <= Rsum (map (fun s => contr totals' ks s (pow10R (- p))) l)).
  { clear IH Hin. induction l as [|s2 l IH]; [apply Rle_refl|]. cbn [map]. rewrite !Rsum_cons.
    pose proof (contr_change totals totals' ks s2 _ Ht Hk Hh Hc). lra. }
  pose proof (contr_change totals totals' ks s' _ Ht Hk Hh Hc).
  destruct Hin as [->|Hin]; [lra|]. specialize (IH Hin). lra.
Qed.

Theorem C95_alkalinity_follows_contents : forall c tm pH temps M totals totals' ks pmin pmax n r r',
  masses_ok tm M -> sane (length tm) totals ks -> sane (length tm) totals' ks ->
  solve_pH (Fin c) (map Fin tm) (map Fin pH) temps (Fin M) totals ks (Fin pmin) (Fin pmax) (Fin n) = Ok r ->
  solve_pH (Fin c) (map Fin tm) (map Fin pH) temps (Fin M) totals' ks (Fin pmin) (Fin pmax) (Fin n) = Ok r' ->
  (forall i p, nth_error pH i = Some p -> pmin <= p <= pmax -> alkaline_change (slice_at totals i) (slice_at totals' i)) ->
  (exists i p, nth_error pH i = Some p /\ pmin <= p <= pmax) ->
  exists a a', sp_alkalinity r = Fin a /\ sp_alkalinity r' = Fin a' /\ a <= a' /\
    ((exists i p k t t', nth_error pH i = Some p /\ pmin <= p <= pmax /\
        dget k (slice_at totals i) = Some (Fin t) /\ dget k (slice_at totals' i) = Some (Fin t') /\
        ((In k proton_acceptors /\ t < t') \/ (In k proton_donors /\ t' < t))) -> a < a').
Proof.
  intros c tm pH temps M totals totals' ks pmin pmax n r r' Hok Hs Hs' Hr Hr' Hc Hex.
  pose proof Hr as Hr0. apply solve_pH_inv in Hr0 as [Hl _]. rewrite !map_length in Hl.
  assert (Hat : forall i p, nth_error pH i = Some p -> (i < length tm)%nat).
  { intros i p E. rewrite <- Hl. apply nth_error_Some. congruence. }
  destruct (compare_runs c tm pH pH temps temps M totals totals' ks ks pmin pmax n r r' Hok Hs Hs' Hr Hr') as
    [a [a' [Ha [Ha' [Hle Hlt]]]]]; [|assumption| |].
  - intros i p p' E E'. assert (p = p') by congruence. subst. tauto.
  - intros i p p' s s' E E' Hin As As'. assert (p = p') by congruence. subst p'.
    destruct (Hs i (Hat i p E)) as [Ht Hk]. destruct (Hs' i (Hat i p E)) as [Ht' _].
    apply alkalinity_is in As; [|assumption..]. apply alkalinity_is in As'; [|assumption..].
    injection As as ->. injection As' as ->. apply alkR_change; try assumption; [apply pow10R_pos|]. eauto.
  - exists a, a'. split; [assumption|]. split; [assumption|]. split; [assumption|].
    intros [i [p [k [t [t' [E [Hin [Et [Et' Hd]]]]]]]]]. apply Hlt. exists i, p, p. repeat (split; [assumption|]).
    intros s s' As As'. destruct (Hs i (Hat i p E)) as [Ht Hk]. destruct (Hs' i (Hat i p E)) as [Ht' _].
    pose proof (alkR_change_strict p _ _ _ _ k t t' Ht Hk (Hc i p E Hin) As Et Et' Hd) as L.
    apply alkalinity_is in As; [|assumption..]. apply alkalinity_is in As'; [|assumption..].
    injection As as ->. injection As' as ->. exact L.
Qed.

(* ------------------------------------------------------------------ *)
(** * the hypotheses can be met *)

Definition mono_ks : dict (nd xr) :=
  [("k_water", NdS (Fin 1)); ("k_carbonic_1", NdS (Fin 1)); ("k_carbonic_2", NdS (Fin 1)); ("k_bisulfate", NdA [Fin 1; Fin 2])].
Definition mono_totals (d s : R) : dict (nd xr) := [("dic", NdA [Fin 1; Fin d]); ("total_sulfate", NdS (Fin s))].

Lemma mono_sane d s : 0 <= d -> 0 <= s -> sane 2 (mono_totals d s) mono_ks.
Proof.
  intros Hd Hs i Hi. split; intros k v E.
  - apply dget_in in E. destruct E as [E|[E|[]]]; injection E as <- <-.
    + destruct i as [|[|i]]; [exists 1|exists d|lia]; (split; [reflexivity|lra]).
    + exists s. split; [reflexivity|assumption].
  - apply dget_in in E. destruct E as [E|[E|[E|[E|[]]]]]; injection E as <- <-; try (exists 1; split; [reflexivity|lra]).
    destruct i as [|[|i]]; [exists 1|exists 2|lia]; (split; [reflexivity|lra]).
Qed.

Definition mono_run (p d s : R) : res (ph_result xr) :=
  solve_pH (Fin 1) (map Fin [1; 3]) (map Fin [9; p]) [] (Fin 1) (mono_totals d s) mono_ks (Fin (-1)) (Fin 1) (Fin 1).

Lemma mono_runs p d s : exists r, mono_run p d s = Ok r.
Proof. eexists. unfold mono_run, solve_pH. cbn [length map Nat.eqb negb]. rewrite x_ltb_fin_t by lra. reflexivity. Qed.

(* raising the pH of the only point inside the window from 0 to 1/2 *)
Example C94_nonvacuous : exists r r' a a', mono_run 0 1 1 = Ok r /\ mono_run (1/2) 1 1 = Ok r' /\
  sp_alkalinity r = Fin a /\ sp_alkalinity r' = Fin a' /\ a < a'.
Proof.
  destruct (mono_runs 0 1 1) as [r Hr]. destruct (mono_runs (1/2) 1 1) as [r' Hr'].
  destruct (C94_higher_pH_higher_alkalinity 1 [1; 3] [9; 0] [9; 1/2] [] 1 (mono_totals 1 1) mono_ks (-1) 1 1 r r')
    as [a [a' [H1 [H2 [_ H3]]]]].
  - split; [lra|repeat constructor; lra].
  - apply mono_sane; lra.
  - exact Hr.
  - exact Hr'.
  - intros [|[|i]] p p'; cbn [nth_error]; [| |destruct i; discriminate]; intros [= <-] [= <-]; lra.
  - exists 1%nat, 0. split; [reflexivity|lra].
  - exists r, r', a, a'. split; [assumption|]. split; [assumption|]. split; [assumption|]. split; [assumption|].
    apply H3. exists 1%nat, 0, (1/2). repeat (split; [reflexivity || lra|]). lra.
Qed.

(* more carbonate and less sulfate at the used point *)
Example C95_nonvacuous : exists r r' a a', mono_run 0 1 1 = Ok r /\ mono_run 0 2 (1/2) = Ok r' /\
  sp_alkalinity r = Fin a /\ sp_alkalinity r' = Fin a' /\ a < a'.
Proof.
  destruct (mono_runs 0 1 1) as [r Hr]. destruct (mono_runs 0 2 (1/2)) as [r' Hr'].
  destruct (C95_alkalinity_follows_contents 1 [1; 3] [9; 0] [] 1 (mono_totals 1 1) (mono_totals 2 (1/2)) mono_ks
    (-1) 1 1 r r') as [a [a' [H1 [H2 [_ H3]]]]].
  - split; [lra|repeat constructor; lra].
  - apply mono_sane; lra.
  - apply mono_sane; lra.
  - exact Hr.
  - exact Hr'.
  - intros [|[|i]] p; cbn [nth_error]; [| |destruct i; discriminate]; intros [= <-]; [lra|]. intros _ k.
    cbn [slice_at dmap mono_totals map fst snd nd_at nth].
    destruct (String.eqb_spec "dic" k) as [<-|N].
    { left. split; [now left|lra]. }
    destruct (String.eqb_spec "total_sulfate" k) as [<-|N'].
    { right. left. split; [right; now left|lra]. }
    rewrite !dget_notin; [exact I| |]; cbn [dkeys map fst]; intros [E|[E|[]]]; congruence.
  - exists 1%nat, 0. split; [reflexivity|lra].
  - exists r, r', a, a'. split; [assumption|]. split; [assumption|]. split; [assumption|]. split; [assumption|].
    apply H3. exists 1%nat, 0, "dic"%string, 1, 2. split; [reflexivity|]. split; [lra|].
    split; [reflexivity|]. split; [reflexivity|]. left. split; [now left|lra].
Qed.

Print Assumptions C94_higher_pH_higher_alkalinity.
Print Assumptions C95_alkalinity_follows_contents.
