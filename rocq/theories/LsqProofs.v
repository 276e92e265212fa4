(* LsqProofs.v -- facts about linear regression and about least_squares for an
   arbitrary optimiser *)
From Coq Require Import Reals Qreals Lra.
From Verif Require Export Lsq XRLemmas DictLemmas.
Open Scope list_scope.
Open Scope R_scope.

(* ------------------------------------------------------------------ *)
(** * means *)

Lemma INR_len {A} (l : list A) : l <> [] -> 0 < INR (length l).
Proof. intros Hl. apply lt_0_INR. destruct l; [congruence|cbn; lia]. Qed.

Lemma Rmean_scal c l : Rmean (map (fun x => c * x) l) = c * Rmean l.
Proof. unfold Rmean. rewrite Rsum_scal, map_length. unfold Rdiv. ring. Qed.

Lemma Rsum_affine a b l : Rsum (map (fun x => a * x + b) l) = a * Rsum l + INR (length l) * b.
Proof.
  rewrite (Rsum_add (fun x => a * x) (fun _ => b)), Rsum_scal, Rsum_const. reflexivity.
Qed.

Lemma Rmean_affine a b l : l <> [] -> Rmean (map (fun x => a * x + b) l) = a * Rmean l + b.
Proof.
  intros Hl. pose proof (INR_len l Hl). unfold Rmean. rewrite Rsum_affine, map_length. field. lra.
Qed.

Lemma Rmean_const {A} (c : R) (l : list A) : l <> [] -> Rmean (map (fun _ => c) l) = c.
Proof.
  intros Hl. pose proof (INR_len l Hl). unfold Rmean. rewrite Rsum_const, map_length. field. lra.
Qed.

Lemma Rsum_nonneg l : Forall (fun x => 0 <= x) l -> 0 <= Rsum l.
Proof. induction 1; cbn; unfold Rsum in *; lra. Qed.

Lemma Rsum_pos l x : Forall (fun x => 0 <= x) l -> In x l -> 0 < x -> 0 < Rsum l.
Proof.
  induction 1 as [|y l Hy Hl IH]; cbn; [intros []|]. intros [->|Hin] Hx.
  - pose proof (Rsum_nonneg l Hl). unfold Rsum in *. lra.
  - specialize (IH Hin Hx). unfold Rsum in *. lra.
Qed.

Lemma Rsum_bounds l lo hi : Forall (fun x => lo <= x <= hi) l ->
  INR (length l) * lo <= Rsum l <= INR (length l) * hi.
Proof.
  induction 1 as [|x l Hx Hl IH]; [cbn; lra|]. cbn [length]. rewrite S_INR, Rsum_cons. lra.
Qed.

Lemma Rmean_bounds l lo hi : l <> [] -> Forall (fun x => lo <= x <= hi) l -> lo <= Rmean l <= hi.
Proof.
  intros Hl Hb. pose proof (INR_len l Hl) as Hn. apply Rsum_bounds in Hb. unfold Rmean.
  split; apply (Rmult_le_reg_r (INR (length l))); try assumption;
    replace (Rsum l / INR (length l) * INR (length l)) with (Rsum l) by (field; lra); lra.
Qed.

(* ------------------------------------------------------------------ *)
(** * linear regression *)

Definition Rcov (x y : list R) : R := Rmean (map2 (fun a b => (a - Rmean x) * (b - Rmean y)) x y).

Lemma map2_fin (f : R -> R -> R) (g : xr -> xr -> xr) x y :
  (forall a b, g (Fin a) (Fin b) = Fin (f a b)) -> map2 g (map Fin x) (map Fin y) = map Fin (map2 f x y).
Proof.
  intros E. revert y; induction x as [|a x IH]; intros [|b y]; cbn; try reflexivity. rewrite E, IH. reflexivity.
Qed.

Lemma map2_ne {A B C} (f : A -> B -> C) x y : x <> [] -> length y = length x -> map2 f x y <> [].
Proof. destruct x, y; cbn; congruence. Qed.

Lemma cov_fin x y : x <> [] -> length y = length x -> cov (map Fin x) (map Fin y) = Fin (Rcov x y).
Proof.
  intros Hx Hlen. unfold cov. rewrite !nmean_fin by (destruct y, x; cbn in *; congruence).
  rewrite (map2_fin (fun a b => (a - Rmean x) * (b - Rmean y))) by reflexivity.
  rewrite nmean_fin by (apply map2_ne; assumption). reflexivity.
Qed.

Lemma map2_map_same {A B C} (f : A -> B -> C) (g : A -> B) x : map2 f x (map g x) = map (fun a => f a (g a)) x.
Proof. induction x as [|a x IH]; cbn; [reflexivity|rewrite IH; reflexivity]. Qed.

Lemma Rcov_affine a b x : x <> [] -> Rcov x (map (fun v => a * v + b) x) = a * Rcov x x.
Proof.
  intros Hx. unfold Rcov. rewrite Rmean_affine by assumption. rewrite map2_map_same, map2_same.
  rewrite (map_ext _ (fun v => a * ((v - Rmean x) * (v - Rmean x)))) by (intros; ring).
  rewrite <- (map_map (fun v => (v - Rmean x) * (v - Rmean x)) (fun v => a * v)). apply Rmean_scal.
Qed.

Lemma map2_scale_r (f : R -> R -> R) (g : R -> R -> R) s x y :
  (forall a b, f a (s * b) = s * g a b) -> map2 f x (map (fun v => s * v) y) = map (fun v => s * v) (map2 g x y).
Proof.
  intros E. revert y; induction x as [|a x IH]; intros [|b y]; cbn; try reflexivity. rewrite E, IH. reflexivity.
Qed.

Lemma Rcov_scale s x y : Rcov x (map (fun v => s * v) y) = s * Rcov x y.
Proof.
  unfold Rcov. rewrite Rmean_scal.
  rewrite (map2_scale_r _ (fun a b => (a - Rmean x) * (b - Rmean y))) by (intros; ring).
  apply Rmean_scal.
Qed.

Definition two_distinct (x : list R) : Prop := exists a b, In a x /\ In b x /\ a <> b.

Lemma two_distinct_ne x : two_distinct x -> x <> [].
Proof. intros [a [b [Ha _]]] ->. destruct Ha. Qed.

Lemma Rcov_pos x : two_distinct x -> 0 < Rcov x x.
Proof.
  intros Hd. pose proof (two_distinct_ne x Hd) as Hx. pose proof (INR_len x Hx) as Hn.
  destruct Hd as [a [b [Ha [Hb Hab]]]].
  unfold Rcov. rewrite map2_same. unfold Rmean at 1. rewrite map_length. apply Rdiv_lt_0_compat; [|assumption].
  assert (Hnn : Forall (fun v => 0 <= v) (map (fun v => (v - Rmean x) * (v - Rmean x)) x)).
  { apply Forall_forall. intros v Hv. apply in_map_iff in Hv as [w [<- _]]. apply Rle_0_sqr. }
  assert (Hne : exists c, In c x /\ c <> Rmean x).
  { destruct (Req_dec a (Rmean x)) as [E|E]; [exists b; split; [assumption|congruence]|exists a; auto]. }
  destruct Hne as [c [Hc Hne]].
  apply (Rsum_pos _ ((c - Rmean x) * (c - Rmean x)) Hnn).
  - apply in_map_iff. exists c. auto.
  - apply Rlt_0_sqr. lra.
Qed.

Lemma all_same_distinct x : two_distinct x -> all_same (map Fin x) = false.
Proof.
  intros [a [b [Ha [Hb Hab]]]]. destruct x as [|u [|v x]]; [reflexivity|reflexivity|].
  destruct (all_same (map Fin (u :: v :: x))) eqn:E; [|reflexivity].
  assert (Hall : forall w, In w (u :: v :: x) -> w = u).
  { cbn [map all_same] in E.
    assert (E' : forallb (fun b : xr => neqb (Fin u) b) (map Fin (v :: x)) = true) by exact E.
    rewrite forallb_forall in E'. intros w [<-|Hw]; [reflexivity|].
    specialize (E' (Fin w) (in_map Fin _ _ Hw)). apply x_eqb_fin in E'. auto. }
  exfalso. apply Hab. rewrite (Hall a Ha), (Hall b Hb). reflexivity.
Qed.

Lemma all_same_not_distinct u v x : ~ two_distinct (u :: v :: x) -> all_same (map Fin (u :: v :: x)) = true.
Proof.
  intros Hd. change (forallb (fun b : xr => neqb (Fin u) b) (map Fin (v :: x)) = true).
  apply forallb_forall. intros w Hw. apply in_map_iff in Hw as [r [<- Hr]]. apply x_eqb_fin.
  destruct (Req_dec u r) as [|Hn]; [assumption|]. exfalso. apply Hd. exists u, r. cbn; auto.
Qed.

Definition slopeR (x y : list R) : R := Rcov x y / Rcov x x.
Definition interceptR (x y : list R) : R := Rmean y - slopeR x y * Rmean x.

Lemma linregress_fin x y : two_distinct x -> length y = length x ->
  exists lr, linregress (map Fin x) (map Fin y) = Ok lr /\
    lr_slope lr = Fin (slopeR x y) /\ lr_intercept lr = Fin (interceptR x y).
Proof.
  intros Hd Hlen. pose proof (two_distinct_ne x Hd) as Hx.
  unfold linregress. rewrite all_same_distinct by assumption.
  destruct (map Fin x) eqn:E; [destruct x; [congruence|discriminate]|]. rewrite <- E.
  eexists. split; [reflexivity|]. cbn [lr_slope lr_intercept].
  rewrite (cov_fin x y), (cov_fin x x) by (assumption || reflexivity). pose proof (Rcov_pos x Hd) as Hp.
  rewrite fin_div by lra. split; [reflexivity|].
  rewrite !nmean_fin by (destruct y, x; cbn in *; congruence). reflexivity.
Qed.

Lemma slope_line a b x : two_distinct x -> slopeR x (map (fun v => a * v + b) x) = a.
Proof.
  intros Hd. unfold slopeR. pose proof (Rcov_pos x Hd). rewrite Rcov_affine by (apply two_distinct_ne; assumption). field. lra.
Qed.
Lemma intercept_line a b x : two_distinct x -> interceptR x (map (fun v => a * v + b) x) = b.
Proof.
  intros Hd. unfold interceptR. rewrite slope_line by assumption.
  rewrite Rmean_affine by (apply two_distinct_ne; assumption). ring.
Qed.

Lemma slope_scale s x y : slopeR x (map (fun v => s * v) y) = s * slopeR x y.
Proof. unfold slopeR. rewrite Rcov_scale. unfold Rdiv. ring. Qed.
Lemma intercept_scale s x y : interceptR x (map (fun v => s * v) y) = s * interceptR x y.
Proof. unfold interceptR. rewrite slope_scale, Rmean_scal. ring. Qed.

(* a single point: slope and intercept are nan *)
Lemma linregress_single x y :
  exists lr, linregress [Fin x] [Fin y] = Ok lr /\ lr_slope lr = NaN /\ lr_intercept lr = NaN.
Proof.
  unfold linregress. cbn [all_same]. eexists. split; [reflexivity|]. cbn [lr_slope lr_intercept].
  assert (E : forall u v, cov [Fin u] [Fin v] = Fin 0).
  { intros u v. change ([Fin u]) with (map Fin [u]). change ([Fin v]) with (map Fin [v]).
    rewrite cov_fin by (reflexivity || discriminate). f_equal. unfold Rcov, Rmean. cbn. field. }
  rewrite !E. assert (Hz : ndiv (Fin 0) (Fin 0) = NaN).
  { cbn. rewrite reqb_true by reflexivity. unfold inf_times. rewrite rltb_false by lra. reflexivity. }
  rewrite Hz. split; [reflexivity|].
  generalize (nmean [Fin x]), (nmean [Fin y]). intros u v. destruct u, v; reflexivity.
Qed.

(* ------------------------------------------------------------------ *)
(** * least_squares *)

Section LS.
Context {T : Type} `{Num T}.
Variable strat : strategy T.
Variable S : Type.
Variable f : S -> list T -> S * res (list T).

(* every entry of the history is a real evaluation of f *)
Lemma lsq_loop_inv (P : S -> Prop) (Q : list T -> list T -> Prop) :
  (forall s x s' r, P s -> f s x = (s', r) -> (forall y, r = Ok y -> P s' /\ Q x y)) ->
  forall fuel s hist s' hist',
    P s -> Forall (fun xy => Q (fst xy) (snd xy)) hist ->
    lsq_loop strat f fuel s hist = (s', Ok hist') ->
    P s' /\ Forall (fun xy => Q (fst xy) (snd xy)) hist' /\ (hist <> [] -> hist' <> []).
Proof.
  intros Hf. induction fuel as [|k IH]; intros s hist s' hist' Hs Hh; cbn.
  - intros [= <- <-]. auto.
  - destruct (s_next strat hist) as [x|]; [|intros [= <- <-]; auto].
    destruct (f s x) as [s1 r] eqn:E. destruct r as [y|e]; [|discriminate].
    destruct (Hf _ _ _ _ Hs E y eq_refl) as [Hs1 Hq]. intros Hl.
    apply IH in Hl as [H1 [H2 H3]]; [|assumption|apply Forall_app; split; [assumption|repeat constructor; assumption]].
    split; [assumption|]. split; [assumption|]. intros _. apply H3. destruct hist; discriminate.
Qed.

Lemma least_squares_inv (P : S -> Prop) (Q : list T -> list T -> Prop) s x0 s' o :
  (forall s x s' r, P s -> f s x = (s', r) -> (forall y, r = Ok y -> P s' /\ Q x y)) ->
  P s -> least_squares strat f s x0 = (s', Ok o) ->
  P s' /\ Q (or_x o) (or_fun o).
Proof.
  intros Hf Hs. unfold least_squares. destruct (existsb nisnan x0); [discriminate|].
  destruct (f s x0) as [s1 r] eqn:E. destruct r as [y0|e]; [|discriminate].
  destruct (forallb nisfinite y0); [|discriminate].
  destruct (Hf _ _ _ _ Hs E y0 eq_refl) as [Hs1 Hq0].
  destruct (lsq_loop strat f (s_max strat) s1 [(x0, y0)]) as [s2 rh] eqn:El.
  destruct rh as [hist|e]; [|discriminate]. intros [= <- <-]. cbn [or_x or_fun].
  apply (lsq_loop_inv P Q Hf) in El as [H1 [H2 H3]]; [|assumption|repeat constructor; assumption].
  split; [assumption|].
  destruct (nth_in_or_default (s_pick strat hist) hist (x0, y0)) as [Hin|E0].
  - rewrite Forall_forall in H2. apply (H2 _ Hin).
  - rewrite E0. exact Hq0.
Qed.

(* the state after any outcome, if f preserves an invariant whatever it returns *)
Lemma lsq_loop_state (P : S -> Prop) :
  (forall s x s' r, P s -> f s x = (s', r) -> P s') ->
  forall fuel s hist s' r, P s -> lsq_loop strat f fuel s hist = (s', r) -> P s'.
Proof.
  intros Hf. induction fuel as [|k IH]; intros s hist s' r Hs; cbn.
  - intros [= <- <-]. assumption.
  - destruct (s_next strat hist) as [x|]; [|intros [= <- <-]; assumption].
    destruct (f s x) as [s1 r1] eqn:E. pose proof (Hf _ _ _ _ Hs E) as Hs1.
    destruct r1; [eauto|intros [= <- <-]; assumption].
Qed.

Lemma least_squares_state (P : S -> Prop) s x0 s' r :
  (forall s x s' r, P s -> f s x = (s', r) -> P s') ->
  P s -> least_squares strat f s x0 = (s', r) -> P s'.
Proof.
  intros Hf Hs. unfold least_squares. destruct (existsb nisnan x0); [intros [= <- <-]; assumption|].
  destruct (f s x0) as [s1 r1] eqn:E. pose proof (Hf _ _ _ _ Hs E) as Hs1.
  destruct r1 as [y0|e]; [|intros [= <- <-]; assumption].
  destruct (forallb nisfinite y0); [|intros [= <- <-]; assumption].
  destruct (lsq_loop strat f (s_max strat) s1 [(x0, y0)]) as [s2 rh] eqn:El.
  pose proof (lsq_loop_state P Hf _ _ _ _ _ Hs1 El).
  destruct rh; intros [= <- <-]; assumption.
Qed.

End LS.

(* least_squares only depends on the values of f *)
Lemma lsq_loop_ext {T} `{Num T} (strat : strategy T) {S} (f g : S -> list T -> S * res (list T)) :
  (forall s x, f s x = g s x) -> forall fuel s hist, lsq_loop strat f fuel s hist = lsq_loop strat g fuel s hist.
Proof.
  intros E. induction fuel as [|k IH]; intros s hist; cbn; [reflexivity|].
  destruct (s_next strat hist); [|reflexivity]. rewrite E. destruct (g s l) as [s' [y|e]]; [apply IH|reflexivity].
Qed.
Lemma least_squares_ext {T} `{Num T} (strat : strategy T) {S} (f g : S -> list T -> S * res (list T)) s x0 :
  (forall s x, f s x = g s x) -> least_squares strat f s x0 = least_squares strat g s x0.
Proof.
  intros E. unfold least_squares. rewrite E. destruct (existsb nisnan x0); [reflexivity|].
  destruct (g s x0) as [s1 [y|e]]; [|reflexivity]. rewrite (lsq_loop_ext strat f g E). reflexivity.
Qed.
