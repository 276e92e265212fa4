(* GranProofs.v -- the Gran-plot functions on finite data *)
From Coq Require Import Reals Qreals Lra.
From Verif Require Export Core LsqProofs ConvertProofs SpecCore.
Open Scope list_scope.
Open Scope R_scope.

(* ------------------------------------------------------------------ *)
(** * lists *)

Lemma map3_const {A B C D} (f : A -> B -> C -> D) x y z c :
  length y = length x -> length z = length x -> Forall (fun v => v = c) z ->
  map3 f x y z = map2 (fun a b => f a b c) x y.
Proof.
  revert y z; induction x as [|a x IH]; intros [|b y] [|v z]; cbn; try discriminate; try reflexivity.
  intros [= Hy] [= Hz] Hf. inversion Hf; subst. f_equal. apply IH; assumption.
Qed.

Lemma map3_length {A B C D} (f : A -> B -> C -> D) x y z :
  length y = length x -> length z = length x -> length (map3 f x y z) = length x.
Proof.
  revert y z; induction x as [|a x IH]; intros [|b y] [|v z]; cbn; try discriminate; try reflexivity.
  intros [= Hy] [= Hz]. f_equal. apply IH; assumption.
Qed.
Lemma map2_length {A B C} (f : A -> B -> C) x y :
  length y = length x -> length (map2 f x y) = length x.
Proof.
  revert y; induction x as [|a x IH]; intros [|b y]; cbn; try discriminate; try reflexivity.
  intros [= Hy]. f_equal. apply IH; assumption.
Qed.

Lemma mask_map {A B} (f : A -> B) u l : mask u (map f l) = map f (mask u l).
Proof.
  revert l; induction u as [|b u IH]; intros [|x l]; cbn; try reflexivity. destruct b; cbn; rewrite IH; reflexivity.
Qed.

Lemma mask_length_eq {A B} u (l : list A) (l' : list B) : length l = length l' -> length (mask u l) = length (mask u l').
Proof.
  revert l l'; induction u as [|b u IH]; intros [|x l] [|y l']; cbn; try discriminate; try reflexivity.
  intros [= E]. destruct b; cbn; rewrite (IH l l' E); reflexivity.
Qed.

Lemma mask_map2 {A B C} (f : A -> B -> C) u x y : mask u (map2 f x y) = map2 f (mask u x) (mask u y).
Proof.
  revert x y; induction u as [|b u IH]; intros [|a x] [|c y]; cbn; try reflexivity.
  - destruct b; [reflexivity|]. destruct (mask u x); reflexivity.
  - destruct b; cbn; rewrite IH; reflexivity.
Qed.

Lemma in_mask {A} u (l : list A) x : In x (mask u l) <-> exists i, nth_error u i = Some true /\ nth_error l i = Some x.
Proof.
  revert l; induction u as [|b u IH]; intros l.
  - cbn. split; [intros []|]. intros [[|i] [H1 _]]; discriminate.
  - destruct l as [|y l].
    + cbn. split; [intros []|]. intros [[|i] [_ H2]]; discriminate.
    + cbn [mask]. destruct b.
      * cbn [In]. rewrite IH. split.
        -- intros [<-|[i [H1 H2]]]; [exists O; auto|exists (S i); auto].
        -- intros [[|i] [H1 H2]]; [left; cbn in H2; congruence|right; exists i; auto].
      * rewrite IH. split.
        -- intros [i [H1 H2]]. exists (S i); auto.
        -- intros [[|i] [H1 H2]]; [discriminate|exists i; auto].
Qed.

Lemma mask_map2_ext {A B C} (f : A -> B -> C) (g : A -> C) u x y :
  length y = length x ->
  (forall i a b, nth_error u i = Some true -> nth_error x i = Some a -> nth_error y i = Some b -> f a b = g a) ->
  mask u (map2 f x y) = map g (mask u x).
Proof.
  revert x y; induction u as [|b u IH]; intros [|a x] [|c y] Hlen; cbn; try discriminate; try reflexivity.
  intros Hf. assert (IH' : mask u (map2 f x y) = map g (mask u x)).
  { apply IH; [cbn in Hlen; lia|]. intros i a' b' H1 H2 H3. apply (Hf (S i)); assumption. }
  destruct b; cbn; [|exact IH']. rewrite IH'. f_equal. apply (Hf O); reflexivity.
Qed.

Lemma mask_count {A} u (l : list A) : length l = length u -> length (mask u l) = count_true u.
Proof.
  revert l; induction u as [|b u IH]; intros [|x l]; cbn; try discriminate; try reflexivity.
  intros [= E]. unfold count_true in *. destruct b; cbn; rewrite (IH l E); reflexivity.
Qed.

Lemma nth_error_map2 {A B C} (f : A -> B -> C) x y i :
  nth_error (map2 f x y) i =
  match nth_error x i, nth_error y i with Some a, Some b => Some (f a b) | _, _ => None end.
Proof.
  revert y i; induction x as [|a x IH]; intros y i; cbn.
  - destruct i; reflexivity.
  - destruct y as [|b y]; cbn; destruct i; cbn; try reflexivity.
    + destruct (nth_error x i); reflexivity.
    + apply IH.
Qed.

Lemma nth_error_map3 {A B C D} (f : A -> B -> C -> D) x y z i :
  nth_error (map3 f x y z) i =
  match nth_error x i, nth_error y i, nth_error z i with Some a, Some b, Some c => Some (f a b c) | _, _, _ => None end.
Proof.
  revert y z i; induction x as [|a x IH]; intros y z i; cbn.
  - destruct i; reflexivity.
  - destruct y as [|b y]; cbn.
    + destruct i; cbn; [reflexivity|]. destruct (nth_error x i); reflexivity.
    + destruct z as [|c z]; cbn; destruct i; cbn; try reflexivity.
      * destruct (nth_error x i); destruct (nth_error y i); reflexivity.
      * apply IH.
Qed.

(* ------------------------------------------------------------------ *)
(** * maximum *)

Fixpoint Rmaxl (x : R) (l : list R) : R := match l with [] => x | y :: l' => Rmaxl (if rltb x y then y else x) l' end.

Lemma nmax_fin x l : nmax (map Fin (x :: l)) = Ok (Fin (Rmaxl x l)).
Proof.
  cbn [nmax map]. f_equal. revert x; induction l as [|y l IH]; intros x; [reflexivity|].
  cbn [map fold_left Rmaxl]. rewrite <- IH. f_equal. cbn. destruct (rltb x y); reflexivity.
Qed.

Lemma Rmaxl_spec x l : In (Rmaxl x l) (x :: l) /\ forall v, In v (x :: l) -> v <= Rmaxl x l.
Proof.
  revert x; induction l as [|y l IH]; intros x; cbn [Rmaxl].
  - split; [cbn; auto|]. intros v [<-|[]]; lra.
  - destruct (IH (if rltb x y then y else x)) as [H1 H2]. split.
    + destruct H1 as [H1|H1]; [|right; right; assumption]. rewrite <- H1 at 1. destruct (rltb x y); cbn; auto.
    + assert (Hx : x <= (if rltb x y then y else x)) by (unfold rltb; destruct (Rlt_dec x y); lra).
      assert (Hy : y <= (if rltb x y then y else x)) by (unfold rltb; destruct (Rlt_dec x y); lra).
      pose proof (H2 _ (or_introl eq_refl)) as H3.
      intros v [<-|[<-|Hv]]; [lra|lra|]. apply H2. right; assumption.
Qed.

Lemma is_max_unique a b l : is_max a l -> is_max b l -> a = b.
Proof. intros [H1 H2] [H3 H4]. apply Rle_antisym; auto. Qed.

Lemma nmax_is_max l mx : nmax (map Fin l) = Ok mx -> exists r, mx = Fin r /\ is_max r l.
Proof.
  destruct l as [|x l]; [discriminate|]. rewrite nmax_fin. intros [= <-]. eexists. split; [reflexivity|]. apply Rmaxl_spec.
Qed.

Lemma is_max_scale s l mx : 0 < s -> is_max mx l -> is_max (s * mx) (map (fun v => s * v) l).
Proof.
  intros Hs [H1 H2]. split; [apply (in_map (fun v => s * v)); assumption|].
  intros v Hv. apply in_map_iff in Hv as [w [<- Hw]]. apply Rmult_le_compat_l; [lra|auto].
Qed.

Lemma nmax_of_max l r : is_max r l -> nmax (map Fin l) = Ok (Fin r).
Proof.
  intros Hr. destruct l as [|x l]; [destruct Hr as [[] _]|]. rewrite nmax_fin. f_equal. f_equal.
  apply (is_max_unique _ _ (x :: l)); [apply Rmaxl_spec|assumption].
Qed.

(* ------------------------------------------------------------------ *)
(** * the Gran function *)

Definition GR (M t : R) (m e : R) : R := (m + M) * exp (e * Fcst / (Rcst * TK t)).

Lemma gran_function_fin m e t M : -273.15 < t ->
  gran_function (Fin m) (Fin e) (Fin t) (Fin M) = Fin (GR M t m e).
Proof.
  intros Ht. unfold gran_function, absolute_zero, faraday, ideal_gas. xsimp.
  fold Fcst Rcst (TK t). rewrite fin_div. 2:{ pose proof Rcst_pos. pose proof (TK_pos t Ht). nra. }
  reflexivity.
Qed.

Lemma GR_nernst M t m e : GR M t m e = (m + M) * nernst_h e 0 t.
Proof. unfold GR, nernst_h, Fcst, Rcst, TK. rewrite Rminus_0_r. reflexivity. Qed.

Lemma nernst_shift e E0 t : -273.15 < t ->
  nernst_h e 0 t = exp (E0 * Fcst / (Rcst * TK t)) * nernst_h e E0 t.
Proof.
  intros Ht. pose proof Rcst_pos. pose proof (TK_pos t Ht).
  unfold nernst_h. fold Fcst Rcst. fold (TK t). rewrite <- exp_plus. f_equal. field. split; lra.
Qed.

Lemma GR_pos M t m e : 0 < M -> 0 <= m -> 0 < GR M t m e.
Proof. intros. unfold GR. apply Rmult_lt_0_compat; [lra|apply exp_pos]. Qed.

(* ------------------------------------------------------------------ *)
(** * which points are used *)

Lemma used_from_first_spec fl u : used_from_first fl = Some u ->
  length u = length fl /\
  forall i, nth_error u i = Some true <-> (i < length fl)%nat /\ exists j, (j <= i)%nat /\ nth_error fl j = Some true.
Proof.
  revert u; induction fl as [|b fl IH]; intros u; cbn; [discriminate|]. destruct b.
  - intros [= <-]. cbn. rewrite map_length. split; [reflexivity|]. intros i. split.
    + intros Hi. split.
      * assert (Hlt : (i < length (true :: map (fun _ : bool => true) fl))%nat) by (apply nth_error_Some; congruence).
        cbn in Hlt. rewrite map_length in Hlt. exact Hlt.
      * exists O. split; [lia|reflexivity].
    + intros [Hi _]. destruct i as [|i]; [reflexivity|]. cbn. rewrite nth_error_map.
      destruct (nth_error fl i) eqn:E; [reflexivity|]. apply nth_error_None in E. lia.
  - destruct (used_from_first fl) as [u'|] eqn:E; [|discriminate]. intros [= <-].
    destruct (IH _ eq_refl) as [Hl Hs]. cbn. split; [lia|]. intros [|i]; cbn [nth_error].
    + split; [discriminate|]. intros [_ [j [Hj Hb]]]. assert (j = O) by lia. subst. discriminate.
    + rewrite Hs. split.
      * intros [Hi [j [Hj Hb]]]. split; [lia|]. exists (S j). split; [lia|exact Hb].
      * intros [Hi [j [Hj Hb]]]. split; [lia|]. destruct j as [|j]; [discriminate|]. exists j. split; [lia|exact Hb].
Qed.

Lemma used_from_first_some fl : In true fl -> exists u, used_from_first fl = Some u.
Proof.
  induction fl as [|b fl IH]; [intros []|]. cbn. destruct b; [eauto|]. intros [E|Hi]; [discriminate|].
  destruct (IH Hi) as [u ->]. eauto.
Qed.

Lemma gran_used_scale s logic G : 0 < s ->
  gran_used logic (map Fin (map (fun v => s * v) G)) = gran_used logic (map Fin G).
Proof.
  intros Hs. destruct G as [|x G]; [reflexivity|].
  pose proof (Rmaxl_spec x G) as Hm. fold (is_max (Rmaxl x G) (x :: G)) in Hm. set (mx := Rmaxl x G) in *.
  unfold gran_used. rewrite (nmax_of_max _ _ Hm), (nmax_of_max _ _ (is_max_scale s _ _ Hs Hm)). cbn [bind].
  assert (E1 : map (fun g => ngtb g (nofQ 0.1 ⊗ Fin (s * mx))) (map Fin (map (fun v => s * v) (x :: G)))
             = map (fun g => ngtb g (nofQ 0.1 ⊗ Fin mx)) (map Fin (x :: G))).
  { rewrite !map_map. apply map_ext. intros v. unfold ngtb. xsimp. cbn. unfold rltb.
    destruct (Rlt_dec (Q2R 0.1 * (s * mx)) (s * v)), (Rlt_dec (Q2R 0.1 * mx) v); try reflexivity; exfalso; nra. }
  assert (E2 : map (fun g => ngtb g (nofQ 0.1 ⊗ Fin (s * mx)) && nltb g (nofQ 0.9 ⊗ Fin (s * mx)))
                 (map Fin (map (fun v => s * v) (x :: G)))
             = map (fun g => ngtb g (nofQ 0.1 ⊗ Fin mx) && nltb g (nofQ 0.9 ⊗ Fin mx)) (map Fin (x :: G))).
  { rewrite !map_map. apply map_ext. intros v. unfold ngtb. xsimp. cbn. unfold rltb. f_equal.
    - destruct (Rlt_dec (Q2R 0.1 * (s * mx)) (s * v)), (Rlt_dec (Q2R 0.1 * mx) v); try reflexivity; exfalso; nra.
    - destruct (Rlt_dec (s * v) (Q2R 0.9 * (s * mx))), (Rlt_dec v (Q2R 0.9 * mx)); try reflexivity; exfalso; nra. }
  rewrite E1, E2. reflexivity.
Qed.

Lemma gran_used_length logic (G : list xr) u : gran_used logic G = Ok u -> length u = length G.
Proof.
  unfold gran_used. destruct (String.eqb logic "v23.7+").
  - destruct (nmax G) as [mx|]; cbn [bind]; [|discriminate].
    destruct (used_from_first _) eqn:E; cbn; [|discriminate]. intros [= <-].
    apply used_from_first_spec in E as [E _]. rewrite map_length in E. exact E.
  - destruct (String.eqb logic "legacy"); [|discriminate].
    destruct (nmax G) as [mx|]; cbn [bind]; [|discriminate]. intros [= <-]. apply map_length.
Qed.

(* ------------------------------------------------------------------ *)
(** * linear regression of masked data *)

Lemma linregress_ok_distinct x y lr :
  linregress (map Fin x) y = Ok lr -> (2 <= length x)%nat -> two_distinct x.
Proof.
  intros Hl Hlen. destruct x as [|u [|v x]]; [cbn in Hlen; lia|cbn in Hlen; lia|].
  destruct (all_same (map Fin (u :: v :: x))) eqn:E.
  - exfalso. unfold linregress in Hl. rewrite E in Hl. discriminate.
  - change (forallb (fun b : xr => neqb (Fin u) b) (map Fin (v :: x)) = false) in E.
    assert (Hex : exists w, In w (v :: x) /\ u <> w).
    { clear - E. induction (v :: x) as [|w l IH]; [discriminate|]. cbn in E.
      apply andb_false_iff in E as [E|E].
      - exists w. split; [cbn; auto|]. intros ->. cbn in E. rewrite reqb_true in E by reflexivity. discriminate.
      - destruct (IH E) as [w' [H1 H2]]. exists w'. cbn; auto. }
    destruct Hex as [w [H1 H2]]. exists u, w. cbn in *; auto.
Qed.

Lemma inf_times_scale s v : 0 < s -> inf_times (s * v) = inf_times v.
Proof.
  intros Hs. unfold inf_times, rltb.
  destruct (Rlt_dec 0 (s * v)), (Rlt_dec 0 v); try reflexivity; try (exfalso; nra).
  destruct (Rlt_dec (s * v) 0), (Rlt_dec v 0); try reflexivity; exfalso; nra.
Qed.

(* the x-intercept does not change when y is multiplied by s > 0 *)
Lemma linregress_scale s x y : 0 < s -> length y = length x ->
  match linregress (map Fin x) (map Fin y), linregress (map Fin x) (map Fin (map (fun v => s * v) y)) with
  | Ok lr, Ok lr' => nopp (lr_intercept lr') ⊘ lr_slope lr' = nopp (lr_intercept lr) ⊘ lr_slope lr
  | Err e, Err e' => e = e'
  | _, _ => False
  end.
Proof.
  intros Hs Hlen. destruct x as [|u [|v x]].
  - reflexivity.
  - destruct y as [|w [|? y]]; try discriminate. cbn [map].
    destruct (linregress_single u w) as [lr [-> [E1 E2]]].
    destruct (linregress_single u (s * w)) as [lr' [-> [E1' E2']]]. rewrite E1, E2, E1', E2'. reflexivity.
  - destruct (all_same (map Fin (u :: v :: x))) eqn:E.
    + unfold linregress. rewrite E. reflexivity.
    + assert (Hd : two_distinct (u :: v :: x)).
      { destruct (linregress (map Fin (u :: v :: x)) (map Fin y)) as [lr|e] eqn:El.
        - eapply linregress_ok_distinct; [exact El|cbn; lia].
        - exfalso. unfold linregress in El. rewrite E in El. discriminate. }
      destruct (linregress_fin _ y Hd Hlen) as [lr [-> [E1 E2]]].
      destruct (linregress_fin _ (map (fun v => s * v) y) Hd) as [lr' [-> [E1' E2']]]; [rewrite map_length; assumption|].
      rewrite E1, E2, E1', E2', slope_scale, intercept_scale. rewrite !fin_opp.
      destruct (Req_dec (slopeR (u :: v :: x) y) 0) as [Hz|Hz].
      * rewrite Hz, Rmult_0_r. cbn. rewrite reqb_true by reflexivity.
        replace (- (s * interceptR (u :: v :: x) y)) with (s * - interceptR (u :: v :: x) y) by ring.
        apply inf_times_scale. assumption.
      * rewrite (fin_div _ (s * _)) by (apply Rmult_integral_contrapositive_currified; lra).
        rewrite fin_div by assumption. f_equal. field. split; [assumption|lra].
Qed.

(* ------------------------------------------------------------------ *)
(** * sums with infinities: x_add is a commutative monoid *)

Lemma x_add_comm (a b : xr) : nadd a b = nadd b a.
Proof. destruct a, b; cbn; try reflexivity. rewrite Rplus_comm. reflexivity. Qed.
Lemma x_add_assoc (a b c : xr) : nadd a (nadd b c) = nadd (nadd a b) c.
Proof. destruct a, b, c; cbn; try reflexivity. rewrite Rplus_assoc. reflexivity. Qed.

Lemma fold_add_shift (l : list xr) a d :
  fold_left nadd (map (fun x => nadd x (Fin d)) l) a =
  nadd (fold_left nadd l a) (Fin (INR (length l) * d)).
Proof.
  revert a; induction l as [|x l IH]; intros a.
  - cbn. rewrite Rmult_0_l. destruct a; cbn; try reflexivity. rewrite Rplus_0_r. reflexivity.
  - cbn [map fold_left length]. rewrite IH, S_INR.
    assert (E : forall l a b, fold_left nadd l (nadd a b) = nadd (fold_left nadd l a) (b : xr)).
    { clear. induction l as [|x l IH]; intros a b; [reflexivity|]. cbn [fold_left].
      rewrite <- x_add_assoc, (x_add_comm b x), x_add_assoc, IH. reflexivity. }
    rewrite (x_add_assoc a x), E, <- x_add_assoc. f_equal. cbn. f_equal. ring.
Qed.

Lemma nmean_shift (l : list xr) d : nmean (map (fun x => nadd x (Fin d)) l) = nadd (nmean l) (Fin d).
Proof.
  destruct l as [|x l]; [cbn [map]; rewrite nmean_nil; reflexivity|].
  unfold nmean, nsum. rewrite fold_add_shift, map_length, fin_Z, <- INR_IZR_INZ.
  pose proof (INR_len (x :: l) ltac:(discriminate)) as Hn. set (n := INR (length (x :: l))) in *. clearbody n.
  destruct (fold_left nadd (x :: l) n0); cbn.
  - rewrite reqb_false by lra. cbn. f_equal. field. lra.
  - rewrite rltb_false by lra. reflexivity.
  - rewrite rltb_false by lra. reflexivity.
  - reflexivity.
Qed.

Lemma mask_cons_used {A} u (l : list A) : length l = length u -> (exists i, nth_error u i = Some true) -> mask u l <> [].
Proof.
  intros Hl [i Hi]. assert (Hlt : (i < length l)%nat) by (rewrite Hl; apply nth_error_Some; congruence).
  destruct (nth_error l i) as [x|] eqn:E; [|apply nth_error_None in E; lia].
  assert (Hin : In x (mask u l)) by (apply in_mask; eauto). destruct (mask u l); [destruct Hin|discriminate].
Qed.
