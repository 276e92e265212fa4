(* XRLemmas.v -- computing with finite extended reals *)
From Coq Require Import Reals Qreals Lra.
From Verif Require Export XR.
Open Scope R_scope.

Lemma rltb_true a b : a < b -> rltb a b = true.
Proof. unfold rltb; destruct (Rlt_dec a b); [reflexivity|contradiction]. Qed.
Lemma rltb_false a b : b <= a -> rltb a b = false.
Proof. unfold rltb; destruct (Rlt_dec a b); [lra|reflexivity]. Qed.
Lemma rltb_spec a b : rltb a b = true <-> a < b.
Proof. unfold rltb; destruct (Rlt_dec a b); split; intros; auto; try discriminate; contradiction. Qed.
Lemma reqb_true a b : a = b -> reqb a b = true.
Proof. unfold reqb; destruct (Req_EM_T a b); [reflexivity|contradiction]. Qed.
Lemma reqb_false a b : a <> b -> reqb a b = false.
Proof. unfold reqb; destruct (Req_EM_T a b); [contradiction|reflexivity]. Qed.
Lemma reqb_spec a b : reqb a b = true <-> a = b.
Proof. unfold reqb; destruct (Req_EM_T a b); split; intros; auto; try discriminate; contradiction. Qed.
Lemma rleb_true a b : a <= b -> rltb a b || reqb a b = true.
Proof. intros [Hlt|Heq]; [rewrite rltb_true by assumption|rewrite (reqb_true a b Heq), orb_true_r]; reflexivity. Qed.
Lemma rleb_spec a b : rltb a b || reqb a b = true <-> a <= b.
Proof.
  rewrite orb_true_iff, rltb_spec, reqb_spec. split; [intros [h|h]; lra|intros [h|h]; auto].
Qed.

Lemma fin_inj a b : Fin a = Fin b -> a = b.
Proof. congruence. Qed.

Lemma x_leb_fin a b : nleb (Fin a) (Fin b) = true <-> a <= b.
Proof. cbn. unfold x_leb, x_ltb, x_eqb. apply rleb_spec. Qed.
Lemma x_leb_fin_t a b : a <= b -> nleb (Fin a) (Fin b) = true.
Proof. apply x_leb_fin. Qed.
Lemma x_leb_fin_f a b : b < a -> nleb (Fin a) (Fin b) = false.
Proof. intros Hab. apply not_true_iff_false. rewrite x_leb_fin. lra. Qed.
Lemma x_ltb_fin a b : nltb (Fin a) (Fin b) = true <-> a < b.
Proof. apply rltb_spec. Qed.
Lemma x_ltb_fin_t a b : a < b -> nltb (Fin a) (Fin b) = true.
Proof. apply x_ltb_fin. Qed.
Lemma x_ltb_fin_f a b : b <= a -> nltb (Fin a) (Fin b) = false.
Proof. apply rltb_false. Qed.
Lemma x_eqb_fin a b : neqb (Fin a) (Fin b) = true <-> a = b.
Proof. apply reqb_spec. Qed.
Lemma x_eqb_fin_f a b : a <> b -> neqb (Fin a) (Fin b) = false.
Proof. apply reqb_false. Qed.

Lemma fin_add a b : nadd (Fin a) (Fin b) = Fin (a + b).  Proof. reflexivity. Qed.
Lemma fin_sub a b : nsub (Fin a) (Fin b) = Fin (a - b).  Proof. reflexivity. Qed.
Lemma fin_mul a b : nmul (Fin a) (Fin b) = Fin (a * b).  Proof. reflexivity. Qed.
Lemma fin_opp a : nopp (Fin a) = Fin (- a).  Proof. reflexivity. Qed.
Lemma fin_exp a : nexp (Fin a) = Fin (exp a).  Proof. reflexivity. Qed.
Lemma fin_pow10 a : npow10 (Fin a) = Fin (pow10R a).  Proof. reflexivity. Qed.
Lemma fin_pow a n : npow (Fin a) n = Fin (a ^ n).  Proof. reflexivity. Qed.
Lemma fin_q q : (nofQ q : xr) = Fin (Q2R q).  Proof. reflexivity. Qed.
Lemma fin_div a b : b <> 0 -> ndiv (Fin a) (Fin b) = Fin (a / b).
Proof. intros Hb. cbn. rewrite reqb_false by assumption. reflexivity. Qed.
Lemma fin_ln a : 0 < a -> nln (Fin a) = Fin (ln a).
Proof. intros Ha. cbn. rewrite rltb_true by assumption. reflexivity. Qed.
Lemma fin_log10 a : 0 < a -> nlog10 (Fin a) = Fin (log10R a).
Proof. intros Ha. cbn. rewrite rltb_true by assumption. reflexivity. Qed.
Lemma fin_sqrt a : 0 <= a -> nsqrt (Fin a) = Fin (sqrt a).
Proof. intros Ha. cbn. rewrite rltb_false by assumption. reflexivity. Qed.
Lemma fin_pow15 a : 0 <= a -> npow15 (Fin a) = Fin (a * sqrt a).
Proof. intros Ha. cbn. rewrite rltb_false by assumption. reflexivity. Qed.
Lemma Q2R_inject_Z z : Q2R (inject_Z z) = IZR z.
Proof. unfold Q2R; cbn. lra. Qed.
Lemma fin_Z z : (nofZ z : xr) = Fin (IZR z).
Proof. unfold nofZ. rewrite fin_q, Q2R_inject_Z. reflexivity. Qed.
Lemma fin_n0 : (n0 : xr) = Fin 0.  Proof. unfold n0. apply fin_Z. Qed.
Lemma fin_n1 : (n1 : xr) = Fin 1.  Proof. unfold n1. apply fin_Z. Qed.
Lemma fin_isnan a : nisnan (Fin a) = false. Proof. reflexivity. Qed.
Lemma fin_isfinite a : nisfinite (Fin a) = true. Proof. reflexivity. Qed.
Lemma nan_isnan : nisnan (NaN : xr) = true. Proof. reflexivity. Qed.

(* literals: turn Q2R of a concrete rational into IZR n / IZR d *)
Ltac q2r := unfold Q2R; cbn [Qnum Qden].
Ltac q2r_in H := unfold Q2R in H; cbn [Qnum Qden] in H.

(* push all operations on finite values into Fin; side conditions are left *)
Ltac xstep :=
  first [ rewrite fin_add | rewrite fin_sub | rewrite fin_mul | rewrite fin_opp | rewrite fin_exp
        | rewrite fin_pow10 | rewrite fin_pow | rewrite fin_n0 | rewrite fin_n1 | rewrite fin_Z
        | rewrite fin_q ].
Ltac xsimp := repeat xstep.

(* ------------------------------------------------------------------ *)
(** * powers of ten *)

Lemma ln10_pos : 0 < ln 10.
Proof. rewrite <- ln_1. apply ln_increasing; lra. Qed.

Lemma pow10R_pos a : 0 < pow10R a.
Proof. apply exp_pos. Qed.

Lemma pow10R_inc a b : a < b -> pow10R a < pow10R b.
Proof. intros Hab. unfold pow10R. apply exp_increasing. pose proof ln10_pos. nra. Qed.

Lemma pow10R_add a b : pow10R (a + b) = pow10R a * pow10R b.
Proof. unfold pow10R. rewrite <- exp_plus. f_equal. ring. Qed.

Lemma pow10R_0 : pow10R 0 = 1.
Proof. unfold pow10R. rewrite Rmult_0_l. apply exp_0. Qed.

Lemma log10_pow10 a : log10R (pow10R a) = a.
Proof. unfold log10R, pow10R. rewrite ln_exp. pose proof ln10_pos. field. lra. Qed.

Lemma pow10_log10 a : 0 < a -> pow10R (log10R a) = a.
Proof.
  intros Ha. unfold log10R, pow10R. pose proof ln10_pos.
  replace (ln a / ln 10 * ln 10) with (ln a) by (field; lra). apply exp_ln; assumption.
Qed.

Lemma log10_inc a b : 0 < a -> a < b -> log10R a < log10R b.
Proof.
  intros Ha Hab. unfold log10R. pose proof ln10_pos.
  apply Rmult_lt_compat_r; [apply Rinv_0_lt_compat; assumption|]. apply ln_increasing; assumption.
Qed.

Lemma pow10_surj h : 0 < h -> exists p, pow10R (- p) = h.
Proof. intros Hh. exists (- log10R h). rewrite Ropp_involutive. apply pow10_log10; assumption. Qed.

(* ------------------------------------------------------------------ *)
(** * sums and means of finite values *)

Definition Rsum (l : list R) : R := fold_right Rplus 0 l.

Lemma fold_left_add_fin l a :
  fold_left nadd (map Fin l) (Fin a) = Fin (a + Rsum l).
Proof.
  revert a; induction l as [|x l IH]; intros a; cbn [map fold_left Rsum fold_right].
  - f_equal; ring.
  - rewrite fin_add, IH. f_equal. unfold Rsum. ring.
Qed.

Lemma nsum_fin l : nsum (map Fin l) = Fin (Rsum l).
Proof. unfold nsum. rewrite fin_n0, fold_left_add_fin. f_equal. ring. Qed.

Lemma Rsum_cons x l : Rsum (x :: l) = x + Rsum l.
Proof. reflexivity. Qed.

Lemma Rsum_app l l' : Rsum (l ++ l') = Rsum l + Rsum l'.
Proof.
  induction l as [|x l IH]; [cbn [app]; unfold Rsum at 2; cbn; ring|].
  cbn [app]. rewrite !Rsum_cons, IH. ring.
Qed.

Lemma Rsum_scal c l : Rsum (map (fun x => c * x) l) = c * Rsum l.
Proof. induction l as [|x l IH]; [cbn; ring|]. cbn [map]. rewrite !Rsum_cons, IH. ring. Qed.

Lemma Rsum_const (A : Type) c (l : list A) : Rsum (map (fun _ => c) l) = INR (length l) * c.
Proof.
  induction l as [|x l IH]; [cbn; ring|]. cbn [map length]. rewrite S_INR.
  change (Rsum (c :: map (fun _ => c) l)) with (c + Rsum (map (fun _ => c) l)).
  rewrite IH. ring.
Qed.

Lemma Rsum_add {A} (f g : A -> R) l :
  Rsum (map (fun x => f x + g x) l) = Rsum (map f l) + Rsum (map g l).
Proof. induction l as [|x l IH]; [cbn; ring|]. cbn [map]. rewrite !Rsum_cons, IH. ring. Qed.

Definition Rmean (l : list R) : R := Rsum l / INR (length l).

Lemma nmean_fin l : l <> [] -> nmean (map Fin l) = Fin (Rmean l).
Proof.
  intros Hl. unfold nmean. rewrite nsum_fin, map_length, fin_Z, <- INR_IZR_INZ.
  apply fin_div. destruct l; [congruence|]. apply not_0_INR. discriminate.
Qed.

Lemma nmean_nil : nmean (@nil xr) = NaN.
Proof.
  unfold nmean. cbn [length]. change (nsum (@nil xr)) with (n0 : xr). rewrite fin_n0, fin_Z. cbn.
  rewrite reqb_true by reflexivity. unfold inf_times.
  rewrite (rltb_false 0 0) by lra. reflexivity.
Qed.
