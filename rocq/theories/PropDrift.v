(* PropDrift.v -- C43: how far a calibration moves the totals in binary64 *)
From Coq Require Import Reals Floats.SpecFloat ZArith Lia Lra.
From Flocq Require Import Core BinarySingleNaN Plus_error Relative.
From Verif Require Import Core SFNum DictLemmas PropCalibrate PropCases PropFloat.
Open Scope string_scope.
Open Scope list_scope.

(** Small specification: the real value of a binary64 number, and the finite numbers (53 bits,
    exponents below 1024).  SF2R is Flocq's: mantissa times 2^exponent. *)
Definition real_of (x : sf) : R := SF2R radix2 x.
Definition finite64 (x : sf) : Prop := valid_binary 53 1024 x = true /\ sf_isfinite x = true.
Definition eps64 : R := (/ 9007199254740992)%R.      (* 2^-53 *)

(* ------------------------------------------------------------------ *)
(** * SpecFloat's addition is Flocq's (Flocq.IEEE754.PrimFloat without primitive floats) *)

#[local] Instance Hprec : FLX.Prec_gt_0 53 := eq_refl _.
#[local] Instance Hmax : Prec_lt_emax 53 1024 := eq_refl _.

Lemma round_nearest_even_equiv s m l : round_nearest_even m l = choice_mode mode_NE s m l.
Proof. case l; [reflexivity|intro c]. case c; [|reflexivity..]. now simpl; unfold Round.cond_incr; case Z.even. Qed.

Lemma binary_round_aux_equiv sx mx ex lx :
  SpecFloat.binary_round_aux 53 1024 sx mx ex lx = BinarySingleNaN.binary_round_aux 53 1024 mode_NE sx mx ex lx.
Proof.
  unfold SpecFloat.binary_round_aux, BinarySingleNaN.binary_round_aux. set (mrse' := shr_fexp _ _ _).
  case mrse'; intros mrs' e'; simpl. now rewrite (round_nearest_even_equiv sx).
Qed.

Lemma binary_round_equiv s m e :
  SpecFloat.binary_round 53 1024 s m e = BinarySingleNaN.binary_round 53 1024 mode_NE s m e.
Proof.
  unfold SpecFloat.binary_round, BinarySingleNaN.binary_round, shl_align_fexp.
  set (mez := shl_align _ _ _); case mez as [mz ez]. apply binary_round_aux_equiv.
Qed.

Lemma binary_normalize_equiv m e szero :
  SpecFloat.binary_normalize 53 1024 m e szero = B2SF (BinarySingleNaN.binary_normalize 53 1024 Hprec Hmax mode_NE m e szero).
Proof.
  case m as [|p|p]; [now simpl|simpl; rewrite B2SF_SF2B; apply binary_round_equiv..].
Qed.

Lemma add_equiv (x y : binary_float 53 1024) : sf_add (B2SF x) (B2SF y) = B2SF (Bplus mode_NE x y).
Proof.
  case x as [sx|sx| |sx mx ex Bx]; case y as [sy|sy| |sy my ey By];
  [now (trivial || simpl; case Bool.eqb).. | ].
  apply binary_normalize_equiv.
Qed.

Lemma finite64_B x : finite64 x -> exists b : binary_float 53 1024, x = B2SF b /\ is_finite b = true.
Proof.
  intros [V F]. exists (SF2B x V). rewrite B2SF_SF2B. split; [reflexivity|].
  rewrite is_finite_SF2B. destruct x; cbn in *; congruence.
Qed.
Lemma finite64_of_B (b : binary_float 53 1024) : is_finite b = true -> finite64 (B2SF b).
Proof. intros F. split; [apply valid_binary_B2SF|]. destruct b; cbn in *; congruence. Qed.

Lemma u_ro_eps : u_ro radix2 53 = eps64.
Proof. unfold u_ro, eps64. cbn. lra. Qed.

(* one rounded addition *)
Lemma add_error x y : finite64 x -> finite64 y -> (Rabs (real_of x) + Rabs (real_of y) <= bpow radix2 1001)%R ->
  finite64 (sf_add x y) /\ exists d, (Rabs d <= eps64)%R /\ real_of (sf_add x y) = ((real_of x + real_of y) * (1 + d))%R.
Proof.
  intros Fx Fy L. destruct (finite64_B x Fx) as (bx & -> & Hx). destruct (finite64_B y Fy) as (by_ & -> & Hy).
  unfold real_of in *. rewrite !SF2R_B2SF in *. rewrite add_equiv.
  destruct (FLT_plus_error_N_ex radix2 (SpecFloat.emin 53 1024) 53 (fun x => negb (Z.even x)) (B2R bx) (B2R by_)
    (generic_format_B2R 53 1024 bx) (generic_format_B2R 53 1024 by_)) as (d & Bd & Ed).
  assert (E0 := u_ro_eps).
  assert (Bd' : (Rabs d <= eps64)%R).
  { eapply Rle_trans; [exact Bd|]. rewrite E0. unfold eps64. lra. }
  assert (C := Bplus_correct 53 1024 Hprec Hmax mode_NE bx by_ Hx Hy). cbn [round_mode] in C.
  change (SpecFloat.fexp 53 1024) with (FLT_exp (SpecFloat.emin 53 1024) 53) in C. change ZnearestE with (Znearest (fun x => negb (Z.even x))) in C.
  rewrite Ed in C.
  assert (Lt : (Rabs ((B2R bx + B2R by_) * (1 + d)) < bpow radix2 1024)%R).
  { rewrite Rabs_mult. apply Rle_lt_trans with (bpow radix2 1001 * 2)%R.
    - apply Rmult_le_compat; [apply Rabs_pos..| |].
      + eapply Rle_trans; [apply Rabs_triang|exact L].
      + eapply Rle_trans; [apply Rabs_triang|]. rewrite Rabs_R1. unfold eps64 in Bd'. lra.
    - change 2%R with (bpow radix2 1). rewrite <- bpow_plus. apply bpow_lt. lia. }
  rewrite (Rlt_bool_true _ _ Lt) in C. destruct C as (C1 & C2 & _).
  split; [apply finite64_of_B; exact C2|]. exists d. split; [exact Bd'|]. rewrite SF2R_B2SF. exact C1.
Qed.

(* adding b and then -b *)
Lemma round_trip a b b' : finite64 a -> finite64 b -> finite64 b' -> real_of b' = (- real_of b)%R ->
  (Rabs (real_of a) + Rabs (real_of b) <= bpow radix2 998)%R ->
  finite64 (sf_add (sf_add a b) b') /\
  (Rabs (real_of (sf_add (sf_add a b) b') - real_of a) <= eps64 * (3 * Rabs (real_of a) + 2 * Rabs (real_of b)))%R.
Proof.
  intros Fa Fb Fb' E L.
  assert (P1 : (bpow radix2 998 * 4 <= bpow radix2 1001)%R).
  { change 4%R with (bpow radix2 2). rewrite <- bpow_plus. apply bpow_le. lia. }
  assert (P0 := bpow_ge_0 radix2 998).
  destruct (add_error a b Fa Fb ltac:(lra)) as (Fs & d1 & B1 & E1).
  set (ra := real_of a) in *. set (rb := real_of b) in *. set (s := real_of (sf_add a b)) in *.
  assert (Hab := Rabs_triang ra rb).
  assert (A0 := Rabs_pos ra). assert (A1 := Rabs_pos rb). assert (Q0 := Rabs_pos (ra + rb)). assert (D0 := Rabs_pos d1).
  assert (Q1 : (Rabs ((ra + rb) * d1) <= Rabs (ra + rb) * eps64)%R) by (rewrite Rabs_mult; apply Rmult_le_compat_l; assumption).
  assert (Ue : (0 < eps64 < /1000)%R) by (unfold eps64; lra).
  assert (S1 : (Rabs s <= Rabs (ra + rb) + Rabs (ra + rb) * eps64)%R).
  { rewrite E1. replace ((ra + rb) * (1 + d1))%R with ((ra + rb) + (ra + rb) * d1)%R by ring. eapply Rle_trans; [apply Rabs_triang|lra]. }
  assert (Q2 : (Rabs (ra + rb) * eps64 <= (Rabs ra + Rabs rb) * eps64)%R) by (apply Rmult_le_compat_r; lra).
  destruct (add_error (sf_add a b) b' Fs Fb') as (Ft & d2 & B2 & E2).
  { fold s. rewrite E, Rabs_Ropp.
    assert ((Rabs ra + Rabs rb) * eps64 <= bpow radix2 998 * /1000)%R by (apply Rmult_le_compat; lra). lra. }
  split; [exact Ft|]. rewrite E2. fold s. rewrite E, E1.
  replace (((ra + rb) * (1 + d1) + - rb) * (1 + d2) - ra)%R with ((ra + rb) * d1 + (ra + (ra + rb) * d1) * d2)%R by ring.
  assert (W : (Rabs (ra + (ra + rb) * d1) <= Rabs ra + (Rabs ra + Rabs rb) * eps64)%R) by (eapply Rle_trans; [apply Rabs_triang|lra]).
  assert (W2 : (Rabs ((ra + (ra + rb) * d1) * d2) <= (Rabs ra + (Rabs ra + Rabs rb) * eps64) * eps64)%R).
  { rewrite Rabs_mult. apply Rmult_le_compat; try apply Rabs_pos; assumption. }
  assert (Y : ((Rabs ra + Rabs rb) * eps64 <= (Rabs ra + Rabs rb) * 1)%R) by (apply Rmult_le_compat_l; lra).
  eapply Rle_trans; [apply Rabs_triang|]. nra.
Qed.

(* ------------------------------------------------------------------ *)
(** * What is taken away is what was added *)

(* the same number with the other sign *)
Definition mirrored (x y : sf) : Prop :=
  y = SFopp x \/ ((exists s, x = S754_zero s) /\ (exists s, y = S754_zero s)).

Lemma round_aux_opp s m e l :
  SpecFloat.binary_round_aux 53 1024 (negb s) m e l = SFopp (SpecFloat.binary_round_aux 53 1024 s m e l).
Proof.
  unfold SpecFloat.binary_round_aux. destruct (shr_fexp _ _ _) as [mrs' e']. destruct (shr_fexp _ _ _ e' _) as [mrs'' e''].
  destruct (shr_m mrs''); [reflexivity| |reflexivity]. destruct (e'' <=? 1024 - 53)%Z; reflexivity.
Qed.

Lemma mirrored_mul_l m x y : mirrored x y -> mirrored (sf_mul m x) (sf_mul m y).
Proof.
  unfold mirrored, sf_mul. intros [->|((s & ->) & (s' & ->))].
  - left. destruct m as [sm|sm| |sm mm em], x as [sx|sx| |sx mx ex]; cbn [SFopp SFmul]; try reflexivity;
      rewrite <- ?Bool.negb_xorb_r; try reflexivity. apply round_aux_opp.
  - destruct m as [sm|sm| |sm mm em]; cbn [SFmul]; [right; eauto|left; reflexivity|left; reflexivity|right; eauto].
Qed.

Lemma mirrored_mul_r m x y : mirrored x y -> mirrored (sf_mul x m) (sf_mul y m).
Proof.
  unfold mirrored, sf_mul. intros [->|((s & ->) & (s' & ->))].
  - left. destruct m as [sm|sm| |sm mm em], x as [sx|sx| |sx mx ex]; cbn [SFopp SFmul]; try reflexivity;
      rewrite <- ?Bool.negb_xorb_l; try reflexivity. apply round_aux_opp.
  - destruct m as [sm|sm| |sm mm em]; cbn [SFmul]; [right; eauto|left; reflexivity|left; reflexivity|right; eauto].
Qed.

Lemma mirrored_div m x y : mirrored x y -> mirrored (sf_div x m) (sf_div y m).
Proof.
  unfold mirrored, sf_div. intros [->|((s & ->) & (s' & ->))].
  - left. destruct m as [sm|sm| |sm mm em], x as [sx|sx| |sx mx ex]; cbn [SFopp SFdiv]; try reflexivity;
      rewrite <- ?Bool.negb_xorb_l; try reflexivity.
    destruct (SFdiv_core_binary _ _ _ _ _ _) as [[mz ez] lz]. rewrite <- ?Bool.negb_xorb_l. apply round_aux_opp.
  - destruct m as [sm|sm| |sm mm em]; cbn [SFdiv]; [left; reflexivity|right; eauto|left; reflexivity|right; eauto].
Qed.

Lemma mirrored_sub c : mirrored (sf_sub c (S754_zero false)) (sf_sub (S754_zero false) c).
Proof.
  unfold mirrored, sf_sub. destruct c as [s|s| |s m e]; cbn [SFsub SFopp]; [right|left; reflexivity..].
  destruct s; cbn; eauto.
Qed.

Lemma mirrored_val x y : mirrored x y -> real_of y = (- real_of x)%R.
Proof.
  unfold real_of. intros [->|((s & ->) & (s' & ->))]; [|cbn; lra].
  destruct x as [s|s| |s m e]; cbn [SFopp SF2R]; try lra. rewrite <- F2R_Zopp. f_equal. destruct s; reflexivity.
Qed.
Lemma mirrored_finite x y : mirrored x y -> finite64 x -> finite64 y.
Proof.
  unfold finite64. intros [->|((s & ->) & (s' & ->))] F; [|split; reflexivity].
  destruct x as [s|s| |s m e]; cbn [SFopp] in *; exact F.
Qed.

Section Lm.
Variable lm : libm.
#[local] Instance num_lm : Num sf := Num_sf lm.

Lemma n0_sf : (n0 : sf) = S754_zero false.
Proof. vm_compute. reflexivity. Qed.

Lemma additions_mirrored tm M c f :
  Forall2 mirrored (titrant_addition tm M c n0 f) (titrant_addition tm M n0 c f).
Proof.
  unfold titrant_addition. induction tm as [|m tm IH]; cbn [map]; [constructor|]. constructor; [|exact IH].
  apply mirrored_div, mirrored_mul_r, mirrored_mul_l. rewrite n0_sf. apply mirrored_sub.
Qed.

(* ------------------------------------------------------------------ *)
(** * Dicts *)

(* the totals named by titrant_totals are arrays of the titration's length *)
Definition named (n : nat) (totals : dict (nd sf)) (tt : kwargs sf) : Prop :=
  forall t f, In (t, f) tt -> exists s l fr,
    t = ("titrant_total_" ++ s)%string /\ as_num f = Ok fr /\
    dget ("total_" ++ s) totals = Some (NdA l) /\ length l = n.

Lemma add_arrays64 tm M c c0 tt : NoDup (dkeys tt) ->
  forall totals, named (length tm) totals tt ->
  exists t', add_titrant_totals totals tm M c c0 tt = (t', Ok Datatypes.tt) /\
    dkeys t' = dkeys totals /\
    (forall k, dget ("titrant_" ++ k) tt = None -> dget k t' = dget k totals) /\
    (forall k f fr l, dget ("titrant_" ++ k) tt = Some f -> as_num f = Ok fr ->
       dget k totals = Some (NdA l) -> dget k t' = Some (NdA (map2 nadd l (titrant_addition tm M c c0 fr)))).
Proof.
  induction tt as [|[t f] rest IH]; intros Hnd totals Hna.
  - exists totals. cbn. repeat split; auto. discriminate.
  - cbn [dkeys map fst] in Hnd. inversion Hnd as [|? ? Hni Hnd']; subst.
    destruct (Hna t f (or_introl eq_refl)) as [s [l [fr [Et [Ef [Ed El]]]]]].
    assert (Esd : sdrop 8 t = ("total_" ++ s)%string) by (rewrite Et; reflexivity).
    assert (Et' : t = ("titrant_" ++ ("total_" ++ s))%string) by (rewrite Et; reflexivity).
    set (k0 := ("total_" ++ s)%string) in *.
    assert (Hnone : dget ("titrant_" ++ k0) rest = None).
    { rewrite <- Et'. apply dmem_false_get. destruct (dmem t rest) eqn:E; [|reflexivity]. apply dget_in_keys in E. contradiction. }
    set (v' := NdA (map2 nadd l (titrant_addition tm M c c0 fr))).
    destruct (IH Hnd' (dset k0 v' totals)) as [t' [Hr [Hk [H2 H1]]]].
    { intros t1 f1 Hin. destruct (Hna t1 f1 (or_intror Hin)) as [s1 [l1 [fr1 [Et1 [Ef1 [Ed1 El1]]]]]].
      exists s1, l1, fr1. split; [assumption|]. split; [assumption|]. split; [|assumption].
      rewrite dget_dset_other; [assumption|]. intros E. apply Hni.
      assert (E1 : t1 = t) by (rewrite Et1, Et', <- E; reflexivity). rewrite E1 in Hin. apply in_map_iff. exists (t, f1). split; [reflexivity|exact Hin]. }
    exists t'. split; [|split; [|split]].
    + cbn [add_titrant_totals]. unfold startswith. rewrite Et at 1. rewrite prefix_app. cbn [assert_ bind].
      rewrite Esd. unfold dgetE. rewrite Ed. cbn [of_opt bind]. rewrite Ef. cbn [bind nd_iadd].
      assert (EL : length l = length (titrant_addition tm M c c0 fr)) by (unfold titrant_addition; rewrite map_length; exact El).
      rewrite EL, Nat.eqb_refl. exact Hr.
    + rewrite Hk. apply dkeys_dset_mem. unfold dmem. rewrite Ed. reflexivity.
    + intros k Hkn. cbn [dget] in Hkn. destruct (String.eqb_spec ("titrant_" ++ k) t) as [E|Hn]; [discriminate|].
      rewrite (H2 k Hkn). apply dget_dset_other. intros ->. apply Hn. symmetry. exact Et'.
    + intros k g fr1 l1 Hg Hf Hd. cbn [dget] in Hg. destruct (String.eqb_spec ("titrant_" ++ k) t) as [E|Hn].
      * apply (f_equal (fun o => match o with Some v => v | None => f end)) in Hg. subst g. rewrite Et' in E. apply titrant_inj in E. subst k. rewrite Ef in Hf. injection Hf as <-.
        rewrite Ed in Hd. injection Hd as Hd. subst l1. rewrite (H2 _ Hnone). apply dget_dset_same.
      * apply (H1 k g fr1 l1 Hg Hf). rewrite dget_dset_other; [assumption|]. intros ->. apply Hn. symmetry. exact Et'.
Qed.

(* ------------------------------------------------------------------ *)
(** * Any number of evaluations *)

Lemma F2_length {X Y} (P : X -> Y -> Prop) l l' : Forall2 P l l' -> length l = length l'.
Proof. induction 1; cbn; congruence. Qed.
Lemma F2_impl {X Y} (P Q : X -> Y -> Prop) l l' : (forall a b, P a b -> Q a b) -> Forall2 P l l' -> Forall2 Q l l'.
Proof. intros I F. induction F; constructor; auto. Qed.

(* the entries of the named totals are finite and at most A in size *)
Definition totals_within (A : R) (n : nat) (totals : dict (nd sf)) (tt : kwargs sf) : Prop :=
  forall t f, In (t, f) tt -> exists s l fr,
    t = ("titrant_total_" ++ s)%string /\ as_num f = Ok fr /\
    dget ("total_" ++ s) totals = Some (NdA l) /\ length l = n /\
    Forall (fun x => finite64 x /\ (Rabs (real_of x) <= A)%R) l.

(* at the molinity c the titrant adds finite amounts, at most B in size *)
Definition additions_within (B : R) (tm : list sf) (M c : sf) (tt : kwargs sf) : Prop :=
  forall t f fr, In (t, f) tt -> as_num f = Ok fr ->
    Forall (fun b => finite64 b /\ (Rabs (real_of b) <= B)%R) (titrant_addition tm M c n0 fr).

(* after i evaluations *)
Definition near (D : R) (x x' : sf) : Prop := finite64 x' /\ (Rabs (real_of x' - real_of x) <= D)%R.
Definition moved (D : R) (tt : kwargs sf) (totals t : dict (nd sf)) : Prop :=
  dkeys t = dkeys totals /\
  (forall k, dget ("titrant_" ++ k) tt = None -> dget k t = dget k totals) /\
  (forall k f, dget ("titrant_" ++ k) tt = Some f ->
     exists l l', dget k totals = Some (NdA l) /\ dget k t = Some (NdA l') /\ Forall2 (near D) l l').

Definition drift (A B : R) (i : nat) : R := (4 * INR i * eps64 * (A + B))%R.
Definition most : nat -> Prop := fun i => (INR i <= 1099511627776)%R.      (* 2^40 *)

Lemma one_near A B i x x' b b' : most i -> (0 <= A)%R -> (0 <= B)%R -> (A + B <= bpow radix2 996)%R ->
  (Rabs (real_of x) <= A)%R -> near (drift A B i) x x' -> finite64 b -> (Rabs (real_of b) <= B)%R -> mirrored b b' ->
  near (drift A B (S i)) x (sf_add (sf_add x' b) b').
Proof.
  unfold near, drift, most. intros Hi A0 B0 L Hx (Fx & Nx) Fb Hb Mb. rewrite S_INR.
  assert (I0 := pos_INR i). assert (Ue : (0 < eps64)%R) by (unfold eps64; lra).
  assert (Ie : (INR i * eps64 <= / 8000)%R).
  { apply Rle_trans with (1099511627776 * eps64)%R; [apply Rmult_le_compat_r; lra|unfold eps64; lra]. }
  assert (D : (4 * INR i * eps64 * (A + B) <= (A + B) * / 2000)%R).
  { replace (4 * INR i * eps64 * (A + B))%R with ((A + B) * (4 * (INR i * eps64)))%R by ring. apply Rmult_le_compat_l; lra. }
  assert (X' : (Rabs (real_of x') <= A + (A + B) * / 2000)%R).
  { replace (real_of x') with (real_of x + (real_of x' - real_of x))%R by ring. eapply Rle_trans; [apply Rabs_triang|lra]. }
  assert (P0 := bpow_ge_0 radix2 996).
  assert (P1 : (bpow radix2 996 * 4 <= bpow radix2 998)%R).
  { change 4%R with (bpow radix2 2). rewrite <- bpow_plus. apply bpow_le. lia. }
  destruct (round_trip x' b b' Fx Fb (mirrored_finite _ _ Mb Fb) (mirrored_val _ _ Mb) ltac:(lra)) as (F & E).
  split; [exact F|].
  replace (real_of (sf_add (sf_add x' b) b') - real_of x)%R with
    ((real_of (sf_add (sf_add x' b) b') - real_of x') + (real_of x' - real_of x))%R by ring.
  eapply Rle_trans; [apply Rabs_triang|].
  assert (Y : (eps64 * (3 * Rabs (real_of x') + 2 * Rabs (real_of b)) <= eps64 * (4 * (A + B)))%R) by (apply Rmult_le_compat_l; lra).
  lra.
Qed.

Lemma moved_step A B i tt tm M c totals t solve cert t2 y : most i -> (0 <= A)%R -> (0 <= B)%R -> (A + B <= bpow radix2 996)%R ->
  NoDup (dkeys tt) -> totals_within A (length tm) totals tt -> additions_within B tm M c tt ->
  moved (drift A B i) tt totals t ->
  lsqfun_calibrate solve cert tm M tt t [c] = (t2, Ok y) -> moved (drift A B (S i)) tt totals t2.
Proof.
  intros Hi A0 B0 L Hnd Ht Ha (K & O & N) R.
  assert (named_t : forall u, dkeys u = dkeys totals ->
     (forall k f, dget ("titrant_" ++ k) tt = Some f -> exists l', dget k u = Some (NdA l') /\ length l' = length tm) ->
     named (length tm) u tt).
  { intros u Ku Nu t0 f0 I0. destruct (Ht t0 f0 I0) as (s & l & fr & E1 & E2 & _).
    assert (G : dget ("titrant_" ++ ("total_" ++ s)) tt = Some f0).
    { apply in_dget; [exact Hnd|]. rewrite E1 in I0. exact I0. }
    destruct (Nu _ _ G) as (l' & G' & L'). exists s, l', fr. auto. }
  assert (len_of : forall k f, dget ("titrant_" ++ k) tt = Some f ->
     exists l fr, dget k totals = Some (NdA l) /\ as_num f = Ok fr /\ length l = length tm /\
       Forall (fun x => finite64 x /\ (Rabs (real_of x) <= A)%R) l /\ In (("titrant_" ++ k)%string, f) tt).
  { intros k f G. assert (I0 := dget_in _ _ _ G). destruct (Ht _ _ I0) as (s & l & fr & E1 & E2 & E3 & E4 & E5).
    assert (Ek : k = ("total_" ++ s)%string) by (apply titrant_inj; exact E1). subst k. exists l, fr. auto 10. }
  assert (Na : named (length tm) t tt).
  { apply named_t; [exact K|]. intros k f G. destruct (N k f G) as (l & l' & G1 & G2 & F2). exists l'. split; [exact G2|].
    destruct (len_of k f G) as (l0 & fr & E1 & _ & E3 & _). rewrite G1 in E1. injection E1 as <-.
    rewrite <- E3. symmetry. eapply F2_length. exact F2. }
  cbn [lsqfun_calibrate] in R.
  destruct (add_arrays64 tm M c n0 tt Hnd t Na) as (t1 & E1 & K1 & O1 & N1).
  rewrite E1 in R. destruct (solve c t1) as [a|]; [|discriminate].
  assert (Nb : named (length tm) t1 tt).
  { apply named_t; [congruence|]. intros k f G. destruct (N k f G) as (l & l' & G1 & G2 & F2).
    destruct (len_of k f G) as (l0 & fr & X1 & X2 & X3 & _). rewrite G1 in X1. injection X1 as <-.
    exists (map2 nadd l' (titrant_addition tm M c n0 fr)). split; [apply (N1 k f fr l' G X2 G2)|].
    assert (length l' = length tm) by (rewrite <- X3; symmetry; eapply F2_length; exact F2).
    unfold titrant_addition. rewrite map2_length, ?map_length; rewrite ?map_length; lia. }
  destruct (add_arrays64 tm M n0 c tt Hnd t1 Nb) as (t2' & E2 & K2 & O2 & N2).
  rewrite E2 in R. apply pair_equal_spec in R. destruct R as [<- _].
  split; [congruence|]. split; [intros k G; rewrite (O2 k G), (O1 k G); apply (O k G)|].
  intros k f G. destruct (N k f G) as (l & l' & G1 & G2 & F2). destruct (len_of k f G) as (l0 & fr & X1 & X2 & X3 & X4 & X5).
  rewrite G1 in X1. injection X1 as <-.
  exists l, (map2 nadd (map2 nadd l' (titrant_addition tm M c n0 fr)) (titrant_addition tm M n0 c fr)).
  split; [exact G1|]. split; [apply (N2 k f fr _ G X2), (N1 k f fr _ G X2 G2)|].
  assert (MM := additions_mirrored tm M c fr). assert (AA := Ha _ _ _ X5 X2).
  assert (LL : length l = length (titrant_addition tm M c n0 fr)) by (unfold titrant_addition; rewrite map_length; exact X3).
  clear - MM AA LL F2 X4 Hi A0 B0 L. revert l' F2 X4 LL.
  revert l. induction MM as [|b b' bs bs' Mb MM IH]; intros l l' F2 X4 LL.
  - destruct l; [|discriminate]. inversion F2; subst. constructor.
  - destruct l as [|x l]; [discriminate|]. inversion F2 as [|? x' ? l1 Nx F2']; subst. cbn [map2].
    inversion AA as [|? ? [Fb Hb] AA']; subst. inversion X4 as [|? ? [Fx Hx] X4']; subst.
    constructor; [apply one_near with (A := A) (B := B); assumption|]. apply IH; auto.
Qed.

Lemma near_more A B i j x x' : (0 <= A)%R -> (0 <= B)%R -> (i <= j)%nat -> near (drift A B i) x x' -> near (drift A B j) x x'.
Proof.
  intros A0 B0 Hij (F & N). split; [exact F|]. eapply Rle_trans; [exact N|]. unfold drift.
  apply Rmult_le_compat_r; [lra|]. apply Rmult_le_compat_r; [unfold eps64; lra|]. apply Rmult_le_compat_l; [lra|]. apply le_INR, Hij.
Qed.
Lemma moved_more A B i j tt totals t : (0 <= A)%R -> (0 <= B)%R -> (i <= j)%nat ->
  moved (drift A B i) tt totals t -> moved (drift A B j) tt totals t.
Proof.
  intros A0 B0 Hij (K & O & N). split; [exact K|]. split; [exact O|]. intros k f G. destruct (N k f G) as (l & l' & G1 & G2 & F).
  exists l, l'. split; [exact G1|]. split; [exact G2|]. eapply F2_impl; [|exact F]. intros a b. apply near_more; assumption.
Qed.
Lemma most_le i j : (i <= j)%nat -> most j -> most i.
Proof. unfold most. intros L M. apply le_INR in L. lra. Qed.

(* what the optimiser tries *)
Definition tried (st : strategy sf) (c0 c : sf) : Prop := c = c0 \/ exists h, s_next st h = Some [c].

Lemma loop_moved st A B tt tm M totals solve cert c0 : (0 <= A)%R -> (0 <= B)%R -> (A + B <= bpow radix2 996)%R ->
  NoDup (dkeys tt) -> totals_within A (length tm) totals tt ->
  (forall c, tried st c0 c -> additions_within B tm M c tt) ->
  forall k i t h t' h', most (i + k) -> moved (drift A B i) tt totals t ->
    lsq_loop st (lsqfun_calibrate solve cert tm M tt) k t h = (t', Ok h') -> moved (drift A B (i + k)) tt totals t'.
Proof.
  intros A0 B0 L Hnd Ht Ha. induction k as [|k IH]; intros i t h t' h' Hm Hv E; cbn [lsq_loop] in E.
  - apply pair_equal_spec in E. destruct E as [<- _]. rewrite Nat.add_0_r. exact Hv.
  - destruct (s_next st h) as [x|] eqn:En.
    2:{ apply pair_equal_spec in E. destruct E as [<- _]. eapply moved_more; [exact A0|exact B0| |exact Hv]. lia. }
    destruct (lsqfun_calibrate solve cert tm M tt t x) as [t1 [y|e]] eqn:Ef; [|discriminate].
    destruct x as [|c [|? ?]]; [discriminate| |discriminate].
    rewrite Nat.add_succ_r, <- Nat.add_succ_l. rewrite Nat.add_succ_r, <- Nat.add_succ_l in Hm.
    apply (IH (S i) t1 (h ++ [([c], y)]) t' h' Hm); [|exact E].
    eapply moved_step; try eassumption; [eapply most_le; [|exact Hm]; lia|]. apply Ha. right. eauto.
Qed.

Lemma finite64_near_self A n totals tt : totals_within A n totals tt -> NoDup (dkeys tt) -> (0 <= A)%R -> forall B, moved (drift A B 0) tt totals totals.
Proof.
  intros Ht Hnd A0 B. split; [reflexivity|]. split; [reflexivity|]. intros k f G.
  assert (I0 := dget_in _ _ _ G). destruct (Ht _ _ I0) as (s & l & fr & E1 & E2 & E3 & E4 & E5).
  assert (Ek : k = ("total_" ++ s)%string) by (apply titrant_inj; exact E1). subst k. exists l, l. split; [exact E3|]. split; [exact E3|].
  clear - E5. induction E5 as [|x l [F _] E5 IH]; constructor; [|exact IH]. split; [exact F|].
  unfold Rminus. rewrite Rplus_opp_r, Rabs_R0. unfold drift. cbn [INR]. lra.
Qed.

(* any residual built from any solver *)
Lemma lsq_moved st A B tt tm M totals solve cert c0 t' o : (0 <= A)%R -> (0 <= B)%R -> (A + B <= bpow radix2 996)%R ->
  NoDup (dkeys tt) -> totals_within A (length tm) totals tt ->
  (forall c, tried st c0 c -> additions_within B tm M c tt) -> most (S (s_max st)) ->
  least_squares st (lsqfun_calibrate solve cert tm M tt) totals [c0] = (t', Ok o) ->
  moved (drift A B (S (s_max st))) tt totals t'.
Proof.
  intros A0 B0 L Hnd Ht Ha Hm E. unfold least_squares in E. destruct (existsb nisnan [c0]); [discriminate|].
  destruct (lsqfun_calibrate solve cert tm M tt totals [c0]) as [t1 [y|e]] eqn:Ef; [|discriminate].
  destruct (forallb nisfinite y); [|discriminate].
  destruct (lsq_loop st (lsqfun_calibrate solve cert tm M tt) (s_max st) t1 [([c0], y)]) as [t2 [h|e]] eqn:El; [|discriminate].
  assert (M0 : most 0) by (eapply most_le; [|exact Hm]; lia).
  assert (V1 : moved (drift A B 1) tt totals t1).
  { eapply moved_step; try eassumption; [apply Ha; now left|]. eapply finite64_near_self; eassumption. }
  assert (V2 := loop_moved st A B tt tm M totals solve cert c0 A0 B0 L Hnd Ht Ha (s_max st) 1 t1 _ t2 h Hm V1 El).
  apply pair_equal_spec in E. destruct E as [<- _]. exact V2.
Qed.

End Lm.

(** With titrant totals the full claim is false (C43_totals_drift_refuted).  What holds: a
    calibration with at most N evaluations moves no entry of the named totals by more than
    4 N 2^-53 (A + B), where A bounds the totals and B the additions at the molinities tried, and
    it leaves the other totals, and the set of names, as they were. *)
Theorem C43_drift_is_bounded_partial : forall (lm : libm) st cert tm ms temps M totals ks ai ei double pmin pmax c0 n tt A B,
  (0 <= A)%R -> (0 <= B)%R -> (A + B <= 2 ^ 900)%R -> (INR (S (s_max st)) <= 2 ^ 40)%R ->
  NoDup (dkeys tt) -> totals_within lm A (length tm) totals tt ->
  (forall c, tried st c0 c -> additions_within lm B tm M c tt) ->
  forall t' o,
  (@calibrate_emf sf (Num_sf lm) st cert tm ms temps M totals ks ai ei double pmin pmax c0 n tt = (t', Ok o) \/
   @calibrate_pH sf (Num_sf lm) st cert tm ms temps M totals ks pmin pmax c0 n tt = (t', Ok o) \/
   @calibrate_pH_gran sf (Num_sf lm) st cert tm ms temps M totals ks pmin pmax c0 n tt = (t', Ok o)) ->
  dkeys t' = dkeys totals /\
  (forall k, dget ("titrant_" ++ k) tt = None -> dget k t' = dget k totals) /\
  (forall k f, dget ("titrant_" ++ k) tt = Some f ->
     exists l l', dget k totals = Some (NdA l) /\ dget k t' = Some (NdA l') /\
       Forall2 (fun x x' => finite64 x' /\
         (Rabs (real_of x' - real_of x) <= 4 * INR (S (s_max st)) * eps64 * (A + B))%R) l l').
Proof.
  intros lm st cert tm ms temps M totals ks ai ei double pmin pmax c0 n tt A B A0 B0 L Hm Hnd Ht Ha t' o E.
  assert (L' : (A + B <= bpow radix2 996)%R).
  { eapply Rle_trans; [exact L|]. rewrite bpow_powerRZ. cbn [powerRZ]. change (IZR radix2) with 2%R. apply Rle_pow; [lra|]. lia. }
  assert (Hm' : most (S (s_max st))) by (unfold most; lra).
  destruct E as [E|[E|E]]; unfold calibrate_emf, calibrate_pH, calibrate_pH_gran in E;
    eapply lsq_moved in E; try eassumption; exact E.
Qed.

(* three evaluations at molinities near 0.1; the totals move, by less than the bound *)
Definition three_tries : strategy sf :=
  {| s_next := fun h => match length h with 1%nat => Some [sf_ofQ 0.11] | _ => Some [sf_ofQ 0.09] end; s_max := 2; s_pick := fun _ => 0%nat |}.
Definition small_number (x : sf) : bool :=
  valid_binary 53 1024 x && sf_isfinite x && SFleb x (sfz 1) && SFleb (sfz (-1)) x.
Lemma small_number_le x : small_number x = true -> finite64 x /\ (Rabs (real_of x) <= 1)%R.
Proof.
  unfold small_number. intros E. apply andb_prop in E. destruct E as [E E4]. apply andb_prop in E. destruct E as [E E3].
  apply andb_prop in E. destruct E as [E1 E2]. assert (F : finite64 x) by (split; assumption). split; [exact F|].
  destruct (finite64_B x F) as (b & -> & Hb).
  destruct (finite64_B (sfz 1)) as (o & Eo & Ho); [split; vm_compute; reflexivity|].
  destruct (finite64_B (sfz (-1))) as (q & Eq & Hq); [split; vm_compute; reflexivity|].
  assert (R1 : real_of (sfz 1) = 1%R) by (vm_compute real_of; unfold F2R; cbn; lra).
  assert (R2 : real_of (sfz (-1)) = (-1)%R) by (vm_compute real_of; unfold F2R; cbn; lra).
  unfold real_of in *. rewrite Eo in E3, R1. rewrite Eq in E4, R2. rewrite SF2R_B2SF in *.
  change (Bleb b o = true) in E3. change (Bleb q b = true) in E4.
  rewrite Bleb_correct in E3, E4 by assumption.
  apply Rabs_le. split.
  - revert E4. case Rle_bool_spec; [lra|discriminate].
  - revert E3. case Rle_bool_spec; [lra|discriminate].
Qed.

Definition drift_titrant : kwargs sf := [("titrant_total_sulfate", VNum (sfz 1))].
Definition drift_totals : dict (nd sf) := [("dic", NdS (sfz 2)); ("total_sulfate", NdA [sf_ofQ 0.1; sf_ofQ 0.1])].

Example C43_drift_nonvacuous :
  (INR (S (s_max three_tries)) <= 2 ^ 40)%R /\ NoDup (dkeys drift_titrant) /\
  totals_within unit_libm 1 2 drift_totals drift_titrant /\
  (forall c, tried three_tries (sfz 1) c -> additions_within unit_libm 1 [sfz 1; sfz 3] (sfz 1) c drift_titrant) /\
  exists t' o, @calibrate_pH_gran sf (Num_sf unit_libm) three_tries (sfz 2) [sfz 1; sfz 3]
    [S754_zero false; S754_zero false] [] (sfz 1) drift_totals [] (sfz (-1)) (sfz 1) (sfz 1) (sfz 1) drift_titrant = (t', Ok o) /\
    t' <> drift_totals.
Proof.
  split; [cbn [s_max three_tries INR]; lra|]. split; [repeat constructor; intros []|]. split; [|split].
  - intros t f [E|[]]. injection E as <- <-. exists "sulfate", [sf_ofQ 0.1; sf_ofQ 0.1], (sfz 1).
    split; [reflexivity|]. split; [reflexivity|]. split; [reflexivity|]. split; [reflexivity|].
    apply Forall_forall; intros x [<-|[<-|[]]]; apply small_number_le; vm_compute; reflexivity.
  - intros c Hc t f fr [E|[]] Ef. injection E as <- <-. apply ok_inj in Ef. subst fr.
    assert (Hc' : c = sfz 1 \/ c = sf_ofQ 0.11 \/ c = sf_ofQ 0.09).
    { destruct Hc as [->|(h & Hh)]; [auto|right]. unfold three_tries in Hh. cbn [s_next] in Hh.
      destruct (length h) as [|[|k]]; injection Hh as <-; auto. }
    destruct Hc' as [->|[->| ->]]; unfold titrant_addition; cbn [map]; apply Forall_forall; intros x [<-|[<-|[]]]; apply small_number_le; vm_compute; reflexivity.
  - eexists. eexists. split; [vm_compute; reflexivity|]. intros E.
    apply (f_equal (fun d => match d with _ :: (_, NdA (S754_finite _ m _ :: _)) :: _ => m | _ => 1%positive end)) in E.
    vm_compute in E. discriminate.
Qed.

Print Assumptions C43_drift_is_bounded_partial.
