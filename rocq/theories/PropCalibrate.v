(* PropCalibrate.v -- C33, C34, C41, C42, C44: calibration *)
From Coq Require Import Reals Qreals Lra.
From Verif Require Export PropFindings.
Open Scope list_scope.
Open Scope R_scope.

(* ------------------------------------------------------------------ *)
(** * C41: add_titrant_totals *)

Lemma prefix_app p s : String.prefix p (p ++ s) = true.
Proof.
  induction p as [|a p IH]; [destruct s; reflexivity|]. cbn [String.append String.prefix].
  destruct (Ascii.ascii_dec a a); [assumption|congruence].
Qed.
Lemma prefix_inv p s : String.prefix p s = true -> exists r, s = (p ++ r)%string.
Proof.
  revert s; induction p as [|a p IH]; intros s Hp; [exists s; reflexivity|].
  destruct s as [|b s]; cbn in Hp; [discriminate|]. destruct (Ascii.ascii_dec a b) as [->|]; [|discriminate].
  destruct (IH s Hp) as [r ->]. exists r. reflexivity.
Qed.
Lemma titrant_name t : startswith t "titrant_total_" = true ->
  exists x, t = ("titrant_total_" ++ x)%string /\ sdrop 8 t = ("total_" ++ x)%string /\
            t = ("titrant_" ++ sdrop 8 t)%string.
Proof.
  intros Hs. apply prefix_inv in Hs as [r ->]. exists r. cbn. auto.
Qed.
Lemma titrant_inj a b : ("titrant_" ++ a)%string = ("titrant_" ++ b)%string -> a = b.
Proof. cbn. intros E. injection E. auto. Qed.

Lemma nd_iadd_at (v v' : nd xr) arr i a x : nd_iadd v arr = Ok v' -> nth_error arr i = Some a -> nd_at v i = Fin x ->
  nd_at v' i = Fin x ⊕ a.
Proof.
  intros Hv Ha Hx. destruct v as [y|l]; cbn [nd_iadd] in Hv.
  - injection Hv as <-. cbn in Hx. subst y. apply nd_at_nth. rewrite nth_error_map, Ha. reflexivity.
  - destruct (Nat.eqb_spec (length l) (length arr)) as [El|Nl].
    + injection Hv as <-. apply nd_at_nth. rewrite nth_error_map2, Ha.
      destruct (nth_error_lt_ex arr l i a El Ha) as [y Hy]. rewrite (nd_at_nth l i y Hy) in Hx. subst y. rewrite Hy. reflexivity.
    + destruct arr as [|y [|? arr]]; try discriminate. injection Hv as <-. destruct i as [|i]; [|destruct i; discriminate].
      cbn in Ha. injection Ha as ->. destruct l as [|b l]; [discriminate|].
      assert (Eb : b = Fin x) by (destruct l; exact Hx). subst b. apply nd_at_nth. reflexivity.
Qed.

Lemma addition_at tm M c c0 f i m : 0 < M -> 0 <= m -> nth_error tm i = Some m ->
  nth_error (titrant_addition (map Fin tm) (Fin M) (Fin c) (Fin c0) (Fin f)) i = Some (Fin (m * (c - c0) * f / (m + M))).
Proof.
  intros HM Hm Hi. unfold titrant_addition. rewrite map_map, nth_error_map, Hi. cbn [option_map]. f_equal.
  xsimp. rewrite fin_div by lra. reflexivity.
Qed.

Lemma add_step totals tm M c c0 t f rest totals' (q : unit) :
  add_titrant_totals totals tm M c c0 ((t, f) :: rest) = (totals', Ok q) ->
  exists v v' (fx : xr), startswith t "titrant_total_" = true /\ dget (sdrop 8 t) totals = Some v /\ as_num f = Ok fx /\
    nd_iadd v (titrant_addition tm M c c0 fx) = Ok v' /\
    add_titrant_totals (dset (sdrop 8 t) v' totals) tm M c c0 rest = (totals', Ok q).
Proof.
  cbn [add_titrant_totals]. destruct (startswith t "titrant_total_") eqn:Es; cbn [assert_ bind]; [|discriminate].
  unfold dgetE. destruct (dget (sdrop 8 t) totals) as [v|] eqn:Ev; cbn [of_opt bind]; [|discriminate].
  destruct (as_num f) as [fx|] eqn:Ef; cbn [bind]; [|discriminate].
  destruct (nd_iadd v _) as [v'|] eqn:Ea; [|discriminate]. intros Hr. exists v, v', fx. auto 10.
Qed.

(* titrant_totals is a dict of keyword arguments: each name occurs once *)
Theorem C41_amounts_added : forall totals tm M c c0 titrant_totals totals' q,
  masses_ok tm M -> NoDup (dkeys titrant_totals) ->
  add_titrant_totals totals (map Fin tm) (Fin M) (Fin c) (Fin c0) titrant_totals = (totals', Ok q) ->
  (* a named total gains m (c - c0) f / (m + M) *)
  (forall k f fr i m x, dget ("titrant_" ++ k) titrant_totals = Some f -> as_num f = Ok (Fin fr) ->
     nth_error tm i = Some m -> holds totals k i x -> holds totals' k i (x + m * (c - c0) * fr / (m + M))) /\
  (* nothing else changes *)
  (forall k, dget ("titrant_" ++ k) titrant_totals = None -> dget k totals' = dget k totals) /\
  dkeys totals' = dkeys totals.
Proof.
  intros totals tm M c c0 tt totals' q [HM Htm]. revert totals.
  induction tt as [|[t f] rest IH]; intros totals Hnd Hr.
  - cbn in Hr. injection Hr as <- _. split; [discriminate|auto].
  - apply add_step in Hr as [v [v' [fx [Es [Ev [Ef [Ea Hr]]]]]]].
    cbn [dkeys map fst] in Hnd. inversion Hnd as [|? ? Hni Hnd']; subst.
    destruct (IH _ Hnd' Hr) as [H1 [H2 H3]]. destruct (titrant_name t Es) as [z [Ez [Ek Et]]].
    set (k0 := sdrop 8 t) in *.
    assert (Hnone : dget ("titrant_" ++ k0) rest = None).
    { rewrite <- Et. apply dmem_false_get. destruct (dmem t rest) eqn:E; [|reflexivity]. apply dget_in_keys in E. contradiction. }
    split; [|split].
    + intros k g fr i m x Hg Hfr Hm [w [Hw Hx]]. cbn [dget] in Hg.
      destruct (String.eqb_spec ("titrant_" ++ k) t) as [E|Hn].
      * injection Hg as <-. rewrite Et in E. apply titrant_inj in E. subst k.
        exists v'. split; [rewrite (H2 _ Hnone); apply dget_dset_same|].
        rewrite Hfr in Ef. injection Ef as <-. rewrite Ev in Hw. injection Hw as <-.
        assert (0 <= m) by (eapply Forall_nth_error in Htm; eassumption).
        rewrite (nd_iadd_at v v' _ i _ x Ea (addition_at tm M c c0 fr i m HM ltac:(assumption) Hm) Hx).
        rewrite fin_add. reflexivity.
      * apply (H1 k g fr i m x Hg Hfr Hm). exists w. split; [|assumption].
        rewrite dget_dset_other; [assumption|]. intros ->. apply Hn. symmetry. exact Et.
    + intros k Hk. cbn [dget] in Hk. destruct (String.eqb_spec ("titrant_" ++ k) t) as [E|Hn]; [discriminate|].
      rewrite (H2 k Hk). apply dget_dset_other. intros ->. apply Hn. symmetry. exact Et.
    + rewrite H3. apply dkeys_dset_mem. unfold dmem. rewrite Ev. reflexivity.
Qed.

(* a name that is not titrant_total_*, or whose total is missing, raises *)
Theorem C41_bad_names_raise : forall totals (tm : list xr) M c c0 titrant_totals t f,
  In (t, f) titrant_totals ->
  ((~ exists s, t = ("titrant_total_" ++ s)%string) \/ (exists k, t = ("titrant_" ++ k)%string /\ dget k totals = None)) ->
  exists totals' e, add_titrant_totals totals tm M c c0 titrant_totals = (totals', Err e).
Proof.
  intros totals tm M c c0 tt t f Hin Hbad.
  destruct (add_titrant_totals totals tm M c c0 tt) as [totals' [q|e]] eqn:E; [|eauto]. exfalso.
  revert totals Hbad E. induction tt as [|[t' f'] rest IH]; intros totals Hbad E; [destruct Hin|].
  apply add_step in E as [v [v' [fx [Es [Ev [Ef [Ea Hr]]]]]]]. destruct (titrant_name t' Es) as [z [Ez [Ek Et]]].
  destruct Hin as [[= -> ->]|Hin].
  - destruct Hbad as [Hb|[k [Hk Hb]]]; [apply Hb; eauto|]. rewrite Et in Hk. apply titrant_inj in Hk. subst k. congruence.
  - apply (IH Hin (dset (sdrop 8 t') v' totals)); [|assumption]. destruct Hbad as [Hb|[k [Hk Hb]]]; [auto|right].
    exists k. split; [assumption|]. rewrite dget_dset_other; [assumption|]. intros ->. congruence.
Qed.

(* which exception, when it is the first name *)
Theorem C41_which_exception : forall totals (tm : list xr) M c c0 f rest,
  (forall t, (~ exists s, t = ("titrant_total_" ++ s)%string) ->
     add_titrant_totals totals tm M c c0 ((t, f) :: rest) = (totals, Err AssertionError)) /\
  (forall s, dget ("total_" ++ s) totals = None ->
     add_titrant_totals totals tm M c c0 (("titrant_total_" ++ s, f) :: rest)%string = (totals, Err (KeyError ("total_" ++ s)))).
Proof.
  intros. split.
  - intros t Ht. cbn [add_titrant_totals]. destruct (startswith t "titrant_total_") eqn:Es; [|reflexivity].
    exfalso. apply Ht. destruct (titrant_name t Es) as [s [E _]]. eauto.
  - intros s Hs. cbn [add_titrant_totals]. unfold startswith. rewrite prefix_app. cbn [assert_ bind].
    change (sdrop 8 ("titrant_total_" ++ s)) with ("total_" ++ s)%string. unfold dgetE. rewrite Hs. reflexivity.
Qed.

Example C41_nonvacuous : exists totals',
  add_titrant_totals [("dic", NdS (Fin 2)); ("total_sulfate", NdA [Fin 0; Fin 3])] (map Fin [0; 1]) (Fin 1) (Fin 2) (Fin 0)
    [("titrant_total_sulfate", VNum (Fin 1))] = (totals', Ok tt) /\
  holds totals' "total_sulfate" 1 (3 + 1 * (2 - 0) * 1 / (1 + 1)) /\ dget "dic" totals' = Some (NdS (Fin 2)).
Proof.
  destruct (add_titrant_totals [("dic", NdS (Fin 2)); ("total_sulfate", NdA [Fin 0; Fin 3])] (map Fin [0; 1]) (Fin 1) (Fin 2) (Fin 0)
    [("titrant_total_sulfate", VNum (Fin 1))]) as [totals' [[]|e]] eqn:E.
  - exists totals'. split; [reflexivity|].
    pose proof (fun A B => C41_amounts_added _ [0; 1] 1 2 0 _ _ _ A B E) as H0.
    destruct H0 as [H1 [H2 _]]; [split; [lra|repeat constructor; lra]|repeat constructor; intros []|].
    split.
    + eapply H1; [reflexivity|reflexivity|reflexivity|]. exists (NdA [Fin 0; Fin 3]). split; reflexivity.
    + apply (H2 "dic"). reflexivity.
  - exfalso. cbn in E. discriminate.
Qed.

(* ------------------------------------------------------------------ *)
(** * C42: totals are restored *)

(* the totals named by titrant_totals are arrays of the titration's length with finite
   entries (what totals_ks returns), the factors are finite numbers *)
Definition named_arrays (n : nat) (totals : dict (nd xr)) (tt : kwargs xr) : Prop :=
  forall t f, In (t, f) tt -> exists s l fr,
    t = ("titrant_total_" ++ s)%string /\ as_num f = Ok (Fin fr) /\
    dget ("total_" ++ s) totals = Some (NdA (map Fin l)) /\ length l = n.

Lemma addition_fin tm M c c0 f : masses_ok tm M ->
  titrant_addition (map Fin tm) (Fin M) (Fin c) (Fin c0) (Fin f) = map Fin (map (fun m => m * (c - c0) * f / (m + M)) tm).
Proof.
  intros [HM Ht]. unfold titrant_addition. rewrite !map_map. apply map_ext_in. intros m Hm.
  rewrite Forall_forall in Ht. specialize (Ht m Hm). cbv beta in Ht. xsimp. rewrite fin_div by lra. reflexivity.
Qed.

Lemma map_fin_inj l l' : map Fin l = map Fin l' -> l = l'.
Proof.
  revert l'; induction l as [|x l IH]; intros [|y l'] E; try discriminate; [reflexivity|].
  cbn in E. injection E as -> E. f_equal. auto.
Qed.

Definition plus_acid (M c c0 f : R) (l tm : list R) : list R :=
  map2 (fun x m => x + m * (c - c0) * f / (m + M)) l tm.

Lemma add_arrays tm M c c0 tt : masses_ok tm M -> NoDup (dkeys tt) ->
  forall totals, named_arrays (length tm) totals tt ->
  exists t', add_titrant_totals totals (map Fin tm) (Fin M) (Fin c) (Fin c0) tt = (t', Ok Datatypes.tt) /\
    dkeys t' = dkeys totals /\
    (forall k, dget ("titrant_" ++ k) tt = None -> dget k t' = dget k totals) /\
    (forall k f fr l, dget ("titrant_" ++ k) tt = Some f -> as_num f = Ok (Fin fr) ->
       dget k totals = Some (NdA (map Fin l)) -> dget k t' = Some (NdA (map Fin (plus_acid M c c0 fr l tm)))).
Proof.
  intros Hok. induction tt as [|[t f] rest IH]; intros Hnd totals Hna.
  - exists totals. cbn. repeat split; auto. discriminate.
  - cbn [dkeys map fst] in Hnd. inversion Hnd as [|? ? Hni Hnd']; subst.
    destruct (Hna t f (or_introl eq_refl)) as [s [l [fr [Et [Ef [Ed El]]]]]].
    assert (Esd : sdrop 8 t = ("total_" ++ s)%string) by (rewrite Et; reflexivity).
    assert (Et' : t = ("titrant_" ++ ("total_" ++ s))%string) by (rewrite Et; reflexivity).
    set (k0 := ("total_" ++ s)%string) in *.
    assert (Hnone : dget ("titrant_" ++ k0) rest = None).
    { rewrite <- Et'. apply dmem_false_get. destruct (dmem t rest) eqn:E; [|reflexivity]. apply dget_in_keys in E. contradiction. }
    set (v' := NdA (map Fin (plus_acid M c c0 fr l tm))).
    destruct (IH Hnd' (dset k0 v' totals)) as [t' [Hr [Hk [H2 H1]]]].
    { intros t1 f1 Hin. destruct (Hna t1 f1 (or_intror Hin)) as [s1 [l1 [fr1 [Et1 [Ef1 [Ed1 El1]]]]]].
      exists s1, l1, fr1. split; [assumption|]. split; [assumption|]. split; [|assumption].
      rewrite dget_dset_other; [assumption|]. intros E. apply Hni.
      assert (E1 : t1 = t) by (rewrite Et1, Et', <- E; reflexivity). rewrite E1 in Hin. apply in_map_iff. exists (t, f1). split; [reflexivity|exact Hin]. }
    exists t'. split; [|split; [|split]].
    + cbn [add_titrant_totals]. unfold startswith. rewrite Et at 1. rewrite prefix_app. cbn [assert_ bind].
      rewrite Esd. unfold dgetE. rewrite Ed. cbn [of_opt bind]. rewrite Ef. cbn [bind].
      rewrite addition_fin by assumption. cbn [nd_iadd]. rewrite !map_length, El, Nat.eqb_refl.
      assert (E2 : map2 nadd (map Fin l) (map Fin (map (fun m => m * (c - c0) * fr / (m + M)) tm)) = map Fin (plus_acid M c c0 fr l tm)).
      { rewrite (map2_fin Rplus) by reflexivity. unfold plus_acid. rewrite map2_map_r. reflexivity. }
      rewrite E2. exact Hr.
    + rewrite Hk. apply dkeys_dset_mem. unfold dmem. rewrite Ed. reflexivity.
    + intros k Hkn. cbn [dget] in Hkn. destruct (String.eqb_spec ("titrant_" ++ k) t) as [E|Hn]; [discriminate|].
      rewrite (H2 k Hkn). apply dget_dset_other. intros ->. apply Hn. symmetry. exact Et'.
    + intros k g fr1 l1 Hg Hf Hd. cbn [dget] in Hg. destruct (String.eqb_spec ("titrant_" ++ k) t) as [E|Hn].
      * injection Hg as <-. rewrite Et' in E. apply titrant_inj in E. subst k. rewrite Ef in Hf. injection Hf as <-.
        rewrite Ed in Hd. injection Hd as Hd. apply map_fin_inj in Hd. subst l1.
        rewrite (H2 _ Hnone). apply dget_dset_same.
      * apply (H1 k g fr1 l1 Hg Hf). rewrite dget_dset_other; [assumption|]. intros ->. apply Hn. symmetry. exact Et'.
Qed.

Lemma plus_minus_acid M c f l tm : masses_ok tm M -> length l = length tm ->
  plus_acid M 0 c f (plus_acid M c 0 f l tm) tm = l.
Proof.
  intros [HM Ht]. revert tm Ht; induction l as [|x l IH]; intros [|m tm] Ht Hl; try discriminate; [reflexivity|].
  inversion Ht; subst. unfold plus_acid in *. cbn [map2]. f_equal; [field; lra|]. apply IH; [assumption|cbn in Hl; lia].
Qed.

(* adding at molinity c and taking away again gives back the same dict *)
Lemma add_revert tm M c tt totals t1 : masses_ok tm M -> NoDup (dkeys tt) -> wfd totals ->
  named_arrays (length tm) totals tt ->
  add_titrant_totals totals (map Fin tm) (Fin M) (Fin c) (Fin 0) tt = (t1, Ok Datatypes.tt) ->
  add_titrant_totals t1 (map Fin tm) (Fin M) (Fin 0) (Fin c) tt = (totals, Ok Datatypes.tt).
Proof.
  intros Hok Hnd Hw Hna H1. destruct (add_arrays tm M c 0 tt Hok Hnd totals Hna) as [t1' [E1 [K1 [O1 N1]]]].
  rewrite H1 in E1. injection E1 as <-.
  assert (Hna1 : named_arrays (length tm) t1 tt).
  { intros t f Hin. destruct (Hna t f Hin) as [s [l [fr [Et [Ef [Ed El]]]]]]. exists s, (plus_acid M c 0 fr l tm), fr.
    split; [assumption|]. split; [assumption|]. split; [|unfold plus_acid; rewrite map2_length; congruence].
    apply (N1 ("total_" ++ s)%string f fr l); [|assumption|assumption].
    apply in_dget; [exact Hnd|]. rewrite Et in Hin. exact Hin. }
  destruct (add_arrays tm M 0 c tt Hok Hnd t1 Hna1) as [t2 [E2 [K2 [O2 N2]]]]. rewrite E2. f_equal.
  apply dict_ext; [exact Hw|congruence|]. intros k Hk.
  destruct (dget ("titrant_" ++ k) tt) as [f|] eqn:Ef.
  - pose proof (dget_in _ _ _ Ef) as Hin. destruct (Hna _ _ Hin) as [s [l [fr [Et [Eff [Ed El]]]]]].
    assert (Ek : k = ("total_" ++ s)%string) by (apply titrant_inj; exact Et). subst k.
    rewrite (N2 _ _ _ _ Ef Eff (N1 _ _ _ _ Ef Eff Ed)). rewrite plus_minus_acid by assumption. symmetry. assumption.
  - rewrite (O2 k Ef), (O1 k Ef). reflexivity.
Qed.

(* the residual that calibration should minimise: each evaluation starts from the
   caller's totals *)
Definition fresh_residual (solve : xr -> dict (nd xr) -> res xr) (cert : xr) (tm : list xr) (M : xr)
  (tt : kwargs xr) (totals : dict (nd xr)) (x : list xr) : res (list xr) :=
  match x with
  | [c] => let (totals1, r) := add_titrant_totals totals tm M c n0 tt in
           _ <- r ;; a <- solve c totals1 ;; Ok [a ⊖ cert]
  | _ => Err ValueError
  end.

Definition finite_points (st : strategy xr) : Prop :=
  forall h x, s_next st h = Some x -> Forall (fun v => exists r, v = Fin r) x.

Lemma lsqfun_fresh solve cert tm M tt totals x : masses_ok tm M -> NoDup (dkeys tt) -> wfd totals ->
  named_arrays (length tm) totals tt -> Forall (fun v => exists r, v = Fin r) x ->
  snd (lsqfun_calibrate solve cert (map Fin tm) (Fin M) tt totals x)
    = fresh_residual solve cert (map Fin tm) (Fin M) tt totals x /\
  (forall y, snd (lsqfun_calibrate solve cert (map Fin tm) (Fin M) tt totals x) = Ok y ->
     fst (lsqfun_calibrate solve cert (map Fin tm) (Fin M) tt totals x) = totals).
Proof.
  intros Hok Hnd Hw Hna Hx. destruct x as [|c [|? x]]; [split; [reflexivity|discriminate]| |split; [reflexivity|discriminate]].
  inversion Hx as [|? ? [cr ->] _]; subst. cbn [lsqfun_calibrate fresh_residual].
  destruct (add_arrays tm M cr 0 tt Hok Hnd totals Hna) as [t1 [E1 _]].
  pose proof (add_revert tm M cr tt totals t1 Hok Hnd Hw Hna E1) as E2.
  rewrite fin_n0, E1. cbn [bind].
  destruct (solve (Fin cr) t1) as [a|e]; cbn [bind]; [|split; [reflexivity|discriminate]].
  rewrite E2. cbn. auto.
Qed.

Lemma loop_fresh st (f : dict (nd xr) -> list xr -> dict (nd xr) * res (list xr)) (g : list xr -> res (list xr)) totals :
  finite_points st ->
  (forall x, Forall (fun v => exists r, v = Fin r) x ->
     snd (f totals x) = g x /\ (forall y, snd (f totals x) = Ok y -> fst (f totals x) = totals)) ->
  forall k h, snd (lsq_loop st f k totals h) = snd (lsq_loop st (fun (_ : unit) x => (tt, g x)) k tt h) /\
    (forall y, snd (lsq_loop st f k totals h) = Ok y -> fst (lsq_loop st f k totals h) = totals).
Proof.
  intros Hfp Hf. induction k as [|k IH]; intros h; cbn [lsq_loop]; [auto|].
  destruct (s_next st h) as [x|] eqn:En; [|auto]. destruct (Hf x (Hfp h x En)) as [H1 H2].
  destruct (f totals x) as [s' r]. cbn [fst snd] in *. rewrite <- H1. destruct r as [y|e].
  - rewrite (H2 y eq_refl). apply IH.
  - cbn. split; [reflexivity|discriminate].
Qed.

Lemma lsq_fresh st (f : dict (nd xr) -> list xr -> dict (nd xr) * res (list xr)) (g : list xr -> res (list xr)) totals x0 :
  finite_points st -> Forall (fun v => exists r, v = Fin r) x0 ->
  (forall x, Forall (fun v => exists r, v = Fin r) x ->
     snd (f totals x) = g x /\ (forall y, snd (f totals x) = Ok y -> fst (f totals x) = totals)) ->
  snd (least_squares st f totals x0) = snd (least_squares st (fun (_ : unit) x => (tt, g x)) tt x0) /\
  (forall o, snd (least_squares st f totals x0) = Ok o -> fst (least_squares st f totals x0) = totals).
Proof.
  intros Hfp Hx0 Hf. unfold least_squares. destruct (existsb nisnan x0); [cbn; split; [reflexivity|discriminate]|].
  destruct (Hf x0 Hx0) as [H1 H2]. destruct (f totals x0) as [s1 r]. cbn [fst snd] in *. rewrite <- H1.
  destruct r as [y0|e]; [|cbn; split; [reflexivity|discriminate]]. rewrite (H2 y0 eq_refl).
  destruct (forallb nisfinite y0); [|cbn; split; [reflexivity|discriminate]].
  destruct (loop_fresh st f g totals Hfp Hf (s_max st) [(x0, y0)]) as [L1 L2].
  destruct (lsq_loop st f (s_max st) totals [(x0, y0)]) as [s2 rh].
  destruct (lsq_loop st (fun (_ : unit) x => (tt, g x)) (s_max st) tt [(x0, y0)]) as [s2' rh'].
  cbn [fst snd] in *. subst rh'. destruct rh as [h|e]; cbn; [|split; [reflexivity|discriminate]].
  split; [reflexivity|]. intros o _. eapply L2. reflexivity.
Qed.

(* any residual built from any solver: after a successful calibration the caller's totals
   are what they were, and the outcome is that of minimising the fresh residual *)
Theorem C42_any_solver : forall st solve cert tm M tt totals c0,
  finite_points st -> masses_ok tm M -> NoDup (dkeys tt) -> NoDup (dkeys totals) ->
  named_arrays (length tm) totals tt ->
  let out := least_squares st (lsqfun_calibrate solve cert (map Fin tm) (Fin M) tt) totals [Fin c0] in
  snd out = snd (least_squares st (fun (_ : unit) x => (Datatypes.tt, fresh_residual solve cert (map Fin tm) (Fin M) tt totals x))
                   Datatypes.tt [Fin c0]) /\
  (forall o, snd out = Ok o -> fst out = totals).
Proof.
  intros st solve cert tm M tt totals c0 Hfp Hok Hnd Hw Hna out.
  apply (lsq_fresh st (lsqfun_calibrate solve cert (map Fin tm) (Fin M) tt)
           (fresh_residual solve cert (map Fin tm) (Fin M) tt totals) totals [Fin c0] Hfp).
  - repeat constructor. eauto.
  - intros x Hx. apply lsqfun_fresh; assumption.
Qed.

Theorem C42_calibrations_restore_totals : forall st cert tm measurement temps M totals ks ai ei double pmin pmax c0 n tt,
  finite_points st -> masses_ok tm M -> NoDup (dkeys tt) -> NoDup (dkeys totals) ->
  named_arrays (length tm) totals tt ->
  (forall t' o, calibrate_emf st cert (map Fin tm) measurement temps (Fin M) totals ks ai ei double pmin pmax (Fin c0) n tt
      = (t', Ok o) -> t' = totals) /\
  (forall t' o, calibrate_pH st cert (map Fin tm) measurement temps (Fin M) totals ks pmin pmax (Fin c0) n tt
      = (t', Ok o) -> t' = totals) /\
  (forall t' o, calibrate_pH_gran st cert (map Fin tm) measurement temps (Fin M) totals ks pmin pmax (Fin c0) n tt
      = (t', Ok o) -> t' = totals).
Proof.
  intros st cert tm ms temps M totals ks ai ei double pmin pmax c0 n tt Hfp Hok Hnd Hw Hna.
  split; [|split]; intros t' o; unfold calibrate_emf, calibrate_pH, calibrate_pH_gran; intros E;
    match type of E with least_squares st (lsqfun_calibrate ?s _ _ _ _) _ _ = _ =>
      destruct (C42_any_solver st s cert tm M tt totals c0 Hfp Hok Hnd Hw Hna) as [_ H] end;
    rewrite E in H; exact (H o eq_refl).
Qed.

(* ------------------------------------------------------------------ *)
(** * C33: calibrate_pH has exactly one solution *)

Definition sane_points (pH : list R) (totals ks : dict (nd xr)) : Prop :=
  forall i p, nth_error pH i = Some p -> nonneg_totals (slice_at totals i) /\ pos_constants (slice_at ks i).

Lemma sim_finite pH totals ks sim : sane_points pH totals ks ->
  alkalinity_arr (map Fin pH) totals ks 3 = Ok sim -> exists s, sim = map Fin s /\ length s = length pH.
Proof.
  intros Hs Ha. apply alkalinity_arr_spec in Ha as [_ [_ [Hl Hp]]]. rewrite map_length in Hl.
  assert (Hex : exists lr, sim = map Fin lr).
  { apply (forall_fin_list (fun (_ : nat) _ => True)). intros i x Hx.
    assert (Hlt : (i < length pH)%nat) by (rewrite <- Hl; apply nth_error_Some; congruence).
    destruct (nth_error pH i) as [p|] eqn:Ep; [|apply nth_error_None in Ep; lia].
    destruct (Hp i (Fin p) (nth_error_map_fin pH i p Ep)) as [a [H1 H2]]. rewrite H1 in Hx. injection Hx as <-.
    destruct (Hs i p Ep) as [Ht Hk]. exact (alkalinity_finite _ _ _ _ _ Ht Hk H2). }
  destruct Hex as [s ->]. exists s. rewrite map_length in Hl. auto.
Qed.

Definition estR (M c n s m : R) : R := 1000000 * (s * (m + M) + m * c * n) / M.

Lemma all_est c tm s M n : masses_ok tm M ->
  map2 (fun s m => nofQ 1000000 ⊗ (s ⊕ (m ⊗ Fin c ⊗ Fin n) ⊘ (m ⊕ Fin M)) ⊘ get_dilution_factor m (Fin M))
    (map Fin s) (map Fin tm) = map Fin (map2 (estR M c n) s tm).
Proof.
  intros [HM Ht]. revert tm Ht. induction s as [|x s IH]; intros [|m tm] Ht; try reflexivity.
  inversion Ht; subst. cbn [map map2]. f_equal; [|apply IH; assumption].
  exact (estimate_fin x m M c n HM ltac:(assumption)).
Qed.

Lemma sum_est M c n s tm : M <> 0 -> length s = length tm ->
  Rsum (map2 (estR M c n) s tm) = 1000000 * n / M * Rsum tm * c + Rsum (map2 (estR M 0 n) s tm).
Proof.
  intros HM. revert tm; induction s as [|x s IH]; intros [|m tm] Hl; try discriminate.
  - cbn. ring.
  - change (estR M c n x m + Rsum (map2 (estR M c n) s tm) = 1000000 * n / M * (m + Rsum tm) * c + (estR M 0 n x m + Rsum (map2 (estR M 0 n) s tm))).
    rewrite IH by (cbn in Hl; lia). unfold estR. field. assumption.
Qed.

Lemma solve_pH_affine c1 tm pH temps M totals ks pmin pmax n r1 :
  masses_ok tm M -> 0 < n -> sane_points pH totals ks ->
  solve_pH (Fin c1) (map Fin tm) (map Fin pH) temps (Fin M) totals ks (Fin pmin) (Fin pmax) (Fin n) = Ok r1 ->
  (exists i p m, nth_error pH i = Some p /\ nth_error tm i = Some m /\ pmin <= p <= pmax /\ 0 < m) ->
  exists a b, 0 < a /\ forall c, exists r,
    solve_pH (Fin c) (map Fin tm) (map Fin pH) temps (Fin M) totals ks (Fin pmin) (Fin pmax) (Fin n) = Ok r /\
    sp_alkalinity r = Fin (a * c + b).
Proof.
  intros Hok Hn Hs Hr [i [p [m [Hp [Hm [Hw Hm0]]]]]]. pose proof Hok as [HM Htm].
  pose proof (solve_pH_inv _ _ _ _ _ _ _ _ _ _ _ Hr) as [Hl [Hlt [_ [Hall _]]]].
  unfold alkalinity_all in Hall. apply bind_ok in Hall as [sim [Hsim _]].
  change default_opt_pH_scale with 3%Z in Hsim.
  destruct (sim_finite _ _ _ _ Hs Hsim) as [s [-> Hls]]. rewrite !map_length in Hl.
  set (u := in_window (Fin pmin) (Fin pmax) (map Fin pH)).
  assert (Hlu : length u = length pH) by (unfold u, in_window; rewrite !map_length; reflexivity).
  assert (Hui : used_at u i) by (apply window_used; exists p; split; [apply nth_error_map_fin; assumption|assumption]).
  assert (Hin : In m (mask u tm)) by (apply in_mask; exists i; auto).
  set (T := mask u tm) in *. set (S := mask u s).
  assert (HTne : T <> []) by (intros E; rewrite E in Hin; destruct Hin).
  assert (HST : length S = length T) by (unfold S, T; rewrite !mask_count by congruence; reflexivity).
  pose proof (INR_len T HTne) as HT.
  assert (HsT : 0 < Rsum T).
  { apply (Rsum_pos T m); [|assumption|assumption]. apply Forall_forall. intros v Hv. apply in_mask in Hv as [j [_ Hj]].
    eapply Forall_nth_error in Htm; eassumption. }
  exists (1000000 * n / M * Rsum T / INR (length T)), (Rsum (map2 (estR M 0 n) S T) / INR (length T)). split.
  - apply Rdiv_lt_0_compat; [|assumption]. apply Rmult_lt_0_compat; [|assumption]. apply Rdiv_lt_0_compat; lra.
  - intros c. unfold solve_pH. rewrite !map_length, Hl, Nat.eqb_refl, Hlt. cbn [negb assert_ bind].
    unfold alkalinity_all. change default_opt_pH_scale with 3%Z. rewrite Hsim. cbn [bind].
    rewrite all_est by assumption. eexists. split; [reflexivity|]. cbn [sp_alkalinity].
    fold u. rewrite mask_map, mask_map2. fold S T.
    assert (Hne : map2 (estR M c n) S T <> []).
    { intros E. apply (f_equal (@length R)) in E. rewrite map2_length in E by congruence. apply HTne, length_zero_iff_nil. rewrite <- HST. exact E. }
    rewrite nmean_fin by assumption. f_equal. unfold Rmean. rewrite map2_length by congruence. rewrite HST.
    rewrite sum_est by (lra || assumption). field. split; lra.
Qed.

(* an accepted titration with a used point where some titrant has been added *)
Theorem C33_one_molinity_fits : forall c1 tm pH temps M totals ks pmin pmax n r1,
  masses_ok tm M -> 0 < n -> sane_points pH totals ks ->
  solve_pH (Fin c1) (map Fin tm) (map Fin pH) temps (Fin M) totals ks (Fin pmin) (Fin pmax) (Fin n) = Ok r1 ->
  (exists i p m, nth_error pH i = Some p /\ nth_error tm i = Some m /\ pmin <= p <= pmax /\ 0 < m) ->
  (* the solved alkalinity is increasing and affine in the titrant molinity ... *)
  (exists a b, 0 < a /\ forall c, exists r,
     solve_pH (Fin c) (map Fin tm) (map Fin pH) temps (Fin M) totals ks (Fin pmin) (Fin pmax) (Fin n) = Ok r /\
     sp_alkalinity r = Fin (a * c + b)) /\
  (* ... so exactly one molinity reproduces a certified value *)
  (forall cert, exists! c, exists r,
     solve_pH (Fin c) (map Fin tm) (map Fin pH) temps (Fin M) totals ks (Fin pmin) (Fin pmax) (Fin n) = Ok r /\
     sp_alkalinity r = Fin cert).
Proof.
  intros c1 tm pH temps M totals ks pmin pmax n r1 Hok Hn Hs Hr Hex.
  pose proof (solve_pH_affine _ _ _ _ _ _ _ _ _ _ _ Hok Hn Hs Hr Hex) as Haff. split; [exact Haff|].
  destruct Haff as [a [b [Ha Hall]]]. intros cert. exists ((cert - b) / a). split.
  - destruct (Hall ((cert - b) / a)) as [r [E1 E2]]. exists r. split; [assumption|]. rewrite E2. f_equal. field. lra.
  - intros c [r [E1 E2]]. destruct (Hall c) as [r' [E1' E2']]. rewrite E1 in E1'. injection E1' as <-.
    rewrite E2 in E2'. injection E2' as ->. field. lra.
Qed.

Lemma add_nothing {T} `{Num T} (totals : dict (nd T)) tm M c c0 : add_titrant_totals totals tm M c c0 [] = (totals, Ok tt).
Proof. reflexivity. Qed.

(* any optimiser run that ends with a zero residual has found that molinity: solving with
   it returns the certified value, and the totals are untouched *)
Theorem C33_self_calibration : forall st tm pH temps M totals ks pmin pmax n cert init totals' o,
  calibrate_pH st (Fin cert) tm pH temps M totals ks pmin pmax init n [] = (totals', Ok o) ->
  totals' = totals /\
  exists c r, or_x o = [c] /\ solve_pH c tm pH temps M totals ks pmin pmax n = Ok r /\
    or_fun o = [sp_alkalinity r ⊖ Fin cert] /\
    (or_fun o = [Fin 0] -> sp_alkalinity r = Fin cert).
Proof.
  intros st tm pH temps M totals ks pmin pmax n cert init totals' o. unfold calibrate_pH. intros Hc.
  apply (least_squares_inv st _ _ (fun t => t = totals)
    (fun x y => exists c r, x = [c] /\ solve_pH c tm pH temps M totals ks pmin pmax n = Ok r /\ y = [sp_alkalinity r ⊖ Fin cert]))
    in Hc as [H1 [c [r [H2 [H3 H4]]]]]; [|clear|reflexivity].
  - split; [assumption|]. exists c, r. split; [assumption|]. split; [assumption|]. split; [assumption|].
    intros E. rewrite E in H4. injection H4 as H4. destruct (sp_alkalinity r) as [a| | |]; try discriminate.
    rewrite fin_sub in H4. injection H4 as H4. f_equal. lra.
  - intros s x s' r -> Hf y ->. destruct x as [|c [|? x]]; [discriminate| |discriminate].
    cbn [lsqfun_calibrate] in Hf. rewrite add_nothing in Hf.
    destruct (solve_pH c tm pH temps M totals ks pmin pmax n) as [sr|e] eqn:Es; cbn [bind] in Hf; [|discriminate].
    rewrite add_nothing in Hf. injection Hf as <- <-. split; [reflexivity|]. exists c, sr. auto.
Qed.

(* the titration of C30_nonvacuous: one used point at pH 0 with one unit of titrant *)
Example C33_nonvacuous :
  exists! c, exists r,
    solve_pH (Fin c) (map Fin [1]) (map Fin [0]) [Fin 25] (Fin 1) [] [("k_water", NdS (Fin 1))] (Fin (-1)) (Fin 1) (Fin 1) = Ok r /\
    sp_alkalinity r = Fin 2000.
Proof.
  destruct C30_nonvacuous as [r1 [E1 _]].
  assert (Hok : masses_ok [1] 1) by (split; [lra|repeat constructor; lra]).
  assert (Hs : sane_points [0] [] [("k_water", NdS (Fin 1))]).
  { intros i p _. split.
    - intros k x E. discriminate.
    - intros k x E. apply dget_in in E. destruct E as [[= _ <-]|[]]. exists 1. split; [reflexivity|lra]. }
  refine (proj2 (C33_one_molinity_fits (1/2) [1] [0] [Fin 25] 1 [] [("k_water", NdS (Fin 1))] (-1) 1 1 r1 Hok _ Hs E1 _) 2000);
    [lra|]. exists 0%nat, 0, 1. repeat split; (reflexivity || lra).
Qed.

(* ------------------------------------------------------------------ *)
(** * C34: solve_pH_gran *)

(* (m + M) 10^-pH *)
Definition gran_value (m M p : R) : R := (m + M) * Rpower 10 (- p).

Lemma gfunc_fin tm pH M : length pH = length tm ->
  map2 (fun m p => (m ⊕ Fin M) ⊗ npow10 (nopp p)) (map Fin tm) (map Fin pH) = map Fin (map2 (fun m p => gran_value m M p) tm pH).
Proof.
  revert pH; induction tm as [|m tm IH]; intros [|p pH] Hl; try discriminate; [reflexivity|].
  cbn [map map2]. f_equal. apply IH. cbn in Hl; lia.
Qed.

Lemma used_two pmin pmax pH tm : length pH = length tm ->
  (exists i j p q m m', nth_error pH i = Some p /\ pmin <= p <= pmax /\ nth_error tm i = Some m /\
     nth_error pH j = Some q /\ pmin <= q <= pmax /\ nth_error tm j = Some m' /\ m <> m') ->
  two_distinct (mask (in_window (Fin pmin) (Fin pmax) (map Fin pH)) tm).
Proof.
  intros Hl [i [j [p [q [m [m' [Hp [Hpw [Hm [Hq [Hqw [Hm' Hne]]]]]]]]]]]]. exists m, m'.
  split; [|split; [|assumption]]; apply in_mask; [exists i|exists j]; (split; [|assumption]); apply window_used;
    [exists p|exists q]; (split; [apply nth_error_map_fin; assumption|assumption]).
Qed.

Definition two_used_masses (pmin pmax : R) (pH tm : list R) : Prop :=
  exists i j p q m m', nth_error pH i = Some p /\ pmin <= p <= pmax /\ nth_error tm i = Some m /\
     nth_error pH j = Some q /\ pmin <= q <= pmax /\ nth_error tm j = Some m' /\ m <> m'.

Theorem C34_pH_gran_exact : forall c tm pH temps M totals ks pmin pmax n A k,
  length pH = length tm -> M <> 0 -> c * n <> 0 -> k <> 0 -> pmin < pmax ->
  two_used_masses pmin pmax pH tm ->
  (forall i p m, nth_error pH i = Some p -> nth_error tm i = Some m -> pmin <= p <= pmax ->
     gran_value m M p = k * (m * c * n - M * A)) ->
  exists r, solve_pH_gran (Fin c) (map Fin tm) (map Fin pH) temps (Fin M) totals ks (Fin pmin) (Fin pmax) (Fin n) = Ok r /\
    sg_alkalinity r = Fin (1000000 * A).
Proof.
  intros c tm pH temps M totals ks pmin pmax n A k Hl HM Hcn Hk Hlt Htwo Hprop.
  pose proof (used_two _ _ _ _ Hl Htwo) as Hd. set (u := in_window (Fin pmin) (Fin pmax) (map Fin pH)) in *.
  unfold solve_pH_gran. rewrite !map_length, Hl, Nat.eqb_refl. rewrite x_ltb_fin_t by assumption. cbn [negb assert_ bind].
  rewrite gfunc_fin by assumption. fold u. rewrite !mask_map.
  assert (E : mask u (map2 (fun m p => gran_value m M p) tm pH) = map (fun m => (k * c * n) * m + (- k * M * A)) (mask u tm)).
  { apply mask_map2_ext; [congruence|]. intros i m p Hu Hm Hp.
    apply window_used in Hu as [p' [Hp' Hw]]. rewrite (nth_error_map_fin pH i p Hp) in Hp'. injection Hp' as <-.
    rewrite (Hprop i p m Hp Hm Hw). ring. }
  rewrite E. destruct (linregress_fin (mask u tm) (map (fun m => (k * c * n) * m + (- k * M * A)) (mask u tm)) Hd (map_length _ _))
    as [lr [-> [E1 E2]]]. cbn [bind]. eexists. split; [reflexivity|]. cbn [sg_alkalinity].
  rewrite E1, E2, slope_line, intercept_line by assumption.
  assert (k * c * n <> 0) by (replace (k * c * n) with (k * (c * n)) by ring; apply Rmult_integral_contrapositive_currified; assumption).
  xsimp. rewrite fin_div by assumption. xsimp. rewrite fin_div by assumption. xsimp. f_equal. q2r. field.
  repeat split; try assumption; intros ->; lra.
Qed.

(* alkalinity is proportional to molinity, so calibration has exactly one solution *)
Theorem C34_pH_gran_proportional : forall c1 tm pH temps M totals ks pmin pmax n r1 slope intercept,
  M <> 0 -> n <> 0 ->
  solve_pH_gran (Fin c1) (map Fin tm) (map Fin pH) temps (Fin M) totals ks (Fin pmin) (Fin pmax) (Fin n) = Ok r1 ->
  lr_slope (sg_lr r1) = Fin slope -> lr_intercept (sg_lr r1) = Fin intercept -> slope <> 0 ->
  (exists q, (intercept <> 0 -> q <> 0) /\ forall c, exists r,
     solve_pH_gran (Fin c) (map Fin tm) (map Fin pH) temps (Fin M) totals ks (Fin pmin) (Fin pmax) (Fin n) = Ok r /\
     sg_alkalinity r = Fin (q * c)) /\
  (intercept <> 0 -> forall cert, exists! c, exists r,
     solve_pH_gran (Fin c) (map Fin tm) (map Fin pH) temps (Fin M) totals ks (Fin pmin) (Fin pmax) (Fin n) = Ok r /\
     sg_alkalinity r = Fin cert).
Proof.
  intros c1 tm pH temps M totals ks pmin pmax n r1 a b HM Hn Hr Ea Eb Ha.
  assert (Hex : exists q, (b <> 0 -> q <> 0) /\ forall c, exists r,
     solve_pH_gran (Fin c) (map Fin tm) (map Fin pH) temps (Fin M) totals ks (Fin pmin) (Fin pmax) (Fin n) = Ok r /\
     sg_alkalinity r = Fin (q * c)).
  { exists (1000000 * (- b / a * n / M)). split.
    - intros Hb E. apply Hb.
      assert (E' : - b * 1000000 * n = 1000000 * (- b / a * n / M) * (a * M)) by (field; auto).
      rewrite E, Rmult_0_l in E'. apply Rmult_integral in E' as [E'|E']; [lra|contradiction].
    - intros c. unfold solve_pH_gran in *. destruct (negb (Nat.eqb _ _)); [discriminate|].
      destruct (nltb (Fin pmin) (Fin pmax)); cbn [assert_ bind] in *; [|discriminate].
      destruct (linregress _ _) as [lr|]; cbn [bind] in *; [|discriminate]. injection Hr as <-. cbn [sg_lr] in *.
      eexists. split; [reflexivity|]. cbn [sg_alkalinity]. rewrite Ea, Eb. xsimp. rewrite fin_div by assumption. xsimp.
      rewrite fin_div by assumption. xsimp. f_equal. q2r. field. auto. }
  split; [exact Hex|]. destruct Hex as [q [Hq Hall]]. intros Hb cert. specialize (Hq Hb). exists (cert / q). split.
  - destruct (Hall (cert / q)) as [r [E1 E2]]. exists r. split; [assumption|]. rewrite E2. f_equal. field. assumption.
  - intros c [r [E1 E2]]. destruct (Hall c) as [r' [E1' E2']]. rewrite E1 in E1'. injection E1' as <-.
    rewrite E2 in E2'. injection E2' as ->. field. assumption.
Qed.

Theorem C34_self_calibration : forall st tm pH temps M totals ks pmin pmax n cert init totals' o,
  calibrate_pH_gran st (Fin cert) tm pH temps M totals ks pmin pmax init n [] = (totals', Ok o) ->
  totals' = totals /\
  exists c r, or_x o = [c] /\ solve_pH_gran c tm pH temps M totals ks pmin pmax n = Ok r /\
    or_fun o = [sg_alkalinity r ⊖ Fin cert] /\
    (or_fun o = [Fin 0] -> sg_alkalinity r = Fin cert).
Proof.
  intros st tm pH temps M totals ks pmin pmax n cert init totals' o. unfold calibrate_pH_gran. intros Hc.
  apply (least_squares_inv st _ _ (fun t => t = totals)
    (fun x y => exists c r, x = [c] /\ solve_pH_gran c tm pH temps M totals ks pmin pmax n = Ok r /\ y = [sg_alkalinity r ⊖ Fin cert]))
    in Hc as [H1 [c [r [H2 [H3 H4]]]]]; [|clear|reflexivity].
  - split; [assumption|]. exists c, r. split; [assumption|]. split; [assumption|]. split; [assumption|].
    intros E. rewrite E in H4. injection H4 as H4. destruct (sg_alkalinity r) as [a| | |]; try discriminate.
    rewrite fin_sub in H4. injection H4 as H4. f_equal. lra.
  - intros s x s' r -> Hf y ->. destruct x as [|c [|? x]]; [discriminate| |discriminate].
    cbn [lsqfun_calibrate] in Hf. rewrite add_nothing in Hf.
    destruct (solve_pH_gran c tm pH temps M totals ks pmin pmax n) as [sr|e] eqn:Es; cbn [bind] in Hf; [|discriminate].
    rewrite add_nothing in Hf. injection Hf as <- <-. split; [reflexivity|]. exists c, sr. auto.
Qed.

(* masses 1 and 3 in M = 1 of alkalinity 0: pH 0 at both gives (m+M) = 2, 4 = 1 (m + 1),
   i.e. c n = 1, A = -1, k = 1 *)
Example C34_nonvacuous : exists r,
  solve_pH_gran (Fin 1) (map Fin [1; 3]) (map Fin [0; 0]) [] (Fin 1) [] [] (Fin (-1)) (Fin 1) (Fin 1) = Ok r /\
  sg_alkalinity r = Fin (1000000 * (-1)).
Proof.
  apply (C34_pH_gran_exact 1 [1; 3] [0; 0] [] 1 [] [] (-1) 1 1 (-1) 1); try lra; [reflexivity| |].
  - exists 0%nat, 1%nat, 0, 0, 1, 3. repeat split; (reflexivity || lra).
  - intros [|[|i]] p m; cbn [nth_error]; [| |destruct i; discriminate]; intros [= <-] [= <-] _; unfold gran_value;
      rewrite Ropp_0, Rpower_O by lra; ring.
Qed.

(* ------------------------------------------------------------------ *)
(** * C44: what a failed calibration leaves behind *)

(* one point, window upside down: the solver raises after the titrant's sulfate has been
   added and before it is taken away *)
Theorem C44_failed_calibration_refuted : exists st cert tm pH temps M totals ks pmin pmax init n titrant_totals totals' e,
  calibrate_pH st cert tm pH temps M totals ks pmin pmax init n titrant_totals = (totals', Err e) /\
  totals' <> (totals : dict (nd xr)).
Proof.
  exists stop_now, (Fin 2000), (map Fin [1]), [Fin 3], [Fin 25], (Fin 1), [("total_sulfate", NdA (map Fin [0]))], [],
    (Fin 4), (Fin 3), (Fin 1), (Fin 1), [("titrant_total_sulfate", VNum (Fin 1))].
  pose proof (add_arrays [1] 1 1 0 [("titrant_total_sulfate", VNum (Fin 1))] ltac:(split; [lra|repeat constructor; lra])
    ltac:(repeat constructor; intros []) [("total_sulfate", NdA (map Fin [0]))]) as Hadd.
  destruct Hadd as [t' [E1 [_ [_ E2]]]].
  { intros t f [[= <- <-]|[]]. exists "sulfate"%string, [0], 1. auto. }
  exists t', AssertionError. split.
  - unfold calibrate_pH, least_squares. cbn [existsb]. change (nisnan (Fin 1)) with false. cbn [orb lsqfun_calibrate].
    rewrite fin_n0, E1. unfold solve_pH. cbn [length map Nat.eqb negb]. rewrite x_ltb_fin_f by lra. reflexivity.
  - intros ->. specialize (E2 "total_sulfate"%string (VNum (Fin 1)) 1 [0] eq_refl eq_refl eq_refl).
    cbn in E2. injection E2 as E2. unfold estR in E2. lra.
Qed.

(* without titrant totals nothing is ever written *)
Theorem C44_no_titrant_totals_partial {T} `{Num T} : forall st (cert : T) tm ms temps M totals ks ai ei double pmin pmax c0 n,
  fst (calibrate_emf st cert tm ms temps M totals ks ai ei double pmin pmax c0 n []) = totals /\
  fst (calibrate_pH st cert tm ms temps M totals ks pmin pmax c0 n []) = totals /\
  fst (calibrate_pH_gran st cert tm ms temps M totals ks pmin pmax c0 n []) = totals.
Proof.
  intros st cert tm ms temps M totals ks ai ei double pmin pmax c0 n.
  assert (Hgen : forall solve, fst (least_squares st (lsqfun_calibrate solve cert tm M []) totals [c0]) = totals).
  { intros solve. destruct (least_squares st (lsqfun_calibrate solve cert tm M []) totals [c0]) as [s' r] eqn:E.
    apply (least_squares_state st _ _ (fun t => t = totals)) in E; [assumption|clear|reflexivity].
    intros s x s' r -> Hf. destruct x as [|c [|? x]]; try (injection Hf as <- _; reflexivity).
    cbn [lsqfun_calibrate] in Hf. rewrite add_nothing in Hf. destruct (solve c totals); [rewrite add_nothing in Hf|];
      injection Hf as <- _; reflexivity. }
  split; [|split]; apply Hgen.
Qed.

(* calibrating the titration of C34_nonvacuous with sulfuric acid *)
Example C42_nonvacuous :
  finite_points stop_now /\ masses_ok [1; 3] 1 /\
  named_arrays 2 [("total_sulfate", NdA (map Fin [1/2; 1/4]))] [("titrant_total_sulfate", VNum (Fin 1))] /\
  exists o, calibrate_pH_gran stop_now (Fin 2) (map Fin [1; 3]) (map Fin [0; 0]) [] (Fin 1)
     [("total_sulfate", NdA (map Fin [1/2; 1/4]))] [] (Fin (-1)) (Fin 1) (Fin 1) (Fin 1)
     [("titrant_total_sulfate", VNum (Fin 1))] = ([("total_sulfate", NdA (map Fin [1/2; 1/4]))], Ok o).
Proof.
  assert (Hfp : finite_points stop_now) by (intros h x E; discriminate).
  assert (Hok : masses_ok [1; 3] 1) by (split; [lra|repeat constructor; lra]).
  assert (Hna : named_arrays 2 [("total_sulfate", NdA (map Fin [1/2; 1/4]))] [("titrant_total_sulfate", VNum (Fin 1))]).
  { intros t f [[= <- <-]|[]]. exists "sulfate"%string, [1/2; 1/4], 1. auto. }
  split; [assumption|]. split; [assumption|]. split; [assumption|].
  destruct (add_arrays [1; 3] 1 1 0 [("titrant_total_sulfate", VNum (Fin 1))] Hok ltac:(repeat constructor; intros [])
    [("total_sulfate", NdA (map Fin [1/2; 1/4]))] Hna) as [t1 [E1 _]].
  pose proof (add_revert [1; 3] 1 1 [("titrant_total_sulfate", VNum (Fin 1))] [("total_sulfate", NdA (map Fin [1/2; 1/4]))] t1 Hok ltac:(repeat constructor; intros [])
    ltac:(repeat constructor; intros []) Hna E1) as E2.
  assert (Hg : exists r, solve_pH_gran (Fin 1) (map Fin [1; 3]) (map Fin [0; 0]) [] (Fin 1) t1 [] (Fin (-1)) (Fin 1) (Fin 1) = Ok r /\
    sg_alkalinity r = Fin (1000000 * (-1))).
  { apply (C34_pH_gran_exact 1 [1; 3] [0; 0] [] 1 t1 [] (-1) 1 1 (-1) 1); try lra; [reflexivity| |].
    - exists 0%nat, 1%nat, 0, 0, 1, 3. repeat split; (reflexivity || lra).
    - intros [|[|i]] p m; cbn [nth_error]; [| |destruct i; discriminate]; intros [= <-] [= <-] _; unfold gran_value;
        rewrite Ropp_0, Rpower_O by lra; ring. }
  destruct Hg as [r [Hr1 Hr2]].
  unfold calibrate_pH_gran, least_squares. cbn [existsb]. change (nisnan (Fin 1)) with false. cbn [orb lsqfun_calibrate].
  rewrite fin_n0, E1, Hr1. cbn [bind]. rewrite E2, Hr2, fin_sub. eexists. reflexivity.
Qed.
