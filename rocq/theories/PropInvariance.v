(* PropInvariance.v -- C39, C40: what the solvers' answers do not depend on *)
From Coq Require Import Reals Qreals Lra.
From Verif Require Export PropEmf.
Open Scope list_scope.
Open Scope R_scope.

(* ------------------------------------------------------------------ *)
(** * C39: EMF offset *)

(* the solver's unknowns are [alkalinity; EMF0]; shift the second *)
Definition shift_x (d : R) (x : list xr) : list xr :=
  match x with [a; e] => [a; e ⊕ Fin d] | _ => x end.
Definition shift_hist (d : R) (h : list (list xr * list xr)) : list (list xr * list xr) :=
  map (fun xy => (shift_x d (fst xy), snd xy)) h.

(* an optimiser that has no preferred origin for EMF0: shown the same residuals at
   shifted trial points, its next trial point is the shifted one *)
Definition origin_free (d : R) (st : strategy xr) : Prop :=
  forall h, s_next st (shift_hist d h) = option_map (shift_x d) (s_next st h) /\
            s_pick st (shift_hist d h) = s_pick st h.

Lemma lsqfun_shift c tm emf temps M totals ks n d x :
  lsqfun_solve_emf c tm (map Fin (shift_emf d emf)) temps M totals ks n (shift_x d x)
  = lsqfun_solve_emf c tm (map Fin emf) temps M totals ks n x.
Proof.
  destruct x as [|a [|e [|? ?]]]; try reflexivity. cbn [shift_x]. unfold lsqfun_solve_emf.
  rewrite emf_to_pH_arr_shift. reflexivity.
Qed.

Theorem C39_residual_offset_invariant : forall c tm emf temps M totals ks n d a e,
  lsqfun_solve_emf c tm (map (fun v => Fin (v + d)) emf) temps M totals ks n [a; e ⊕ Fin d]
  = lsqfun_solve_emf c tm (map Fin emf) temps M totals ks n [a; e].
Proof.
  intros. rewrite <- (lsqfun_shift c tm emf temps M totals ks n d [a; e]). unfold shift_emf. rewrite map_map. reflexivity.
Qed.

Lemma isnan_shift d x : existsb nisnan (shift_x d x) = existsb nisnan x.
Proof. destruct x as [|a [|e [|? ?]]]; try reflexivity. cbn. destruct e; reflexivity. Qed.

Lemma loop_shift {S} st (f f' : S -> list xr -> S * res (list xr)) d :
  origin_free d st -> (forall s x, f' s (shift_x d x) = f s x) ->
  forall k s h, lsq_loop st f' k s (shift_hist d h) =
    let (s', r) := lsq_loop st f k s h in
    (s', match r with Ok h' => Ok (shift_hist d h') | Err e => Err e end).
Proof.
  intros Ho Hf. induction k as [|k IH]; intros s h; cbn [lsq_loop]; [reflexivity|].
  rewrite (proj1 (Ho h)). destruct (s_next st h) as [x|]; cbn [option_map]; [|reflexivity].
  rewrite Hf. destruct (f s x) as [s' [y|e]]; [|reflexivity]. rewrite <- IH. f_equal.
  unfold shift_hist. rewrite map_app. reflexivity.
Qed.

Lemma lsq_shift {S} st (f f' : S -> list xr -> S * res (list xr)) d s x0 :
  origin_free d st -> (forall s x, f' s (shift_x d x) = f s x) ->
  least_squares st f' s (shift_x d x0) =
    let (s', r) := least_squares st f s x0 in
    (s', match r with Ok o => Ok {| or_x := shift_x d (or_x o); or_fun := or_fun o |} | Err e => Err e end).
Proof.
  intros Ho Hf. unfold least_squares. rewrite isnan_shift. destruct (existsb nisnan x0); [reflexivity|].
  rewrite Hf. destruct (f s x0) as [s1 [y0|e]]; [|reflexivity].
  destruct (forallb nisfinite y0); [|reflexivity].
  change ([(shift_x d x0, y0)]) with (shift_hist d [(x0, y0)]). rewrite (loop_shift st f f' d Ho Hf).
  destruct (lsq_loop st f (s_max st) s1 [(x0, y0)]) as [s2 [h|e]]; [|reflexivity].
  rewrite (proj2 (Ho h)). unfold shift_hist.
  change (shift_x d x0, y0) with ((fun xy : list xr * list xr => (shift_x d (fst xy), snd xy)) (x0, y0)).
  rewrite map_nth. reflexivity.
Qed.

(* the same result, except that EMF0 (and every quantity that is an EMF) is d higher *)
Definition same_but_offset (d : R) (r r' : emf_result xr) : Prop :=
  se_alkalinity r' = se_alkalinity r /\ se_alkalinity_std r' = se_alkalinity_std r /\
  se_alkalinity_all r' = se_alkalinity_all r /\ se_pH r' = se_pH r /\ se_used r' = se_used r /\
  se_emf0 r' = se_emf0 r ⊕ Fin d /\ or_fun (se_opt_result r') = or_fun (se_opt_result r) /\
  ga_alkalinity (gg_ga (se_ggr r')) = ga_alkalinity (gg_ga (se_ggr r)) /\
  gg_emf0 (se_ggr r') = gg_emf0 (se_ggr r) ⊕ Fin d.

Lemma mask_shift u d emf : mask u (map Fin (shift_emf d emf)) = map Fin (shift_emf d (mask u emf)).
Proof. unfold shift_emf. rewrite mask_map, mask_map. reflexivity. Qed.

Lemma once_shift st (c : xr) tm emf temps M totals ks ai ei logic pmin pmax n t d :
  origin_free d st -> -273.15 < t -> Forall (fun x => x = t) temps ->
  let e' := option_map (fun e => e ⊕ Fin d) ei in
  match solve_emf_once st c (map Fin tm) (map Fin emf) (map Fin temps) (Fin M) totals ks ai ei logic pmin pmax n,
        solve_emf_once st c (map Fin tm) (map Fin (shift_emf d emf)) (map Fin temps) (Fin M) totals ks ai e' logic pmin pmax n with
  | Ok r, Ok r' => same_but_offset d r r'
  | Err e, Err f => e = f
  | _, _ => False
  end.
Proof.
  intros Ho Ht Hu e'. destruct (C28_gran_emf_offset tm emf temps M c n logic t d Ht Hu) as [H1 H2].
  unfold solve_emf_once.
  destruct (gran_guesses (map Fin tm) (map Fin emf) (map Fin temps) (Fin M) c n logic) as [gg|eg] eqn:Eg.
  2:{ rewrite (H2 _ eq_refl). reflexivity. }
  destruct (H1 gg eq_refl) as [gg' [Eg' [Ha [_ [He Hp]]]]]. rewrite Eg'. cbn [bind]. clear H1 H2.
  destruct (nltb pmin pmax); cbn [assert_ bind]; [|reflexivity].
  assert (EpH : match e' with Some v => emf_to_pH_arr (map Fin (shift_emf d emf)) v (map Fin temps) | None => gg_pH gg' end
     = match ei with Some v => emf_to_pH_arr (map Fin emf) v (map Fin temps) | None => gg_pH gg end).
  { unfold e'. destruct ei; cbn [option_map]; [apply emf_to_pH_arr_shift|exact Hp]. }
  rewrite EpH.
  set (u := in_window pmin pmax _).
  destruct (all_fit (length u) totals && all_fit (length u) ks); cbn [negb]; [|reflexivity].
  set (alk0 := match ai with Some a => a ⊗ nofQ 0.000001 | None => ga_alkalinity (gg_ga gg) end).
  assert (Ea0 : match ai with Some a => a ⊗ nofQ 0.000001 | None => ga_alkalinity (gg_ga gg') end = alk0).
  { unfold alk0. destruct ai; [reflexivity|exact Ha]. }
  rewrite Ea0. set (e0 := match ei with Some v => v | None => gg_emf0 gg end).
  assert (Ee0 : match e' with Some v => v | None => gg_emf0 gg' end = e0 ⊕ Fin d).
  { unfold e', e0. destruct ei; cbn [option_map]; [reflexivity|exact He]. }
  rewrite Ee0. rewrite mask_shift. rewrite (mask_map Fin u emf).
  change ([alk0; e0 ⊕ Fin d]) with (shift_x d [alk0; e0]).
  rewrite (lsq_shift st
    (fun (_ : unit) x => (tt, lsqfun_solve_emf c (mask u (map Fin tm)) (map Fin (mask u emf)) (mask u (map Fin temps)) (Fin M)
        (dmap (nd_mask u) totals) (dmap (nd_mask u) ks) n x)) _ d tt [alk0; e0] Ho)
    by (intros [] x; rewrite lsqfun_shift; reflexivity).
  set (f := fun (_ : unit) x => (tt, lsqfun_solve_emf c (mask u (map Fin tm)) (map Fin (mask u emf)) (mask u (map Fin temps)) (Fin M)
        (dmap (nd_mask u) totals) (dmap (nd_mask u) ks) n x)).
  destruct (least_squares st f tt [alk0; e0]) as [w ro] eqn:El. cbn [snd].
  destruct ro as [o|]; cbn [bind]; [|reflexivity]. cbn [or_x].
  assert (Hfun : lsqfun_solve_emf c (mask u (map Fin tm)) (map Fin (mask u emf)) (mask u (map Fin temps)) (Fin M)
        (dmap (nd_mask u) totals) (dmap (nd_mask u) ks) n (or_x o) = Ok (or_fun o)).
  { eapply (least_squares_inv st unit f (fun _ => True)
      (fun x y => lsqfun_solve_emf c (mask u (map Fin tm)) (map Fin (mask u emf)) (mask u (map Fin temps)) (Fin M)
        (dmap (nd_mask u) totals) (dmap (nd_mask u) ks) n x = Ok y)); [|exact I|exact El].
    intros s x s' r' _ Hf y ->. unfold f in Hf. injection Hf as _ Hf. auto. }
  destruct (lsqfun_two _ _ _ _ _ _ _ _ _ _ Hfun) as [a [e Ex]]. rewrite Ex.
  cbn [shift_x nth_error of_opt bind]. rewrite emf_to_pH_arr_shift.
  destruct (alkalinity_all _ _ _ _ _ _ _) as [al|]; cbn [bind]; [|reflexivity].
  unfold same_but_offset. cbn [se_alkalinity se_alkalinity_std se_alkalinity_all se_pH se_used se_emf0 se_opt_result se_ggr or_fun].
  repeat split; assumption.
Qed.

(* the electrode's offset only moves EMF0 -- for the whole solver, single or double *)
Theorem C39_solve_emf_offset : forall st c tm emf temps M totals ks ai double ei logic pmin pmax n t d,
  origin_free d st -> -273.15 < t -> Forall (fun x => x = t) temps ->
  let shifted := solve_emf st c (map Fin tm) (map (fun v => Fin (v + d)) emf) (map Fin temps) (Fin M) totals ks
                   ai double (option_map (fun e => e ⊕ Fin d) ei) logic pmin pmax n in
  match solve_emf st c (map Fin tm) (map Fin emf) (map Fin temps) (Fin M) totals ks ai double ei logic pmin pmax n with
  | Ok r => exists r', shifted = Ok r' /\ same_but_offset d r r'
  | Err e => shifted = Err e
  end.
Proof.
  intros st c tm emf temps M totals ks ai double ei logic pmin pmax n t d Ho Ht Hu shifted.
  subst shifted. replace (map (fun v => Fin (v + d)) emf) with (map Fin (shift_emf d emf))
    by (unfold shift_emf; rewrite map_map; reflexivity).
  unfold solve_emf.
  pose proof (once_shift st c tm emf temps M totals ks ai ei logic pmin pmax n t d Ho Ht Hu) as H1. cbv zeta in H1.
  destruct (solve_emf_once st c (map Fin tm) (map Fin emf) (map Fin temps) (Fin M) totals ks ai ei logic pmin pmax n) as [r|e];
  destruct (solve_emf_once st c (map Fin tm) (map Fin (shift_emf d emf)) (map Fin temps) (Fin M) totals ks ai _ logic pmin pmax n) as [r'|e'];
    cbn [bind]; try contradiction; [|subst; reflexivity].
  destruct double; [|eauto].
  destruct H1 as [Ea [_ [_ [_ [_ [Ee _]]]]]]. rewrite Ea, Ee.
  pose proof (once_shift st c tm emf temps M totals ks (Some (se_alkalinity r)) (Some (se_emf0 r)) "v23.7+" pmin pmax n t d Ho Ht Hu) as H2.
  cbn [option_map] in H2.
  destruct (solve_emf_once st c (map Fin tm) (map Fin emf) (map Fin temps) (Fin M) totals ks (Some (se_alkalinity r)) (Some (se_emf0 r)) "v23.7+" pmin pmax n) as [r2|e];
  destruct (solve_emf_once st c (map Fin tm) (map Fin (shift_emf d emf)) (map Fin temps) (Fin M) totals ks _ _ "v23.7+" pmin pmax n) as [r2'|e'];
    try contradiction; [eauto|subst; reflexivity].
Qed.

(* optimisers without a preferred EMF0 exist: step EMF0 by 1 mV up to the evaluation limit *)
Definition st39 : strategy xr := {|
  s_next := fun h => match rev h with ([a; e], _) :: _ => Some [a; e ⊕ Fin 1] | _ => None end;
  s_pick := fun h => pred (length h);
  s_max := 100 |}.
Example C39_nonvacuous : forall d, origin_free d st39.
Proof.
  intros d h. unfold st39, shift_hist. cbn [s_next s_pick]. rewrite map_length. split; [|reflexivity].
  rewrite <- map_rev. destruct (rev h) as [|[x y] l]; [reflexivity|]. cbn [map fst snd].
  destruct x as [|a [|e [|? ?]]]; try reflexivity. cbn [shift_x option_map].
  f_equal. f_equal. f_equal. destruct e; cbn; try reflexivity. f_equal. ring.
Qed.

(* ------------------------------------------------------------------ *)
(** * C40: scaling both masses *)

Lemma map2_swap {A B C} (f : A -> B -> C) x y : map2 f x y = map2 (fun b a => f a b) y x.
Proof. revert y; induction x as [|a x IH]; intros [|b y]; cbn; try reflexivity. rewrite IH. reflexivity. Qed.
Lemma Rcov_sym x y : Rcov x y = Rcov y x.
Proof. unfold Rcov. rewrite map2_swap. f_equal. apply map2_ext. intros; ring. Qed.
Lemma Rcov_scale2 s x y : Rcov (map (fun v => s * v) x) (map (fun v => s * v) y) = s * s * Rcov x y.
Proof. rewrite Rcov_scale, Rcov_sym, Rcov_scale, Rcov_sym. ring. Qed.
Lemma two_distinct_scale s x : 0 < s -> two_distinct x -> two_distinct (map (fun v => s * v) x).
Proof.
  intros Hs [a [b [Ha [Hb Hab]]]]. exists (s * a), (s * b). repeat split.
  - apply in_map_iff. eauto.
  - apply in_map_iff. eauto.
  - intros E. apply Hab. apply Rmult_eq_reg_l with s; lra.
Qed.
Lemma slope_scale2 s x y : 0 < s -> two_distinct x ->
  slopeR (map (fun v => s * v) x) (map (fun v => s * v) y) = slopeR x y.
Proof. intros Hs Hd. unfold slopeR. rewrite !Rcov_scale2. pose proof (Rcov_pos x Hd). field. split; lra. Qed.
Lemma intercept_scale2 s x y : 0 < s -> two_distinct x ->
  interceptR (map (fun v => s * v) x) (map (fun v => s * v) y) = s * interceptR x y.
Proof. intros Hs Hd. unfold interceptR. rewrite slope_scale2, !Rmean_scal by assumption. ring. Qed.

Definition infinite_or_nan (X : xr) : Prop := forall r, X <> Fin r.
Lemma inf_div_pos X a b : infinite_or_nan X -> 0 < a -> 0 < b -> X ⊘ Fin a = X ⊘ Fin b.
Proof.
  intros HX Ha Hb. destruct X as [r| | |]; cbn; [destruct (HX r); reflexivity| | |reflexivity];
    rewrite !rltb_false by lra; reflexivity.
Qed.
Lemma inf_mul X r : infinite_or_nan X -> infinite_or_nan (X ⊗ Fin r).
Proof.
  intros HX. destruct X as [q| | |]; [destruct (HX q); reflexivity| | |intros ? ?; discriminate];
    cbn; unfold inf_times; destruct (rltb _ _); try (intros ? ?; discriminate); destruct (rltb _ _); intros ? ?; discriminate.
Qed.
Lemma inf_times_inf a : infinite_or_nan (inf_times a).
Proof. unfold inf_times. destruct (rltb _ _); try (intros ? ?; discriminate); destruct (rltb _ _); intros ? ?; discriminate. Qed.

(* alkalinity from a regression: x-intercept times c n / M *)
Lemma linregress_scale2 s x y M c n : 0 < s -> 0 < M -> length y = length x ->
  match linregress (map Fin x) (map Fin y),
        linregress (map Fin (map (fun v => s * v) x)) (map Fin (map (fun v => s * v) y)) with
  | Ok lr, Ok lr' => nopp (lr_intercept lr') ⊘ lr_slope lr' ⊗ Fin c ⊗ Fin n ⊘ Fin (s * M)
                     = nopp (lr_intercept lr) ⊘ lr_slope lr ⊗ Fin c ⊗ Fin n ⊘ Fin M
  | Err e, Err e' => e = e'
  | _, _ => False
  end.
Proof.
  intros Hs HM Hlen. assert (HsM : 0 < s * M) by nra. destruct x as [|u [|v x]].
  - reflexivity.
  - destruct y as [|w [|? y]]; try discriminate. cbn [map].
    destruct (linregress_single u w) as [lr [-> [E1 E2]]].
    destruct (linregress_single (s * u) (s * w)) as [lr' [-> [E1' E2']]]. rewrite E1, E2, E1', E2'. reflexivity.
  - destruct (Classical_Prop.classic (two_distinct (u :: v :: x))) as [Hd|Hd].
    + pose proof (two_distinct_scale s _ Hs Hd) as Hd'.
      destruct (linregress_fin _ y Hd Hlen) as [lr [-> [E1 E2]]].
      destruct (linregress_fin _ (map (fun v => s * v) y) Hd') as [lr' [-> [E1' E2']]]; [rewrite !map_length; assumption|].
      rewrite E1, E2, E1', E2', slope_scale2, intercept_scale2 by assumption. rewrite !fin_opp.
      set (a := slopeR _ _). set (b := interceptR _ _).
      destruct (Req_dec a 0) as [Hz|Hz].
      * rewrite Hz.
        assert (Edz : forall q, Fin q ⊘ Fin 0 = inf_times q) by (intros q; cbn; rewrite reqb_true by reflexivity; reflexivity).
        rewrite !Edz. replace (- (s * b)) with (s * - b) by ring. rewrite inf_times_scale by assumption.
        apply inf_div_pos; [|assumption|assumption]. apply inf_mul, inf_mul, inf_times_inf.
      * rewrite !fin_div by assumption. rewrite !fin_mul. rewrite !fin_div by lra. f_equal. field. repeat split; lra.
    + assert (Hd' : ~ two_distinct (map (fun v => s * v) (u :: v :: x))).
      { intros Hd'. apply Hd. destruct Hd' as [a [b [Ha [Hb Hab]]]].
        apply in_map_iff in Ha as [a' [<- Ha]]. apply in_map_iff in Hb as [b' [<- Hb]].
        exists a', b'. repeat split; [assumption|assumption|]. intros ->. apply Hab. reflexivity. }
      unfold linregress. rewrite (all_same_not_distinct _ _ _ Hd).
      change (map (fun v0 : R => s * v0) (u :: v :: x)) with (s * u :: s * v :: map (fun v => s * v) x) in *.
      rewrite (all_same_not_distinct _ _ _ Hd'). reflexivity.
Qed.

Definition scale_masses (s : R) (tm : list R) : list R := map (fun m => s * m) tm.

Lemma masses_ok_scale s tm M : 0 < s -> masses_ok tm M -> masses_ok (scale_masses s tm) (s * M).
Proof.
  intros Hs [HM Ht]. split; [nra|]. unfold scale_masses. apply Forall_forall. intros v Hv.
  apply in_map_iff in Hv as [m [<- Hm]]. rewrite Forall_forall in Ht. specialize (Ht m Hm). cbv beta in Ht. nra.
Qed.

Lemma df_scale s m M : 0 < s -> 0 < M -> 0 <= m ->
  get_dilution_factor (Fin (s * m)) (Fin (s * M)) = get_dilution_factor (Fin m) (Fin M).
Proof.
  intros Hs HM Hm. assert (0 < s * (m + M)) by (apply Rmult_lt_0_compat; lra).
  rewrite !df_fin by lra. f_equal. field. split; lra.
Qed.

Lemma acid_scale s m M c n : 0 < s -> 0 < M -> 0 <= m ->
  Fin (s * m) ⊗ Fin c ⊗ Fin n ⊘ (Fin (s * m) ⊕ Fin (s * M)) = Fin m ⊗ Fin c ⊗ Fin n ⊘ (Fin m ⊕ Fin M).
Proof.
  intros Hs HM Hm. assert (0 < s * (m + M)) by (apply Rmult_lt_0_compat; lra).
  xsimp. rewrite !fin_div by lra. f_equal. field. split; lra.
Qed.

Lemma map2_scale_masses {A B} (f g : A -> xr -> B) (l : list A) s tm :
  (forall a m, In m tm -> f a (Fin (s * m)) = g a (Fin m)) ->
  map2 f l (map Fin (scale_masses s tm)) = map2 g l (map Fin tm).
Proof.
  unfold scale_masses. revert l; induction tm as [|m tm IH]; intros [|a l] E; cbn; try reflexivity.
  rewrite E by (cbn; auto). f_equal. apply IH. intros b k Hk. apply E. cbn; auto.
Qed.

Lemma alkalinity_all_scale s pH tm M c n totals ks : 0 < s -> masses_ok tm M ->
  alkalinity_all pH (map Fin (scale_masses s tm)) (Fin (s * M)) (Fin c) (Fin n) totals ks
  = alkalinity_all pH (map Fin tm) (Fin M) (Fin c) (Fin n) totals ks.
Proof.
  intros Hs [HM Ht]. unfold alkalinity_all. destruct (alkalinity_arr pH totals ks _) as [sim|]; cbn [bind]; [|reflexivity].
  f_equal. apply map2_scale_masses. intros a m Hm. rewrite Forall_forall in Ht. specialize (Ht m Hm). cbv beta in Ht.
  rewrite df_scale, acid_scale by assumption. reflexivity.
Qed.

Theorem C40_solve_pH_mass_scaling : forall c tm pH temps M totals ks pmin pmax n s,
  0 < s -> masses_ok tm M ->
  match solve_pH (Fin c) (map Fin tm) pH temps (Fin M) totals ks pmin pmax (Fin n),
        solve_pH (Fin c) (map (fun m => Fin (s * m)) tm) pH temps (Fin (s * M)) totals ks pmin pmax (Fin n) with
  | Ok r, Ok r' => sp_alkalinity r' = sp_alkalinity r /\ sp_alkalinity_std r' = sp_alkalinity_std r /\
                   sp_alkalinity_all r' = sp_alkalinity_all r /\ sp_used r' = sp_used r
  | Err e, Err e' => e = e'
  | _, _ => False
  end.
Proof.
  intros c tm pH temps M totals ks pmin pmax n s Hs Hok.
  replace (map (fun m => Fin (s * m)) tm) with (map Fin (scale_masses s tm)) by (unfold scale_masses; rewrite map_map; reflexivity).
  unfold solve_pH. replace (length (map Fin (scale_masses s tm))) with (length (map Fin tm))
    by (unfold scale_masses; rewrite !map_length; reflexivity).
  destruct (negb _); [reflexivity|]. destruct (nltb pmin pmax); cbn [assert_ bind]; [|reflexivity].
  rewrite alkalinity_all_scale by assumption. destruct (alkalinity_all _ _ _ _ _ _ _); cbn [bind]; [|reflexivity].
  cbn. auto.
Qed.

Theorem C40_solve_pH_gran_mass_scaling : forall c tm pH temps M totals ks pmin pmax n s,
  0 < s -> masses_ok tm M ->
  match solve_pH_gran (Fin c) (map Fin tm) (map Fin pH) temps (Fin M) totals ks pmin pmax (Fin n),
        solve_pH_gran (Fin c) (map (fun m => Fin (s * m)) tm) (map Fin pH) temps (Fin (s * M)) totals ks pmin pmax (Fin n) with
  | Ok r, Ok r' => sg_alkalinity r' = sg_alkalinity r /\ sg_used r' = sg_used r
  | Err e, Err e' => e = e'
  | _, _ => False
  end.
Proof.
  intros c tm pH temps M totals ks pmin pmax n s Hs [HM Ht].
  replace (map (fun m => Fin (s * m)) tm) with (map Fin (scale_masses s tm)) by (unfold scale_masses; rewrite map_map; reflexivity).
  unfold solve_pH_gran. replace (length (map Fin (scale_masses s tm))) with (length (map Fin tm))
    by (unfold scale_masses; rewrite !map_length; reflexivity).
  destruct (Nat.eqb_spec (length (map Fin pH)) (length (map Fin tm))) as [Hl|]; cbn [negb]; [|reflexivity].
  rewrite !map_length in Hl.
  destruct (nltb pmin pmax); cbn [assert_ bind]; [|reflexivity].
  set (u := in_window pmin pmax (map Fin pH)).
  set (G := map2 (fun m p => (m + M) * pow10R (- p)) tm pH).
  assert (EG : map2 (fun m p : xr => (m ⊕ Fin M) ⊗ npow10 (nopp p)) (map Fin tm) (map Fin pH) = map Fin G).
  { apply map2_fin. intros a b. xsimp. reflexivity. }
  assert (EG' : map2 (fun m p : xr => (m ⊕ Fin (s * M)) ⊗ npow10 (nopp p)) (map Fin (scale_masses s tm)) (map Fin pH)
                = map Fin (map (fun v => s * v) G)).
  { rewrite (map2_fin (fun m p => (m + s * M) * pow10R (- p))) by (intros; xsimp; reflexivity). f_equal.
    unfold G, scale_masses. rewrite map_map2. rewrite map2_swap, (map2_swap _ tm pH), map2_map_r. apply map2_ext. intros; ring. }
  rewrite EG, EG'. unfold scale_masses. rewrite !mask_map.
  pose proof (linregress_scale2 s (mask u tm) (mask u G) M c n Hs HM) as HL.
  rewrite (mask_length_eq u G tm) in HL by (unfold G; rewrite map2_length; congruence). specialize (HL eq_refl).
  destruct (linregress (map Fin (mask u tm)) (map Fin (mask u G))) as [lr|e];
  destruct (linregress (map Fin (map (fun v => s * v) (mask u tm))) (map Fin (map (fun v => s * v) (mask u G)))) as [lr'|e'];
    cbn [bind]; try contradiction; [|assumption].
  cbn [sg_alkalinity sg_used]. split; [|reflexivity]. f_equal. exact HL.
Qed.

(** the EMF solver too *)

Lemma emf0_scale s m M c n A e t : 0 < s -> 0 < M -> 0 <= m ->
  gran_emf0 (Fin (s * m)) e t (Fin (s * M)) (Fin c) A (Fin n) = gran_emf0 (Fin m) e t (Fin M) (Fin c) A (Fin n).
Proof.
  intros Hs HM Hm. unfold gran_emf0. assert (0 < s * (m + M)) by (apply Rmult_lt_0_compat; lra).
  f_equal. f_equal. f_equal. rewrite !fin_add, !fin_mul. replace (s * m + s * M) with (s * (m + M)) by ring.
  destruct A as [A| | |].
  - rewrite !fin_mul, !fin_sub, !fin_div by lra. f_equal. field. lra.
  - assert (E : Fin (s * M) ⊗ PInf = PInf) by (cbn; unfold inf_times; rewrite rltb_true by nra; reflexivity).
    assert (E' : Fin M ⊗ PInf = PInf) by (cbn; unfold inf_times; rewrite rltb_true by lra; reflexivity).
    rewrite E, E'. cbn. rewrite !rltb_false by lra. reflexivity.
  - assert (E : Fin (s * M) ⊗ NInf = NInf).
    { cbn; unfold inf_times. rewrite rltb_false, rltb_true by nra. reflexivity. }
    assert (E' : Fin M ⊗ NInf = NInf).
    { cbn; unfold inf_times. rewrite rltb_false, rltb_true by lra. reflexivity. }
    rewrite E, E'. cbn. rewrite !rltb_false by lra. reflexivity.
  - reflexivity.
Qed.

Definition same_gran (g g' : gran_guess xr) : Prop :=
  ga_alkalinity (gg_ga g') = ga_alkalinity (gg_ga g) /\ ga_used (gg_ga g') = ga_used (gg_ga g) /\
  gg_emf0 g' = gg_emf0 g /\ gg_emf0s g' = gg_emf0s g /\ gg_pH g' = gg_pH g.

Lemma gran_guesses_scale tm emf temps M c n logic s :
  0 < s -> masses_ok tm M -> Forall (fun t => -273.15 < t) temps ->
  match gran_guesses (map Fin tm) (map Fin emf) (map Fin temps) (Fin M) (Fin c) (Fin n) logic,
        gran_guesses (map Fin (scale_masses s tm)) (map Fin emf) (map Fin temps) (Fin (s * M)) (Fin c) (Fin n) logic with
  | Ok g, Ok g' => same_gran g g'
  | Err e, Err e' => e = e'
  | _, _ => False
  end.
Proof.
  intros Hs Hok Hb. unfold gran_guesses.
  assert (HA : match gran_alkalinity (map Fin tm) (map Fin emf) (map Fin temps) (Fin M) (Fin c) (Fin n) logic,
        gran_alkalinity (map Fin (scale_masses s tm)) (map Fin emf) (map Fin temps) (Fin (s * M)) (Fin c) (Fin n) logic with
  | Ok g, Ok g' => ga_alkalinity g' = ga_alkalinity g /\ ga_used g' = ga_used g
  | Err e, Err e' => e = e'
  | _, _ => False
  end).
  { unfold gran_alkalinity.
    assert (Esl : same_len (map Fin (scale_masses s tm)) (map Fin emf) (map Fin temps)
                = same_len (map Fin tm) (map Fin emf) (map Fin temps)).
    { unfold same_len, scale_masses. rewrite !map_length. reflexivity. }
    rewrite Esl. destruct (same_len (map Fin tm) (map Fin emf) (map Fin temps)) eqn:Es; cbn [negb]; [|reflexivity].
    apply same_len_spec in Es as [He Htt]. rewrite !map_length in He, Htt.
    destruct (gran_G_general tm emf temps M Hok He Htt Hb) as [G [EG [HlG [HnG _]]]].
    assert (Hls : length (scale_masses s tm) = length tm) by (unfold scale_masses; apply map_length).
    destruct (gran_G_general (scale_masses s tm) emf temps (s * M) (masses_ok_scale s tm M Hs Hok)
                (eq_trans He (eq_sym Hls)) (eq_trans Htt (eq_sym Hls)) Hb) as [G' [EG' [HlG' [HnG' _]]]].
    assert (EGG : G' = map (fun v => s * v) G).
    { apply list_ext; [rewrite map_length; congruence|]. intros i x Hx.
      rewrite nth_error_map in Hx. destruct (nth_error G i) as [g|] eqn:Eg; [|discriminate]. injection Hx as <-.
      destruct (nth_error_lt_ex G tm i g (eq_sym HlG) Eg) as [m Hm].
      destruct (nth_error_lt_ex tm emf i m He Hm) as [e Hee]. destruct (nth_error_lt_ex tm temps i m Htt Hm) as [t Ht].
      rewrite (HnG i m e t Hm Hee Ht) in Eg. injection Eg as <-.
      rewrite (HnG' i (s * m) e t); [f_equal; ring| |assumption|assumption].
      unfold scale_masses. rewrite nth_error_map, Hm. reflexivity. }
    rewrite EG, EG', EGG, gran_used_scale by assumption.
    destruct (gran_used logic (map Fin G)) as [u|e] eqn:Eu; cbn [bind]; [|reflexivity].
    unfold scale_masses. rewrite !mask_map.
    pose proof (linregress_scale2 s (mask u tm) (mask u G) M c n Hs (proj1 Hok)) as HL.
    rewrite (mask_length_eq u G tm) in HL by congruence. specialize (HL eq_refl).
    destruct (linregress (map Fin (mask u tm)) (map Fin (mask u G))) as [lr|e];
    destruct (linregress (map Fin (map (fun v => s * v) (mask u tm))) (map Fin (map (fun v => s * v) (mask u G)))) as [lr'|e'];
      cbn [bind]; try contradiction; [|assumption].
    cbn [ga_alkalinity ga_used]. auto. }
  destruct (gran_alkalinity (map Fin tm) (map Fin emf) (map Fin temps) (Fin M) (Fin c) (Fin n) logic) as [g|e];
  destruct (gran_alkalinity (map Fin (scale_masses s tm)) (map Fin emf) (map Fin temps) (Fin (s * M)) (Fin c) (Fin n) logic) as [g'|e'];
    cbn [bind]; try contradiction; [|assumption].
  destruct HA as [Ha Hu].
  assert (E0 : map3 (fun m e t => gran_emf0 m e t (Fin (s * M)) (Fin c) (ga_alkalinity g') (Fin n))
                 (map Fin (scale_masses s tm)) (map Fin emf) (map Fin temps)
             = map3 (fun m e t => gran_emf0 m e t (Fin M) (Fin c) (ga_alkalinity g) (Fin n))
                 (map Fin tm) (map Fin emf) (map Fin temps)).
  { rewrite Ha. destruct Hok as [HM Ht]. clear - Hs HM Ht. unfold scale_masses.
    revert emf temps; induction tm as [|m tm IH]; intros [|e emf] [|t temps]; cbn [map map3]; try reflexivity.
    inversion Ht; subst. rewrite emf0_scale by assumption. f_equal. apply IH. assumption. }
  unfold same_gran. cbn [gg_ga gg_emf0 gg_emf0s gg_pH]. rewrite E0, Ha, Hu. repeat split; reflexivity.
Qed.

Lemma lsqfun_scale s tm M c n emf temps totals ks x : 0 < s -> masses_ok tm M ->
  lsqfun_solve_emf (Fin c) (map Fin (scale_masses s tm)) emf temps (Fin (s * M)) totals ks (Fin n) x
  = lsqfun_solve_emf (Fin c) (map Fin tm) emf temps (Fin M) totals ks (Fin n) x.
Proof.
  intros Hs [HM Ht]. unfold lsqfun_solve_emf. destruct x as [|a [|e [|? ?]]]; try reflexivity.
  destruct (alkalinity_arr _ totals ks _) as [sim|]; cbn [bind]; [|reflexivity].
  f_equal. apply map2_scale_masses. intros b m Hm. rewrite Forall_forall in Ht. specialize (Ht m Hm). cbv beta in Ht.
  rewrite df_scale, acid_scale by assumption. reflexivity.
Qed.

Definition same_solution (r r' : emf_result xr) : Prop :=
  se_alkalinity r' = se_alkalinity r /\ se_emf0 r' = se_emf0 r /\ se_alkalinity_std r' = se_alkalinity_std r /\
  se_alkalinity_all r' = se_alkalinity_all r /\ se_pH r' = se_pH r /\ se_used r' = se_used r /\
  se_opt_result r' = se_opt_result r /\ same_gran (se_ggr r) (se_ggr r').

Lemma masses_ok_mask u tm M : masses_ok tm M -> masses_ok (mask u tm) M.
Proof.
  intros [HM Ht]. split; [assumption|]. apply Forall_forall. intros m Hm. apply in_mask in Hm as [i [_ Hi]].
  eapply Forall_nth_error in Ht; eassumption.
Qed.

Lemma once_scale st c tm emf temps M totals ks ai ei logic pmin pmax n s :
  0 < s -> masses_ok tm M -> Forall (fun t => -273.15 < t) temps ->
  match solve_emf_once st (Fin c) (map Fin tm) (map Fin emf) (map Fin temps) (Fin M) totals ks ai ei logic pmin pmax (Fin n),
        solve_emf_once st (Fin c) (map Fin (scale_masses s tm)) (map Fin emf) (map Fin temps) (Fin (s * M)) totals ks ai ei logic pmin pmax (Fin n) with
  | Ok r, Ok r' => same_solution r r'
  | Err e, Err f => e = f
  | _, _ => False
  end.
Proof.
  intros Hs Hok Hb. pose proof (gran_guesses_scale tm emf temps M c n logic s Hs Hok Hb) as HG.
  unfold solve_emf_once.
  destruct (gran_guesses (map Fin tm) (map Fin emf) (map Fin temps) (Fin M) (Fin c) (Fin n) logic) as [g|eg];
  destruct (gran_guesses (map Fin (scale_masses s tm)) (map Fin emf) (map Fin temps) (Fin (s * M)) (Fin c) (Fin n) logic) as [g'|eg'];
    cbn [bind]; try contradiction; [|assumption].
  pose proof HG as [Ha [_ [He [_ Hp]]]]. rewrite Ha, He, Hp.
  destruct (nltb pmin pmax); cbn [assert_ bind]; [|reflexivity].
  set (u := in_window pmin pmax _).
  destruct (all_fit (length u) totals && all_fit (length u) ks); cbn [negb]; [|reflexivity].
  set (x0 := [match ai with Some a => a ⊗ nofQ 0.000001 | None => ga_alkalinity (gg_ga g) end; match ei with Some v => v | None => gg_emf0 g end]).
  assert (EL : forall f f', (forall z x, f z x = f' z x) ->
     snd (least_squares st f tt x0) = snd (least_squares st f' tt x0)).
  { intros f f' Hf. rewrite (least_squares_ext st f f' tt x0 Hf). reflexivity. }
  rewrite (EL (fun (_ : unit) x => (tt, lsqfun_solve_emf (Fin c) (mask u (map Fin (scale_masses s tm))) (mask u (map Fin emf)) (mask u (map Fin temps)) (Fin (s * M))
        (dmap (nd_mask u) totals) (dmap (nd_mask u) ks) (Fin n) x)) (fun (_ : unit) x => (tt, lsqfun_solve_emf (Fin c) (mask u (map Fin tm)) (mask u (map Fin emf)) (mask u (map Fin temps)) (Fin M)
        (dmap (nd_mask u) totals) (dmap (nd_mask u) ks) (Fin n) x))).
  2:{ intros z x. f_equal. unfold scale_masses. rewrite !mask_map. rewrite <- (lsqfun_scale s (mask u tm) M c n) by (try apply masses_ok_mask; assumption).
      reflexivity. }
  clear EL.
  destruct (snd (least_squares st _ tt x0)) as [o|]; cbn [bind]; [|reflexivity].
  destruct (nth_error (or_x o) 0) as [a|]; cbn [of_opt bind]; [|reflexivity].
  destruct (nth_error (or_x o) 1) as [e|]; cbn [of_opt bind]; [|reflexivity].
  rewrite alkalinity_all_scale by assumption.
  destruct (alkalinity_all _ _ _ _ _ _ _) as [al|]; cbn [bind]; [|reflexivity].
  unfold same_solution. cbn [se_alkalinity se_alkalinity_std se_alkalinity_all se_pH se_used se_emf0 se_opt_result se_ggr].
  repeat split; apply HG.
Qed.

Theorem C40_solve_emf_mass_scaling : forall st c tm emf temps M totals ks ai double ei logic pmin pmax n s,
  0 < s -> masses_ok tm M -> Forall (fun t => -273.15 < t) temps ->
  match solve_emf st (Fin c) (map Fin tm) (map Fin emf) (map Fin temps) (Fin M) totals ks ai double ei logic pmin pmax (Fin n),
        solve_emf st (Fin c) (map (fun m => Fin (s * m)) tm) (map Fin emf) (map Fin temps) (Fin (s * M)) totals ks ai double ei logic pmin pmax (Fin n) with
  | Ok r, Ok r' => same_solution r r'
  | Err e, Err f => e = f
  | _, _ => False
  end.
Proof.
  intros st c tm emf temps M totals ks ai double ei logic pmin pmax n s Hs Hok Hb.
  replace (map (fun m => Fin (s * m)) tm) with (map Fin (scale_masses s tm)) by (unfold scale_masses; rewrite map_map; reflexivity).
  unfold solve_emf. pose proof (once_scale st c tm emf temps M totals ks ai ei logic pmin pmax n s Hs Hok Hb) as H1.
  destruct (solve_emf_once st (Fin c) (map Fin tm) (map Fin emf) (map Fin temps) (Fin M) totals ks ai ei logic pmin pmax (Fin n)) as [r|e];
  destruct (solve_emf_once st (Fin c) (map Fin (scale_masses s tm)) (map Fin emf) (map Fin temps) (Fin (s * M)) totals ks ai ei logic pmin pmax (Fin n)) as [r'|e'];
    cbn [bind]; try contradiction; [|assumption].
  destruct double; [|assumption].
  destruct H1 as [Ea [Ee _]]. rewrite Ea, Ee. apply once_scale; assumption.
Qed.

Example C40_nonvacuous : exists r r',
  solve_emf st38 (Fin 1) (map Fin [1; 2]) (map Fin [0; 10]) (map Fin [25; 25]) (Fin 1) [] []
    (Some (Fin 0)) false (Some (Fin 0)) "v23.7+" (Fin (- (K25 / 2))) (Fin (3 * K25 / 2)) (Fin 1) = Ok r /\
  solve_emf st38 (Fin 1) (map (fun m => Fin (1000 * m)) [1; 2]) (map Fin [0; 10]) (map Fin [25; 25]) (Fin (1000 * 1)) [] []
    (Some (Fin 0)) false (Some (Fin 0)) "v23.7+" (Fin (- (K25 / 2))) (Fin (3 * K25 / 2)) (Fin 1) = Ok r' /\
  same_solution r r'.
Proof.
  destruct C36_nonvacuous as [r [Hr _]].
  assert (Hb : Forall (fun t => -273.15 < t) [25; 25]) by (repeat constructor; apply ex_t25).
  pose proof (C40_solve_emf_mass_scaling st38 1 [1; 2] [0; 10] [25; 25] 1 [] [] (Some (Fin 0)) false (Some (Fin 0)) "v23.7+"
    (Fin (- (K25 / 2))) (Fin (3 * K25 / 2)) 1 1000 ltac:(lra) ex_masses Hb) as H. rewrite Hr in H.
  destruct (solve_emf st38 (Fin 1) (map (fun m : R => Fin (1000 * m)) [1; 2]) _ _ _ _ _ _ _ _ _ _ _ _) as [r'|]; [|contradiction].
  eauto.
Qed.
