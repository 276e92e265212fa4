(* PropProfile.v -- C107, C108: the high-resolution DIC loss profile and the values reported at the
   titration points *)
From Coq Require Import Reals Qreals Lra Psatz Sorted.
From Verif Require Import PropLoss PropAlign Loss XRLemmas SpecLoss GranProofs PropText.
Open Scope list_scope.
Open Scope R_scope.

(* ------------------------------------------------------------------ *)
(** * Each step of the model *)

Section Steps.
Context {T : Type} `{Num T}.
Local Open Scope num_scope.

Lemma fitted_recurrence k M step : forall ds ms x l,
  fitted_steps k M step x ms ds = Ok l ->
  nth_error l 0 = Some x /\
  forall i xi d m y, nth_error l i = Some xi -> nth_error ds i = Some d -> nth_error ms i = Some m ->
    nth_error l (S i) = Some y -> y = xi ⊗ get_dilution_factor step (M ⊕ m) ⊖ k ⊗ d ⊗ step.
Proof.
  induction ds as [|d ds IH]; intros ms x l E; [destruct ms; discriminate|].
  destruct ds as [|d' ds].
  - assert (l = [x]) as -> by (destruct ms; cbn in E; apply ok_inj in E; congruence).
    split; [reflexivity|]. intros i xi d0 m y _ _ _ Hy. destruct i; discriminate Hy.
  - destruct ms as [|m0 ms]; [discriminate|].
    change (fitted_steps k M step x (m0 :: ms) (d :: d' :: ds)) with
      (rest <- fitted_steps k M step (x ⊗ get_dilution_factor step (M ⊕ m0) ⊖ k ⊗ d ⊗ step) ms (d' :: ds) ;;
       Ok (x :: rest)) in E.
    inv_bind E. apply ok_inj in E. subst l. destruct (IH _ _ _ E0) as [H0 Hs].
    split; [reflexivity|]. intros [|i] xi d0 m y H1 H2 H3 H4; cbn [nth_error] in *.
    + congruence.
    + eapply Hs; eassumption.
Qed.

Lemma future_recurrence k M step air : forall ms x d pts xs ds,
  length pts = pred (length ms) ->
  future_steps k M step air x d ms pts = (xs, ds) ->
  forall i xi di m y, nth_error xs i = Some xi -> nth_error ds i = Some di -> nth_error ms i = Some m ->
    nth_error xs (S i) = Some y -> y = xi ⊗ get_dilution_factor step (M ⊕ m) ⊖ k ⊗ di ⊗ step.
Proof.
  induction ms as [|m ms IH]; intros x d pts xs ds Hl E i xi di mi y H1 H2 H3 H4.
  - destruct i; discriminate H3.
  - destruct ms as [|m' ms].
    + destruct pts; [|discriminate Hl]. cbn in E. apply (f_equal fst) in E. cbn in E. subst xs.
      destruct i; discriminate H4.
    + destruct pts as [|[[[p a] b] c] pts]; [discriminate Hl|]. rewrite future_cons in E. cbv zeta in E.
      destruct (future_steps _ _ _ _ _ _ (m' :: ms) pts) as [xs' ds'] eqn:E'. cbn [fst snd] in E.
      apply pair_equal_spec in E as [Ex Ed]. subst xs ds. destruct i as [|i]; cbn [nth_error] in *.
      * apply future_lengths in E' as [_ [_ [E1 _]]]; [|discriminate|cbn in *; lia].
        destruct xs' as [|x1 xs']; [discriminate|]. cbn in E1, H4. congruence.
      * eapply IH; [|exact E'|eassumption..]. cbn in *. lia.
Qed.
End Steps.

(* ------------------------------------------------------------------ *)
(** * C107 *)

(* the contents of the record, in one place *)
Lemma hires_parts st pchip (f : list xr -> list xr -> xr -> xr) tm pH dicl fs k0s k1s k2s M c air split h hi lo s mx :
  (forall xs ys qs l, pchip xs ys qs = Ok l -> l = map (f xs ys) qs) ->
  get_dic_loss_hires st pchip (map Fin tm) pH dicl (map Fin fs) k0s k1s k2s (Fin M) (Fin c) (Fin air) (Fin split) = Ok h ->
  hr_pH h = map Fin hi ++ map Fin lo ->
  Forall (fun p => split <= p) hi -> Forall (fun p => p < split) lo ->
  median (diff (map Fin tm)) = Fin s -> 0 < s -> 0 < M -> is_max mx tm -> 0 <= mx ->
  exists n idic fdic fdelta,
    INR n - 1 < mx / (s / 10) <= INR n /\
    hr_titrant_mass h = map Fin (grid (s / 10) n) /\
    hr_pH h = map (f (map Fin tm) pH) (map Fin (grid (s / 10) n)) /\
    length idic = length hi /\ length fdic = length lo /\ length fdelta = length lo /\
    n = (length hi + length lo)%nat /\
    hr_dic h = idic ++ fdic /\
    hr_delta_fCO2 h = map (f (map Fin tm) (map Fin (map (fun x => x - air) fs))) (firstn (length hi) (map Fin (grid (s / 10) n))) ++ fdelta /\
    dic_loss_model_fitted (hr_k_dic_loss h) (firstn (length hi) (map Fin (grid (s / 10) n)))
      (map (f (map Fin tm) (map Fin (map (fun x => x - air) fs))) (firstn (length hi) (map Fin (grid (s / 10) n))))
      (Fin c) (Fin M) (Fin (s / 10)) = Ok idic /\
    exists mlast dlast xlast,
      pyindex (firstn (length hi) (map Fin (grid (s / 10) n))) (-1) = Some mlast /\
      pyindex (map (f (map Fin tm) (map Fin (map (fun x => x - air) fs))) (firstn (length hi) (map Fin (grid (s / 10) n)))) (-1) = Some dlast /\
      pyindex idic (-1) = Some xlast /\
      let g := fun l m => f (map Fin tm) l m in
      let fm := skipn (length hi) (map Fin (grid (s / 10) n)) in
      dic_loss_model_future (hr_k_dic_loss h) fm (map (g pH) fm) (map (g k0s) fm) (map (g k1s) fm) (map (g k2s) fm)
        dlast xlast (g pH mlast) (g k0s mlast) (g k1s mlast) (g k2s mlast) (Fin M) (Fin (s / 10)) (Fin air)
      = Ok (fdic, fdelta).
Proof.
  intros Hf E HpH Hhi Hlo Hmed Hs HM Hmx Hmx0.
  apply (hires_total _ _ f) in E; [|exact Hf]. clear Hf.
  assert (Hf : forall xs ys qs, (fun xs ys qs => Ok (map (f xs ys) qs)) xs ys qs = Ok (map (f xs ys) qs)) by reflexivity.
  revert E Hf. generalize (fun xs ys qs => Ok (map (f xs ys) qs)). clear pchip. intros pchip E Hf.
  unfold get_dic_loss_hires in E. cbv zeta in E. unfold pchip1 in E.
  inv_bind E. rewrite fill_nan_fin, map_fin_sub in E. set (dl := map Fin (map (fun x0 => x0 - air) fs)) in *.
  rewrite (nmax_of_max _ _ Hmx) in E. cbn [bind] in E. rewrite Hmed in E.
  assert (H10 : (nofQ 10 : xr) = Fin 10) by (rewrite fin_q; f_equal; q2r; lra).
  rewrite H10, fin_div in E by lra.
  destruct (arange_grid mx (s / 10) Hmx0 ltac:(lra)) as [n [Ear Hn]].
  rewrite fin_n0 in E. rewrite Ear in E. cbn [bind] in E.
  set (a_tm := map Fin (grid (s / 10) n)) in *.
  rewrite !Hf in E. cbn [bind] in E. rewrite !Hf in E. cbn [bind] in E.
  set (a_pH := map (f (map Fin tm) pH) a_tm) in *.
  set (itm := mask (map (fun p => ngeb p (Fin split)) a_pH) a_tm) in *.
  set (ftm := mask (map (fun p => nltb p (Fin split)) a_pH) a_tm) in *.
  apply bind_ok in E as [mlast [Em E]]. rewrite !Hf in E. cbn [bind map nth_error of_opt] in E.
  apply bind_ok in E as [o [Eo E]]. apply bind_ok in E as [k [Ek E]]. apply bind_ok in E as [idic [Ei E]].
  apply bind_ok in E as [dlast [Ed E]]. apply bind_ok in E as [xlast [Ex E]].
  apply bind_ok in E as [[fdic fdelta] [Ef E]]. apply ok_inj in E. subst h.
  cbn [hr_pH hr_titrant_mass hr_dic hr_delta_fCO2 hr_k_dic_loss] in *.
  pose proof (f_equal (@length xr) HpH) as HL. unfold a_pH in HL. rewrite map_length in HL.
  assert (Hitm : itm = firstn (length hi) a_tm).
  { unfold itm. rewrite HpH. rewrite <- (map_length Fin hi).
    apply mask_split; [assumption| |]; apply forallb_forall; intros y Hy; apply in_map_iff in Hy as [r [<- Hr]].
    - rewrite Forall_forall in Hhi. apply x_leb_fin_t. auto.
    - rewrite Forall_forall in Hlo. unfold ngeb. rewrite x_leb_fin_f; [reflexivity|auto]. }
  assert (Hftm : ftm = skipn (length hi) a_tm).
  { unfold ftm. rewrite HpH. rewrite <- (map_length Fin hi).
    apply mask_split_rest; [assumption| |]; apply forallb_forall; intros y Hy; apply in_map_iff in Hy as [r [<- Hr]].
    - rewrite Forall_forall in Hhi. rewrite x_ltb_fin_f; [reflexivity|auto].
    - rewrite Forall_forall in Hlo. apply x_ltb_fin_t. auto. }
  rewrite app_length, !map_length in HL.
  assert (Ln : length a_tm = n) by (unfold a_tm, grid; rewrite !map_length, seq_length; reflexivity).
  assert (L1 : length itm = length hi) by (rewrite Hitm, firstn_length; lia).
  assert (L2 : length ftm = length lo) by (rewrite Hftm, skipn_length; lia).
  pose proof (fitted_length _ _ _ _ _ _ _ Ei) as L3. rewrite map_length in L3.
  destruct (C80_later_steps_partial _ _ _ _ _ _ _ _ _ _ _ _ _ _ _ _ _ _ _ Ef) as [L4 [L5 _]].
  apply of_opt_ok in Em, Ed, Ex. rewrite Hitm in Em, Ed, Ei. rewrite Hftm in Ef.
  exists n, idic, fdic, fdelta.
  split; [exact Hn|]. split; [reflexivity|]. split; [reflexivity|]. split; [lia|]. split; [lia|]. split; [lia|].
  split; [lia|]. split; [reflexivity|]. split; [rewrite Hitm; reflexivity|]. split; [exact Ei|].
  exists mlast, dlast, xlast. split; [exact Em|]. split; [exact Ed|]. split; [exact Ex|]. exact Ef.
Qed.

Lemma grid_nth step n i x : nth_error (grid step n) i = Some x -> x = INR i * step /\ (i < n)%nat.
Proof.
  unfold grid. intros E. assert (Hi : (i < n)%nat).
  { rewrite <- (seq_length n 0), <- (map_length (fun i => INR i * step)). apply nth_error_Some. congruence. }
  split; [|assumption]. rewrite (map_nth_error _ _ _ (nth_error_nth' _ 0%nat ltac:(rewrite seq_length; exact Hi))) in E.
  rewrite seq_nth in E by assumption. cbn [Nat.add] in E. congruence.
Qed.

Lemma grid_get step n i : (i < n)%nat -> nth_error (grid step n) i = Some (INR i * step).
Proof.
  intros Hi. destruct (nth_error (grid step n) i) eqn:E.
  - apply grid_nth in E as [-> _]. reflexivity.
  - apply nth_error_None in E. unfold grid in E. rewrite map_length, seq_length in E. lia.
Qed.

Lemma pyindex_last_nth {A} (l : list A) x : pyindex l (-1) = Some x -> nth_error l (length l - 1) = Some x /\ (0 < length l)%nat.
Proof.
  unfold pyindex. change (-1 <? 0)%Z with true. cbv iota.
  destruct (-1 + Z.of_nat (length l) <? 0)%Z eqn:E; [discriminate|]. apply Z.ltb_ge in E.
  replace (Z.to_nat (-1 + Z.of_nat (length l))) with (length l - 1)%nat by lia. intros ->. split; [reflexivity|lia].
Qed.

(* The profile starts from the given DIC (in umol/kg), on the titrant masses 0, step, 2 step, ...
   below the largest one, with step a tenth of the median dose; and from each titrant mass to the
   next the DIC is diluted by one step of titrant and loses k * (fCO2 - air) * step, in the fitted
   part, in the forecast and between the two. *)
Theorem C107_profile : forall st pchip (f : list xr -> list xr -> xr -> xr) tm pH dicl fs k0s k1s k2s M c air split h hi lo s mx,
  (forall xs ys qs l, pchip xs ys qs = Ok l -> l = map (f xs ys) qs) ->
  get_dic_loss_hires st pchip (map Fin tm) pH dicl (map Fin fs) k0s k1s k2s (Fin M) (Fin c) (Fin air) (Fin split) = Ok h ->
  hr_pH h = map Fin hi ++ map Fin lo ->
  Forall (fun p => split <= p) hi -> Forall (fun p => p < split) lo ->
  median (diff (map Fin tm)) = Fin s -> 0 < s -> 0 < M -> is_max mx tm -> 0 <= mx ->
  let step := s / 10 in
  (exists n, hr_titrant_mass h = map Fin (grid step n) /\ (INR n - 1) * step < mx <= INR n * step) /\
  nth_error (hr_dic h) 0 = Some (Fin (c * 1000000)) /\
  forall i x d m y,
    nth_error (hr_dic h) i = Some x -> nth_error (hr_delta_fCO2 h) i = Some d ->
    nth_error (hr_titrant_mass h) i = Some (Fin m) -> nth_error (hr_dic h) (S i) = Some y ->
    y = (x ⊗ Fin ((M + m) / (M + m + step)) ⊖ hr_k_dic_loss h ⊗ d ⊗ Fin step)%num.
Proof.
  intros st pchip f tm pH dicl fs k0s k1s k2s M c air split h hi lo s mx Hf E HpH Hhi Hlo Hmed Hs HM Hmx Hmx0 step.
  destruct (hires_parts _ _ _ _ _ _ _ _ _ _ _ _ _ _ _ _ _ _ _ Hf E HpH Hhi Hlo Hmed Hs HM Hmx Hmx0)
    as (n & idic & fdic & fdelta & Hn & Etm & _ & Li & Lf & Lfd & Ln & Edic & Edel & Ei & mlast & dlast & xlast & Em & Ed & Ex & Ef).
  cbv zeta in Ef. fold step in Hn, Etm, Edel, Ei, Em, Ed, Ef.
  set (dl := map Fin (map (fun x => x - air) fs)) in *. set (T0 := map Fin tm) in *.
  assert (Hst : 0 < step) by (unfold step; lra).
  assert (LG : length (map Fin (grid step n)) = n) by (unfold grid; rewrite !map_length, seq_length; reflexivity).
  unfold dic_loss_model_fitted in Ei. apply fitted_recurrence in Ei as [I0 Ir].
  rewrite fin_q, fin_mul in I0. 
  assert (Q : Q2R 1000000 = 1000000) by (q2r; lra). rewrite Q in I0.
  apply pyindex_last_nth in Em as [Em Hhi0]. apply pyindex_last_nth in Ed as [Ed _]. apply pyindex_last_nth in Ex as [Ex _].
  rewrite map_length in Ed. rewrite firstn_length, LG, Nat.min_l in Em, Ed, Hhi0 by lia.
  assert (Df : forall m, 0 <= m -> (get_dilution_factor (Fin step) (Fin M ⊕ Fin m))%num = Fin ((M + m) / (M + m + step))).
  { intros m Hm. rewrite fin_add, df_fin by lra. f_equal. f_equal. ring. }
  split; [|split].
  - exists n. split; [assumption|]. split.
    + apply (Rmult_lt_reg_r (/ step)); [apply Rinv_0_lt_compat; lra|]. rewrite Rmult_assoc, Rinv_r by lra. unfold Rdiv in Hn. lra.
    + apply (Rmult_le_reg_r (/ step)); [apply Rinv_0_lt_compat; lra|]. rewrite Rmult_assoc, Rinv_r by lra. unfold Rdiv in Hn. lra.
  - rewrite Edic, nth_error_app1 by lia. assumption.
  - intros i x d m y Hx Hd Hm Hy. rewrite Etm in Hm.
    assert (Hm' : m = INR i * step /\ (i < n)%nat).
    { rewrite nth_error_map in Hm. destruct (nth_error (grid step n) i) eqn:G; [|discriminate].
      apply grid_nth in G as [-> Gi]. cbn in Hm. split; [congruence|assumption]. }
    destruct Hm' as [Emm Hin]. assert (Hm0 : 0 <= m) by (rewrite Emm; apply Rmult_le_pos; [apply pos_INR|lra]).
    rewrite <- Df by assumption. rewrite Edic in Hx, Hy. rewrite Edel in Hd.
    destruct (Nat.lt_ge_cases (S i) (length hi)) as [Lt|Ge].
    { rewrite nth_error_app1 in Hx, Hy by lia. rewrite nth_error_app1 in Hd by (rewrite map_length, firstn_length; lia).
      eapply Ir; try eassumption. rewrite nth_firstn by lia. assumption. }
    assert (Hlt : (i < length hi + length lo)%nat) by lia.
    rewrite nth_error_app2 in Hy by lia.
    unfold dic_loss_model_future in Ef. rewrite !map_length, Nat.eqb_refl in Ef. cbn [andb negb] in Ef.
    set (fm := skipn (length hi) (map Fin (grid step n))) in *.
    assert (Lfm : length fm = length lo) by (unfold fm; rewrite skipn_length, LG; lia).
    destruct fm as [|m0 fm'] eqn:Efm; [discriminate Ef|]. apply ok_inj in Ef.
    assert (Lt' : length (tl (combine (combine (combine (map (f T0 pH) (m0 :: fm')) (map (f T0 k0s) (m0 :: fm')))
                      (map (f T0 k1s) (m0 :: fm'))) (map (f T0 k2s) (m0 :: fm')))) = pred (length (m0 :: fm'))).
    { assert (Lc : length (combine (combine (combine (map (f T0 pH) (m0 :: fm')) (map (f T0 k0s) (m0 :: fm')))
                      (map (f T0 k1s) (m0 :: fm'))) (map (f T0 k2s) (m0 :: fm'))) = length (m0 :: fm')).
      { rewrite !combine_length, !map_length. lia. }
      destruct (combine _ _); [discriminate Lc|]. cbn in *. lia. }
    destruct (Nat.eq_dec (S i) (length hi)) as [Eq|Ne].
    + destruct (future_lengths _ _ _ _ (m0 :: fm') _ _ _ _ _ ltac:(discriminate) Lt' Ef) as [_ [_ [F0 _]]].
      rewrite Li, <- Eq, Nat.sub_diag in Hy. destruct fdic as [|y0 fdic]; [discriminate|].
      cbn in F0, Hy. assert (y = y0) by congruence. subst y0. apply (f_equal (fun o => match o with Some z => z | None => y end)) in F0.
      cbn in F0. rewrite F0.
      rewrite nth_error_app1 in Hx by lia. rewrite nth_error_app1 in Hd by (rewrite map_length, firstn_length; lia).
      replace (length hi - 1)%nat with i in Ed by lia. replace (length idic - 1)%nat with i in Ex by lia.
      rewrite Ex in Hx. rewrite Ed in Hd. assert (x = xlast) as -> by congruence. assert (d = dlast) as -> by congruence.
      assert (G0 : nth_error (skipn (length hi) (map Fin (grid step n))) 0 = Some m0) by (unfold fm in Efm; rewrite Efm; reflexivity).
      rewrite nth_skipn, Nat.add_0_r, nth_error_map, <- Eq, grid_get in G0 by (cbn [length] in Lfm; lia). cbn [option_map] in G0.
      assert (m0 = Fin (INR (S i) * step)) as -> by congruence.
      rewrite Emm, !fin_add, fin_sub, S_INR.
      replace (M + (INR i + 1) * step - step) with (M + INR i * step) by ring. reflexivity.
    + rewrite nth_error_app2 in Hx by lia. rewrite nth_error_app2 in Hd by (rewrite map_length, firstn_length; lia).
      rewrite map_length, firstn_length, LG, Nat.min_l in Hd by lia.
      replace (S i - length idic)%nat with (S (i - length hi)) in Hy by lia.
      replace (i - length idic)%nat with (i - length hi)%nat in Hx by lia.
      eapply (future_recurrence _ _ _ _ _ _ _ _ _ _ Lt' Ef); try eassumption.
      unfold fm in Efm. rewrite <- Efm, nth_skipn. replace (length hi + (i - length hi))%nat with i by lia. assumption.
Qed.
Print Assumptions C107_profile.

(* ------------------------------------------------------------------ *)
(** * C108 *)

Lemma StronglySorted_grid step n : 0 < step -> StronglySorted Rlt (grid step n).
Proof.
  intros Hs. unfold grid. generalize 0%nat. induction n as [|n IH]; intros a; [constructor|].
  cbn [seq map]. constructor; [apply IH|]. apply Forall_forall. intros x Hx.
  apply in_map_iff in Hx as [i [<- Hi]]. apply in_seq in Hi. apply Rmult_lt_compat_r; [assumption|]. apply lt_INR. lia.
Qed.

Lemma some_inj {A} (x y : A) : Some x = Some y -> x = y.
Proof. congruence. Qed.
Lemma some_fin x y : option_map Fin (Some x) = Some (Fin y) -> x = y.
Proof. cbn. intros E. injection E. trivial. Qed.

(* What get_dic_loss reports at a titration point whose titrant mass is on the profile: the DIC of
   the profile there, in mol/kg, and its fCO2; the measured fCO2 itself in the fitted part.  The
   first point (no titrant) gets the DIC that was given.  Missing: titration points that are not on
   the profile, such as the last one (below). *)
Theorem C108_points_on_profile_partial :
  forall st pchip (f : list xr -> list xr -> xr -> xr) tm pH dicl fs k0s k1s k2s M c air split h hi lo s mx k dic fCO2 fitted,
  (forall xs ys qs l, pchip xs ys qs = Ok l -> l = map (f xs ys) qs) ->
  (forall xs ys i x y, StronglySorted Rlt xs -> length ys = length xs ->
     nth_error xs i = Some x -> nth_error ys i = Some y -> f (map Fin xs) ys (Fin x) = y) ->
  get_dic_loss st pchip (map Fin tm) (map Fin pH) dicl (map Fin fs) k0s k1s k2s (Fin M) (Fin c) (Fin air) (Fin split)
    = Ok (k, dic, fCO2, fitted) ->
  get_dic_loss_hires st pchip (map Fin tm) (map Fin pH) dicl (map Fin fs) k0s k1s k2s (Fin M) (Fin c) (Fin air) (Fin split) = Ok h ->
  hr_pH h = map Fin hi ++ map Fin lo ->
  Forall (fun p => split <= p) hi -> Forall (fun p => p < split) lo ->
  median (diff (map Fin tm)) = Fin s -> 0 < s -> 0 < M -> is_max mx tm -> 0 <= mx ->
  length dic = length tm /\ length fCO2 = length tm /\
  Forall2 (fun p b => b = true <-> split <= p) pH fitted /\
  (forall j i m, nth_error tm j = Some m -> nth_error (hr_titrant_mass h) i = Some (Fin m) ->
     exists x d, nth_error (hr_dic h) i = Some x /\ nth_error (hr_delta_fCO2 h) i = Some d /\
       nth_error dic j = Some (nmul x (Fin (1 / 1000000))) /\ nth_error fCO2 j = Some (nadd d (Fin air))) /\
  (forall j, 0 < mx -> nth_error tm j = Some 0 -> nth_error dic j = Some (Fin c)) /\
  (forall j i m v, StronglySorted Rlt tm -> length fs = length tm ->
     nth_error tm j = Some m -> nth_error fs j = Some v ->
     nth_error (hr_titrant_mass h) i = Some (Fin m) -> (i < length hi)%nat -> nth_error fCO2 j = Some (Fin v)).
Proof.
  intros st pchip f tm pH dicl fs k0s k1s k2s M c air split h hi lo s mx k dic fCO2 fitted Hf Hk E Eh HpH Hhi Hlo Hmed Hs HM Hmx Hmx0.
  unfold get_dic_loss in E. rewrite Eh in E. cbn [bind] in E.
  apply bind_ok in E as [ld [Ep E]]. apply Hf in Ep. subst ld. apply bind_ok in E as [lf [Ep E]]. apply Hf in Ep. subst lf. apply ok_inj in E.
  apply pair_equal_spec in E as [E E3]. apply pair_equal_spec in E as [E E2]. apply pair_equal_spec in E as [_ E1].
  assert (Q : (nofQ 0.000001 : xr) = Fin (1 / 1000000)) by (rewrite fin_q; f_equal; q2r; lra).
  rewrite Q in E1.
  destruct (hires_parts _ _ _ _ _ _ _ _ _ _ _ _ _ _ _ _ _ _ _ Hf Eh HpH Hhi Hlo Hmed Hs HM Hmx Hmx0)
    as (n & idic & fdic & fdelta & Hn & Etm & _ & Li & Lf & Lfd & Ln & Edic & Edel & _ & _).
  assert (LG : length (map Fin (grid (s / 10) n)) = n) by (unfold grid; rewrite !map_length, seq_length; reflexivity).
  assert (Ld : length (hr_dic h) = n) by (rewrite Edic, app_length; lia).
  assert (Le : length (hr_delta_fCO2 h) = n) by (rewrite Edel, app_length, map_length, firstn_length, LG; lia).
  assert (Pt : forall j i m, nth_error tm j = Some m -> nth_error (hr_titrant_mass h) i = Some (Fin m) ->
     exists x d, nth_error (hr_dic h) i = Some x /\ nth_error (hr_delta_fCO2 h) i = Some d /\
       nth_error dic j = Some (nmul x (Fin (1 / 1000000))) /\ nth_error fCO2 j = Some (nadd d (Fin air))).
  { intros j i m Hj Hi. rewrite Etm in Hi.
    rewrite nth_error_map in Hi. destruct (nth_error (grid (s / 10) n) i) as [m'|] eqn:Gi; [|discriminate].
    apply some_fin in Hi. subst m'. destruct (grid_nth _ _ _ _ Gi) as [_ Hin].
    destruct (nth_error (hr_dic h) i) as [x|] eqn:Ex; [|apply nth_error_None in Ex; lia].
    destruct (nth_error (hr_delta_fCO2 h) i) as [d|] eqn:Edl; [|apply nth_error_None in Edl; lia].
    exists x, d. split; [reflexivity|]. split; [reflexivity|].
    assert (Lg : length (grid (s / 10) n) = n) by (unfold grid; rewrite map_length, seq_length; reflexivity).
    pose proof (StronglySorted_grid (s / 10) n ltac:(lra)) as Sg.
    split.
    - rewrite <- E1, !nth_error_map, Hj. cbn [option_map]. rewrite Etm.
      rewrite (Hk _ _ i m x Sg (eq_trans Ld (eq_sym Lg)) Gi Ex). reflexivity.
    - rewrite <- E2, !nth_error_map, Hj. cbn [option_map]. rewrite Etm.
      rewrite (Hk _ _ i m d Sg (eq_trans Le (eq_sym Lg)) Gi Edl). reflexivity. }
  split; [rewrite <- E1, !map_length; reflexivity|]. split; [rewrite <- E2, !map_length; reflexivity|].
  split; [|split; [exact Pt|split]].
  - rewrite <- E3, map_map. clear. induction pH as [|p pH IH]; constructor; [|exact IH].
    unfold ngeb. destruct (Rle_dec split p) as [L|G].
    + rewrite x_leb_fin_t by assumption. tauto.
    + rewrite x_leb_fin_f by lra. split; [discriminate|contradiction].
  - intros j Hp Hj.
    destruct (C107_profile _ _ _ _ _ _ _ _ _ _ _ _ _ _ _ _ _ _ _ Hf Eh HpH Hhi Hlo Hmed Hs HM Hmx Hmx0) as [_ [D0 _]].
    assert (Hn0 : (0 < n)%nat).
    { destruct n; [|lia]. cbn in Hn. assert (0 < mx / (s / 10)) by (apply Rdiv_lt_0_compat; lra). lra. }
    assert (G0 : nth_error (hr_titrant_mass h) 0 = Some (Fin 0)).
    { rewrite Etm, nth_error_map, grid_get by assumption. cbn. f_equal. f_equal. ring. }
    destruct (Pt j 0%nat 0 Hj G0) as [x [d [Hx [_ [Hd _]]]]]. rewrite D0 in Hx. apply some_inj in Hx. subst x.
    rewrite Hd, fin_mul. f_equal. f_equal. field.
  - intros j i m v Ss Lfs Hj Hv Hi Hlt. destruct (Pt j i m Hj Hi) as [x [d [_ [Hd [_ Hf2]]]]]. rewrite Hf2.
    rewrite Edel, nth_error_app1 in Hd by (rewrite map_length, firstn_length, LG; lia).
    rewrite nth_error_map, nth_firstn, <- Etm, Hi in Hd by assumption. cbn [option_map] in Hd.
    rewrite (Hk tm _ j m (Fin (v - air)) Ss) in Hd.
    + apply some_inj in Hd. subst d. rewrite fin_add. f_equal. f_equal. ring.
    + rewrite !map_length. assumption.
    + assumption.
    + rewrite !nth_error_map, Hv. reflexivity.
Qed.
Print Assumptions C108_points_on_profile_partial.

(* In every run the profile stops short of the largest titrant mass, so that the values reported for
   the last titration point are extrapolated. *)
Theorem C108_last_point_refuted :
  forall st pchip (f : list xr -> list xr -> xr -> xr) tm pH dicl fs k0s k1s k2s M c air split h hi lo s mx,
  (forall xs ys qs l, pchip xs ys qs = Ok l -> l = map (f xs ys) qs) ->
  get_dic_loss_hires st pchip (map Fin tm) pH dicl (map Fin fs) k0s k1s k2s (Fin M) (Fin c) (Fin air) (Fin split) = Ok h ->
  hr_pH h = map Fin hi ++ map Fin lo ->
  Forall (fun p => split <= p) hi -> Forall (fun p => p < split) lo ->
  median (diff (map Fin tm)) = Fin s -> 0 < s -> 0 < M -> is_max mx tm -> 0 <= mx ->
  Forall (fun x => exists m, x = Fin m /\ m < mx) (hr_titrant_mass h).
Proof.
  intros st pchip f tm pH dicl fs k0s k1s k2s M c air split h hi lo s mx Hf E HpH Hhi Hlo Hmed Hs HM Hmx Hmx0.
  destruct (C107_profile _ _ _ _ _ _ _ _ _ _ _ _ _ _ _ _ _ _ _ Hf E HpH Hhi Hlo Hmed Hs HM Hmx Hmx0) as [[n [Et [Hn _]]] _].
  rewrite Et. apply Forall_forall. intros x Hx. apply in_map_iff in Hx as [m [<- Hm]]. exists m. split; [reflexivity|].
  unfold grid in Hm. apply in_map_iff in Hm as [i [<- Hi]]. apply in_seq in Hi.
  apply Rle_lt_trans with ((INR n - 1) * (s / 10)); [|assumption]. apply Rmult_le_compat_r; [lra|].
  assert (INR (S i) <= INR n) by (apply le_INR; lia). rewrite S_INR in H. lra.
Qed.
Print Assumptions C108_last_point_refuted.

(* piecewise linear interpolation that is exact at the knots for any data *)
Fixpoint at_knot (xs ys : list xr) (q : R) : option xr :=
  match xs, ys with
  | Fin x :: xs', y :: ys' => if Req_EM_T x q then Some y else at_knot xs' ys' q
  | _, _ => None
  end.
Definition knot_plin (xs ys : list xr) (q : xr) : xr :=
  match at_knot xs ys (real q) with
  | Some y => y
  | None => Fin (plin (map real xs) (map real ys) (real q))
  end.
Definition knot_oracle : pchip_t xr := fun xs ys qs => Ok (map (knot_plin xs ys) qs).

Lemma at_knot_nth xs ys i x y : StronglySorted Rlt xs ->
  nth_error xs i = Some x -> nth_error ys i = Some y -> at_knot (map Fin xs) ys x = Some y.
Proof.
  intros Hs. revert ys i. induction Hs as [|x0 xs Hs IH Hx]; intros ys i E1 E2; [destruct i; discriminate|].
  destruct ys as [|y0 ys]; [destruct i; discriminate|]. cbn [map at_knot].
  destruct i as [|i]; cbn [nth_error] in *.
  - apply some_inj in E1, E2. subst. destruct (Req_EM_T x x); [reflexivity|contradiction].
  - rewrite Forall_forall in Hx. apply nth_error_In in E1 as Hin. specialize (Hx _ Hin).
    destruct (Req_EM_T x0 x); [lra|]. eapply IH; eassumption.
Qed.

Lemma at_knot_inv xs : forall ys q y, at_knot (map Fin xs) (map Fin ys) q = Some y ->
  exists i r, nth_error xs i = Some q /\ nth_error ys i = Some r /\ y = Fin r.
Proof.
  induction xs as [|x xs IH]; intros ys q y E; [discriminate|]. destruct ys as [|y0 ys]; [discriminate|].
  cbn [map at_knot] in E. destruct (Req_EM_T x q) as [->|].
  - apply some_inj in E. exists 0%nat, y0. repeat split. congruence.
  - apply IH in E as [i [r H]]. exists (S i), r. exact H.
Qed.

Lemma knot_pointwise : pointwise plin knot_oracle.
Proof.
  intros xs ys qs Hs Hl. unfold knot_oracle. f_equal. rewrite !map_map. apply map_ext. intros q.
  unfold knot_plin. cbn [real]. destruct (at_knot (map Fin xs) (map Fin ys) q) eqn:E.
  - apply at_knot_inv in E as [i [r [E1 [E2 ->]]]]. f_equal. symmetry. eapply (sp_knots _ plin_shape); eassumption.
  - rewrite !map_real. reflexivity.
Qed.

Lemma median_10_10 : median (diff (map Fin [0; 10; 20])) = Fin 10.
Proof.
  cbn [map diff]. rewrite !fin_sub. replace (10 - 0) with 10 by ring. replace (20 - 10) with 10 by ring.
  unfold median. cbn [existsb]. rewrite !fin_isnan. cbn [orb]. unfold sort. cbn [fold_right].
  change (insert (Fin 10) []) with [Fin 10]. rewrite insert_hit by lra.
  cbn [length Nat.odd Nat.even negb Nat.div2 nth Nat.sub]. rewrite fin_add, fin_Z, fin_div by lra. f_equal. field.
Qed.

(* the titration of C79 meets the hypotheses, and its middle point is on the profile *)
Example C108_nonvacuous : exists h hi lo k dic fCO2 fitted,
  (forall xs ys qs l, knot_oracle xs ys qs = Ok l -> l = map (knot_plin xs ys) qs) /\
  (forall xs ys i x y, StronglySorted Rlt xs -> length ys = length xs ->
     nth_error xs i = Some x -> nth_error ys i = Some y -> knot_plin (map Fin xs) ys (Fin x) = y) /\
  get_dic_loss_hires lazy_strategy knot_oracle (map Fin [0; 10; 20]) (map Fin [8; 3; 3]) (map Fin [1; 1; 1])
    (map Fin [500; 600; 700]) (map Fin [1; 1; 1]) (map Fin [1; 1; 1]) (map Fin [1; 1; 1]) (Fin 100) (Fin 1)
    (Fin 450) (Fin 5.5) = Ok h /\
  get_dic_loss lazy_strategy knot_oracle (map Fin [0; 10; 20]) (map Fin [8; 3; 3]) (map Fin [1; 1; 1])
    (map Fin [500; 600; 700]) (map Fin [1; 1; 1]) (map Fin [1; 1; 1]) (map Fin [1; 1; 1]) (Fin 100) (Fin 1)
    (Fin 450) (Fin 5.5) = Ok (k, dic, fCO2, fitted) /\
  hr_pH h = map Fin hi ++ map Fin lo /\
  Forall (fun p => 5.5 <= p) hi /\ Forall (fun p => p < 5.5) lo /\
  median (diff (map Fin [0; 10; 20])) = Fin 10 /\ is_max 20 [0; 10; 20] /\
  nth_error (hr_titrant_mass h) 10 = Some (Fin 10) /\ nth_error dic 0 = Some (Fin 1).
Proof.
  destruct (one_crossing_run _ knot_pointwise) as [h [hi [lo [E [HpH [Hhi [Hlo _]]]]]]].
  assert (Hk : forall xs ys i x y, StronglySorted Rlt xs -> length ys = length xs ->
     nth_error xs i = Some x -> nth_error ys i = Some y -> knot_plin (map Fin xs) ys (Fin x) = y).
  { intros xs ys i x y Hs _ E1 E2. unfold knot_plin. cbn [real]. rewrite (at_knot_nth _ _ _ _ _ Hs E1 E2). reflexivity. }
  assert (Hm : is_max 20 [0; 10; 20]).
  { split; [cbn; tauto|]. intros v Hv. cbn in Hv. decompose [or] Hv; subst; try lra; contradiction. }
  assert (G : exists k dic fCO2 fitted, get_dic_loss lazy_strategy knot_oracle (map Fin [0; 10; 20]) (map Fin [8; 3; 3]) (map Fin [1; 1; 1])
    (map Fin [500; 600; 700]) (map Fin [1; 1; 1]) (map Fin [1; 1; 1]) (map Fin [1; 1; 1]) (Fin 100) (Fin 1)
    (Fin 450) (Fin 5.5) = Ok (k, dic, fCO2, fitted)).
  { unfold get_dic_loss. rewrite E. unfold knot_oracle. cbn [bind]. do 4 eexists. reflexivity. }
  destruct G as [k [dic [fCO2 [fitted G]]]].
  assert (Hf : forall xs ys qs l, knot_oracle xs ys qs = Ok l -> l = map (knot_plin xs ys) qs) by (intros xs ys qs l El; unfold knot_oracle in El; apply ok_inj in El; auto).
  pose proof (C108_points_on_profile_partial _ _ _ _ _ _ _ _ _ _ _ _ _ _ _ _ _ _ _ _ _ _ _ Hf Hk G E HpH Hhi Hlo
    median_10_10 ltac:(lra) ltac:(lra) Hm ltac:(lra)) as [_ [_ [_ [_ [H0 _]]]]].
  pose proof (C107_profile _ _ _ _ _ _ _ _ _ _ _ _ _ _ _ _ _ _ _ Hf E HpH Hhi Hlo
    median_10_10 ltac:(lra) ltac:(lra) Hm ltac:(lra)) as [[n [Et [_ Hn]]] _].
  exists h, hi, lo, k, dic, fCO2, fitted.
  repeat (split; [first [exact Hf|exact Hk|exact E|exact G|exact HpH|exact Hhi|exact Hlo|exact median_10_10|exact Hm]|]).
  split.
  - rewrite Et, nth_error_map, grid_get.
    + cbn [option_map]. f_equal. f_equal. cbn. field.
    + apply INR_lt. replace (INR 10) with 10 by (cbn; ring). lra.
  - apply (H0 0%nat); [lra|reflexivity].
Qed.

Example C107_nonvacuous : exists h hi lo,
  get_dic_loss_hires lazy_strategy knot_oracle (map Fin [0; 10; 20]) (map Fin [8; 3; 3]) (map Fin [1; 1; 1])
    (map Fin [500; 600; 700]) (map Fin [1; 1; 1]) (map Fin [1; 1; 1]) (map Fin [1; 1; 1]) (Fin 100) (Fin 1)
    (Fin 450) (Fin 5.5) = Ok h /\
  hr_pH h = map Fin hi ++ map Fin lo /\ Forall (fun p => 5.5 <= p) hi /\ Forall (fun p => p < 5.5) lo /\
  median (diff (map Fin [0; 10; 20])) = Fin 10 /\ is_max 20 [0; 10; 20] /\
  nth_error (hr_titrant_mass h) 10 = Some (Fin 10).
Proof.
  destruct C108_nonvacuous as (h & hi & lo & k & dic & fCO2 & fitted & _ & _ & E & _ & P & Hh & Hl & Md & Mx & N & _).
  exists h, hi, lo. repeat split; try assumption; apply Mx.
Qed.
