(* ConvertProofs.v -- lemmas about Convert.v (proofs of C01-C11, C87) *)
From Coq Require Import Reals Qreals Lra Permutation.
From Verif Require Export Convert XRLemmas DictLemmas.
Open Scope R_scope.

Lemma q_abs0 : Q2R 273.15 = 273.15. Proof. reflexivity. Qed.

Definition TK (t : R) : R := t + 273.15.
Definition Fcst : R := 96.4853365.
Definition Rcst : R := 8.3144621.

Lemma Fcst_pos : 0 < Fcst. Proof. unfold Fcst. q2r. lra. Qed.
Lemma Rcst_pos : 0 < Rcst. Proof. unfold Rcst. q2r. lra. Qed.
Lemma TK_pos t : -273.15 < t -> 0 < TK t.
Proof. unfold TK. q2r. lra. Qed.

Lemma emf_to_h_fin E E0 t : -273.15 < t ->
  emf_to_h (Fin E) (Fin E0) (Fin t) = Fin (exp ((E - E0) * Fcst / (Rcst * TK t))).
Proof.
  intros Ht. unfold emf_to_h, absolute_zero, faraday, ideal_gas. xsimp.
  fold Fcst Rcst (TK t). rewrite fin_div. 2:{ pose proof Rcst_pos. pose proof (TK_pos t Ht). nra. }
  reflexivity.
Qed.

Lemma h_to_emf_fin h E0 t : 0 < h ->
  h_to_emf (Fin h) (Fin E0) (Fin t) = Fin (E0 + ln h * Rcst * TK t / Fcst).
Proof.
  intros Hh. unfold h_to_emf, absolute_zero, faraday, ideal_gas. rewrite fin_ln by assumption.
  xsimp. fold Fcst Rcst (TK t). rewrite fin_div. 2:{ pose proof Fcst_pos. lra. }
  reflexivity.
Qed.

Lemma emf_to_pH_fin E E0 t : -273.15 < t ->
  emf_to_pH (Fin E) (Fin E0) (Fin t) = Fin (- ((E - E0) * Fcst / (Rcst * TK t) / ln 10)).
Proof.
  intros Ht. unfold emf_to_pH. rewrite emf_to_h_fin by assumption.
  rewrite fin_log10 by apply exp_pos. rewrite fin_opp. unfold log10R. rewrite ln_exp. reflexivity.
Qed.

Lemma pH_to_emf_fin p E0 t :
  pH_to_emf (Fin p) (Fin E0) (Fin t) = Fin (E0 + - p * ln 10 * Rcst * TK t / Fcst).
Proof.
  unfold pH_to_emf. xsimp. rewrite h_to_emf_fin by apply pow10R_pos.
  unfold pow10R. rewrite ln_exp. reflexivity.
Qed.

Ltac pos_consts t Ht :=
  pose proof Fcst_pos; pose proof Rcst_pos; pose proof (TK_pos t Ht); pose proof ln10_pos.

Lemma pH_emf_pH E E0 t : -273.15 < t ->
  pH_to_emf (emf_to_pH (Fin E) (Fin E0) (Fin t)) (Fin E0) (Fin t) = Fin E.
Proof.
  intros Ht. pos_consts t Ht. rewrite emf_to_pH_fin by assumption.
  rewrite pH_to_emf_fin. f_equal. field. repeat split; lra.
Qed.

Lemma emf_pH_emf p E0 t : -273.15 < t ->
  emf_to_pH (pH_to_emf (Fin p) (Fin E0) (Fin t)) (Fin E0) (Fin t) = Fin p.
Proof.
  intros Ht. pos_consts t Ht. rewrite pH_to_emf_fin, emf_to_pH_fin by assumption.
  f_equal. field. repeat split; lra.
Qed.

Lemma h_emf_h E E0 t : -273.15 < t ->
  h_to_emf (emf_to_h (Fin E) (Fin E0) (Fin t)) (Fin E0) (Fin t) = Fin E.
Proof.
  intros Ht. pos_consts t Ht. rewrite emf_to_h_fin by assumption.
  rewrite h_to_emf_fin by apply exp_pos. rewrite ln_exp. f_equal. field. repeat split; lra.
Qed.

Lemma emf_h_emf h E0 t : -273.15 < t -> 0 < h ->
  emf_to_h (h_to_emf (Fin h) (Fin E0) (Fin t)) (Fin E0) (Fin t) = Fin h.
Proof.
  intros Ht Hh. pos_consts t Ht. rewrite h_to_emf_fin, emf_to_h_fin by assumption.
  replace ((E0 + ln h * Rcst * TK t / Fcst - E0) * Fcst / (Rcst * TK t)) with (ln h)
    by (field; repeat split; lra).
  rewrite exp_ln by assumption. reflexivity.
Qed.

Lemma emf_lt_pH E1 E2 E0 t p1 p2 : -273.15 < t -> E1 < E2 ->
  emf_to_pH (Fin E1) (Fin E0) (Fin t) = Fin p1 ->
  emf_to_pH (Fin E2) (Fin E0) (Fin t) = Fin p2 -> p2 < p1.
Proof.
  intros Ht HE. pos_consts t Ht. rewrite !emf_to_pH_fin by assumption. intros [= <-] [= <-].
  apply Ropp_lt_contravar.
  assert (Hc : 0 < Fcst / (Rcst * TK t) / ln 10).
  { apply Rdiv_lt_0_compat; [apply Rdiv_lt_0_compat|]; nra. }
  replace ((E1 - E0) * Fcst / (Rcst * TK t) / ln 10) with ((E1 - E0) * (Fcst / (Rcst * TK t) / ln 10))
    by (field; repeat split; lra).
  replace ((E2 - E0) * Fcst / (Rcst * TK t) / ln 10) with ((E2 - E0) * (Fcst / (Rcst * TK t) / ln 10))
    by (field; repeat split; lra).
  nra.
Qed.

Lemma f_demf0 E E0 t f d h : -273.15 < t -> 0 < f ->
  f_to_demf0 (Fin f) (Fin t) = Fin d ->
  emf_to_h (Fin E) (Fin E0) (Fin t) = Fin h ->
  emf_to_h (Fin E) (Fin (E0 - d)) (Fin t) = Fin (f * h).
Proof.
  intros Ht Hf. pos_consts t Ht. unfold f_to_demf0, absolute_zero, faraday, ideal_gas.
  rewrite fin_ln by assumption. xsimp. fold Fcst Rcst (TK t).
  rewrite fin_div by lra. intros [= <-]. rewrite !emf_to_h_fin by assumption. intros [= <-].
  f_equal. rewrite <- (exp_ln f Hf) at 2. rewrite <- exp_plus. f_equal. field. repeat split; lra.
Qed.

(* ------------------------------------------------------------------ *)
(** * Dilution *)

Lemma df_fin m M : m + M <> 0 -> get_dilution_factor (Fin m) (Fin M) = Fin (M / (m + M)).
Proof. intros Hm. unfold get_dilution_factor. xsimp. apply fin_div. assumption. Qed.

Lemma df_list tm M : 0 < M -> Forall (fun m => 0 <= m) tm ->
  dilution_factors (map Fin tm) (Fin M) = map Fin (map (fun m => M / (m + M)) tm).
Proof.
  intros HM Htm. unfold dilution_factors. rewrite !map_map. apply map_ext_in.
  intros m Hm. rewrite Forall_forall in Htm. specialize (Htm m Hm). apply df_fin. lra.
Qed.

Lemma dilute_totals_total {T} `{Num T} (totals : dict (nd T)) tm M :
  all_fit (length tm) totals = true -> exists d', dilute_totals totals tm M = Ok d'.
Proof.
  intros Hfit. unfold dilute_totals, dmapM. apply mapM_total. intros [k v] Hin. cbn [snd fst].
  assert (Hv : nd_fits (length (dilution_factors tm M)) v = true).
  { unfold dilution_factors. rewrite map_length. unfold all_fit in Hfit.
    rewrite forallb_forall in Hfit. apply (Hfit _ Hin). }
  destruct (nd_map2_at nmul v _ Hv) as [l' [-> _]]. eexists; reflexivity.
Qed.

Lemma dilute_totals_spec {T} `{Num T} (totals : dict (nd T)) tm M d' :
  all_fit (length tm) totals = true -> dilute_totals totals tm M = Ok d' ->
  dkeys d' = dkeys totals /\
  forall k v, dget k totals = Some v ->
    exists l', dget k d' = Some (NdA l') /\ length l' = length tm /\
      forall i m, nth_error tm i = Some m ->
        nth_error l' i = Some (nd_at v i ⊗ get_dilution_factor m M)%num.
Proof.
  intros Hfit Hd. destruct (dmapM_spec _ _ _ Hd) as [Hk Hg]. split; [exact Hk|].
  intros k v Hv. destruct (Hg _ _ Hv) as [v' [Hv' E]].
  assert (Hf : nd_fits (length (dilution_factors tm M)) v = true).
  { unfold dilution_factors; rewrite map_length. eapply all_fit_get; eassumption. }
  destruct (nd_map2_at nmul v _ Hf) as [l' [E' [Hlen Hn]]].
  rewrite E' in E. injection E as <-. exists l'. split; [assumption|].
  split; [unfold dilution_factors in Hlen; rewrite map_length in Hlen; exact Hlen|].
  intros i m Hm. apply Hn. unfold dilution_factors. rewrite nth_error_map, Hm. reflexivity.
Qed.

Lemma Forall_nth_error {A} (P : A -> Prop) l i x : Forall P l -> nth_error l i = Some x -> P x.
Proof. rewrite Forall_forall. intros Hl Hn. apply Hl. eapply nth_error_In; eassumption. Qed.

Lemma nth_error_map_fin tm i m : nth_error tm i = Some m -> nth_error (map Fin tm) i = Some (Fin m).
Proof. intros E. rewrite nth_error_map, E. reflexivity. Qed.

Lemma dilute_totals_moles totals tm M d' :
  0 < M -> Forall (fun m => 0 <= m) tm -> all_fit (length tm) totals = true ->
  dilute_totals totals (map Fin tm) (Fin M) = Ok d' ->
  dkeys d' = dkeys totals /\
  forall k v i m c, dget k totals = Some v -> nth_error tm i = Some m -> nd_at v i = Fin c ->
    exists v' c', dget k d' = Some v' /\ nd_at v' i = Fin c' /\ c' * (m + M) = c * M.
Proof.
  intros HM Htm Hfit Hd. apply dilute_totals_spec in Hd; [|rewrite map_length; assumption].
  destruct Hd as [Hk Hg]. split; [exact Hk|].
  intros k v i m c Hv Hm Hc. destruct (Hg _ _ Hv) as [l' [Hl' [Hlen Hn]]].
  pose proof (Forall_nth_error _ _ _ _ Htm Hm) as Hpos. cbn in Hpos.
  exists (NdA l'), (c * (M / (m + M))). split; [assumption|]. split.
  - apply nd_at_nth. rewrite (Hn i (Fin m)) by (apply nth_error_map_fin; assumption).
    rewrite Hc, df_fin, fin_mul by lra. reflexivity.
  - field. lra.
Qed.

(* one step of the sulfate branch *)
Lemma mix_step {T} `{Num T} v molin (tm : list T) M :
  nd_fits (length tm) v = true ->
  exists l1 l2,
    nd_map2 nadd (nd_map (fun x => x ⊗ M)%num v) (NdA (map (fun m => molin ⊗ m)%num tm)) = Ok (NdA l1) /\
    nd_map2 ndiv (NdA l1) (NdA (map (fun m => M ⊕ m)%num tm)) = Ok (NdA l2) /\
    length l2 = length tm /\
    forall i m, nth_error tm i = Some m ->
      nth_error l2 i = Some ((nd_at v i ⊗ M ⊕ molin ⊗ m) ⊘ (M ⊕ m))%num.
Proof.
  intros Hf.
  assert (Hf1 : nd_fits (length (map (fun m => molin ⊗ m)%num tm)) (nd_map (fun x => x ⊗ M)%num v) = true).
  { rewrite map_length. destruct v; cbn in *; [reflexivity|]. rewrite map_length. assumption. }
  destruct (nd_map2_at nadd _ _ Hf1) as [l1 [E1 [L1 N1]]]. rewrite map_length in L1.
  assert (Hf2 : nd_fits (length (map (fun m => M ⊕ m)%num tm)) (NdA l1) = true).
  { rewrite map_length. cbn. rewrite L1, Nat.eqb_refl. reflexivity. }
  destruct (nd_map2_at ndiv _ _ Hf2) as [l2 [E2 [L2 N2]]]. rewrite map_length in L2.
  exists l1, l2. repeat split; try assumption.
  intros i m Hm.
  rewrite (N2 i (M ⊕ m)%num) by (rewrite nth_error_map, Hm; reflexivity).
  f_equal. f_equal. apply nd_at_nth. rewrite (N1 i (molin ⊗ m)%num) by (rewrite nth_error_map, Hm; reflexivity).
  f_equal. f_equal. apply (nd_at_map (fun x => x ⊗ M)%num (length tm)); [assumption|].
  apply nth_error_Some. congruence.
Qed.

Lemma dilute_H2SO4_spec {T} `{Num T} (totals : dict (nd T)) molin tm M :
  all_fit (length tm) totals = true ->
  exists d', dilute_totals_H2SO4 totals molin tm M = Ok d' /\
  dkeys d' = dkeys totals /\
  forall k v, dget k totals = Some v ->
    exists l', dget k d' = Some (NdA l') /\ length l' = length tm /\
      forall i m, nth_error tm i = Some m ->
        nth_error l' i = Some (if String.eqb k "total_sulfate"
                               then (nd_at v i ⊗ M ⊕ molin ⊗ m) ⊘ (M ⊕ m)
                               else nd_at v i ⊗ get_dilution_factor m M)%num.
Proof.
  intros Hfit.
  assert (Hstep : forall k v, nd_fits (length tm) v = true ->
    exists l',
      (if negb (String.eqb k "total_sulfate")
       then v0 <- nd_map2 nmul v (NdA (dilution_factors tm M)) ;; Ok (k, v0)
       else v1 <- nd_map2 nadd (nd_map (fun x => x ⊗ M)%num v) (NdA (map (fun m => molin ⊗ m)%num tm)) ;;
            v2 <- nd_map2 ndiv v1 (NdA (map (fun m => M ⊕ m)%num tm)) ;; Ok (k, v2)) = Ok (k, NdA l') /\
      length l' = length tm /\
      forall i m, nth_error tm i = Some m ->
        nth_error l' i = Some (if String.eqb k "total_sulfate"
                               then (nd_at v i ⊗ M ⊕ molin ⊗ m) ⊘ (M ⊕ m)
                               else nd_at v i ⊗ get_dilution_factor m M)%num).
  { intros k v Hv. destruct (String.eqb k "total_sulfate") eqn:Ek; cbn [negb].
    - destruct (mix_step v molin tm M Hv) as [l1 [l2 [E1 [E2 [L N]]]]].
      rewrite E1. cbn [bind]. rewrite E2. cbn [bind]. exists l2. auto.
    - assert (Hf : nd_fits (length (dilution_factors tm M)) v = true)
        by (unfold dilution_factors; rewrite map_length; assumption).
      destruct (nd_map2_at nmul v _ Hf) as [l' [E' [Hlen Hn]]]. rewrite E'. cbn [bind].
      exists l'. split; [reflexivity|].
      split; [unfold dilution_factors in Hlen; rewrite map_length in Hlen; exact Hlen|].
      intros i m Hm. apply Hn. unfold dilution_factors. rewrite nth_error_map, Hm. reflexivity. }
  unfold dilute_totals_H2SO4.
  match goal with |- context [mapM ?g totals] =>
    destruct (mapM_total g totals) as [d' Hd'];
    [|exists d'; split; [exact Hd'|];
      destruct (mapM_dict g totals d') as [Hk Hg]] end.
  - intros [k v] Hin. cbn [fst snd]. unfold all_fit in Hfit. rewrite forallb_forall in Hfit.
    destruct (Hstep k v (Hfit _ Hin)) as [l' [-> _]]. eauto.
  - intros [k v] kv' E. cbn [fst snd] in *. destruct (negb (String.eqb k "total_sulfate")).
    + apply bind_ok in E as [? [_ E]]. injection E as <-. reflexivity.
    + apply bind_ok in E as [? [_ E]]. apply bind_ok in E as [? [_ E]]. injection E as <-. reflexivity.
  - exact Hd'.
  - split; [exact Hk|]. intros k v Hv. destruct (Hg _ _ Hv) as [v' [Hv' E]]. cbn [fst snd] in E.
    destruct (Hstep k v (all_fit_get _ _ _ _ Hfit Hv)) as [l' [E' HH]].
    rewrite E' in E. injection E as <-. exists l'. auto.
Qed.

(* dilution restricted to a key set *)
Lemma dilute_keys_spec {T} `{Num T} (keys : list string) (totals : dict (nd T)) tm M :
  all_fit (length tm) totals = true ->
  exists d', mapM (fun kv => if mem_str (fst kv) keys
                             then v <- nd_map2 nmul (snd kv) (NdA (dilution_factors tm M)) ;; Ok (fst kv, v)
                             else Ok kv) totals = Ok d' /\
  dkeys d' = dkeys totals /\
  forall k v, dget k totals = Some v ->
    exists v', dget k d' = Some v' /\
      (~ In k keys -> v' = v) /\
      (In k keys -> exists l', v' = NdA l' /\ length l' = length tm /\
         forall i m, nth_error tm i = Some m ->
           nth_error l' i = Some (nd_at v i ⊗ get_dilution_factor m M)%num).
Proof.
  intros Hfit.
  match goal with |- context [mapM ?g totals] =>
    destruct (mapM_total g totals) as [d' Hd'];
    [|exists d'; split; [exact Hd'|];
      destruct (mapM_dict g totals d') as [Hk Hg]] end.
  - intros [k v] Hin. cbn [fst snd]. destruct (mem_str k keys); [|eauto].
    unfold all_fit in Hfit. rewrite forallb_forall in Hfit. specialize (Hfit _ Hin). cbn in Hfit.
    assert (Hf : nd_fits (length (dilution_factors tm M)) v = true)
        by (unfold dilution_factors; rewrite map_length; assumption).
    destruct (nd_map2_at nmul v _ Hf) as [l' [-> _]]. cbn. eauto.
  - intros [k v] kv' E. cbn [fst snd] in *. destruct (mem_str k keys).
    + apply bind_ok in E as [? [_ E]]. injection E as <-. reflexivity.
    + injection E as <-. reflexivity.
  - exact Hd'.
  - split; [exact Hk|]. intros k v Hv. destruct (Hg _ _ Hv) as [v' [Hv' E]]. cbn [fst snd] in E.
    exists v'. split; [assumption|]. destruct (mem_str k keys) eqn:Em.
    + apply mem_str_spec in Em. split; [tauto|]. intros _.
      assert (Hf : nd_fits (length (dilution_factors tm M)) v = true)
        by (unfold dilution_factors; rewrite map_length; eapply all_fit_get; eassumption).
      destruct (nd_map2_at nmul v _ Hf) as [l' [E' [Hlen Hn]]]. rewrite E' in E. injection E as <-.
      exists l'. split; [reflexivity|].
      split; [unfold dilution_factors in Hlen; rewrite map_length in Hlen; exact Hlen|].
      intros i m Hm. apply Hn. unfold dilution_factors. rewrite nth_error_map, Hm. reflexivity.
    + apply mem_str_false in Em. split; [|tauto]. intros _. congruence.
Qed.

(* ------------------------------------------------------------------ *)
(** * amount_units *)

Section AU.
Context {T : Type} `{Num T}.

Lemma kwarg_dset_same k v d kw : kwarg k d (dset k v kw) = (v : val T).
Proof. unfold kwarg. rewrite dget_dset_same. reflexivity. Qed.
Lemma kwarg_dset_other k k' v d kw : k <> k' -> kwarg k d (dset k' v kw) = (kwarg k d kw : val T).
Proof. intros Hk. unfold kwarg. rewrite dget_dset_other by assumption. reflexivity. Qed.

Lemma forallb_dset {A} (p : string -> bool) k (v : A) d :
  p k = true ->
  forallb (fun kv => p (fst kv)) (dset k v d) = forallb (fun kv => p (fst kv)) d.
Proof.
  intros Hp. induction d as [|[k' v'] d IH]; cbn; [rewrite Hp; reflexivity|].
  destruct (String.eqb_spec k k') as [->|Hn]; cbn; [reflexivity|]. rewrite IH. reflexivity.
Qed.

Lemma check_kwargs_dset allowed k v (kw : kwargs T) :
  In k allowed -> check_kwargs allowed (dset k v kw) = check_kwargs allowed kw.
Proof.
  intros Hk. unfold check_kwargs. rewrite (forallb_dset (fun k => mem_str k allowed)); [reflexivity|].
  apply mem_str_spec. assumption.
Qed.

End AU.

Ltac inkeys := cbn; tauto.
Ltac kwsimp :=
  repeat first [ rewrite kwarg_dset_same
               | rewrite kwarg_dset_other by discriminate
               | rewrite check_kwargs_dset by inkeys ].
