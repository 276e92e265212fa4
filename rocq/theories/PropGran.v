(* PropGran.v -- C25 to C28 *)
From Coq Require Import Reals Qreals Lra.
From Verif Require Export GranProofs.
Open Scope list_scope.
Open Scope R_scope.

(* ------------------------------------------------------------------ *)
(** * what a successful call computed *)

Lemma same_len_spec {T} (tm emf temps : list T) :
  same_len tm emf temps = true <-> length emf = length tm /\ length temps = length tm.
Proof. unfold same_len. rewrite andb_true_iff, !Nat.eqb_eq. tauto. Qed.

Lemma gran_inv (tm emf temps : list xr) (M c n : xr) logic g :
  gran_alkalinity tm emf temps M c n logic = Ok g ->
  length emf = length tm /\ length temps = length tm /\
  ga_gfunc g = map3 (fun m e t => gran_function m e t M) tm emf temps /\
  gran_used logic (ga_gfunc g) = Ok (ga_used g) /\
  linregress (mask (ga_used g) tm) (mask (ga_used g) (ga_gfunc g)) = Ok (ga_lr g) /\
  ga_alkalinity g = nopp (lr_intercept (ga_lr g)) ⊘ lr_slope (ga_lr g) ⊗ c ⊗ n ⊘ M.
Proof.
  unfold gran_alkalinity. destruct (same_len tm emf temps) eqn:E; cbn [negb]; [|discriminate].
  apply same_len_spec in E as [E1 E2].
  destruct (gran_used _ _) as [u|] eqn:Eu; cbn [bind]; [|discriminate].
  destruct (linregress _ _) as [lr|] eqn:El; cbn [bind]; [|discriminate].
  intros [= <-]. cbn [ga_gfunc ga_used ga_lr ga_alkalinity]. auto 10.
Qed.

Lemma gran_G_uniform tm emf temps M t : -273.15 < t -> length emf = length tm -> length temps = length tm ->
  Forall (fun x => x = t) temps ->
  map3 (fun m e t => gran_function m e t (Fin M)) (map Fin tm) (map Fin emf) (map Fin temps)
  = map Fin (map2 (GR M t) tm emf).
Proof.
  intros Ht He Htt Hu. rewrite (map3_const _ _ _ _ (Fin t)).
  - rewrite (map2_fin (GR M t)); [reflexivity|]. intros a b. apply gran_function_fin. assumption.
  - rewrite !map_length. assumption.
  - rewrite !map_length. assumption.
  - rewrite Forall_map. eapply Forall_impl; [|exact Hu]. cbn. intros x ->. reflexivity.
Qed.

Lemma nth_used_lt {A} u (l : list A) i : length u = length l -> used_at u i -> exists x, nth_error l i = Some x.
Proof.
  intros Hl Hi. assert (Hlt : (i < length l)%nat) by (rewrite <- Hl; apply nth_error_Some; unfold used_at in Hi; congruence).
  destruct (nth_error l i) eqn:E; [eauto|]. apply nth_error_None in E. lia.
Qed.

(* ------------------------------------------------------------------ *)
(** * C25 *)

Lemma gran_exact_aux tm emf temps M c n logic g t E0 A :
  masses_ok tm M -> -273.15 < t -> Forall (fun x => x = t) temps -> c * n <> 0 ->
  gran_alkalinity (map Fin tm) (map Fin emf) (map Fin temps) (Fin M) (Fin c) (Fin n) logic = Ok g ->
  (2 <= n_used (ga_used g))%nat ->
  (forall i m e, used_at (ga_used g) i -> nth_error tm i = Some m -> nth_error emf i = Some e ->
     (m + M) * nernst_h e E0 t = m * c * n - M * A) ->
  length emf = length tm /\ length temps = length tm /\ length (ga_used g) = length tm /\
  ga_alkalinity g = Fin A.
Proof.
  intros [HM Htm] Ht Hu Hcn Hg H2 Hid. apply gran_inv in Hg as [He [Htt [HG [Hgu [Hlr Ha]]]]].
  rewrite !map_length in He, Htt. rewrite (gran_G_uniform _ _ _ _ t) in HG by assumption.
  set (u := ga_used g) in *.
  assert (Hlu : length u = length tm).
  { apply gran_used_length in Hgu. rewrite HG, map_length, map2_length in Hgu; assumption. }
  split; [assumption|]. split; [assumption|]. split; [assumption|].
  set (s := exp (E0 * Fcst / (Rcst * TK t))). assert (Hs : 0 < s) by apply exp_pos.
  assert (Hy : mask u (ga_gfunc g) = map Fin (map (fun v => s * (c * n) * v + - (s * M * A)) (mask u tm))).
  { rewrite HG, mask_map. f_equal. apply mask_map2_ext; [assumption|].
    intros i m e Hi Hm Hee. rewrite GR_nernst, (nernst_shift e E0) by assumption. fold s.
    replace ((m + M) * (s * nernst_h e E0 t)) with (s * ((m + M) * nernst_h e E0 t)) by ring.
    rewrite (Hid i m e) by assumption. ring. }
  rewrite mask_map, Hy in Hlr.
  assert (Hd : two_distinct (mask u tm)).
  { eapply linregress_ok_distinct; [exact Hlr|]. rewrite mask_count by (symmetry; assumption). exact H2. }
  destruct (linregress_fin (mask u tm) (map (fun v => s * (c * n) * v + - (s * M * A)) (mask u tm)) Hd)
    as [lr [E [E1 E2]]]; [apply map_length|].
  rewrite Hlr in E. injection E as E. rewrite <- E in E1, E2.
  rewrite slope_line in E1 by assumption. rewrite intercept_line in E2 by assumption.
  rewrite Ha, E1, E2. assert (Hsl : s * (c * n) <> 0) by (apply Rmult_integral_contrapositive_currified; lra).
  rewrite fin_opp, fin_div by assumption. rewrite !fin_mul, fin_div by lra.
  f_equal. field. assert (c <> 0 /\ n <> 0) as [] by (split; intros ->; apply Hcn; ring).
  repeat split; try assumption; lra.
Qed.

Theorem C25_gran_alkalinity_exact : forall tm emf temps M c n logic g t E0 A,
  masses_ok tm M -> -273.15 < t -> Forall (fun x => x = t) temps -> c * n <> 0 ->
  gran_alkalinity (map Fin tm) (map Fin emf) (map Fin temps) (Fin M) (Fin c) (Fin n) logic = Ok g ->
  (2 <= n_used (ga_used g))%nat ->
  (* at the points Gran uses, only free acid matters: (m+M) [H+] = m c n - M A *)
  (forall i m e, used_at (ga_used g) i -> nth_error tm i = Some m -> nth_error emf i = Some e ->
     (m + M) * nernst_h e E0 t = m * c * n - M * A) ->
  ga_alkalinity g = Fin A.
Proof. intros. eapply gran_exact_aux; eassumption. Qed.

(* ------------------------------------------------------------------ *)
(** * C26 *)

Lemma emf_to_pH_nernst e E0 t : -273.15 < t ->
  emf_to_pH (Fin e) (Fin E0) (Fin t) = Fin (pH_of_h (nernst_h e E0 t)).
Proof.
  intros Ht. rewrite emf_to_pH_fin by assumption. unfold pH_of_h, nernst_h. rewrite ln_exp. reflexivity.
Qed.

Theorem C26_gran_emf0_and_pH_exact : forall tm emf temps M c n logic gg t E0 A,
  masses_ok tm M -> -273.15 < t -> Forall (fun x => x = t) temps -> c * n <> 0 ->
  gran_guesses (map Fin tm) (map Fin emf) (map Fin temps) (Fin M) (Fin c) (Fin n) logic = Ok gg ->
  (2 <= n_used (ga_used (gg_ga gg)))%nat ->
  (forall i m e, used_at (ga_used (gg_ga gg)) i -> nth_error tm i = Some m -> nth_error emf i = Some e ->
     (m + M) * nernst_h e E0 t = m * c * n - M * A) ->
  ga_alkalinity (gg_ga gg) = Fin A /\
  gg_emf0 gg = Fin E0 /\
  gg_pH gg = map (fun e => Fin (pH_of_h (nernst_h e E0 t))) emf.
Proof.
  intros tm emf temps M c n logic gg t E0 A Hok Ht Hu Hcn Hgg H2 Hid.
  unfold gran_guesses in Hgg.
  destruct (gran_alkalinity _ _ _ _ _ _ _) as [g|] eqn:Hg; cbn [bind] in Hgg; [|discriminate].
  injection Hgg as <-. cbn [gg_ga gg_emf0 gg_pH] in *.
  pose proof Hok as [HM Htm].
  destruct (gran_exact_aux _ _ _ _ _ _ _ _ _ _ _ Hok Ht Hu Hcn Hg H2 Hid) as [He [Htt [Hlu HA]]].
  split; [assumption|].
  assert (HE : nmean (mask (ga_used g)
      (map3 (fun m e t => gran_emf0 m e t (Fin M) (Fin c) (ga_alkalinity g) (Fin n)) (map Fin tm) (map Fin emf) (map Fin temps)))
      = Fin E0).
  { rewrite HA, (map3_const _ _ _ _ (Fin t)).
    2,3: rewrite !map_length; assumption.
    2:{ rewrite Forall_map. eapply Forall_impl; [|exact Hu]. cbn. intros x ->. reflexivity. }
    rewrite (mask_map2_ext _ (fun _ => Fin E0)).
    - assert (Hne : mask (ga_used g) (map Fin tm) <> []).
      { intros E. assert (El : length (mask (ga_used g) (map Fin tm)) = n_used (ga_used g)).
        { apply mask_count. rewrite map_length. symmetry; assumption. }
        rewrite E in El. cbn in El. lia. }
      rewrite <- (map_map (fun _ => E0) Fin), nmean_fin.
      + f_equal. apply Rmean_const. assumption.
      + intros E. apply map_eq_nil in E. contradiction.
    - rewrite !map_length. assumption.
    - intros i xm xe Hi Hxm Hxe. rewrite nth_error_map in Hxm, Hxe.
      destruct (nth_error tm i) as [m|] eqn:Em; [|discriminate].
      destruct (nth_error emf i) as [e|] eqn:Ee; [|discriminate].
      injection Hxm as <-. injection Hxe as <-.
      pose proof (Hid i m e Hi Em Ee) as Heq.
      assert (Hm : 0 <= m) by (eapply Forall_nth_error in Htm; eassumption).
      unfold gran_emf0, ideal_gas, absolute_zero, faraday. rewrite !fin_q, !fin_mul, !fin_add, fin_sub, fin_mul.
      fold Rcst Fcst. change (t + Q2R 273.15) with (TK t).
      pose proof Fcst_pos. pose proof Rcst_pos. pose proof (TK_pos t Ht).
      rewrite fin_div by (change (Fcst <> 0); lra). rewrite fin_div by lra.
      rewrite <- Heq. replace ((m + M) * nernst_h e E0 t / (m + M)) with (nernst_h e E0 t) by (field; lra).
      rewrite fin_ln by apply exp_pos. unfold nernst_h at 1. rewrite ln_exp. fold Fcst Rcst. fold (TK t).
      rewrite fin_mul, fin_sub. f_equal. change (Q2R (964853365 # 10000000)) with Fcst. field. repeat split; lra. }
  split; [exact HE|].
  assert (HP : emf_to_pH_arr (map Fin emf) (Fin E0) (map Fin temps)
               = map (fun e => Fin (pH_of_h (nernst_h e E0 t))) emf).
  { assert (Hll : length temps = length emf) by congruence. clear - Ht Hu Hll. revert temps Hu Hll.
    unfold emf_to_pH_arr. induction emf as [|e emf IH]; intros [|v temps] Hu Hll; cbn [map map2]; try discriminate; [reflexivity|].
    inversion Hu; subst. rewrite emf_to_pH_nernst by assumption. f_equal. apply IH; [assumption|cbn in Hll; lia]. }
  rewrite <- HP. f_equal. exact HE.
Qed.

(* ------------------------------------------------------------------ *)
(** * C27 *)

Lemma gran_G_general tm emf temps M :
  masses_ok tm M -> length emf = length tm -> length temps = length tm -> Forall (fun t => -273.15 < t) temps ->
  exists G, map3 (fun m e t => gran_function m e t (Fin M)) (map Fin tm) (map Fin emf) (map Fin temps) = map Fin G /\
    length G = length tm /\
    (forall i m e t, nth_error tm i = Some m -> nth_error emf i = Some e -> nth_error temps i = Some t ->
       nth_error G i = Some ((m + M) * nernst_h e 0 t)) /\
    Forall (fun g => 0 < g) G.
Proof.
  intros [HM Htm] He Ht Hb.
  exists (map3 (fun m e t => GR M t m e) tm emf temps).
  assert (E : map3 (fun m e t => gran_function m e t (Fin M)) (map Fin tm) (map Fin emf) (map Fin temps)
              = map Fin (map3 (fun m e t => GR M t m e) tm emf temps)).
  { clear HM. revert emf temps He Ht Hb. induction Htm as [|m tm Hm Htm IH]; intros [|e emf] [|t temps]; cbn [length map map3]; try discriminate; try reflexivity.
    intros [= He] [= Ht] Hb. inversion Hb; subst. rewrite gran_function_fin by assumption. f_equal. apply IH; assumption. }
  split; [exact E|]. split; [apply map3_length; assumption|]. split.
  - intros i m e t H1 H2 H3. rewrite nth_error_map3, H1, H2, H3. rewrite GR_nernst. reflexivity.
  - apply Forall_forall. intros g Hg. apply In_nth_error in Hg as [i Hi]. rewrite nth_error_map3 in Hi.
    destruct (nth_error tm i) as [m|] eqn:E1; [|discriminate].
    destruct (nth_error emf i) as [e|]; [|discriminate]. destruct (nth_error temps i) as [t|]; [|discriminate].
    injection Hi as <-. apply GR_pos; [assumption|]. eapply Forall_nth_error in Htm; eassumption.
Qed.

Theorem C27_points_used : forall tm emf temps M c n logic g,
  masses_ok tm M -> Forall (fun t => -273.15 < t) temps ->
  gran_alkalinity (map Fin tm) (map Fin emf) (map Fin temps) (Fin M) c n logic = Ok g ->
  exists G mx,                                   (* the Gran function (m+M) exp(F e/(R T)) and its maximum *)
    ga_gfunc g = map Fin G /\ length G = length tm /\
    (forall i m e t, nth_error tm i = Some m -> nth_error emf i = Some e -> nth_error temps i = Some t ->
       nth_error G i = Some ((m + M) * nernst_h e 0 t)) /\
    is_max mx G /\ length (ga_used g) = length tm /\
    ((logic = "v23.7+" /\
      (forall i, used_at (ga_used g) i <->
         (i < length tm)%nat /\ exists j gj, (j <= i)%nat /\ nth_error G j = Some gj /\ gj > 0.1 * mx) /\
      (forall i, nth_error G i = Some mx -> used_at (ga_used g) i))
     \/
     (logic = "legacy" /\
      (forall i gi, nth_error G i = Some gi -> (used_at (ga_used g) i <-> 0.1 * mx < gi < 0.9 * mx)))).
Proof.
  intros tm emf temps M c n logic g Hok Hb Hg. apply gran_inv in Hg as [He [Htt [HG [Hgu _]]]].
  rewrite !map_length in He, Htt.
  destruct (gran_G_general tm emf temps M Hok He Htt Hb) as [G [EG [HlG [HnG HpG]]]].
  rewrite EG in HG. rewrite HG in Hgu.
  pose proof (gran_used_length _ _ _ Hgu) as Hlu. rewrite map_length in Hlu.
  unfold gran_used in Hgu.
  destruct (String.eqb_spec logic "v23.7+") as [->|Hn1].
  - destruct (nmax (map Fin G)) as [xm|] eqn:Em; cbn [bind] in Hgu; [|discriminate].
    apply nmax_is_max in Em as [mx [-> Hmx]]. exists G, mx. split; [assumption|]. split; [assumption|]. split; [assumption|].
    split; [assumption|]. split; [congruence|]. left. split; [reflexivity|].
    destruct (used_from_first _) as [u|] eqn:Eu; cbn in Hgu; [|discriminate]. injection Hgu as <-.
    apply used_from_first_spec in Eu as [_ Hspec]. rewrite !map_length in Hspec.
    assert (Hflag : forall j, nth_error (map (fun g0 : xr => ngtb g0 (nofQ 0.1 ⊗ Fin mx)) (map Fin G)) j = Some true <->
                    exists gj, nth_error G j = Some gj /\ gj > 0.1 * mx).
    { intros j. rewrite !nth_error_map. destruct (nth_error G j) as [gj|]; cbn.
      - split.
        + intros [= Hb1]. exists gj. split; [reflexivity|]. apply rltb_spec in Hb1. exact Hb1.
        + intros [gj' [[= <-] Hgt]]. f_equal. apply rltb_true. exact Hgt.
      - split; [discriminate|]. intros [? [? _]]. discriminate. }
    assert (Hused : forall i, used_at u i <-> (i < length tm)%nat /\
                exists j gj, (j <= i)%nat /\ nth_error G j = Some gj /\ gj > 0.1 * mx).
    { intros i. unfold used_at. rewrite Hspec, HlG. split.
      - intros [Hi [j [Hj Hf]]]. apply Hflag in Hf as [gj [H1 H2]]. split; [assumption|]. eauto.
      - intros [Hi [j [gj [Hj [H1 H2]]]]]. split; [assumption|]. exists j. split; [assumption|]. apply Hflag. eauto. }
    split; [exact Hused|]. intros i Hi. apply Hused. split.
    + rewrite <- HlG. apply nth_error_Some. congruence.
    + exists i, mx. split; [lia|]. split; [assumption|].
      assert (0 < mx) by (eapply Forall_nth_error in HpG; eassumption). q2r. lra.
  - destruct (String.eqb_spec logic "legacy") as [->|Hn2]; [|discriminate].
    destruct (nmax (map Fin G)) as [xm|] eqn:Em; cbn [bind] in Hgu; [|discriminate].
    apply nmax_is_max in Em as [mx [-> Hmx]]. injection Hgu as Hgu.
    exists G, mx. split; [assumption|]. split; [assumption|]. split; [assumption|].
    split; [assumption|]. split; [congruence|]. right. split; [reflexivity|].
    intros i gi Hi. unfold used_at. rewrite <- Hgu, !nth_error_map, Hi. cbn. split.
    + intros [= Hb1]. apply andb_true_iff in Hb1 as [H1 H2]. apply rltb_spec in H1, H2. split; assumption.
    + intros [H1 H2]. f_equal. rewrite andb_true_iff. split; apply rltb_true; assumption.
Qed.

(* the points of the legacy logic are among those of the default *)
Theorem C27_legacy_subset_of_default : forall tm emf temps M c n g g',
  masses_ok tm M -> Forall (fun t => -273.15 < t) temps ->
  gran_alkalinity (map Fin tm) (map Fin emf) (map Fin temps) (Fin M) c n "legacy" = Ok g ->
  gran_alkalinity (map Fin tm) (map Fin emf) (map Fin temps) (Fin M) c n "v23.7+" = Ok g' ->
  forall i, used_at (ga_used g) i -> used_at (ga_used g') i.
Proof.
  intros tm emf temps M c n g g' Hok Hb Hg Hg' i Hi.
  destruct (C27_points_used _ _ _ _ _ _ _ _ Hok Hb Hg) as [G [mx [E [_ [_ [Hmx [Hl [[Hx _]|[_ Hu]]]]]]]]]; [discriminate|].
  destruct (C27_points_used _ _ _ _ _ _ _ _ Hok Hb Hg') as [G' [mx' [E' [_ [_ [Hmx' [Hl' [[_ [Hu' _]]|[Hx _]]]]]]]]]; [|discriminate].
  pose proof (gran_inv _ _ _ _ _ _ _ _ Hg) as [_ [_ [E1 _]]].
  pose proof (gran_inv _ _ _ _ _ _ _ _ Hg') as [_ [_ [E2 _]]].
  assert (EG : map Fin G' = map Fin G) by congruence.
  assert (G' = G).
  { clear - EG. revert G' EG. induction G as [|x G IH]; intros [|y G'] EG; try discriminate; [reflexivity|].
    cbn in EG. injection EG as -> EG. f_equal. apply IH. assumption. }
  subst G'. assert (mx' = mx) by (eapply is_max_unique; eassumption). subst mx'.
  assert (Hlt : (i < length tm)%nat) by (rewrite <- Hl; apply nth_error_Some; unfold used_at in Hi; congruence).
  apply Hu'. split; [assumption|].
  destruct (nth_error G i) as [gi|] eqn:Eg.
  - exists i, gi. split; [lia|]. split; [assumption|]. apply (Hu i gi Eg) in Hi. lra.
  - exfalso. apply nth_error_None in Eg. rewrite <- (map_length Fin G), <- E, E1 in Eg.
    rewrite map3_length in Eg; rewrite ?map_length in *; try lia.
    + apply gran_inv in Hg as [He _]. rewrite !map_length in He. assumption.
    + apply gran_inv in Hg as [_ [Ht _]]. rewrite !map_length in Ht. assumption.
Qed.

(* the call raises for any other name, and otherwise only because there are too few
   (or only identical) titrant masses to fit a line through *)
Theorem C27_raises : forall tm emf temps M c n logic,
  masses_ok tm M -> Forall (fun t => -273.15 < t) temps ->
  length emf = length tm -> length temps = length tm ->
  (~ In logic ["v23.7+"; "legacy"] ->
     gran_alkalinity (map Fin tm) (map Fin emf) (map Fin temps) (Fin M) c n logic = Err GenericException) /\
  (In logic ["v23.7+"; "legacy"] -> forall e,
     gran_alkalinity (map Fin tm) (map Fin emf) (map Fin temps) (Fin M) c n logic = Err e -> e = ValueError) /\
  (tm <> [] -> NoDup tm ->
     exists g, gran_alkalinity (map Fin tm) (map Fin emf) (map Fin temps) (Fin M) c n "v23.7+" = Ok g).
Proof.
  intros tm emf temps M c n logic Hok Hb He Htt.
  destruct (gran_G_general tm emf temps M Hok He Htt Hb) as [G [EG [HlG [HnG HpG]]]].
  assert (Hsl : same_len (map Fin tm) (map Fin emf) (map Fin temps) = true)
    by (apply same_len_spec; rewrite !map_length; auto).
  split; [|split].
  - intros Hn. unfold gran_alkalinity. rewrite Hsl, EG. cbn [negb]. unfold gran_used.
    destruct (String.eqb_spec logic "v23.7+"); [exfalso; apply Hn; cbn; auto|].
    destruct (String.eqb_spec logic "legacy"); [exfalso; apply Hn; cbn; auto|]. reflexivity.
  - intros Hin e. unfold gran_alkalinity. rewrite Hsl, EG. cbn [negb].
    assert (Hu : forall e, gran_used logic (map Fin G) = Err e -> e = ValueError).
    { clear e. intros e. unfold gran_used. destruct G as [|x G'].
      - destruct Hin as [<-|[<-|[]]]; cbn; congruence.
      - pose proof (Rmaxl_spec x G') as Hmx. rewrite nmax_fin. cbn [bind].
        destruct Hin as [<-|[<-|[]]]; [|cbn; discriminate]. rewrite String.eqb_refl.
        destruct (used_from_first_some (map (fun g : xr => ngtb g (nofQ 0.1 ⊗ Fin (Rmaxl x G'))) (map Fin (x :: G')))) as [u ->];
          [|discriminate].
        rewrite map_map. apply in_map_iff. exists (Rmaxl x G'). split; [|apply Hmx].
        apply rltb_true. destruct Hmx as [Hin _]. rewrite Forall_forall in HpG. specialize (HpG _ Hin).
        change (Q2R 0.1 * Rmaxl x G' < Rmaxl x G'). q2r. lra. }
    destruct (gran_used logic (map Fin G)) as [u|e'] eqn:Eu; cbn [bind].
    + destruct (linregress _ _) as [lr|e'] eqn:El; cbn [bind]; [discriminate|]. intros [= <-].
      unfold linregress in El. destruct (mask u (map Fin tm)); [congruence|]. destruct (all_same _); congruence.
    + intros [= <-]. apply Hu. reflexivity.
  - intros Hne Hnd. unfold gran_alkalinity. rewrite Hsl, EG. cbn [negb].
    assert (Hu : exists u, gran_used "v23.7+" (map Fin G) = Ok u /\ length u = length tm /\ exists i, used_at u i).
    { destruct G as [|x G']; [destruct tm; [congruence|discriminate]|].
      pose proof (Rmaxl_spec x G') as Hmx. 
      assert (Hint : In true (map (fun g : xr => ngtb g (nofQ 0.1 ⊗ Fin (Rmaxl x G'))) (map Fin (x :: G')))).
      { rewrite map_map. apply in_map_iff. exists (Rmaxl x G'). split; [|apply Hmx].
        apply rltb_true. destruct Hmx as [Hin _]. rewrite Forall_forall in HpG. specialize (HpG _ Hin).
        change (Q2R 0.1 * Rmaxl x G' < Rmaxl x G'). q2r. lra. }
      destruct (used_from_first_some _ Hint) as [u Eu].
      exists u. unfold gran_used. rewrite String.eqb_refl, nmax_fin. cbn [bind]. rewrite Eu.
      split; [reflexivity|]. apply used_from_first_spec in Eu as [Hl Hs]. rewrite !map_length in *.
      split; [lia|]. apply In_nth_error in Hint as [i Hi]. exists i. apply Hs. split.
      - assert (Hlt : (i < length (map (fun g : xr => ngtb g (nofQ 0.1 ⊗ Fin (Rmaxl x G'))) (map Fin (x :: G'))))%nat)
          by (apply nth_error_Some; congruence).
        rewrite !map_length in Hlt. exact Hlt.
      - exists i. split; [lia|assumption]. }
    destruct Hu as [u [-> [Hl [i Hi]]]]. cbn [bind].
    assert (Hlr : exists lr, linregress (mask u (map Fin tm)) (mask u (map Fin G)) = Ok lr).
    { rewrite mask_map. unfold linregress.
      pose proof (mask_cons_used u tm (eq_sym Hl) (ex_intro _ i Hi)) as Hmne.
      destruct (mask u tm) as [|a l] eqn:Em; [congruence|]. cbn [map].
      assert (Hs : all_same (map Fin (a :: l)) = false).
      { destruct l as [|b l]; [reflexivity|]. apply all_same_distinct. exists a, b. cbn. split; [auto|]. split; [auto|].
        assert (Hnd' : NoDup (mask u tm)).
        { clear - Hnd. revert u. induction Hnd as [|y tm Hy Hnd IH]; intros [|f u]; cbn; try constructor.
          destruct f; [|apply IH]. constructor; [|apply IH]. intros Hin. apply in_mask in Hin as [i [_ Hi]].
          apply Hy. eapply nth_error_In; eassumption. }
        rewrite Em in Hnd'. inversion Hnd' as [|? ? Hni]; subst. intros ->. apply Hni. cbn; auto. }
      cbn [map] in Hs. rewrite Hs. eauto. }
    destruct Hlr as [lr ->]. cbn [bind]. eauto.
Qed.

(* ------------------------------------------------------------------ *)
(** * C28 *)

Definition shift_emf (d : R) (emf : list R) : list R := map (fun e => e + d) emf.

Lemma GR_shift M t m e d : -273.15 < t ->
  GR M t m (e + d) = exp (d * Fcst / (Rcst * TK t)) * GR M t m e.
Proof.
  intros Ht. pose proof Rcst_pos. pose proof (TK_pos t Ht). unfold GR.
  replace ((e + d) * Fcst / (Rcst * TK t)) with (d * Fcst / (Rcst * TK t) + e * Fcst / (Rcst * TK t)) by (field; split; lra).
  rewrite exp_plus. ring.
Qed.

Lemma map2_map_r {A B C D} (f : A -> B -> C) (g : D -> B) x y : map2 f x (map g y) = map2 (fun a b => f a (g b)) x y.
Proof. revert y; induction x as [|a x IH]; intros [|b y]; cbn; try reflexivity. rewrite IH. reflexivity. Qed.
Lemma map_map2 {A B C D} (g : C -> D) (f : A -> B -> C) x y : map g (map2 f x y) = map2 (fun a b => g (f a b)) x y.
Proof. revert y; induction x as [|a x IH]; intros [|b y]; cbn; try reflexivity. rewrite IH. reflexivity. Qed.
Lemma map2_ext {A B C} (f g : A -> B -> C) x y : (forall a b, f a b = g a b) -> map2 f x y = map2 g x y.
Proof. intros E. revert y; induction x as [|a x IH]; intros [|b y]; cbn; try reflexivity. rewrite E, IH. reflexivity. Qed.
Lemma map3_map_m {A B B' C D} (f : A -> B -> C -> D) (g : B' -> B) x y z :
  map3 f x (map g y) z = map3 (fun a b c => f a (g b) c) x y z.
Proof. revert y z; induction x as [|a x IH]; intros [|b y] [|c z]; cbn; try reflexivity. rewrite IH. reflexivity. Qed.
Lemma map_map3 {A B C D E} (g : D -> E) (f : A -> B -> C -> D) x y z :
  map g (map3 f x y z) = map3 (fun a b c => g (f a b c)) x y z.
Proof. revert y z; induction x as [|a x IH]; intros [|b y] [|c z]; cbn; try reflexivity. rewrite IH. reflexivity. Qed.
Lemma map3_ext {A B C D} (f g : A -> B -> C -> D) x y z : (forall a b c, f a b c = g a b c) -> map3 f x y z = map3 g x y z.
Proof. intros E. revert y z; induction x as [|a x IH]; intros [|b y] [|c z]; cbn; try reflexivity. rewrite E, IH. reflexivity. Qed.

Lemma gran_shift_aux tm emf temps M c n logic t d :
  -273.15 < t -> Forall (fun x => x = t) temps ->
  match gran_alkalinity (map Fin tm) (map Fin emf) (map Fin temps) (Fin M) c n logic,
        gran_alkalinity (map Fin tm) (map Fin (shift_emf d emf)) (map Fin temps) (Fin M) c n logic with
  | Ok g, Ok g' => ga_alkalinity g' = ga_alkalinity g /\ ga_used g' = ga_used g
  | Err e, Err e' => e = e'
  | _, _ => False
  end.
Proof.
  intros Ht Hu. unfold gran_alkalinity.
  assert (Esl : same_len (map Fin tm) (map Fin (shift_emf d emf)) (map Fin temps)
                = same_len (map Fin tm) (map Fin emf) (map Fin temps)).
  { unfold same_len, shift_emf. rewrite !map_length. reflexivity. }
  rewrite Esl. destruct (same_len (map Fin tm) (map Fin emf) (map Fin temps)) eqn:Es; cbn [negb]; [|reflexivity].
  apply same_len_spec in Es as [He Htt]. rewrite !map_length in He, Htt.
  rewrite (gran_G_uniform tm emf temps M t) by assumption.
  rewrite (gran_G_uniform tm (shift_emf d emf) temps M t) by (try assumption; unfold shift_emf; rewrite map_length; assumption).
  set (s := exp (d * Fcst / (Rcst * TK t))). assert (Hs : 0 < s) by apply exp_pos.
  assert (EG : map2 (GR M t) tm (shift_emf d emf) = map (fun v => s * v) (map2 (GR M t) tm emf)).
  { unfold shift_emf. rewrite map2_map_r, map_map2. apply map2_ext. intros a b. apply GR_shift. assumption. }
  rewrite EG, gran_used_scale by assumption.
  destruct (gran_used logic (map Fin (map2 (GR M t) tm emf))) as [u|e] eqn:Eu; cbn [bind]; [|reflexivity].
  rewrite !mask_map.
  pose proof (linregress_scale s (mask u tm) (mask u (map2 (GR M t) tm emf)) Hs) as Hls.
  assert (Hml : length (mask u (map2 (GR M t) tm emf)) = length (mask u tm))
    by (apply mask_length_eq; apply map2_length; assumption).
  specialize (Hls Hml).
  destruct (linregress (map Fin (mask u tm)) (map Fin (mask u (map2 (GR M t) tm emf)))) as [lr|e];
  destruct (linregress (map Fin (mask u tm)) (map Fin (map (fun v : R => s * v) (mask u (map2 (GR M t) tm emf))))) as [lr'|e'];
    cbn [bind]; try contradiction; [|assumption].
  cbn [ga_alkalinity ga_used]. rewrite Hls. auto.
Qed.

Lemma x_sub_shift a d (X : xr) : nsub (Fin (a + d)) X = nadd (nsub (Fin a) X) (Fin d).
Proof. destruct X; cbn; try reflexivity. f_equal. ring. Qed.

Lemma emf_to_pH_shift e d (X t : xr) :
  emf_to_pH (Fin (e + d)) (nadd X (Fin d)) t = emf_to_pH (Fin e) X t.
Proof.
  unfold emf_to_pH, emf_to_h.
  assert (E : nsub (Fin (e + d)) (nadd X (Fin d)) = nsub (Fin e) X).
  { destruct X; cbn; try reflexivity. f_equal. ring. }
  rewrite E. reflexivity.
Qed.

Lemma emf_to_pH_arr_shift emf d (X : xr) (temps : list xr) :
  emf_to_pH_arr (map Fin (shift_emf d emf)) (nadd X (Fin d)) temps = emf_to_pH_arr (map Fin emf) X temps.
Proof.
  unfold emf_to_pH_arr, shift_emf. rewrite map_map.
  revert temps; induction emf as [|e emf IH]; intros [|v temps]; cbn [map map2]; try reflexivity.
  rewrite IH. f_equal. apply emf_to_pH_shift.
Qed.

Theorem C28_gran_emf_offset : forall tm emf temps M c n logic t d,
  -273.15 < t -> Forall (fun x => x = t) temps ->
  (forall gg, gran_guesses (map Fin tm) (map Fin emf) (map Fin temps) (Fin M) c n logic = Ok gg ->
     exists gg', gran_guesses (map Fin tm) (map Fin (shift_emf d emf)) (map Fin temps) (Fin M) c n logic = Ok gg' /\
       ga_alkalinity (gg_ga gg') = ga_alkalinity (gg_ga gg) /\
       ga_used (gg_ga gg') = ga_used (gg_ga gg) /\
       gg_emf0 gg' = gg_emf0 gg ⊕ Fin d /\
       gg_pH gg' = gg_pH gg) /\
  (forall e, gran_guesses (map Fin tm) (map Fin emf) (map Fin temps) (Fin M) c n logic = Err e ->
     gran_guesses (map Fin tm) (map Fin (shift_emf d emf)) (map Fin temps) (Fin M) c n logic = Err e).
Proof.
  intros tm emf temps M c n logic t d Ht Hu.
  pose proof (gran_shift_aux tm emf temps M c n logic t d Ht Hu) as Haux.
  unfold gran_guesses.
  destruct (gran_alkalinity (map Fin tm) (map Fin emf) (map Fin temps) (Fin M) c n logic) as [g|e0];
  destruct (gran_alkalinity (map Fin tm) (map Fin (shift_emf d emf)) (map Fin temps) (Fin M) c n logic) as [g'|e1];
    cbn [bind]; try contradiction; [|subst; split; [discriminate|auto]].
  split; [|discriminate]. intros gg [= <-]. eexists. split; [reflexivity|].
  cbn [gg_ga gg_emf0 gg_pH]. destruct Haux as [Ha Hus]. split; [exact Ha|]. split; [exact Hus|].
  rewrite Ha, Hus.
  assert (E0s : map3 (fun m e t => gran_emf0 m e t (Fin M) c (ga_alkalinity g) n) (map Fin tm) (map Fin (shift_emf d emf)) (map Fin temps)
    = map (fun x => x ⊕ Fin d) (map3 (fun m e t => gran_emf0 m e t (Fin M) c (ga_alkalinity g) n) (map Fin tm) (map Fin emf) (map Fin temps))).
  { unfold shift_emf. rewrite map_map, !map3_map_m, map_map3. apply map3_ext. intros a b v. unfold gran_emf0. apply x_sub_shift. }
  rewrite E0s, mask_map, nmean_shift. split; [reflexivity|].
  apply emf_to_pH_arr_shift.
Qed.

(* ------------------------------------------------------------------ *)
(** * non-vacuity *)

(* two points, M = c = n = 1, true alkalinity 1/2, EMF0 = 0, 25 C:
   m = 1: [H+] = (1 - 1/2)/2 = 1/4;  m = 2: [H+] = (2 - 1/2)/3 = 1/2 *)
Definition ex_T25 : R := Rcst * TK 25 / Fcst.
Definition ex_emf : list R := [ex_T25 * ln (1/4); ex_T25 * ln (1/2)].

Lemma ex_t25 : -273.15 < 25. Proof. q2r. lra. Qed.
Lemma ex_nernst x : 0 < x -> nernst_h (ex_T25 * ln x) 0 25 = x.
Proof.
  intros Hx. unfold nernst_h, ex_T25. fold Fcst Rcst. fold (TK 25).
  pose proof Fcst_pos. pose proof Rcst_pos. pose proof (TK_pos 25 ex_t25).
  replace ((Rcst * TK 25 / Fcst * ln x - 0) * Fcst / (Rcst * TK 25)) with (ln x) by (field; repeat split; lra).
  apply exp_ln. assumption.
Qed.

Lemma ex_masses : masses_ok [1; 2] 1.
Proof. split; [lra|repeat constructor; lra]. Qed.

Lemma ex_gran_ok : exists gg,
  gran_guesses (map Fin [1; 2]) (map Fin ex_emf) (map Fin [25; 25]) (Fin 1) (Fin 1) (Fin 1) "v23.7+" = Ok gg /\
  ga_used (gg_ga gg) = [true; true].
Proof.
  assert (Hb : Forall (fun t => -273.15 < t) [25; 25]) by (repeat constructor; apply ex_t25).
  destruct (C27_raises [1; 2] ex_emf [25; 25] 1 (Fin 1) (Fin 1) "v23.7+" ex_masses Hb eq_refl eq_refl) as [_ [_ H]].
  destruct H as [g Hg]; [discriminate| |].
  { constructor; [cbn; intros [E|[]]; lra|]. constructor; [intros []|constructor]. }
  destruct (C27_points_used _ _ _ _ _ _ _ _ ex_masses Hb Hg) as [G [mx [_ [HlG [HG [Hmx [Hl [[_ [Hu _]]|[Hx _]]]]]]]]]; [|discriminate].
  pose proof (HG 0%nat 1 _ 25 eq_refl eq_refl eq_refl) as G0. rewrite ex_nernst in G0 by lra.
  pose proof (HG 1%nat 2 _ 25 eq_refl eq_refl eq_refl) as G1. rewrite ex_nernst in G1 by lra.
  destruct G as [|a [|b [|? G]]]; try discriminate HlG. cbn in G0, G1. injection G0 as G0. injection G1 as G1.
  assert (Emx : mx = 3 / 2).
  { destruct Hmx as [[H|[H|[]]] Hge]; [|lra]. specialize (Hge b (or_intror (or_introl eq_refl))). lra. }
  unfold gran_guesses. rewrite Hg. cbn [bind]. eexists. split; [reflexivity|]. cbn [gg_ga].
  assert (U0 : used_at (ga_used g) 0).
  { apply Hu. split; [cbn; lia|]. exists 0%nat, a. split; [lia|]. split; [reflexivity|]. q2r. lra. }
  assert (U1 : used_at (ga_used g) 1).
  { apply Hu. split; [cbn; lia|]. exists 1%nat, b. split; [lia|]. split; [reflexivity|]. q2r. lra. }
  unfold used_at in *. destruct (ga_used g) as [|u0 [|u1 [|? u]]]; try discriminate Hl. cbn in *. congruence.
Qed.

Lemma ex_ideal : forall i m e, nth_error [1; 2] i = Some m -> nth_error ex_emf i = Some e ->
     (m + 1) * nernst_h e 0 25 = m * 1 * 1 - 1 * (1/2).
Proof.
  intros [|[|i]] m e; cbn; [| |destruct i; discriminate]; intros [= <-] [= <-]; rewrite ex_nernst by lra; lra.
Qed.

(* C25, C26: the hypotheses are met by this titration, and the conclusion is its true
   alkalinity 1/2 and EMF0 = 0 *)
Example C25_C26_nonvacuous : exists gg,
  gran_guesses (map Fin [1; 2]) (map Fin ex_emf) (map Fin [25; 25]) (Fin 1) (Fin 1) (Fin 1) "v23.7+" = Ok gg /\
  ga_alkalinity (gg_ga gg) = Fin (1/2) /\ gg_emf0 gg = Fin 0.
Proof.
  destruct ex_gran_ok as [gg [Hgg Hu]]. exists gg. split; [assumption|].
  destruct (C26_gran_emf0_and_pH_exact [1; 2] ex_emf [25; 25] 1 1 1 "v23.7+" gg 25 0 (1/2)) as [H1 [H2 _]];
    try apply ex_masses; try apply ex_t25; try exact Hgg; try lra.
  - repeat constructor.
  - rewrite Hu. cbn. lia.
  - intros i m e _. apply ex_ideal.
  - auto.
Qed.

(* C28: the same titration seen by an electrode that reads 100 mV more *)
Example C28_nonvacuous : exists gg,
  gran_guesses (map Fin [1; 2]) (map Fin (shift_emf 100 ex_emf)) (map Fin [25; 25]) (Fin 1) (Fin 1) (Fin 1) "v23.7+" = Ok gg /\
  ga_alkalinity (gg_ga gg) = Fin (1/2) /\ gg_emf0 gg = Fin 100.
Proof.
  destruct C25_C26_nonvacuous as [gg [Hgg [H1 H2]]].
  destruct (C28_gran_emf_offset [1; 2] ex_emf [25; 25] 1 (Fin 1) (Fin 1) "v23.7+" 25 100 ex_t25) as [H _]; [repeat constructor|].
  destruct (H gg Hgg) as [gg' [E [E1 [_ [E2 _]]]]]. exists gg'. split; [assumption|]. rewrite E1, E2, H1, H2.
  split; [reflexivity|]. cbn. f_equal. ring.
Qed.

Print Assumptions C25_gran_alkalinity_exact.
Print Assumptions C27_points_used.
Print Assumptions C28_gran_emf_offset.
