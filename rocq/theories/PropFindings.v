(* PropFindings.v -- C29, C45, C84: claims about the solvers that are false, with witnesses *)
From Coq Require Import Reals Qreals Lra.
From Verif Require Export PropInvariance.
Open Scope list_scope.
Open Scope R_scope.

(* ------------------------------------------------------------------ *)
(** * an optimiser that is happy with its starting point *)

Definition stop_now : strategy xr := {| s_next := fun _ => None; s_pick := fun _ => 0%nat; s_max := 0 |}.

Lemma alk_arr_free ps : exists l, alkalinity_arr (map Fin ps) [] [] 3 = Ok (map Fin l) /\ length l = length ps.
Proof.
  destruct ps as [|p ps].
  - exists []. split; reflexivity.
  - destruct (alkalinity_arr_total (map Fin (p :: ps)) [] [] 3) as [l Hl]; [discriminate|reflexivity|reflexivity| |].
    { intros i x Hx. rewrite nth_error_map in Hx. destruct (nth_error (p :: ps) i); [|discriminate]. injection Hx as <-.
      exists (Fin (- pow10R (- r))). apply alk_free_only. }
    rewrite Hl. apply alkalinity_arr_spec in Hl as [_ [_ [Hlen Hn]]].
    destruct (forall_fin_list (fun (_ : nat) _ => True) l) as [lr ->].
    { intros i x Hx. destruct (nth_error_lt_ex l (map Fin (p :: ps)) i x (eq_sym Hlen) Hx) as [y Hy].
      destruct (Hn i y Hy) as [a [Ha Hal]]. rewrite nth_error_map in Hy. destruct (nth_error (p :: ps) i); [|discriminate].
      injection Hy as <-. rewrite Hx in Ha. injection Ha as <-. unfold slice_at in Hal. cbn [map] in Hal.
      rewrite alk_free_only in Hal. injection Hal as <-. eauto. }
    exists lr. rewrite !map_length in Hlen. auto.
Qed.

Lemma pH_arr_fin emf temps e0 : Forall (fun t => -273.15 < t) temps ->
  exists ps, emf_to_pH_arr (map Fin emf) (Fin e0) (map Fin temps) = map Fin ps /\ length ps = length (map2 pair emf temps).
Proof.
  unfold emf_to_pH_arr. revert temps; induction emf as [|e emf IH]; intros [|t temps] Ht; try (exists []; split; reflexivity).
  inversion Ht; subst. destruct (IH temps) as [ps [E L]]; [assumption|]. cbn [map map2]. rewrite E, emf_to_pH_nernst by assumption.
  exists (pH_of_h (nernst_h e e0 t) :: ps). cbn. split; [reflexivity|congruence].
Qed.

Lemma map2_fin_ex (f : xr -> xr -> xr) x y :
  (forall a b, In b y -> exists r, f (Fin a) (Fin b) = Fin r) -> exists z, map2 f (map Fin x) (map Fin y) = map Fin z.
Proof.
  revert y; induction x as [|a x IH]; intros [|b y] Hf; try (exists []; reflexivity).
  destruct (IH y) as [z Hz]; [intros; apply Hf; cbn; auto|]. destruct (Hf a b (or_introl eq_refl)) as [r Hr].
  exists (r :: z). cbn [map map2]. rewrite Hz, Hr. reflexivity.
Qed.

Lemma forallb_fin l : forallb nisfinite (map Fin l) = true.
Proof. induction l; [reflexivity|]. cbn. assumption. Qed.

Lemma once_stop_ok c tm emf temps M ai ei logic pmin pmax n gg a0 e0 :
  gran_guesses (map Fin tm) (map Fin emf) (map Fin temps) (Fin M) (Fin c) (Fin n) logic = Ok gg ->
  masses_ok tm M -> Forall (fun t => -273.15 < t) temps -> pmin < pmax ->
  match ai with None => ga_alkalinity (gg_ga gg) | Some a => a ⊗ nofQ 0.000001 end = Fin a0 ->
  start_emf0 ei gg = Fin e0 ->
  exists r, solve_emf_once stop_now (Fin c) (map Fin tm) (map Fin emf) (map Fin temps) (Fin M) [] [] ai ei logic
              (Fin pmin) (Fin pmax) (Fin n) = Ok r /\
    se_ggr r = gg /\ se_alkalinity r = Fin (a0 * 1000000) /\ se_emf0 r = Fin e0.
Proof.
  intros Hgg Hok Hb Hw Ha He. unfold solve_emf_once. rewrite Hgg. cbn [bind]. rewrite x_ltb_fin_t by assumption. cbn [assert_ bind].
  set (u := in_window _ _ _). cbn [all_fit forallb andb negb]. change (dmap (nd_mask u) []) with (@nil (string * nd xr)).
  rewrite Ha. change (match ei with Some e => e | None => gg_emf0 gg end) with (start_emf0 ei gg). rewrite He.
  rewrite !mask_map.
  assert (Hbu : Forall (fun t => -273.15 < t) (mask u temps)).
  { apply Forall_forall. intros t Ht. apply in_mask in Ht as [i [_ Hi]]. eapply Forall_nth_error in Hb; eassumption. }
  assert (Hdf : forall b, 0 <= b -> exists q, get_dilution_factor (Fin b) (Fin M) = Fin q).
  { intros b Hbb. destruct Hok as [HM _]. rewrite df_fin by lra. eauto. }
  assert (Hres : exists y, lsqfun_solve_emf (Fin c) (map Fin (mask u tm)) (map Fin (mask u emf)) (map Fin (mask u temps)) (Fin M)
     [] [] (Fin n) [Fin a0; Fin e0] = Ok (map Fin y)).
  { unfold lsqfun_solve_emf. destruct (pH_arr_fin (mask u emf) (mask u temps) e0 Hbu) as [ps [-> _]].
    change default_opt_pH_scale with 3%Z. destruct (alk_arr_free ps) as [l [-> _]]. cbn [bind].
    destruct (map2_fin_ex (fun s m => s ⊖ Fin a0 ⊗ get_dilution_factor m (Fin M) ⊕ m ⊗ Fin c ⊗ Fin n ⊘ (m ⊕ Fin M)) l (mask u tm)) as [z ->].
    - intros a b Hin. destruct (masses_ok_mask u tm M Hok) as [HM Ht]. rewrite Forall_forall in Ht. specialize (Ht b Hin). cbv beta in Ht.
      rewrite df_fin by lra. xsimp. rewrite fin_div by lra. rewrite fin_add. eauto.
    - eauto. }
  destruct Hres as [y Hy]. unfold least_squares. cbn [existsb]. 
  change (nisnan (Fin a0)) with false. change (nisnan (Fin e0)) with false. cbn [orb].
  rewrite Hy, forallb_fin. cbn [stop_now s_max lsq_loop s_pick nth fst snd bind or_x nth_error of_opt].
  unfold alkalinity_all. destruct (pH_arr_fin emf temps e0 Hb) as [ps [-> _]].
  change default_opt_pH_scale with 3%Z. destruct (alk_arr_free ps) as [l [-> _]]. cbn [bind].
  eexists. split; [reflexivity|]. cbn [se_ggr se_alkalinity se_emf0]. split; [reflexivity|]. split; [|reflexivity].
  rewrite fin_q, fin_mul. f_equal. f_equal. q2r. field.
Qed.

(* ------------------------------------------------------------------ *)
(** * C29: gran_logic is lost by double solving *)

(* Gran function 2, 4, 10 at m = 1, 2, 3 *)
Definition emf29 : list R := [ex_T25 * ln 1; ex_T25 * ln (4/3); ex_T25 * ln (5/2)].
Lemma masses29 : masses_ok [1; 2; 3] 1.
Proof. split; [lra|]. repeat constructor; lra. Qed.
Lemma temps29 : Forall (fun t => -273.15 < t) [25; 25; 25].
Proof. repeat constructor; apply ex_t25. Qed.

Lemma gran29 logic : In logic ["v23.7+"; "legacy"] -> exists gg e0,
  gran_guesses (map Fin [1; 2; 3]) (map Fin emf29) (map Fin [25; 25; 25]) (Fin 1) (Fin 1) (Fin 1) logic = Ok gg /\
  ga_alkalinity (gg_ga gg) = Fin (if String.eqb logic "legacy" then 0 else 2/3) /\ gg_emf0 gg = Fin e0.
Proof.
  intros Hin.
  assert (EG : map3 (fun m e t => gran_function m e t (Fin 1)) (map Fin [1; 2; 3]) (map Fin emf29) (map Fin [25; 25; 25])
    = map Fin [2; 4; 10]).
  { unfold emf29. cbn [map map3]. rewrite !gran_function_fin by apply ex_t25. rewrite !GR_nernst, !ex_nernst by lra.
    f_equal; [f_equal; field|]. f_equal; [f_equal; field|]. f_equal. f_equal. field. }
  assert (Emx : nmax (map Fin [2; 4; 10]) = Ok (Fin 10)).
  { apply nmax_of_max. split; [cbn; auto|]. intros y [<-|[<-|[<-|[]]]]; lra. }
  destruct Hin as [<-|[<-|[]]].
  - assert (Eu : gran_used "v23.7+" (map Fin [2; 4; 10]) = Ok [true; true; true]).
    { unfold gran_used. cbn [String.eqb Ascii.eqb Bool.eqb andb]. rewrite Emx. cbn [bind map]. unfold ngtb. rewrite fin_q, fin_mul.
      rewrite !x_ltb_fin_t by (q2r; lra). reflexivity. }
    assert (Hd : two_distinct [1; 2; 3]) by (exists 1, 2; cbn; repeat split; auto; lra).
    destruct (linregress_fin [1; 2; 3] [2; 4; 10] Hd eq_refl) as [lr [El [Es Ei]]].
    assert (Esl : slopeR [1; 2; 3] [2; 4; 10] = 4).
    { unfold slopeR, Rcov, Rmean. cbn. field. }
    assert (Ein : interceptR [1; 2; 3] [2; 4; 10] = - (8/3)).
    { unfold interceptR. rewrite Esl. unfold Rmean. cbn. field. }
    unfold gran_guesses, gran_alkalinity. change (same_len (map Fin [1; 2; 3]) (map Fin emf29) (map Fin [25; 25; 25])) with true.
    cbn [negb]. rewrite EG, Eu. cbn [bind]. change (mask [true; true; true] (map Fin [1; 2; 3])) with (map Fin [1; 2; 3]).
    change (mask [true; true; true] (map Fin [2; 4; 10])) with (map Fin [2; 4; 10]). rewrite El. cbn [bind].
    rewrite Es, Ei, Esl, Ein. rewrite fin_opp, fin_div by lra. rewrite !fin_mul, fin_div by lra.
    replace (- - (8 / 3) / 4 * 1 * 1 / 1) with (2/3) by field.
    eexists. cbn [ga_alkalinity ga_used].
    assert (He0 : exists e0, nmean (mask [true; true; true] (map3 (fun m e t => gran_emf0 m e t (Fin 1) (Fin 1) (Fin (2/3)) (Fin 1))
       (map Fin [1; 2; 3]) (map Fin emf29) (map Fin [25; 25; 25]))) = Fin e0).
    { unfold emf29. cbn [map map3 mask]. unfold gran_emf0, ideal_gas, absolute_zero, faraday. xsimp.
      rewrite !fin_div by (q2r; lra). rewrite !fin_ln by lra. xsimp.
      match goal with |- exists _, nmean [Fin ?a; Fin ?b; Fin ?d] = _ => change ([Fin a; Fin b; Fin d]) with (map Fin [a; b; d]) end.
      rewrite nmean_fin by discriminate. eauto. }
    destruct He0 as [e0 He0]. exists e0. split; [reflexivity|]. cbn [gg_ga ga_alkalinity gg_emf0]. split; [reflexivity|exact He0].
  - assert (Eu : gran_used "legacy" (map Fin [2; 4; 10]) = Ok [true; true; false]).
    { unfold gran_used. cbn [String.eqb Ascii.eqb Bool.eqb andb]. rewrite Emx. cbn [bind map]. unfold ngtb. rewrite !fin_q, !fin_mul.
      rewrite !x_ltb_fin_t by (q2r; lra). rewrite x_ltb_fin_f by (q2r; lra). reflexivity. }
    assert (Hd : two_distinct [1; 2]) by (exists 1, 2; cbn; repeat split; auto; lra).
    destruct (linregress_fin [1; 2] [2; 4] Hd eq_refl) as [lr [El [Es Ei]]].
    assert (Esl : slopeR [1; 2] [2; 4] = 2).
    { unfold slopeR, Rcov, Rmean. cbn. field. }
    assert (Ein : interceptR [1; 2] [2; 4] = 0).
    { unfold interceptR. rewrite Esl. unfold Rmean. cbn. field. }
    unfold gran_guesses, gran_alkalinity. change (same_len (map Fin [1; 2; 3]) (map Fin emf29) (map Fin [25; 25; 25])) with true.
    cbn [negb]. rewrite EG, Eu. cbn [bind]. change (mask [true; true; false] (map Fin [1; 2; 3])) with (map Fin [1; 2]).
    change (mask [true; true; false] (map Fin [2; 4; 10])) with (map Fin [2; 4]). rewrite El. cbn [bind].
    rewrite Es, Ei, Esl, Ein. rewrite fin_opp, fin_div by lra. rewrite !fin_mul, fin_div by lra.
    replace (- 0 / 2 * 1 * 1 / 1) with 0 by field.
    eexists. cbn [ga_alkalinity ga_used].
    assert (He0 : exists e0, nmean (mask [true; true; false] (map3 (fun m e t => gran_emf0 m e t (Fin 1) (Fin 1) (Fin 0) (Fin 1))
       (map Fin [1; 2; 3]) (map Fin emf29) (map Fin [25; 25; 25]))) = Fin e0).
    { unfold emf29. cbn [map map3 mask]. unfold gran_emf0, ideal_gas, absolute_zero, faraday. xsimp.
      rewrite !fin_div by (q2r; lra). rewrite !fin_ln by lra. xsimp.
      match goal with |- exists _, nmean [Fin ?a; Fin ?b] = _ => change ([Fin a; Fin b]) with (map Fin [a; b]) end.
      rewrite nmean_fin by discriminate. eauto. }
    destruct He0 as [e0 He0]. exists e0. split; [reflexivity|]. cbn [gg_ga ga_alkalinity gg_emf0]. split; [reflexivity|exact He0].
Qed.

(* gran_logic="legacy" was asked for, double solving is on (the default): the reported
   Gran alkalinity is not the legacy one *)
Theorem C29_double_solve_refuted : exists st c tm emf temps M pmin pmax n r g,
  masses_ok tm M /\ pmin < pmax /\
  solve_emf st (Fin c) (map Fin tm) (map Fin emf) (map Fin temps) (Fin M) [] [] None true None "legacy"
    (Fin pmin) (Fin pmax) (Fin n) = Ok r /\
  gran_guesses (map Fin tm) (map Fin emf) (map Fin temps) (Fin M) (Fin c) (Fin n) "legacy" = Ok g /\
  ga_alkalinity (gg_ga (se_ggr r)) <> ga_alkalinity (gg_ga g).
Proof.
  destruct (gran29 "legacy") as [gl [el [Hgl [Al El]]]]; [cbn; auto|].
  destruct (gran29 "v23.7+") as [gd [ed [Hgd [Ad Ed]]]]; [cbn; auto|].
  destruct (once_stop_ok 1 [1; 2; 3] emf29 [25; 25; 25] 1 None None "legacy" 3 4 1 gl 0 el) as [r1 [H1 [G1 [A1 E1]]]];
    [exact Hgl|apply masses29|apply temps29|lra|exact Al|exact El|].
  destruct (once_stop_ok 1 [1; 2; 3] emf29 [25; 25; 25] 1 (Some (se_alkalinity r1)) (Some (se_emf0 r1)) "v23.7+" 3 4 1 gd
             (0 * 1000000 * Q2R 0.000001) el) as [r [H2 [G2 _]]];
    [exact Hgd|apply masses29|apply temps29|lra|rewrite A1, fin_q, fin_mul; reflexivity|exact E1|].
  exists stop_now, 1, [1; 2; 3], emf29, [25; 25; 25], 1, 3, 4, 1, r, gl.
  split; [apply masses29|]. split; [lra|]. split; [unfold solve_emf; rewrite H1; cbn [bind]; exact H2|]. split; [exact Hgl|].
  rewrite G2, Ad, Al. cbn. intros [= E]. lra.
Qed.

(* ------------------------------------------------------------------ *)
(** * C45: the pH scale of the constants *)

(* solve_pH has no argument for the pH scale: it treats bisulfate as on the Free scale.
   pH and k_bisulfate given on the Total scale (so that simulate.alkalinity with
   opt_pH_scale = 1 is the right equation) give another alkalinity *)
Theorem C45_total_scale_refuted : exists c m p M totals ks pmin pmax n r s,
  0 < M /\ 0 <= m /\ pmin <= p <= pmax /\
  solve_pH (Fin c) [Fin m] [Fin p] [Fin 25] (Fin M) totals ks (Fin pmin) (Fin pmax) (Fin n) = Ok r /\
  alkalinity (Fin p) (slice_at totals 0) (slice_at ks 0) 1 = Ok (Fin s) /\
  sp_alkalinity r <> Fin (1000000 * ((s * (m + M) + m * c * n) / M)).
Proof.
  exists 1, 1, 0, 1, [("total_sulfate", NdS (Fin 1))], [("k_bisulfate", NdS (Fin 1))], (-1), 1, 1.
  assert (Hp0 : pow10R (- 0) = 1) by (rewrite Ropp_0; apply pow10R_0).
  assert (E1 : alkalinity (Fin 0) [("total_sulfate", Fin 1)] [("k_bisulfate", Fin 1)] 1 = Ok (Fin (-1))).
  { unfold alkalinity. cbn. rewrite Hp0. f_equal. f_equal. unfold Q2R; cbn. field. }
  assert (E3 : alkalinity (Fin 0) [("total_sulfate", Fin 1)] [("k_bisulfate", Fin 1)] 3 = Ok (Fin (- (3/2)))).
  { unfold alkalinity. cbn. rewrite Hp0. rewrite reqb_false by lra. cbn. f_equal. f_equal. unfold Q2R; cbn. field. }
  destruct (solve_pH (Fin 1) [Fin 1] [Fin 0] [Fin 25] (Fin 1) [("total_sulfate", NdS (Fin 1))] [("k_bisulfate", NdS (Fin 1))]
     (Fin (-1)) (Fin 1) (Fin 1)) as [r|e] eqn:Er.
  - exists r, (-1). split; [lra|]. split; [lra|]. split; [lra|]. split; [reflexivity|]. split; [exact E1|].
    destruct (C30_solve_pH_exact 1 [1] [0] [Fin 25] 1 [("total_sulfate", NdS (Fin 1))] [("k_bisulfate", NdS (Fin 1))] (-1) 1 1 r (-2)) as [-> _].
    + split; [lra|]. repeat constructor; lra.
    + exact Er.
    + exists 0%nat, 0. split; [reflexivity|lra].
    + intros [|i] p m; [|destruct i; discriminate]. cbn [nth_error]. intros [= <-] [= <-] _.
      change (alkalinity (Fin 0) [("total_sulfate", Fin 1)] [("k_bisulfate", Fin 1)] 3 = Ok (Fin ((1 * -2 - 1 * 1 * 1) / (1 + 1)))).
      rewrite E3. f_equal. f_equal. field.
    + intros [= E]. lra.
  - exfalso. revert Er. unfold solve_pH. cbn [length Nat.eqb negb]. rewrite x_ltb_fin_t by lra. cbn. rewrite Hp0.
    rewrite reqb_false by lra. cbn. discriminate.
Qed.

(* Full statement (C45): solve_pH gives the alkalinity of the Total-scale equation for
   Total-scale data.  Proved here: when no total_sulfate is given.  Missing: it is
   false with sulfate, see above. *)
Lemma alkalinity_no_sulfate (p : xr) totals ks :
  dget "total_sulfate" totals = None -> alkalinity p totals ks 1 = alkalinity p totals ks 3.
Proof.
  intros E. unfold alkalinity, alkalinity_components. cbn [existsb Z.eqb Pos.eqb orb assert_ bind]. rewrite E. reflexivity.
Qed.
Theorem C45_without_sulfate_partial : forall c tm pH temps M totals ks pmin pmax n r A,
  masses_ok tm M -> dget "total_sulfate" totals = None ->
  solve_pH (Fin c) (map Fin tm) (map Fin pH) temps (Fin M) totals ks (Fin pmin) (Fin pmax) (Fin n) = Ok r ->
  (exists i p, nth_error pH i = Some p /\ pmin <= p <= pmax) ->
  (forall i p m, nth_error pH i = Some p -> nth_error tm i = Some m -> pmin <= p <= pmax ->
     alkalinity (Fin p) (slice_at totals i) (slice_at ks i) 1 = Ok (Fin ((M * A - m * c * n) / (M + m)))) ->
  sp_alkalinity r = Fin (1000000 * A).
Proof.
  intros c tm pH temps M totals ks pmin pmax n r A Hok Hs Hr Hex Hid.
  apply (C30_solve_pH_exact _ _ _ _ _ _ _ _ _ _ _ A Hok Hr Hex).
  intros i p m Hp Hm Hw. rewrite <- alkalinity_no_sulfate by (rewrite dget_slice, Hs; reflexivity). apply Hid; assumption.
Qed.

(* ------------------------------------------------------------------ *)
(** * C84: a window without points *)

(* pH modes: a blank alkalinity, or an exception (which dataset.solve turns into a blank) *)
Theorem C84_pH_modes_partial : forall c tm pH temps M totals ks pmin pmax n,
  (forall p, In p pH -> ~ inside pmin pmax p) ->
  (forall r, solve_pH c tm pH temps M totals ks (Fin pmin) (Fin pmax) n = Ok r -> sp_alkalinity r = NaN) /\
  (forall r, solve_pH_gran c tm pH temps M totals ks (Fin pmin) (Fin pmax) n <> Ok r).
Proof.
  intros c tm pH temps M totals ks pmin pmax n Hout.
  assert (Hm : forall (l : list xr), mask (in_window (Fin pmin) (Fin pmax) pH) l = []).
  { intros l. destruct (mask (in_window (Fin pmin) (Fin pmax) pH) l) as [|x m] eqn:E; [reflexivity|].
    assert (Hin : In x (mask (in_window (Fin pmin) (Fin pmax) pH) l)) by (rewrite E; cbn; auto).
    apply in_mask in Hin as [i [Hi _]]. apply window_used in Hi as [p [Hp Hw]]. exfalso.
    apply (Hout (Fin p)); [eapply nth_error_In; exact Hp|exists p; auto]. }
  split.
  - intros r Hr. apply solve_pH_inv in Hr as [_ [_ [Hu [_ [-> _]]]]]. rewrite Hu, Hm. apply nmean_nil.
  - intros r Hr. apply solve_pH_gran_inv in Hr as [_ [_ [Hu [_ [Hl _]]]]]. rewrite Hu, !Hm in Hl. discriminate.
Qed.

(* EMF mode: the starting guess is reported as the alkalinity *)
Theorem C84_emf_mode_refuted : exists st c tm emf temps M ei pmin pmax n r a,
  masses_ok tm M /\
  solve_emf st (Fin c) (map Fin tm) (map Fin emf) (map Fin temps) (Fin M) [] [] None false ei "v23.7+"
    (Fin pmin) (Fin pmax) (Fin n) = Ok r /\
  (forall i, ~ used_at (se_used r) i) /\ se_alkalinity r = Fin a.
Proof.
  destruct (gran29 "v23.7+") as [gd [ed [Hgd [Ad Ed]]]]; [cbn; auto|].
  destruct (once_stop_ok 1 [1; 2; 3] emf29 [25; 25; 25] 1 None (Some (Fin 0)) "v23.7+" 3 4 1 gd (2/3) 0) as [r [H1 [G1 [A1 E1]]]];
    [exact Hgd|apply masses29|apply temps29|lra|exact Ad|reflexivity|].
  assert (Hs : solve_emf stop_now (Fin 1) (map Fin [1; 2; 3]) (map Fin emf29) (map Fin [25; 25; 25]) (Fin 1) [] [] None false
     (Some (Fin 0)) "v23.7+" (Fin 3) (Fin 4) (Fin 1) = Ok r).
  { unfold solve_emf. rewrite H1. reflexivity. }
  exists stop_now, 1, [1; 2; 3], emf29, [25; 25; 25], 1, (Some (Fin 0)), 3, 4, 1, r, (2/3 * 1000000).
  split; [apply masses29|]. split; [exact Hs|]. split; [|exact A1].
  destruct (C38_used_is_window_at_start _ _ _ _ _ _ _ _ _ _ _ _ _ _ _ _ Hs) as [Hl [e0 [He0 Hw]]]. cbn in He0. subst e0.
  assert (Hno : forall h, 1 <= h -> ~ inside 3 4 (emf_to_pH (Fin (ex_T25 * ln h)) (Fin 0) (Fin 25))).
  { intros h Hh [p [Hp Hr]]. rewrite emf_to_pH_nernst, ex_nernst in Hp by (try apply ex_t25; lra). injection Hp as <-.
    unfold pH_of_h in Hr. assert (0 <= ln h) by (rewrite <- ln_1; destruct (Req_dec h 1) as [->|]; [lra|left; apply ln_increasing; lra]).
    pose proof ln10_pos. assert (0 <= ln h / ln 10) by (apply Rle_mult_inv_pos; assumption). lra. }
  intros i Hi. assert (Hlt : (i < length (se_used r))%nat) by (apply nth_error_Some; unfold used_at in Hi; congruence).
  rewrite Hl in Hlt. cbn in Hlt. destruct i as [|[|[|i]]]; [| | |lia]; (eapply Hw in Hi; [|reflexivity|reflexivity]); revert Hi; apply Hno; lra.
Qed.
