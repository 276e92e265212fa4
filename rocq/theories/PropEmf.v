(* PropEmf.v -- C29 (counterexample), C35, C36, C38, C39: solve_emf *)
From Coq Require Import Reals Qreals Lra.
From Verif Require Export PropSolve.
Open Scope list_scope.
Open Scope R_scope.

Lemma nth_error_lt_ex {A B} (l : list A) (l' : list B) i x :
  length l' = length l -> nth_error l i = Some x -> exists y, nth_error l' i = Some y.
Proof.
  intros Hl Hi. assert (i < length l')%nat by (rewrite Hl; apply nth_error_Some; congruence).
  destruct (nth_error l' i) eqn:E; [eauto|]. apply nth_error_None in E. lia.
Qed.

(* ------------------------------------------------------------------ *)
(** * C35: the true alkalinity and EMF0 zero the residual *)

Lemma lsqfun_spec (c : xr) tm emf temps M totals ks n a e y :
  length emf = length tm -> length temps = length tm ->
  lsqfun_solve_emf c tm emf temps M totals ks n [a; e] = Ok y ->
  length y = length tm /\
  forall i m v t, nth_error tm i = Some m -> nth_error emf i = Some v -> nth_error temps i = Some t ->
    exists s, alkalinity (emf_to_pH v e t) (slice_at totals i) (slice_at ks i) 3 = Ok s /\
      nth_error y i = Some (s ⊖ a ⊗ get_dilution_factor m M ⊕ m ⊗ c ⊗ n ⊘ (m ⊕ M)).
Proof.
  intros He Ht. unfold lsqfun_solve_emf. intros Hy. apply bind_ok in Hy as [sim [Hs Hy]].
  change default_opt_pH_scale with 3%Z in Hs.
  apply alkalinity_arr_spec in Hs as [_ [_ [Hls Hpt]]]. injection Hy as <-.
  assert (Hlp : length (emf_to_pH_arr emf e temps) = length tm).
  { unfold emf_to_pH_arr. rewrite map2_length by congruence. assumption. }
  split; [rewrite map2_length; congruence|].
  intros i m v t Hm Hv Htt. destruct (Hpt i (emf_to_pH v e t)) as [s [Hn Hs]].
  { unfold emf_to_pH_arr. rewrite nth_error_map2, Hv, Htt. reflexivity. }
  exists s. split; [assumption|]. rewrite nth_error_map2, Hn, Hm. reflexivity.
Qed.

(* the pH readings p, converted with the true EMF0 E, are those of a solution of alkalinity A *)
Theorem C35_truth_zeroes_residual : forall c tm temps p M totals ks n A E,
  masses_ok tm M -> Forall (fun t => -273.15 < t) temps ->
  tm <> [] -> length temps = length tm -> length p = length tm ->
  shaped (length tm) totals -> shaped (length tm) ks ->
  (forall i m x, nth_error tm i = Some m -> nth_error p i = Some x ->
     alkalinity (Fin x) (slice_at totals i) (slice_at ks i) 3 = Ok (Fin ((M * A - m * c * n) / (M + m)))) ->
  let emf := map2 (fun x t => pH_to_emf (Fin x) (Fin E) (Fin t)) p temps in
  lsqfun_solve_emf (Fin c) (map Fin tm) emf (map Fin temps) (Fin M) totals ks (Fin n) [Fin A; Fin E]
  = Ok (map (fun _ => Fin 0) tm).
Proof.
  intros c tm temps p M totals ks n A E [HM Htm] Htemps Hne Hlt Hlp Hst Hsk Hid emf.
  assert (Hle : length emf = length tm).
  { unfold emf. rewrite map2_length; congruence. }
  assert (EpH : emf_to_pH_arr emf (Fin E) (map Fin temps) = map Fin p).
  { unfold emf. clear - Htemps Hlt Hlp. assert (Hl : length p = length temps) by congruence. clear Hlt Hlp tm.
    revert temps Hl Htemps; induction p as [|x p IH]; intros [|t temps] Hl Hf; try discriminate; [reflexivity|].
    inversion Hf as [|? ? Ht Hf']; subst. unfold emf_to_pH_arr in *. cbn [map map2].
    rewrite (emf_pH_emf x E t Ht). f_equal. apply IH; [cbn in Hl; lia|assumption]. }
  assert (Hfit : forall d, shaped (length tm) d -> all_fit (length (map Fin p)) d = true).
  { intros d Hd. unfold all_fit. apply forallb_forall. intros [k v] Hin. cbn [snd]. rewrite map_length, Hlp.
    specialize (Hd k v Hin). destruct v as [|l]; [reflexivity|]. cbn [nd_fits].
    destruct Hd as [->| ->]; [rewrite Nat.eqb_refl; reflexivity|rewrite orb_true_r; reflexivity]. }
  destruct (alkalinity_arr_total (map Fin p) totals ks 3) as [sim Hsim].
  - destruct p; [destruct tm; [congruence|discriminate]|discriminate].
  - auto.
  - auto.
  - intros i x Hx. rewrite nth_error_map in Hx. destruct (nth_error p i) as [x'|] eqn:Ex; [|discriminate]. injection Hx as <-.
    destruct (nth_error_lt_ex p tm i x' (eq_sym Hlp) Ex) as [m Hm]. exists (Fin ((M * A - m * c * n) / (M + m))).
    apply Hid; assumption.
  - assert (Hok : exists y, lsqfun_solve_emf (Fin c) (map Fin tm) emf (map Fin temps) (Fin M) totals ks (Fin n) [Fin A; Fin E] = Ok y).
    { unfold lsqfun_solve_emf. rewrite EpH. change default_opt_pH_scale with 3%Z. rewrite Hsim. cbn [bind]. eauto. }
    destruct Hok as [y Hy]. rewrite Hy. f_equal.
    assert (Hl1 : length emf = length (map Fin tm)) by (rewrite map_length; assumption).
    assert (Hl2 : length (map Fin temps) = length (map Fin tm)) by (rewrite !map_length; assumption).
    destruct (lsqfun_spec _ _ _ _ _ _ _ _ _ _ _ Hl1 Hl2 Hy) as [Hly Hpt]. rewrite map_length in Hly.
    symmetry. apply list_ext; [rewrite map_length; congruence|].
    intros i x Hx. 
    destruct (nth_error_lt_ex y tm i x (eq_sym Hly) Hx) as [m Hm].
    destruct (nth_error_lt_ex tm temps i m Hlt Hm) as [t Ht].
    destruct (nth_error_lt_ex tm p i m Hlp Hm) as [q Hq].
    assert (Hv : nth_error emf i = Some (pH_to_emf (Fin q) (Fin E) (Fin t))).
    { unfold emf. rewrite nth_error_map2, Hq, Ht. reflexivity. }
    destruct (Hpt i (Fin m) _ (Fin t) (nth_error_map_fin _ _ _ Hm) Hv (nth_error_map_fin _ _ _ Ht)) as [s [Hs Hn]].
    assert (Htc : -273.15 < t) by (eapply Forall_nth_error in Htemps; eassumption).
    rewrite (emf_pH_emf q E t Htc) in Hs. rewrite (Hid i m q Hm Hq) in Hs. injection Hs as <-.
    assert (Hm0 : 0 <= m) by (eapply Forall_nth_error in Htm; eassumption).
    rewrite nth_error_map, Hm. cbn [option_map]. rewrite <- Hx, Hn. f_equal.
    rewrite df_fin by lra. xsimp. rewrite fin_div by lra. xsimp. f_equal. field. lra.
Qed.

(* two additions to a solution of H+ and OH- with k_water = 1: pH 0 is neutral *)
Example C35_nonvacuous :
  lsqfun_solve_emf (Fin 1) (map Fin [1; 1]) (map2 (fun x t => pH_to_emf (Fin x) (Fin 600) (Fin t)) [0; 0] [20; 25])
     (map Fin [20; 25]) (Fin 2) [] [("k_water", NdS (Fin 1))] (Fin 1) [Fin (1/2); Fin 600] = Ok [Fin 0; Fin 0].
Proof.
  apply (C35_truth_zeroes_residual 1 [1; 1] [20; 25] [0; 0] 2 [] [("k_water", NdS (Fin 1))] 1 (1/2) 600).
  - split; [lra|repeat constructor; lra].
  - repeat constructor; q2r; lra.
  - discriminate.
  - reflexivity.
  - reflexivity.
  - intros k v [].
  - intros k v [[= <- <-]|[]]. exact I.
  - intros i m x Hm Hx. assert (m = 1 /\ x = 0) as [-> ->].
    { destruct i as [|[|i]]; cbn in Hm, Hx; try (destruct i; discriminate); split; congruence. }
    unfold alkalinity. cbn. rewrite Ropp_0, pow10R_0. rewrite reqb_false by lra. cbn. f_equal. f_equal.
    unfold Q2R; cbn. field.
Qed.

(* ------------------------------------------------------------------ *)
(** * C36: zero residual means every used point agrees *)

Lemma residual_zero_inv (s a : xr) m M c n : 0 < M -> 0 <= m ->
  s ⊖ a ⊗ get_dilution_factor (Fin m) (Fin M) ⊕ Fin m ⊗ Fin c ⊗ Fin n ⊘ (Fin m ⊕ Fin M) = Fin 0 ->
  exists sr ar, s = Fin sr /\ a = Fin ar /\ ar = (sr * (m + M) + m * c * n) / M.
Proof.
  intros HM Hm E. rewrite df_fin in E by lra. rewrite fin_add, !fin_mul, fin_div in E by lra.
  pose proof (df_pos m M HM Hm) as Hd.
  destruct a as [ar| | |].
  - rewrite fin_mul in E. destruct s as [sr| | |]; try (cbn in E; discriminate).
    rewrite fin_sub, fin_add in E. injection E as E. exists sr, ar. split; [reflexivity|]. split; [reflexivity|].
    assert (ar * (M / (m + M)) = sr + m * c * n / (m + M)) by lra.
    apply Rmult_eq_reg_r with (M / (m + M)); [|lra]. rewrite H. field. split; lra.
  - exfalso. cbn in E. unfold inf_times in E. rewrite rltb_true in E by assumption. destruct s; discriminate.
  - exfalso. cbn in E. unfold inf_times in E. destruct (rltb 0 _); [|destruct (rltb _ 0)]; destruct s; discriminate.
  - exfalso. cbn in E. destruct s; discriminate.
Qed.

Theorem C36_zero_residual_means_agreement :
  forall st c tm emf temps M totals ks ai double ei logic pmin pmax n r,
  masses_ok tm M ->
  solve_emf st (Fin c) (map Fin tm) emf temps (Fin M) totals ks ai double ei logic pmin pmax (Fin n) = Ok r ->
  Forall (fun v => v = Fin 0) (or_fun (se_opt_result r)) ->
  (forall i v, used_at (se_used r) i -> nth_error (se_alkalinity_all r) i = Some v -> v = se_alkalinity r) /\
  ((exists i, used_at (se_used r) i) -> se_alkalinity_std r = Fin 0 /\ exists A, se_alkalinity r = Fin A).
Proof.
  intros st c tm emf temps M totals ks ai double ei logic pmin pmax n r [HM Htm] Hr Hz.
  apply solve_emf_inv in Hr as [ai' [ei' [logic' Hr]]].
  apply once_inv in Hr as [_ [He [Ht [Hu [Hft [Hfk [[a [Hx Ha]] [Hfun [HpH [Hall Hstd]]]]]]]]]].
  rewrite map_length in He, Ht.
  assert (Hlu : length (se_used r) = length tm).
  { rewrite Hu. unfold in_window, emf_to_pH_arr. rewrite map_length, map2_length by congruence. assumption. }
  rewrite Hx in Hfun.
  assert (Hl1 : length (mask (se_used r) emf) = length (mask (se_used r) (map Fin tm)))
    by (apply mask_length_eq; rewrite map_length; assumption).
  assert (Hl2 : length (mask (se_used r) temps) = length (mask (se_used r) (map Fin tm)))
    by (apply mask_length_eq; rewrite map_length; assumption).
  destruct (lsqfun_spec _ _ _ _ _ _ _ _ _ _ _ Hl1 Hl2 Hfun) as [Hly Hpt].
  assert (Hlp : length (se_pH r) = length (map Fin tm)).
  { rewrite HpH. unfold emf_to_pH_arr. rewrite map2_length by congruence. rewrite map_length. assumption. }
  destruct (alkalinity_all_spec _ _ _ _ _ _ _ _ Hlp Hall) as [_ [_ [Hla Hpa]]]. rewrite map_length in Hla.
  (* what a used point tells us *)
  assert (Hused : forall i, used_at (se_used r) i ->
     exists ar, a = Fin ar /\ nth_error (se_alkalinity_all r) i = Some (Fin (1000000 * ar))).
  { intros i Hi.
    destruct (nth_used_lt (se_used r) tm i Hlu Hi) as [m Hm].
    destruct (nth_error_lt_ex tm emf i m He Hm) as [v Hv].
    destruct (nth_error_lt_ex tm temps i m Ht Hm) as [t Htt].
    destruct (Hpt (rank (se_used r) i) (Fin m) v t) as [s [Hs Hn]].
    { rewrite mask_rank by assumption. apply nth_error_map_fin. assumption. }
    { rewrite mask_rank by assumption. assumption. }
    { rewrite mask_rank by assumption. assumption. }
    rewrite (slice_masked _ totals), (slice_masked _ ks) in Hs by assumption.
    pose proof (Forall_nth_error _ _ _ _ Hz Hn) as Hzero. cbv beta in Hzero.
    assert (Hm0 : 0 <= m) by (eapply Forall_nth_error in Htm; eassumption).
    destruct (residual_zero_inv _ _ _ _ _ _ HM Hm0 Hzero) as [sr [ar [-> [-> Har]]]].
    exists ar. split; [reflexivity|].
    destruct (Hpa i (emf_to_pH v (se_emf0 r) t) (Fin m)) as [s' [Hs' Hn']].
    { rewrite HpH. unfold emf_to_pH_arr. rewrite nth_error_map2, Hv, Htt. reflexivity. }
    { apply nth_error_map_fin. assumption. }
    rewrite Hs in Hs'. injection Hs' as <-. rewrite Hn', estimate_fin by assumption. f_equal. f_equal.
    rewrite Har. unfold Rdiv. ring. }
  split.
  - intros i v Hi Hv. destruct (Hused i Hi) as [ar [Ear Hn]]. rewrite Hn in Hv. injection Hv as <-.
    rewrite Ha, Ear. xsimp. f_equal. q2r. field.
  - intros [i Hi]. destruct (Hused i Hi) as [ar [Ear Hn]]. split.
    + rewrite Hstd.
      assert (E : or_fun (se_opt_result r) = map Fin (map (fun _ => 0) (or_fun (se_opt_result r)))).
      { clear - Hz. induction (or_fun (se_opt_result r)) as [|x l IH]; [reflexivity|]. inversion Hz; subst.
        cbn [map]. f_equal. auto. }
      assert (Hne : map (fun _ : xr => 0) (or_fun (se_opt_result r)) <> []).
      { intros En. apply map_eq_nil in En.
        assert (Hc : length (mask (se_used r) (map Fin tm)) = 0%nat) by (rewrite <- Hly, En; reflexivity).
        destruct (nth_used_lt (se_used r) (map Fin tm) i ltac:(rewrite map_length; assumption) Hi) as [m Hm].
        rewrite <- (mask_rank (se_used r) (map Fin tm) i Hi) in Hm. apply nth_error_In in Hm.
        destruct (mask (se_used r) (map Fin tm)); [destruct Hm|discriminate]. }
      rewrite E, nstd_fin by assumption. rewrite (Rvar_all_eq _ 0 Hne). 
      * rewrite sqrt_0. xsimp. f_equal. ring.
      * intros x Hin. apply in_map_iff in Hin as [? [<- _]]. reflexivity.
    + rewrite Ha, Ear. xsimp. eauto.
Qed.

(* ------------------------------------------------------------------ *)
(** * C38: which points solve_emf uses *)

(* the starting EMF0: the caller's emf0_init, or Gran's; with double solving the one
   found by the first of the two solves *)
Definition starting_emf0 (st : strategy xr) (c : xr) tm emf temps M totals ks ai (double : bool) ei logic pmin pmax n (r : emf_result xr) : xr -> Prop :=
  fun e => if double then
    exists r1, solve_emf st c tm emf temps M totals ks ai false ei logic pmin pmax n = Ok r1 /\ e = se_emf0 r1
  else e = match ei with Some v => v | None => gg_emf0 (se_ggr r) end.

Theorem C38_used_is_window_at_start :
  forall st (c : xr) tm emf temps M totals ks ai double ei logic pmin pmax n r,
  solve_emf st c tm emf temps M totals ks ai double ei logic (Fin pmin) (Fin pmax) n = Ok r ->
  length (se_used r) = length tm /\
  exists e0, starting_emf0 st c tm emf temps M totals ks ai double ei logic (Fin pmin) (Fin pmax) n r e0 /\
    forall i e t, nth_error emf i = Some e -> nth_error temps i = Some t ->
      (used_at (se_used r) i <-> inside pmin pmax (emf_to_pH e e0 t)).
Proof.
  intros st c tm emf temps M totals ks ai double ei logic pmin pmax n r Hr.
  assert (Hgo : forall ai' ei' logic', solve_emf_once st c tm emf temps M totals ks ai' ei' logic' (Fin pmin) (Fin pmax) n = Ok r ->
    length (se_used r) = length tm /\
    forall i e t, nth_error emf i = Some e -> nth_error temps i = Some t ->
      (used_at (se_used r) i <-> inside pmin pmax (emf_to_pH e (start_emf0 ei' (se_ggr r)) t))).
  { intros ai' ei' logic' Ho. apply once_inv in Ho as [_ [He [Ht [Hu _]]]]. split.
    - rewrite Hu. unfold in_window, emf_to_pH_arr. rewrite map_length, map2_length by congruence. assumption.
    - intros i e t Hi Hti. rewrite Hu, window_used. unfold emf_to_pH_arr. rewrite nth_error_map2, Hi, Hti.
      unfold inside. split; intros [x [Hx Hw]]; exists x; (split; [congruence|assumption]). }
  unfold solve_emf in Hr. apply bind_ok in Hr as [sr [Hsr Hr]]. destruct double.
  - destruct (Hgo _ _ _ Hr) as [Hl Hw]. split; [assumption|]. exists (se_emf0 sr). split; [|exact Hw].
    exists sr. split; [|reflexivity]. unfold solve_emf. rewrite Hsr. reflexivity.
  - injection Hr as <-. destruct (Hgo _ _ _ Hsr) as [Hl Hw]. split; [assumption|].
    exists (start_emf0 ei (se_ggr sr)). split; [reflexivity|exact Hw].
Qed.

(* pH units per mV at 25 C *)
Definition K25 : R := Fcst / (Rcst * TK 25) / ln 10.
Lemma K25_pos : 0 < K25.
Proof.
  unfold K25. pose proof Fcst_pos. pose proof Rcst_pos. pose proof (TK_pos 25 ex_t25). pose proof ln10_pos.
  apply Rdiv_lt_0_compat; [apply Rdiv_lt_0_compat; [assumption|nra]|assumption].
Qed.
Lemma pH25 e E0 : emf_to_pH (Fin e) (Fin E0) (Fin 25) = Fin ((E0 - e) * K25).
Proof.
  rewrite emf_to_pH_nernst by apply ex_t25. f_equal. unfold pH_of_h, nernst_h, K25. rewrite ln_exp.
  fold Fcst Rcst. fold (TK 25). pose proof Rcst_pos. pose proof (TK_pos 25 ex_t25). pose proof ln10_pos. field. repeat split; lra.
Qed.
Lemma alk_free_only p : alkalinity (Fin p) [] [] 3 = Ok (Fin (- pow10R (- p))).
Proof.
  unfold alkalinity. cbn. f_equal. f_equal. unfold Q2R; cbn. field.
Qed.

Definition h38 (e : R) : R := pow10R (- (e * K25)).

Lemma res38 a e :
  lsqfun_solve_emf (Fin 1) [Fin 1] [Fin 0] [Fin 25] (Fin 1) [] [] (Fin 1) [Fin a; Fin e]
  = Ok [Fin (- h38 e - a * (1/2) + 1/2)].
Proof.
  unfold lsqfun_solve_emf, emf_to_pH_arr. cbn [map2]. rewrite pH25.
  unfold alkalinity_arr. cbn [all_fit forallb andb length seq combine bind mapM fst snd slice_at map].
  change default_opt_pH_scale with 3%Z. rewrite alk_free_only. cbn [bind map2].
  rewrite df_fin by lra. xsimp. rewrite fin_div by lra. xsimp. f_equal. f_equal. f_equal. unfold h38.
  rewrite Rminus_0_r. field.
Qed.

(* an optimiser that walks to a root of the one-point residual with EMF0 1 mV higher *)
Definition st38 : strategy xr := {|
  s_next := fun hist => match hist with
                        | [([_; Fin e], _)] => Some [Fin (1 - 2 * h38 (e + 1)); Fin (e + 1)]
                        | _ => None
                        end;
  s_pick := fun _ => 1%nat;
  s_max := 1 |}.

Lemma gran38 : exists gg,
  gran_guesses (map Fin [1; 2]) (map Fin [0; 10]) (map Fin [25; 25]) (Fin 1) (Fin 1) (Fin 1) "v23.7+" = Ok gg.
Proof.
  assert (Hb : Forall (fun t => -273.15 < t) [25; 25]) by (repeat constructor; apply ex_t25).
  destruct (C27_raises [1; 2] [0; 10] [25; 25] 1 (Fin 1) (Fin 1) "v23.7+" ex_masses Hb eq_refl eq_refl) as [_ [_ H]].
  destruct H as [g Hg]; [discriminate| |].
  { constructor; [cbn; intros [E|[]]; lra|]. constructor; [intros []|constructor]. }
  unfold gran_guesses. rewrite Hg. cbn [bind]. eauto.
Qed.

Lemma pass38 a e : 0 <= e <= 1 ->
  exists r, solve_emf_once st38 (Fin 1) (map Fin [1; 2]) (map Fin [0; 10]) (map Fin [25; 25]) (Fin 1) [] []
    (Some (Fin a)) (Some (Fin e)) "v23.7+" (Fin (- (K25 / 2))) (Fin (3 * K25 / 2)) (Fin 1) = Ok r /\
    se_used r = [true; false] /\ se_emf0 r = Fin (e + 1) /\ (exists A, se_alkalinity r = Fin A) /\
    or_fun (se_opt_result r) = [Fin 0] /\ se_pH r = [Fin ((e + 1) * K25); Fin ((e + 1 - 10) * K25)].
Proof.
  intros He. pose proof K25_pos as HK. destruct gran38 as [gg Hgg].
  assert (Eu : in_window (Fin (- (K25 / 2))) (Fin (3 * K25 / 2)) (emf_to_pH_arr (map Fin [0; 10]) (Fin e) (map Fin [25; 25]))
               = [true; false]).
  { unfold emf_to_pH_arr. cbn [map map2 in_window]. rewrite !pH25. unfold ngeb.
    rewrite x_leb_fin_t by nra. rewrite x_leb_fin_t by nra. rewrite x_leb_fin_f by nra. reflexivity. }
  unfold solve_emf_once. rewrite Hgg. cbn [bind]. rewrite x_ltb_fin_t by lra. cbn [assert_ bind].
  rewrite Eu. cbn [length all_fit forallb andb negb].
  change (dmap (nd_mask [true; false]) []) with (@nil (string * nd xr)).
  cbn [map mask].
  unfold least_squares at 1. rewrite fin_q, fin_mul. cbn [existsb]. change (nisnan (Fin (a * Q2R 0.000001))) with false.
  change (nisnan (Fin e)) with false. cbn [orb]. rewrite res38. cbn [forallb]. cbn [andb]. 
  change (nisfinite (Fin (- h38 e - a * Q2R 0.000001 * (1 / 2) + 1 / 2))) with true. cbn [andb].
  cbn [st38 s_max lsq_loop s_next]. rewrite res38. cbn [st38 app s_pick nth fst snd bind or_x or_fun nth_error of_opt].
  unfold emf_to_pH_arr. cbn [map map2]. rewrite !pH25.
  assert (Eall : alkalinity_arr [Fin ((e + 1 - 0) * K25); Fin ((e + 1 - 10) * K25)] [] [] 3
    = Ok [Fin (- pow10R (- ((e + 1 - 0) * K25))); Fin (- pow10R (- ((e + 1 - 10) * K25)))]).
  { unfold alkalinity_arr. cbn [all_fit forallb andb length seq combine bind mapM fst snd slice_at map].
    rewrite alk_free_only. cbn [bind]. rewrite alk_free_only. reflexivity. }
  unfold alkalinity_all. change default_opt_pH_scale with 3%Z. rewrite Eall. cbn [bind].
  eexists. split; [reflexivity|]. cbn [se_used se_emf0 se_alkalinity se_opt_result or_fun se_pH].
  split; [reflexivity|]. split; [reflexivity|]. split; [rewrite fin_q, fin_mul; eauto|]. split.
  - f_equal. f_equal. field.
  - rewrite Rminus_0_r. reflexivity.
Qed.

(* even with double solving and residuals that are exactly zero, a used point can have a
   returned pH outside the window *)
Theorem C38_used_can_differ_from_returned_pH : exists st c tm emf temps M ai ei pmin pmax n r p,
  solve_emf st (Fin c) (map Fin tm) (map Fin emf) (map Fin temps) (Fin M) [] [] ai true ei "v23.7+"
    (Fin pmin) (Fin pmax) (Fin n) = Ok r /\
  masses_ok tm M /\
  or_fun (se_opt_result r) = [Fin 0] /\
  used_at (se_used r) 0 /\ nth_error (se_pH r) 0 = Some (Fin p) /\ ~ (pmin <= p <= pmax).
Proof.
  destruct (pass38 0 0) as [r1 [H1 [_ [He1 [[A1 HA1] _]]]]]; [lra|].
  destruct (pass38 A1 (0 + 1)) as [r [H2 [Hu [He [_ [Hf Hp]]]]]]; [lra|].
  exists st38, 1, [1; 2], [0; 10], [25; 25], 1, (Some (Fin 0)), (Some (Fin 0)), (- (K25 / 2)), (3 * K25 / 2), 1, r, ((0 + 1 + 1) * K25).
  split. { unfold solve_emf. rewrite H1. cbn [bind]. rewrite HA1, He1. exact H2. }
  split; [apply ex_masses|]. split; [exact Hf|]. rewrite Hu, Hp. split; [reflexivity|]. split; [reflexivity|].
  pose proof K25_pos. lra.
Qed.

(* the same run meets the hypotheses of C36 *)
Example C36_nonvacuous : exists r,
  solve_emf st38 (Fin 1) (map Fin [1; 2]) (map Fin [0; 10]) (map Fin [25; 25]) (Fin 1) [] []
    (Some (Fin 0)) false (Some (Fin 0)) "v23.7+" (Fin (- (K25 / 2))) (Fin (3 * K25 / 2)) (Fin 1) = Ok r /\
  nth_error (se_alkalinity_all r) 0 = Some (se_alkalinity r) /\ se_alkalinity_std r = Fin 0.
Proof.
  destruct (pass38 0 0) as [r [H1 [Hu [_ [_ [Hf _]]]]]]; [lra|].
  assert (Hs : solve_emf st38 (Fin 1) (map Fin [1; 2]) (map Fin [0; 10]) (map Fin [25; 25]) (Fin 1) [] []
    (Some (Fin 0)) false (Some (Fin 0)) "v23.7+" (Fin (- (K25 / 2))) (Fin (3 * K25 / 2)) (Fin 1) = Ok r).
  { unfold solve_emf. rewrite H1. reflexivity. }
  exists r. split; [exact Hs|].
  destruct (C36_zero_residual_means_agreement _ _ _ _ _ _ _ _ _ _ _ _ _ _ _ _ ex_masses Hs) as [Ha Hb].
  { rewrite Hf. repeat constructor. }
  assert (U : used_at (se_used r) 0) by (rewrite Hu; reflexivity).
  split; [|apply Hb; eauto].
  destruct (nth_error (se_alkalinity_all r) 0) as [v|] eqn:E; [rewrite (Ha 0%nat v U E); reflexivity|].
  exfalso. apply once_inv in H1 as [_ [_ [_ [_ [_ [_ [_ [_ [HpH [Hall _]]]]]]]]]].
  apply alkalinity_all_spec in Hall as [_ [_ [Hl _]]]; [|rewrite HpH; reflexivity].
  destruct (se_alkalinity_all r); [discriminate|discriminate].
Qed.
