(* PropSpread.v -- C142, C143: the spread of the alkalinity estimates *)
From Coq Require Import Reals Qreals Lra Lia.
From Verif Require Import PropFit SolveProofs PropSolve PropCases.
Open Scope list_scope.
Open Scope R_scope.

(* population standard deviation *)
Definition mean (l : list R) : R := fold_right Rplus 0 l / INR (length l).
Definition std (l : list R) : R := sqrt (mean (map (fun x => (x - mean l) ^ 2) l)).

Lemma len_pos {A} (l : list A) : l <> [] -> 0 < INR (length l).
Proof. destruct l; [congruence|]. intros _. apply lt_0_INR. cbn. lia. Qed.

Lemma sq_dev : forall (l : list R) k, fold_right Rplus 0 (map (fun x => (x - k) ^ 2) l) =
  fold_right Rplus 0 (map (fun x => x ^ 2) l) - 2 * k * fold_right Rplus 0 l + INR (length l) * k ^ 2.
Proof.
  induction l as [|x l IH]; intros k; [cbn; ring|]. cbn [map fold_right]. rewrite IH. change (length (x :: l)) with (S (length l)). rewrite S_INR. ring.
Qed.

(* the mean square distance from the mean is the smallest *)
Lemma var_least (l : list R) k : l <> [] -> mean (map (fun x => (x - mean l) ^ 2) l) <= mean (map (fun x => (x - k) ^ 2) l).
Proof.
  intros N. pose proof (len_pos l N) as P. unfold mean at 1 3. rewrite !map_length. apply Rmult_le_compat_r; [left; now apply Rinv_0_lt_compat|].
  rewrite !sq_dev. unfold mean. set (S := fold_right Rplus 0 l). set (n := INR (length l)) in *.
  assert (E : S = n * (S / n)) by (field; lra). set (mu := S / n) in *. rewrite E.
  assert (0 <= n * (mu - k) ^ 2) by (apply Rmult_le_pos; [lra|apply pow2_ge_0]). nra.
Qed.

Lemma mean_le (f g : R -> R) (l : list R) : (forall x, In x l -> f x <= g x) -> mean (map f l) <= mean (map g l).
Proof.
  intros F. unfold mean. rewrite !map_length. destruct l as [|a l]; [right; reflexivity|].
  apply Rmult_le_compat_r; [left; apply Rinv_0_lt_compat; apply len_pos; discriminate|].
  clear -F. revert F. generalize (a :: l). clear. induction l as [|x l IH]; intros F; [right; reflexivity|]. cbn [map fold_right].
  apply Rplus_le_compat; [apply F; now left|apply IH; intros y I; apply F; now right].
Qed.

Lemma std_is (l : list R) : l <> [] -> nstd (map Fin l) = Fin (std l).
Proof. intros N. rewrite nstd_fin by assumption. reflexivity. Qed.

Lemma var_nonneg (l : list R) : 0 <= mean (map (fun x => (x - mean l) ^ 2) l).
Proof.
  destruct l as [|a l]; [unfold mean; cbn; lra|]. apply Rvar_nonneg. discriminate.
Qed.

(* ------------------------------------------------------------------ *)
(** * C142 *)

(* pH mode: the reported spread is the standard deviation of the used estimates *)
Theorem C142_pH_partial : forall c tm pH temps M totals ks pmin pmax n r est,
  solve_pH c tm pH temps M totals ks pmin pmax n = Ok r -> sp_alkalinity_all r = map Fin est ->
  (exists i, used_at (sp_used r) i) -> length (sp_used r) = length est ->
  sp_alkalinity_std r = Fin (std (mask (sp_used r) est)).
Proof.
  intros c tm pH temps M totals ks pmin pmax n r est Hr He [i Hi] L.
  apply solve_pH_inv in Hr as (_ & _ & _ & _ & _ & ->). rewrite He, mask_map. apply std_is.
  intros Z. unfold used_at in Hi. destruct (nth_error est i) as [x|] eqn:X.
  - assert (I : In x (mask (sp_used r) est)) by (apply in_mask; exists i; split; assumption). rewrite Z in I. destruct I.
  - apply nth_error_None in X. assert (nth_error (sp_used r) i <> None) by congruence. apply nth_error_Some in H. lia.
Qed.

Lemma sum_sq (l : list R) : sum_of_squares l = INR (length l) * mean (map (fun x => x ^ 2) l).
Proof.
  destruct l as [|a l]; [unfold sum_of_squares, mean; cbn; ring|].
  pose proof (len_pos (a :: l) ltac:(discriminate)) as P. unfold sum_of_squares, mean. rewrite map_length.
  transitivity (fold_right Rplus 0 (map (fun x => x ^ 2) (a :: l))); [|field; lra].
  f_equal. apply map_ext. intros x. ring.
Qed.

Lemma sum_sq_map2 M D m0 A : 0 < M -> 0 <= m0 -> D = M / (m0 + M) -> forall e t : list R, length e = length t -> Forall (fun m => m0 <= m) t ->
  sum_of_squares (map2 (fun a m => df M m * (a / 1000000 - A)) e t) <=
  D ^ 2 * fold_right Rplus 0 (map (fun x => (x / 1000000 - A) ^ 2) e).
Proof.
  intros HM H0 ->. induction e as [|a e IH]; intros [|m t] L F; try discriminate L; [unfold sum_of_squares; cbn; lra|].
  inversion F; subst. cbn in L. injection L as L. specialize (IH t L H3). unfold sum_of_squares in *. cbn [map2 map fold_right].
  assert (Q : df M m * df M m <= (M / (m0 + M)) ^ 2).
  { assert (df M m <= M / (m0 + M)) by (unfold df; apply Rmult_le_compat_l; [lra|]; apply Rinv_le_contravar; lra).
    assert (0 < df M m) by (unfold df; apply Rdiv_lt_0_compat; lra). nra. }
  assert (0 <= (a / 1000000 - A) ^ 2) by apply pow2_ge_0. nra.
Qed.

(* EMF mode: at a best fit the spread that solve_emf reports is smaller than the standard
   deviation of the used estimates, at least in the proportion in which the first used point
   is diluted *)
Theorem C142_emf_understates : forall st c tm emf temps M totals ks ai double ei logic pmin pmax n r est A m0,
  masses_ok tm M ->
  solve_emf st (Fin c) (map Fin tm) emf temps (Fin M) totals ks ai double ei logic pmin pmax (Fin n) = Ok r ->
  se_alkalinity_all r = map Fin est -> se_alkalinity r = Fin A ->
  (exists i, used_at (se_used r) i) ->
  (forall y A' y', or_fun (se_opt_result r) = map Fin y -> residuals_at r (Fin n) A' = Ok (map Fin y') ->
     sum_of_squares y <= sum_of_squares y') ->
  0 <= m0 -> (forall i m, used_at (se_used r) i -> nth_error tm i = Some m -> m0 <= m) ->
  exists s, se_alkalinity_std r = Fin s /\ 0 <= s <= M / (m0 + M) * std (mask (se_used r) est).
Proof.
  intros st c tm emf temps M totals ks ai double ei logic pmin pmax n r est A m0 Hok Hr Hest HA [i0 Hi0] Hmin H0 Hm0.
  destruct (residuals_are _ _ _ _ _ _ _ _ _ _ _ _ _ _ _ _ _ Hok Hr Hest) as [Le [Lu [Hres Hfun]]].
  set (u := se_used r) in *. pose proof Hok as [HM Htm].
  assert (HA' : se_alkalinity r = Fin (1000000 * (A / 1000000))) by (rewrite HA; f_equal; field).
  specialize (Hfun _ HA'). rewrite (Hres (A / 1000000)) in Hfun. apply (f_equal (fun z => match z with Ok w => w | Err _ => [] end)) in Hfun. cbv beta iota in Hfun.
  apply solve_emf_inv in Hr as [ai' [ei' [logic' Hr]]].
  apply once_inv in Hr as (_ & _ & _ & _ & _ & _ & _ & _ & _ & _ & Hstd).
  set (mu := mean (mask u est)). set (y := map2 (fun a m => df M m * (a / 1000000 - A / 1000000)) (mask u est) (mask u tm)) in *.
  pose proof (Hmin y (mu / 1000000) _ (eq_sym Hfun) (Hres _)) as B.
  assert (Lm : length (mask u est) = length (mask u tm)) by (apply mask_length_eq; congruence).
  assert (Ne : mask u est <> []).
  { intros Z. destruct (nth_error est i0) as [x|] eqn:X.
    - assert (I : In x (mask u est)) by (apply in_mask; exists i0; split; assumption). rewrite Z in I. destruct I.
    - apply nth_error_None in X. assert (Q : nth_error u i0 <> None) by (unfold used_at in Hi0; congruence). apply nth_error_Some in Q. lia. }
  assert (Ly : length y = length (mask u est)) by (unfold y; apply map2_length; now symmetry).
  assert (Ny : y <> []) by (intros Z; rewrite Z in Ly; destruct (mask u est); [congruence|discriminate Ly]).
  assert (Fm : Forall (fun m => m0 <= m) (mask u tm)).
  { apply Forall_forall. intros m I. apply in_mask in I as [i [Ui Gi]]. exact (Hm0 i m Ui Gi). }
  pose proof (sum_sq_map2 M (M / (m0 + M)) m0 (mu / 1000000) HM H0 eq_refl (mask u est) (mask u tm) Lm Fm) as C.
  exists (std y * 1000000). split.
  { rewrite Hstd, <- Hfun, std_is by assumption. rewrite fin_q, fin_mul. f_equal. f_equal. q2r. field. }
  assert (P := len_pos _ Ne). set (N := INR (length (mask u est))) in *.
  assert (D0 : 0 < M / (m0 + M)) by (apply Rdiv_lt_0_compat; lra). set (D := M / (m0 + M)) in *.
  split; [apply Rmult_le_pos; [apply sqrt_pos|lra]|].
  assert (V : mean (map (fun x => (x - mean y) ^ 2) y) <= (D / 1000000) ^ 2 * mean (map (fun x => (x - mean (mask u est)) ^ 2) (mask u est))).
  { eapply Rle_trans; [apply (var_least y 0 Ny)|].
    apply Rmult_le_reg_l with N; [exact P|].
    apply Rle_trans with (sum_of_squares y).
    { right. rewrite sum_sq. unfold N. rewrite <- Ly. f_equal. f_equal. apply map_ext. intros x. ring. }
    eapply Rle_trans; [exact B|]. eapply Rle_trans; [exact C|]. right.
    unfold mean at 1. rewrite map_length. fold N. fold mu.
    replace (fold_right Rplus 0 (map (fun x => (x / 1000000 - mu / 1000000) ^ 2) (mask u est)))
      with (/ 1000000 ^ 2 * fold_right Rplus 0 (map (fun x => (x - mu) ^ 2) (mask u est))); [field; lra|].
    generalize (mask u est) as l. induction l as [|x l IH]; [cbn; ring|]. cbn [map fold_right]. rewrite <- IH. field. }
  unfold std. apply Rle_trans with (sqrt ((D / 1000000) ^ 2 * mean (map (fun x => (x - mean (mask u est)) ^ 2) (mask u est))) * 1000000).
  { apply Rmult_le_compat_r; [lra|]. now apply sqrt_le_1_alt. }
  right. rewrite sqrt_mult; [|apply pow2_ge_0|apply var_nonneg]. rewrite sqrt_pow2 by (apply Rlt_le, Rdiv_lt_0_compat; lra). field.
Qed.

Lemma std_pos (l : list R) x y : In x l -> In y l -> x <> y -> 0 < std l.
Proof.
  intros Ix Iy N. assert (Nl : l <> []) by (intros Z; rewrite Z in Ix; destruct Ix). unfold std. apply sqrt_lt_R0.
  assert (S : exists z, In z l /\ z <> mean l).
  { destruct (Req_dec x (mean l)) as [E|E]; [exists y; split; congruence|exists x; split; assumption]. }
  destruct S as (z & Iz & Nz). unfold mean at 1. rewrite map_length. apply Rdiv_lt_0_compat; [|now apply len_pos].
  generalize (mean l) Nz. intros k Nk. clear -Iz Nk. induction l as [|a l IH]; [destruct Iz|]. cbn [map fold_right].
  assert (Q : 0 <= fold_right Rplus 0 (map (fun x => (x - k) ^ 2) l)) by (apply Rsum_nonneg; apply Forall_forall; intros v I; apply in_map_iff in I as [w [<- _]]; apply pow2_ge_0).
  destruct Iz as [->|Iz].
  - assert (0 < (z - k) ^ 2) by (replace ((z - k) ^ 2) with (Rsqr (z - k)) by (unfold Rsqr; ring); apply Rlt_0_sqr; lra). lra.
  - specialize (IH Iz). assert (0 <= (a - k) ^ 2) by apply pow2_ge_0. lra.
Qed.

(* so it is never that standard deviation, once titrant has been added and the estimates differ *)
Theorem C142_emf_never_exact : forall st c tm emf temps M totals ks ai double ei logic pmin pmax n r est A i j a b,
  masses_ok tm M ->
  solve_emf st (Fin c) (map Fin tm) emf temps (Fin M) totals ks ai double ei logic pmin pmax (Fin n) = Ok r ->
  se_alkalinity_all r = map Fin est -> se_alkalinity r = Fin A ->
  (forall y A' y', or_fun (se_opt_result r) = map Fin y -> residuals_at r (Fin n) A' = Ok (map Fin y') ->
     sum_of_squares y <= sum_of_squares y') ->
  (forall k m, used_at (se_used r) k -> nth_error tm k = Some m -> 0 < m) ->
  used_at (se_used r) i -> nth_error est i = Some a -> used_at (se_used r) j -> nth_error est j = Some b -> a <> b ->
  exists s, se_alkalinity_std r = Fin s /\ s < std (mask (se_used r) est).
Proof.
  intros st c tm emf temps M totals ks ai double ei logic pmin pmax n r est A i j a b Hok Hr Hest HA Hmin Hpos Ui Ga Uj Gb Hab.
  assert (Mn : exists m0, 0 < m0 /\ forall k m, used_at (se_used r) k -> nth_error tm k = Some m -> m0 <= m).
  { clear -Hpos. generalize dependent (se_used r). induction tm as [|m tm IH]; intros u H; [exists 1; split; [lra|intros [|k] m _ G; discriminate G]|].
    destruct u as [|b u]; [exists 1; split; [lra|intros k m' U _; unfold used_at in U; destruct k; discriminate U]|].
    destruct (IH u) as (m1 & P1 & Q1); [intros k m' U G; exact (H (S k) m' U G)|]. destruct b.
    - assert (0 < m) by (apply (H 0%nat m); reflexivity). exists (Rmin m m1). split; [now apply Rmin_pos|].
      intros [|k] m' U G; [cbn in G; injection G as <-; apply Rmin_l|]. eapply Rle_trans; [apply Rmin_r|exact (Q1 k m' U G)].
    - exists m1. split; [exact P1|]. intros [|k] m' U G; [discriminate U|exact (Q1 k m' U G)]. }
  destruct Mn as (m0 & P0 & Q0).
  destruct (C142_emf_understates _ _ _ _ _ _ _ _ _ _ _ _ _ _ _ _ _ _ m0 Hok Hr Hest HA (ex_intro _ i Ui) Hmin (Rlt_le _ _ P0) Q0) as (s & Es & _ & B).
  exists s. split; [exact Es|]. eapply Rle_lt_trans; [exact B|].
  assert (0 < std (mask (se_used r) est)) by (apply (std_pos _ a b); [apply in_mask; now exists i|apply in_mask; now exists j|exact Hab]).
  destruct Hok as [HM _]. assert (M / (m0 + M) < 1) by (apply Rmult_lt_reg_r with (m0 + M); [lra|]; unfold Rdiv; rewrite Rmult_assoc, Rinv_l by lra; lra). nra.
Qed.

(* two points at the same EMF; the optimiser goes to the best alkalinity for EMF0 0 *)
Definition st142 : strategy xr := {|
  s_next := fun hist => match hist with [_] => Some [Fin (4 / 13); Fin 0] | _ => None end;
  s_pick := fun _ => 1%nat;
  s_max := 1 |}.

Lemma gran142 : exists gg,
  gran_guesses (map Fin [1; 2]) (map Fin [0; 0]) (map Fin [25; 25]) (Fin 1) (Fin 2) (Fin 1) "v23.7+" = Ok gg.
Proof.
  assert (Hb : Forall (fun t => -273.15 < t) [25; 25]) by (repeat constructor; apply ex_t25).
  destruct (C27_raises [1; 2] [0; 0] [25; 25] 1 (Fin 2) (Fin 1) "v23.7+" ex_masses Hb eq_refl eq_refl) as [_ [_ H]].
  destruct H as [g Hg]; [discriminate| |].
  { constructor; [cbn; intros [E|[]]; lra|]. constructor; [intros []|constructor]. }
  unfold gran_guesses. rewrite Hg. cbn [bind]. eauto.
Qed.

Lemma pow10_0 : pow10R (- ((0 - 0) * K25)) = 1.
Proof. replace (- ((0 - 0) * K25)) with 0 by ring. unfold pow10R. rewrite Rmult_0_l. apply exp_0. Qed.

Lemma res142 a : lsqfun_solve_emf (Fin 2) [Fin 1; Fin 2] [Fin 0; Fin 0] [Fin 25; Fin 25] (Fin 1) [] [] (Fin 1) [Fin a; Fin 0]
  = Ok [Fin (- a * (1 / 2)); Fin ((1 - a) * (1 / 3))].
Proof.
  unfold lsqfun_solve_emf, emf_to_pH_arr. cbn [map2]. rewrite pH25.
  unfold alkalinity_arr. cbn [all_fit forallb andb length seq combine bind mapM fst snd slice_at map].
  change default_opt_pH_scale with 3%Z. rewrite alk_free_only. cbn [bind map2]. rewrite pow10_0.
  cbn [slice_at map]. rewrite alk_free_only. cbn [bind map2]. rewrite pow10_0. rewrite !df_fin by lra. xsimp. rewrite !fin_div by lra. xsimp. f_equal. f_equal; [f_equal; field|]. f_equal. f_equal. field.
Qed.

Lemma run142 : exists r,
  solve_emf st142 (Fin 2) (map Fin [1; 2]) (map Fin [0; 0]) (map Fin [25; 25]) (Fin 1) [] []
    (Some (Fin 0)) false (Some (Fin 0)) "v23.7+" (Fin (-1)) (Fin 1) (Fin 1) = Ok r /\
  se_used r = [true; true] /\ se_alkalinity r = Fin (4 / 13 * 1000000) /\ se_alkalinity_all r = map Fin [0; 1000000] /\
  or_fun (se_opt_result r) = map Fin [- (4 / 13) * (1 / 2); (1 - 4 / 13) * (1 / 3)].
Proof.
  destruct gran142 as [gg Hgg].
  assert (Eu : in_window (Fin (-1)) (Fin 1) (emf_to_pH_arr (map Fin [0; 0]) (Fin 0) (map Fin [25; 25])) = [true; true]).
  { unfold emf_to_pH_arr. cbn [map map2 in_window]. rewrite !pH25. replace ((0 - 0) * K25) with 0 by ring. unfold ngeb. rewrite !x_leb_fin_t by lra. reflexivity. }
  unfold solve_emf, solve_emf_once. rewrite Hgg. cbn [bind]. rewrite x_ltb_fin_t by lra. cbn [assert_ bind].
  rewrite Eu. cbn [length all_fit forallb andb negb].
  change (dmap (nd_mask [true; true]) []) with (@nil (string * nd xr)).
  cbn [map mask].
  unfold least_squares at 1. rewrite fin_q, fin_mul. cbn [existsb]. change (nisnan (Fin (0 * Q2R 0.000001))) with false.
  change (nisnan (Fin 0)) with false. cbn [orb]. rewrite res142. cbn [forallb]. cbn [andb].
  match goal with |- context [nisfinite (Fin ?x)] => change (nisfinite (Fin x)) with true end. cbn [andb].
  match goal with |- context [nisfinite (Fin ?x)] => change (nisfinite (Fin x)) with true end. cbn [andb].
  cbn [st142 s_max lsq_loop s_next]. rewrite res142. cbn [st142 app s_pick nth fst snd bind or_x or_fun nth_error of_opt].
  unfold emf_to_pH_arr. cbn [map map2]. rewrite !pH25.
  assert (Eall : alkalinity_arr [Fin ((0 - 0) * K25); Fin ((0 - 0) * K25)] [] [] 3 = Ok [Fin (- 1); Fin (- 1)]).
  { unfold alkalinity_arr. cbn [all_fit forallb andb length seq combine bind mapM fst snd slice_at map].
    rewrite alk_free_only. cbn [bind slice_at map]. rewrite alk_free_only. cbn [bind]. now rewrite pow10_0. }
  unfold alkalinity_all. change default_opt_pH_scale with 3%Z. rewrite Eall. cbn [bind].
  eexists. split; [reflexivity|]. cbn [se_used se_emf0 se_alkalinity se_opt_result or_fun se_pH se_alkalinity_all].
  split; [reflexivity|]. split; [rewrite fin_q, fin_mul; f_equal; f_equal; q2r; field|]. split; [|reflexivity].
  cbn [map2]. rewrite !df_fin by lra. rewrite fin_q. xsimp. rewrite !fin_div by lra. xsimp. rewrite !fin_div by lra.
  f_equal; [f_equal; q2r; field|]. f_equal. f_equal. q2r. field.
Qed.

Example C142_nonvacuous : exists r est A,
  solve_emf st142 (Fin 2) (map Fin [1; 2]) (map Fin [0; 0]) (map Fin [25; 25]) (Fin 1) [] []
    (Some (Fin 0)) false (Some (Fin 0)) "v23.7+" (Fin (-1)) (Fin 1) (Fin 1) = Ok r /\
  masses_ok [1; 2] 1 /\ se_alkalinity_all r = map Fin est /\ se_alkalinity r = Fin A /\
  used_at (se_used r) 0 /\ nth_error est 0 = Some 0 /\ used_at (se_used r) 1 /\ nth_error est 1 = Some 1000000 /\
  (forall y A' y', or_fun (se_opt_result r) = map Fin y -> residuals_at r (Fin 1) A' = Ok (map Fin y') ->
     sum_of_squares y <= sum_of_squares y') /\
  (forall k m, used_at (se_used r) k -> nth_error [1; 2] k = Some m -> 0 < m).
Proof.
  destruct run142 as (r & H1 & Hu & HA & Hall & Hf).
  exists r, [0; 1000000], (4 / 13 * 1000000). split; [exact H1|]. split; [apply ex_masses|]. split; [exact Hall|]. split; [exact HA|].
  rewrite Hu. split; [reflexivity|]. split; [reflexivity|]. split; [reflexivity|]. split; [reflexivity|]. split.
  - intros y A' y' E E'. rewrite Hf in E. assert (Ey : y = [- (4 / 13) * (1 / 2); (1 - 4 / 13) * (1 / 3)]).
    { destruct y as [|y0 [|y1 [|]]]; try discriminate E. cbn [map] in E. injection E as <- <-. reflexivity. }
    destruct (residuals_are _ _ _ _ _ _ _ _ _ _ _ _ _ _ _ _ _ ex_masses H1 Hall) as (_ & _ & Hres & _).
    rewrite Hres, Hu in E'. cbn [mask map2 map] in E'. destruct y' as [|y0 [|y1 [|]]]; try discriminate E'. injection E' as <- <-.
    rewrite Ey. unfold sum_of_squares, df. cbn [map fold_right].
    assert (Q : 0 <= (A' - 4 / 13) * (A' - 4 / 13)) by apply Rle_0_sqr. lra.
  - intros [|[|[|k]]] m _ G; cbn in G; try discriminate G; injection G as <-; lra.
Qed.

(* ------------------------------------------------------------------ *)
(** * C143 *)

Lemma sum_ge_in (f : R -> R) (l : list R) : (forall x, 0 <= f x) -> forall i x, nth_error l i = Some x -> f x <= fold_right Rplus 0 (map f l).
Proof.
  intros P. induction l as [|a l IH]; intros [|i] x G; try discriminate G; cbn [map fold_right].
  - cbn in G. injection G as ->. assert (0 <= fold_right Rplus 0 (map f l)) by (apply Rsum_nonneg; apply Forall_forall; intros v I; apply in_map_iff in I as [w [<- _]]; apply P). lra.
  - specialize (IH i x G). pose proof (P a). lra.
Qed.

Lemma std_sq (l : list R) : l <> [] -> INR (length l) * std l ^ 2 = fold_right Rplus 0 (map (fun x => (x - mean l) ^ 2) l).
Proof.
  intros N. unfold std. rewrite <- Rsqr_pow2, Rsqr_sqrt by apply var_nonneg. unfold mean at 1. rewrite map_length.
  pose proof (len_pos l N). field. lra.
Qed.

Lemma sum_app (l l' : list R) : fold_right Rplus 0 (l ++ l') = fold_right Rplus 0 l + fold_right Rplus 0 l'.
Proof. induction l as [|a l IH]; cbn; [ring|]. rewrite IH. ring. Qed.

Lemma sum_sub (l : list R) k : fold_right Rplus 0 (map (fun x => x - k) l) = fold_right Rplus 0 l - INR (length l) * k.
Proof. induction l as [|a l IH]; [cbn; ring|]. cbn [map fold_right]. rewrite IH. change (length (a :: l)) with (S (length l)). rewrite S_INR. ring. Qed.

(* Cauchy-Schwarz *)
Lemma sum_squared (l : list R) : fold_right Rplus 0 l ^ 2 <= INR (length l) * fold_right Rplus 0 (map (fun x => x ^ 2) l).
Proof.
  destruct l as [|a l]; [cbn; lra|]. pose proof (len_pos (a :: l) ltac:(discriminate)) as P.
  pose proof (sq_dev (a :: l) (mean (a :: l))) as E.
  assert (Q : 0 <= fold_right Rplus 0 (map (fun x => (x - mean (a :: l)) ^ 2) (a :: l))) by (apply Rsum_nonneg; apply Forall_forall; intros v I; apply in_map_iff in I as [w [<- _]]; apply pow2_ge_0).
  unfold mean in *. set (S := fold_right Rplus 0 (a :: l)) in *. set (n := INR (length (a :: l))) in *. set (V := fold_right Rplus 0 (map (fun x => x ^ 2) (a :: l))) in *.
  rewrite E in Q. assert (X : n * (V - 2 * (S / n) * S + n * (S / n) ^ 2) = n * V - S ^ 2) by (field; lra).
  assert (0 <= n * (V - 2 * (S / n) * S + n * (S / n) ^ 2)) by (apply Rmult_le_pos; lra). lra.
Qed.

Lemma far_from_mean (l : list R) x : In x l -> Rabs (x - mean l) <= std l * sqrt (INR (length l) - 1).
Proof.
  intros I. assert (N : l <> []) by (intros Z; rewrite Z in I; destruct I). pose proof (len_pos l N) as P.
  pose proof (std_sq l N) as E. apply in_split in I as (l1 & l2 & El). set (mu := mean l) in *. set (s := std l) in *.
  set (o := l1 ++ l2). assert (Ln : INR (length l) = INR (length o) + 1).
  { rewrite El. unfold o. rewrite !app_length. cbn [length]. rewrite Nat.add_succ_r, S_INR. reflexivity. }
  assert (So : fold_right Rplus 0 (map (fun z => z - mu) o) = - (x - mu)).
  { rewrite sum_sub. assert (T : fold_right Rplus 0 l = INR (length l) * mu) by (unfold mu, mean; field; lra).
    rewrite Ln in T. rewrite El in T. unfold o in *. rewrite sum_app in T |- *. cbn [fold_right] in T. lra. }
  assert (Sq : INR (length l) * s ^ 2 = (x - mu) ^ 2 + fold_right Rplus 0 (map (fun z => (z - mu) ^ 2) o)).
  { rewrite E, El. unfold o. rewrite !map_app, !sum_app. cbn [map fold_right]. ring. }
  pose proof (sum_squared (map (fun z => z - mu) o)) as C. rewrite So, map_length, map_map in C. cbv beta in C.
  set (V := fold_right Rplus 0 (map (fun z => (z - mu) ^ 2) o)) in *. rewrite Ln in *. set (k := INR (length o)) in *.
  assert (K : 0 <= k) by apply pos_INR. replace (k + 1 - 1) with k by ring.
  assert (S0 : 0 <= s) by apply sqrt_pos.
  assert (B : (x - mu) ^ 2 <= s ^ 2 * k).
  { assert ((k + 1) * (x - mu) ^ 2 <= k * ((k + 1) * s ^ 2)) by (rewrite Sq; replace ((- (x - mu)) ^ 2) with ((x - mu) ^ 2) in C by ring; lra).
    apply Rmult_le_reg_l with (k + 1); [lra|]. lra. }
  rewrite <- (sqrt_pow2 s S0), <- sqrt_mult by (try apply pow2_ge_0; exact K).
  rewrite <- sqrt_Rsqr_abs, Rsqr_pow2. now apply sqrt_le_1_alt.
Qed.

(* how many members of l satisfy P *)
Definition how_many (P : R -> bool) (l : list R) : nat := length (filter P l).
Definition at_least (d A : R) (x : R) : bool := if Rle_dec d (Rabs (x - A)) then true else false.

Lemma chebyshev (l : list R) k : l <> [] -> 0 < k -> 0 < std l ->
  INR (how_many (at_least (k * std l) (mean l)) l) * k ^ 2 <= INR (length l).
Proof.
  intros N K S. pose proof (std_sq l N) as E. set (mu := mean l) in *. set (s := std l) in *.
  assert (B : INR (how_many (at_least (k * s) mu) l) * (k * s) ^ 2 <= fold_right Rplus 0 (map (fun x => (x - mu) ^ 2) l)).
  { clearbody mu s. clear -K S. induction l as [|a l IH]; [cbn; lra|]. unfold how_many in *. cbn [filter map fold_right]. unfold at_least at 1.
    destruct (Rle_dec (k * s) (Rabs (a - mu))) as [G|G].
    - change (length (a :: filter (at_least (k * s) mu) l)) with (Datatypes.S (length (filter (at_least (k * s) mu) l))). rewrite S_INR.
      assert ((k * s) ^ 2 <= (a - mu) ^ 2) by (rewrite <- (pow2_abs (a - mu)); apply pow_incr; split; [|exact G]; apply Rmult_le_pos; lra). lra.
    - assert (0 <= (a - mu) ^ 2) by apply pow2_ge_0. lra. }
  rewrite <- E in B. apply Rmult_le_reg_r with (s ^ 2); [apply pow_lt; exact S|]. rewrite Rpow_mult_distr in B. lra.
Qed.

Lemma std_zero (l : list R) : l <> [] -> (std l = 0 <-> forall x, In x l -> x = mean l).
Proof.
  intros N. split.
  - intros Z x I. pose proof (far_from_mean l x I) as B. rewrite Z, Rmult_0_l in B.
    pose proof (Rabs_pos (x - mean l)) as P. assert (Q : Rabs (x - mean l) = 0) by lra.
    destruct (Req_dec (x - mean l) 0) as [E|E]; [lra|]. apply Rabs_no_R0 in E. congruence.
  - intros H. unfold std. change (mean (map (fun x => (x - mean l) ^ 2) l)) with (Rvar l). rewrite (Rvar_all_eq l (mean l) N H). apply sqrt_0.
Qed.

(* what the alkalinity, the spread and the number of points say about the points *)
Theorem C143_spread_bounds_points : forall c tm pH temps M totals ks pmin pmax n r,
  masses_ok tm M ->
  (forall i p, nth_error pH i = Some p -> nonneg_totals (slice_at totals i) /\ pos_constants (slice_at ks i)) ->
  solve_pH (Fin c) (map Fin tm) (map Fin pH) temps (Fin M) totals ks (Fin pmin) (Fin pmax) (Fin n) = Ok r ->
  (exists i, used_at (sp_used r) i) ->
  exists A s est, sp_alkalinity r = Fin A /\ sp_alkalinity_std r = Fin s /\ sp_alkalinity_all r = map Fin est /\
    (* the spread is zero exactly if all used points agree *)
    (s = 0 <-> forall i a, used_at (sp_used r) i -> nth_error est i = Some a -> a = A) /\
    (* no used point is further away than this *)
    (forall i a, used_at (sp_used r) i -> nth_error est i = Some a ->
       Rabs (a - A) <= s * sqrt (INR (n_used (sp_used r)) - 1)) /\
    (* few are k spreads away *)
    (forall k, 0 < k -> 0 < s -> INR (how_many (at_least (k * s) A) (mask (sp_used r) est)) * k ^ 2 <= INR (n_used (sp_used r))).
Proof.
  intros c tm pH temps M totals ks pmin pmax n r Hok Hsane Hr [i0 Hi0].
  destruct (C32_alkalinity_is_mean_of_used _ _ _ _ _ _ _ _ _ _ _ Hok Hsane Hr) as (est & He & Le & _ & _).
  pose proof Hr as Hr'. apply solve_pH_inv in Hr' as (Lp & _ & Hu & _ & Ha & Hs). rewrite !map_length in Lp.
  assert (Lu : length (sp_used r) = length est) by (rewrite Hu; unfold in_window; rewrite !map_length; congruence).
  set (u := sp_used r) in *. set (l := mask u est).
  assert (Ne : l <> []).
  { intros Z. destruct (nth_error est i0) as [x|] eqn:X.
    - assert (I : In x l) by (apply in_mask; exists i0; split; assumption). rewrite Z in I. destruct I.
    - apply nth_error_None in X. assert (Q : nth_error u i0 <> None) by (unfold used_at in Hi0; congruence). apply nth_error_Some in Q. lia. }
  assert (Ln : length l = n_used u) by (apply mask_count; congruence).
  rewrite He, mask_map in Ha, Hs. fold l in Ha, Hs. rewrite nmean_fin in Ha by assumption. rewrite std_is in Hs by assumption.
  exists (mean l), (std l), est. split; [exact Ha|]. split; [exact Hs|]. split; [exact He|]. rewrite <- Ln. split; [|split].
  - rewrite (std_zero l Ne). split.
    + intros H i a Ui Ga. apply H. apply in_mask. now exists i.
    + intros H x I. apply in_mask in I as [i [Ui Gi]]. exact (H i x Ui Gi).
  - intros i a Ui Ga. apply far_from_mean. apply in_mask. now exists i.
  - intros k K S. now apply chebyshev.
Qed.

(* two used points *)
Example C143_nonvacuous : exists r,
  masses_ok [1; 2] 1 /\
  (forall i p, nth_error [0; 1/2] i = Some p -> nonneg_totals (slice_at [] i) /\ pos_constants (slice_at kw1 i)) /\
  solve_pH (Fin (1/2)) (map Fin [1; 2]) (map Fin [0; 1/2]) [Fin 25; Fin 25] (Fin 1) [] kw1 (Fin (-1)) (Fin 1) (Fin 1) = Ok r /\
  used_at (sp_used r) 0 /\ used_at (sp_used r) 1.
Proof.
  destruct (two_points (1/2) 2) as (r & E). exists r. split; [exact ex_masses|]. split; [|split; [exact E|split]].
  - intros i p _. split.
    + intros k v. unfold slice_at. destruct i; cbn; discriminate.
    + intros k v G. assert (X : v = Fin 1). { unfold slice_at, kw1 in G. cbn in G. destruct (String.eqb k "k_water"); [now injection G as <-|discriminate]. }
      exists 1. split; [exact X|lra].
  - apply (proj1 (C31_used_is_closed_window _ _ _ _ _ _ _ _ _ _) r E 0%nat (Fin 0) eq_refl). exists 0. split; [reflexivity|lra].
  - apply (proj1 (C31_used_is_closed_window _ _ _ _ _ _ _ _ _ _) r E 1%nat (Fin (1/2)) eq_refl). exists (1/2). split; [reflexivity|lra].
Qed.
