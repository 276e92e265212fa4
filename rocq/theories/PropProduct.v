(* PropProduct.v -- C97: titrant molinity and titrant normality *)
From Coq Require Import Reals Qreals Lra FunctionalExtensionality.
From Verif Require Export PropEmf.
Open Scope list_scope.
Open Scope R_scope.

Lemma inf_times_prod a b : (match inf_times a with PInf => inf_times b | NInf => inf_times (- b) | _ => NaN end) = inf_times (a * b).
Proof.
  unfold inf_times, rltb.
  destruct (Rlt_dec 0 a), (Rlt_dec a 0), (Rlt_dec 0 b), (Rlt_dec b 0), (Rlt_dec 0 (- b)), (Rlt_dec (- b) 0),
    (Rlt_dec 0 (a * b)), (Rlt_dec (a * b) 0); try reflexivity; exfalso; try lra; try nra;
    assert (a = 0 \/ b = 0 \/ a <> 0 /\ b <> 0) as [->|[->|[? ?]]] by (destruct (Req_dec a 0), (Req_dec b 0); auto); try lra; nra.
Qed.

Lemma mul_prod (x : xr) a b : x ⊗ Fin a ⊗ Fin b = x ⊗ Fin (a * b).
Proof.
  destruct x as [r| | |].
  - cbn. f_equal. ring.
  - change (PInf ⊗ Fin a) with (inf_times a). change (PInf ⊗ Fin (a * b)) with (inf_times (a * b)).
    rewrite <- inf_times_prod. unfold inf_times at 1 2. destruct (rltb 0 a); [reflexivity|]. destruct (rltb a 0); reflexivity.
  - change (NInf ⊗ Fin a) with (inf_times (- a)). change (NInf ⊗ Fin (a * b)) with (inf_times (- (a * b))).
    replace (- (a * b)) with (- a * b) by ring. rewrite <- inf_times_prod.
    unfold inf_times at 1 2. destruct (rltb 0 (- a)); [reflexivity|]. destruct (rltb (- a) 0); reflexivity.
  - reflexivity.
Qed.

Section Product.
Variables (c n c' n' : R).
Hypothesis Hcn : c * n = c' * n'.

Lemma acid_same (x : xr) : x ⊗ Fin c ⊗ Fin n = x ⊗ Fin c' ⊗ Fin n'.
Proof. rewrite !mul_prod. now rewrite Hcn. Qed.

Lemma all_same_product pH tm M totals ks :
  alkalinity_all pH tm M (Fin c) (Fin n) totals ks = alkalinity_all pH tm M (Fin c') (Fin n') totals ks.
Proof.
  unfold alkalinity_all. f_equal. extensionality sim. f_equal. f_equal. extensionality s. extensionality m.
  now rewrite acid_same.
Qed.

Lemma gran_same_product tm emf temps M logic :
  gran_guesses tm emf temps M (Fin c) (Fin n) logic = gran_guesses tm emf temps M (Fin c') (Fin n') logic.
Proof.
  unfold gran_guesses.
  assert (E : gran_alkalinity tm emf temps M (Fin c) (Fin n) logic = gran_alkalinity tm emf temps M (Fin c') (Fin n') logic).
  { unfold gran_alkalinity. destruct (negb _); [reflexivity|]. f_equal. extensionality u. f_equal. extensionality lr.
    now rewrite acid_same. }
  rewrite E. f_equal. extensionality ga.
  assert (E3 : (fun m e t => gran_emf0 m e t M (Fin c) (ga_alkalinity ga) (Fin n))
             = (fun m e t => gran_emf0 m e t M (Fin c') (ga_alkalinity ga) (Fin n'))).
  { extensionality m. extensionality e. extensionality t. unfold gran_emf0. now rewrite acid_same. }
  now rewrite E3.
Qed.

Lemma lsq_same_product tm emf temps M totals ks x :
  lsqfun_solve_emf (Fin c) tm emf temps M totals ks (Fin n) x = lsqfun_solve_emf (Fin c') tm emf temps M totals ks (Fin n') x.
Proof.
  unfold lsqfun_solve_emf. destruct x as [|a [|e0 [|? ?]]]; try reflexivity. f_equal. extensionality sim. f_equal. f_equal.
  extensionality s. extensionality m. now rewrite acid_same.
Qed.

(* everything solve_emf reports, except the molinity that was passed in *)
Definition same_emf_result (r r' : emf_result xr) : Prop :=
  se_alkalinity r = se_alkalinity r' /\ se_emf0 r = se_emf0 r' /\ se_used r = se_used r' /\ se_pH r = se_pH r' /\
  se_alkalinity_std r = se_alkalinity_std r' /\ se_alkalinity_all r = se_alkalinity_all r' /\
  se_opt_result r = se_opt_result r' /\ se_ggr r = se_ggr r'.
Definition same_pH_result (r r' : ph_result xr) : Prop :=
  sp_alkalinity r = sp_alkalinity r' /\ sp_used r = sp_used r' /\ sp_alkalinity_std r = sp_alkalinity_std r' /\
  sp_alkalinity_all r = sp_alkalinity_all r'.

(* two calls end alike: both with results related by P, or with the same exception *)
Definition alike {A} (P : A -> A -> Prop) (x y : res A) : Prop :=
  match x, y with Ok a, Ok b => P a b | Err e, Err e' => e = e' | _, _ => False end.

Lemma once_same_product st tm emf temps M totals ks ai ei logic pmin pmax :
  alike same_emf_result (solve_emf_once st (Fin c) tm emf temps M totals ks ai ei logic pmin pmax (Fin n))
    (solve_emf_once st (Fin c') tm emf temps M totals ks ai ei logic pmin pmax (Fin n')).
Proof.
  unfold solve_emf_once. rewrite gran_same_product.
  destruct (gran_guesses tm emf temps M (Fin c') (Fin n') logic) as [ggr|e]; cbn [bind alike]; [|reflexivity].
  destruct (assert_ (nltb pmin pmax)) as [u|e]; cbn [bind alike]; [|reflexivity].
  destruct (negb _); [reflexivity|].
  match goal with |- alike _ (bind (snd (least_squares _ ?f _ _)) _) (bind (snd (least_squares _ ?g _ _)) _) =>
    replace f with g end.
  2:{ extensionality q. extensionality x. f_equal. symmetry. apply lsq_same_product. }
  destruct (snd _) as [o|e]; cbn [bind alike]; [|reflexivity].
  destruct (of_opt (nth_error (or_x o) 0) IndexError) as [a|e]; cbn [bind alike]; [|reflexivity].
  destruct (of_opt (nth_error (or_x o) 1) IndexError) as [e0|e]; cbn [bind alike]; [|reflexivity].
  rewrite all_same_product. destruct (alkalinity_all _ _ _ _ _ _ _) as [l|e]; cbn [bind alike]; [|reflexivity].
  repeat split.
Qed.

Theorem C97_solve_emf_product : forall st tm emf temps M totals ks ai double ei logic pmin pmax,
  alike same_emf_result
    (solve_emf st (Fin c) tm emf temps M totals ks ai double ei logic pmin pmax (Fin n))
    (solve_emf st (Fin c') tm emf temps M totals ks ai double ei logic pmin pmax (Fin n')).
Proof.
  intros st tm emf temps M totals ks ai double ei logic pmin pmax. unfold solve_emf.
  pose proof (once_same_product st tm emf temps M totals ks ai ei logic pmin pmax) as H1.
  destruct (solve_emf_once st (Fin c) tm emf temps M totals ks ai ei logic pmin pmax (Fin n)) as [r|e],
           (solve_emf_once st (Fin c') tm emf temps M totals ks ai ei logic pmin pmax (Fin n')) as [r'|e'];
    cbn [alike bind] in *; try contradiction; [|assumption].
  destruct double; [|assumption]. destruct H1 as [E1 [E2 _]]. rewrite E1, E2. apply once_same_product.
Qed.

Theorem C97_solve_pH_product : forall tm pH temps M totals ks pmin pmax,
  alike same_pH_result
    (solve_pH (Fin c) tm pH temps M totals ks pmin pmax (Fin n))
    (solve_pH (Fin c') tm pH temps M totals ks pmin pmax (Fin n')).
Proof.
  intros tm pH temps M totals ks pmin pmax. unfold solve_pH. destruct (negb _); [reflexivity|].
  destruct (assert_ _) as [u|e]; cbn [bind alike]; [|reflexivity]. rewrite all_same_product.
  destruct (alkalinity_all _ _ _ _ _ _ _) as [l|e]; cbn [bind alike]; [|reflexivity]. repeat split.
Qed.

Theorem C97_solve_pH_gran_product : forall tm pH temps M totals ks pmin pmax,
  alike (fun r r' => sg_alkalinity r = sg_alkalinity r' /\ sg_used r = sg_used r' /\ sg_gfunc r = sg_gfunc r')
    (solve_pH_gran (Fin c) tm pH temps M totals ks pmin pmax (Fin n))
    (solve_pH_gran (Fin c') tm pH temps M totals ks pmin pmax (Fin n')).
Proof.
  intros tm pH temps M totals ks pmin pmax. unfold solve_pH_gran. destruct (negb _); [reflexivity|].
  destruct (assert_ _) as [u|e]; cbn [bind alike]; [|reflexivity].
  destruct (linregress _ _) as [lr|e]; cbn [bind alike]; [|reflexivity].
  cbn [sg_alkalinity sg_used sg_gfunc]. now rewrite acid_same.
Qed.
End Product.

(* one molar acid of normality one, and half molar acid of normality two *)
Example C97_nonvacuous : exists r r',
  solve_emf st38 (Fin 1) (map Fin [1; 2]) (map Fin [0; 10]) (map Fin [25; 25]) (Fin 1) [] []
    (Some (Fin 0)) false (Some (Fin 0)) "v23.7+" (Fin (- (K25 / 2))) (Fin (3 * K25 / 2)) (Fin 1) = Ok r /\
  solve_emf st38 (Fin (1/2)) (map Fin [1; 2]) (map Fin [0; 10]) (map Fin [25; 25]) (Fin 1) [] []
    (Some (Fin 0)) false (Some (Fin 0)) "v23.7+" (Fin (- (K25 / 2))) (Fin (3 * K25 / 2)) (Fin 2) = Ok r' /\
  se_alkalinity r = se_alkalinity r' /\ exists A, se_alkalinity r = Fin A.
Proof.
  destruct (pass38 0 0) as [r [H1 [_ [_ [HA _]]]]]; [lra|].
  pose proof (C97_solve_emf_product 1 1 (1/2) 2 ltac:(lra) st38 (map Fin [1; 2]) (map Fin [0; 10]) (map Fin [25; 25]) (Fin 1) [] []
    (Some (Fin 0)) false (Some (Fin 0)) "v23.7+" (Fin (- (K25 / 2))) (Fin (3 * K25 / 2))) as Hal.
  assert (Hs : solve_emf st38 (Fin 1) (map Fin [1; 2]) (map Fin [0; 10]) (map Fin [25; 25]) (Fin 1) [] []
    (Some (Fin 0)) false (Some (Fin 0)) "v23.7+" (Fin (- (K25 / 2))) (Fin (3 * K25 / 2)) (Fin 1) = Ok r).
  { unfold solve_emf. rewrite H1. reflexivity. }
  rewrite Hs in Hal. destruct (solve_emf st38 (Fin (1 / 2)) _ _ _ _ _ _ _ _ _ _ _ _ _) as [r'|e]; [|contradiction].
  exists r, r'. split; [exact Hs|]. split; [reflexivity|]. split; [apply Hal|exact HA].
Qed.

Print Assumptions C97_solve_emf_product.
Print Assumptions C97_solve_pH_product.
Print Assumptions C97_solve_pH_gran_product.
