(* PropExtraAcid.v -- C89: how much an extra acid's contribution changes with the pH scale *)
From Coq Require Import Reals Qreals Lra.

From Verif Require Import SimMono SpecSimulate PropSimulate.

Open Scope string_scope.
Open Scope list_scope.
Open Scope R_scope.

(* calkulate counts the protons of an acid whose pK is at most 4.5, and the base of the others *)
Definition counted_as_acid (k : R) : Prop := - (ln k / ln 10) <= 4.5.

(** The contribution is the same on the two scales if the pK lies on the same side of 4.5 on both,
    and changes by exactly the acid's total otherwise.  (The full claim, that it never changes, is
    false: C89_extra_acid_depends_on_scale_refuted.) *)
Theorem C89_changes_by_the_total_partial : forall f pH totals ks scale c c' X t k,
  In X ["alpha"; "beta"] -> 0 < f -> 0 < k ->
  dget ("total_" ++ X)%string totals = Some (Fin t) -> dget ("k_" ++ X)%string ks = Some (Fin k) ->
  alkalinity_components (Fin pH) totals ks scale = Ok c ->
  alkalinity_components (Fin (rescale_pH f pH)) totals (rescale f ks) scale = Ok c' ->
  exists v v', dget ("alk_" ++ X)%string c = Some (Fin v) /\ dget ("alk_" ++ X)%string c' = Some (Fin v') /\
    ((counted_as_acid k <-> counted_as_acid (f * k)) -> v' = v) /\
    (counted_as_acid k -> ~ counted_as_acid (f * k) -> v' = v + t) /\
    (~ counted_as_acid k -> counted_as_acid (f * k) -> v' = v - t).
Proof.
  intros f pH totals ks scale c c' X t k HX Hf Hk Et Ek Hc Hc'.
  assert (Ek' : dget ("k_" ++ X)%string (rescale f ks) = Some (Fin (f * k))).
  { unfold rescale. rewrite dget_dmap, Ek. reflexivity. }
  destruct (C24_extra_acids X _ _ _ _ _ t k HX Hc Et Ek Hk) as (d & p & S & M & Hi & Lo).
  destruct (C24_extra_acids X _ _ _ _ _ t (f * k) HX Hc' Et Ek' ltac:(nra)) as (d' & p' & S' & M' & Hi' & Lo').
  pose proof (h_of_pos pH) as Hh. rewrite h_of_rescale in M' by assumption.
  assert (p' = p /\ d' = d) as [-> ->].
  { assert (d * (h_of pH + k) = t * k) by (replace t with (d + p) by lra; lra).
    assert (d' * (h_of pH + k) = t * k).
    { apply Rmult_eq_reg_l with f; [|lra]. replace t with (d' + p') by lra. lra. }
    assert (d' = d) by (apply Rmult_eq_reg_r with (h_of pH + k); lra). lra. }
  unfold counted_as_acid.
  destruct (Rle_dec (- (ln k / ln 10)) 4.5) as [A|A], (Rle_dec (- (ln (f * k) / ln 10)) 4.5) as [B|B].
  - exists (- p), (- p). rewrite (Lo A), (Lo' B). repeat split; intros; try reflexivity; tauto.
  - exists (- p), d. assert (B' : - (ln (f * k) / ln 10) > 4.5) by lra. rewrite (Lo A), (Hi' B'). repeat split; intros; try (exfalso; tauto). lra.
  - exists d, (- p). assert (A' : - (ln k / ln 10) > 4.5) by lra. rewrite (Hi A'), (Lo' B). repeat split; intros; try (exfalso; tauto). lra.
  - exists d, d. assert (A' : - (ln k / ln 10) > 4.5) by lra. assert (B' : - (ln (f * k) / ln 10) > 4.5) by lra.
    rewrite (Hi A'), (Hi' B'). repeat split; intros; try reflexivity; tauto.
Qed.
Print Assumptions C89_changes_by_the_total_partial.

(* pK 4.5 on one scale and 5.5 on the other *)
Example C89_nonvacuous : exists f k c c', 0 < f /\ 0 < k /\ counted_as_acid k /\ ~ counted_as_acid (f * k) /\
  alkalinity_components (Fin 7) [("total_alpha", Fin 1)] [("k_alpha", Fin k)] 3 = Ok c /\
  alkalinity_components (Fin (rescale_pH f 7)) [("total_alpha", Fin 1)] (rescale f [("k_alpha", Fin k)]) 3 = Ok c'.
Proof.
  exists (pow10R (-1)), (pow10R (-4.5)). unfold counted_as_acid.
  assert (Hl := ln10_pos). do 2 eexists. split; [apply pow10R_pos|]. split; [apply pow10R_pos|]. split; [|split; [|split; reflexivity]].
  - change (ln (pow10R (-4.5)) / ln 10) with (log10R (pow10R (-4.5))). rewrite log10_pow10. q2r; lra.
  - change (ln (pow10R (-1) * pow10R (-4.5)) / ln 10) with (log10R (pow10R (-1) * pow10R (-4.5))).
    rewrite <- pow10R_add, log10_pow10. q2r; lra.
Qed.
