(* PropAcidDensity.v -- C120: what the density of an H2SO4 titrant is *)
From Coq Require Import Reals Qreals Lra List.
From Verif Require Import SpecConvert XRLemmas Density.
From Verif Require Import PropDensity.
Import ListNotations.
Open Scope list_scope.
Open Scope R_scope.

(** Small specification.  The E-AIM densities (g/ml, 25 C) of H2SO4 solutions by molality (mol per kg
    of water) to which the curve was fitted: /repo/density_estimator.py:7-30. *)
Definition eaim : list (R * R) :=
  [ (0.05, 1.00043); (0.1, 1.00361); (0.2, 1.00983); (0.5, 1.02785); (1, 1.05653); (1.5, 1.08378); (2, 1.10964); (2.5, 1.13410); (3, 1.15736)].

(* the sum of the squared misfits of a curve *)
Definition misfit (curve : R -> R) : R := fold_right (fun p s => (curve (fst p) - snd p) ^ 2 + s) 0 eaim.

(* mol of H2SO4 (0.098079 kg/mol) per kg of solution, from mol per kg of water *)
Definition molinity_of (molality : R) : R := molality / (1 + 0.098079 * molality).

(* the density calkulate computes *)
Definition density_of (m : R) : R := match fst (H2SO4_25C_EAIM (Fin m)) with Fin r => r | _ => 0 end.

Lemma density_of_is m : fst (H2SO4_25C_EAIM (Fin m)) = Fin (density_of m) /\
  density_of m = 99750018/100000000 + 6181819/100000000 * m - 285491/100000000 * m ^ 2.
Proof.
  assert (E : fst (H2SO4_25C_EAIM (Fin m)) = Fin (99750018/100000000 + 6181819/100000000 * m - 285491/100000000 * m ^ 2)).
  { unfold H2SO4_25C_EAIM. cbn [fst]. xsimp. f_equal. }
  unfold density_of. rewrite E. split; reflexivity.
Qed.

(** Read as a function of molality, the density is within 0.00016 g/ml of every E-AIM value, and no
    quadratic whatever fits the E-AIM values better by more than rounding of the coefficients
    (1e-14, where the misfit itself is 8.7e-8). *)
Theorem C120_best_quadratic_partial :
  (forall m, exists r, fst (H2SO4_25C_EAIM (Fin m)) = Fin r /\ r = density_of m) /\
  Forall (fun p => Rabs (density_of (fst p) - snd p) < 0.00016) eaim /\
  forall a b c : R, misfit density_of <= misfit (fun m => a + b * m + c * m ^ 2) + 1 / 10 ^ 14.
Proof.
  split; [intros m; exists (density_of m); split; [apply density_of_is|reflexivity]|]. split.
  - unfold eaim. repeat (apply Forall_cons); try apply Forall_nil; cbn [fst snd]; rewrite (proj2 (density_of_is _));
      apply Rabs_def1; q2r; lra.
  - intros a b c. unfold misfit, eaim. cbn [fold_right fst snd]. rewrite !(proj2 (density_of_is _)).
    assert (S0 : 0 <= (9) * (((a - (3074170870111/3081875000000)) + (217/180) * (b - (628702602223/10170187500000)) + (9121/3600) * (c - (-58069873/20340375000))) * ((a - (3074170870111/3081875000000)) + (217/180) * (b - (628702602223/10170187500000)) + (9121/3600) * (c - (-58069873/20340375000))))) by (apply Rmult_le_pos; [lra|apply Rle_0_sqr]).
    assert (S1 : 0 <= (175/18) * (((b - (628702602223/10170187500000)) + (2488/875) * (c - (-58069873/20340375000))) * ((b - (628702602223/10170187500000)) + (2488/875) * (c - (-58069873/20340375000))))) by (apply Rmult_le_pos; [lra|apply Rle_0_sqr]).
    assert (S2 : 0 <= (162723/28000) * ((c - (-58069873/20340375000)) * (c - (-58069873/20340375000)))) by (apply Rmult_le_pos; [lra|apply Rle_0_sqr]).
    q2r. lra.
Qed.
Print Assumptions C120_best_quadratic_partial.

(** But the function is given a molinity (mol per kg of solution): a titrant with the molality 3 of
    the last E-AIM value has a molinity within the accepted range, gets no warning, and is given a
    density more than 0.02 g/ml (2%) below E-AIM's. *)
Theorem C120_molinity_is_not_molality_refuted :
  exists p, In p eaim /\ snd (H2SO4_25C_EAIM (Fin (molinity_of (fst p)))) = [] /\
    density_of (molinity_of (fst p)) < snd p - 0.02.
Proof.
  exists (3, 1.15736). split; [unfold eaim; cbn; tauto|]. cbn [fst snd].
  assert (B : 2.317 < molinity_of 3 < 2.319).
  { unfold molinity_of. split; [apply (Rmult_lt_reg_r (1 + 0.098079 * 3))|apply (Rmult_lt_reg_r (1 + 0.098079 * 3))]; q2r; try lra;
      unfold Rdiv; rewrite Rmult_assoc, Rinv_l; lra. }
  q2r_in B. split.
  - destruct (snd (H2SO4_25C_EAIM (Fin (molinity_of 3)))) eqn:E; [reflexivity|exfalso].
    assert (N : snd (H2SO4_25C_EAIM (Fin (molinity_of 3))) <> []) by (rewrite E; discriminate).
    apply C14_H2SO4_warning in N. q2r_in N. lra.
  - rewrite (proj2 (density_of_is _)). q2r. nra.
Qed.
Print Assumptions C120_molinity_is_not_molality_refuted.

(* the curve is not the table: one value is missed by more than 0.00015 *)
Example C120_nonvacuous : In (0.05, 1.00043) eaim /\ 0.00015 < density_of 0.05 - 1.00043 < 0.00016.
Proof. split; [unfold eaim; cbn; tauto|]. rewrite (proj2 (density_of_is _)). q2r. lra. Qed.
