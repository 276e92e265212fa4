(* PropDensity.v -- properties C12-C14 (density.py) *)
From Coq Require Import Reals Qreals Lra.
From Verif Require Import SpecConvert XRLemmas Density.
Open Scope R_scope.

(* ---------------------------------------------------------------- C12 *)

Lemma sqrt_le_10 t : 0 <= t <= 100 -> 0 <= sqrt t <= 10.
Proof.
  intros Ht. split; [apply sqrt_pos|]. rewrite <- (sqrt_square 10) by lra. apply sqrt_le_1; lra.
Qed.

Theorem C12_HCl_NaCl_density : forall a b : R, 0 <= a -> 0 <= b -> 0 < a + b <= 100 ->
  HCl_NaCl_25C_DSC07 (Some (Fin a)) (Some (Fin b)) = Ok (Fin (DSC07 a b)) /\ 0.99704 < DSC07 a b.
Proof.
  intros a b Ha Hb Hab.
  destruct (sqrt_le_10 (a + b)) as [Hs0 Hs]; [lra|].
  assert (Hsq : sqrt (a + b) * sqrt (a + b) = a + b) by (apply sqrt_sqrt; lra).
  set (s := sqrt (a + b)) in *.
  assert (HA : 0 <= 17.854 + 1.460 * s - 0.307 * (a + b) <= 35).
  { q2r. split; nra. }
  assert (HB : 0 <= 16.613 + 1.811 * s + 0.094 * (a + b) <= 50).
  { q2r. split; nra. }
  set (A := 17.854 + 1.460 * s - 0.307 * (a + b)) in *.
  set (B := 16.613 + 1.811 * s + 0.094 * (a + b)) in *.
  assert (Hden : 0 < 1000 + (a * A + b * B) * 0.99704).
  { assert (0 <= a * A) by nra. assert (0 <= b * B) by nra. q2r. nra. }
  split.
  - unfold HCl_NaCl_25C_DSC07. cbv zeta. xsimp. rewrite fin_sqrt by lra. fold s. xsimp.
    unfold pydiv. rewrite fin_n0. rewrite x_eqb_fin_f by lra. cbn [bind]. rewrite !fin_div by lra.
    xsimp. fold A B.
    assert (E : Q2R 1000 + (a * A + b * B) / (a + b) * (a + b) * Q2R 0.99704 =
                1000 + (a * A + b * B) * 0.99704) by (q2r; field; lra).
    rewrite E. rewrite fin_div by lra. do 2 f_equal. unfold DSC07. fold s. fold A B. f_equal.
    q2r. field. lra.
  - unfold DSC07. fold s A B.
    apply Rmult_lt_reg_r with (1000 + (a * A + b * B) * 0.99704); [assumption|].
    unfold Rdiv. rewrite Rmult_assoc, Rinv_l, Rmult_1_r by lra.
    assert (a * A <= a * 35) by nra. assert (b * B <= b * 50) by nra. q2r. nra.
Qed.
Example C12_nonvacuous : 0 <= 0.1 /\ 0 <= 0.6 /\ 0 < 0.1 + 0.6 <= 100.
Proof. repeat split; q2r; lra. Qed.
Print Assumptions C12_HCl_NaCl_density.

(* the documented defaults 0.1 and 0.6 mol/kg *)
Theorem C12_defaults : HCl_NaCl_25C_DSC07 (T := xr) None None = Ok (Fin (DSC07 0.1 0.6)).
Proof. apply (C12_HCl_NaCl_density 0.1 0.6); q2r; lra. Qed.

(* a titrant without any solute is an error, not pure water *)
Theorem C12_zero_raises : HCl_NaCl_25C_DSC07 (Some (Fin 0)) (Some (Fin 0)) = Err ZeroDivisionError.
Proof.
  unfold HCl_NaCl_25C_DSC07, pydiv. rewrite fin_n0, fin_add, Rplus_0_l.
  assert (E : neqb (Fin 0) (Fin 0) = true) by (apply x_eqb_fin; reflexivity). rewrite E. reflexivity.
Qed.
Print Assumptions C12_zero_raises.

(* ---------------------------------------------------------------- C13 *)

Lemma ngtb_fin a b : ngtb (Fin a) (Fin b) = true <-> b < a.
Proof. unfold ngtb. apply x_ltb_fin. Qed.

Theorem C13_seawater_warnings : forall t s : R,
  (In WarnTemperature (snd (seawater_1atm_MP81 (Fin t) (Fin s))) <-> (t < 0 \/ 40 < t)) /\
  (In WarnSalinity (snd (seawater_1atm_MP81 (Fin t) (Fin s))) <-> (s < 0.5 \/ 43 < s)).
Proof.
  intros t s. unfold seawater_1atm_MP81. cbn [snd]. rewrite !fin_q, !in_app_iff.
  assert (Et : nltb (Fin t) (Fin (Q2R 0)) || ngtb (Fin t) (Fin (Q2R 40)) = true <-> (t < 0 \/ 40 < t)).
  { rewrite orb_true_iff, x_ltb_fin, ngtb_fin. q2r. split; intros [h|h]; [left|right|left|right]; lra. }
  assert (Es : nltb (Fin s) (Fin (Q2R 0.5)) || ngtb (Fin s) (Fin (Q2R 43)) = true <-> (s < 0.5 \/ 43 < s)).
  { rewrite orb_true_iff, x_ltb_fin, ngtb_fin. q2r. split; intros [h|h]; [left|right|left|right]; lra. }
  rewrite <- Et, <- Es.
  destruct (nltb (Fin t) (Fin (Q2R 0)) || ngtb (Fin t) (Fin (Q2R 40)));
    destruct (nltb (Fin s) (Fin (Q2R 0.5)) || ngtb (Fin s) (Fin (Q2R 43))); cbn; intuition congruence.
Qed.
Print Assumptions C13_seawater_warnings.

Lemma water_part t : 0 <= t <= 40 ->
  982 < 999.842594 + 0.06793952 * t - 0.009095290 * t ^ 2 + 0.0001001685 * t ^ 3
        - 0.000001120083 * t ^ 4 + 0.000000006536336 * t ^ 5 < 1001.
Proof.
  intros Ht.
  assert (H2 : 0 <= t ^ 2 <= 1600) by (split; nra).
  assert (H3 : 0 <= t ^ 3 <= 40 * t ^ 2) by (split; nra).
  assert (H4 : 0 <= t ^ 4 <= 2560000) by (replace (t ^ 4) with (t ^ 2 * t ^ 2) by ring; split; nra).
  assert (H5 : 0 <= t ^ 5 <= 40 * t ^ 4).
  { replace (t ^ 5) with (t * t ^ 4) by ring. split; nra. }
  q2r. split; [lra|]. nra.
Qed.

Theorem C13_seawater_density_range : forall t s : R, 0 <= t <= 40 -> 0.5 <= s <= 43 ->
  exists rho, fst (seawater_1atm_MP81 (Fin t) (Fin s)) = Fin rho /\ 0.98 < rho < 1.04.
Proof.
  intros t s Ht Hs. unfold seawater_1atm_MP81. cbn [fst]. rewrite !fin_q.
  rewrite fin_pow15 by (q2r_in Hs; lra). xsimp.
  eexists. split; [reflexivity|].
  pose proof (water_part t Ht) as HW.
  set (W := 999.842594 + _ - _ + _ - _ + _) in *.
  assert (H2 : 0 <= t ^ 2 <= 1600) by (split; nra).
  assert (H3 : 0 <= t ^ 3 <= 64000) by (split; nra).
  assert (H4 : 0 <= t ^ 4 <= 2560000) by (replace (t ^ 4) with (t ^ 2 * t ^ 2) by ring; split; nra).
  set (A := Q2R 0.824493 - Q2R 0.0040899 * t + Q2R 0.000076438 * t ^ 2 - Q2R 0.00000082467 * t ^ 3 + Q2R 0.0000000053875 * t ^ 4).
  assert (HA : 0.6 <= A <= 0.84).
  { unfold A. replace (t ^ 3) with (t * t ^ 2) by ring. replace (t ^ 4) with (t ^ 2 * t ^ 2) by ring.
    assert (0 <= t ^ 2 * t ^ 2 <= 1600 * t ^ 2) by (split; nra).
    assert (0 <= t * t ^ 2 <= 40 * t ^ 2) by (split; nra). assert (t ^ 2 <= 40 * t) by nra.
    q2r. split; nra. }
  set (B := Q2R (-0.00572466) + Q2R 0.00010227 * t - Q2R 0.0000016546 * t ^ 2).
  assert (HB : -0.0058 <= B <= 0).
  { unfold B. q2r. split; nra. }
  assert (Hq : 0 <= s * sqrt s <= 43 * 7).
  { assert (0 <= sqrt s <= 7).
    { split; [apply sqrt_pos|]. rewrite <- (sqrt_square 7) by lra. apply sqrt_le_1; q2r_in Hs; lra. }
    q2r_in Hs. split; nra. }
  set (q := s * sqrt s) in *.
  assert (HAs : 0.3 <= A * s <= 0.84 * 43) by (q2r_in HA; q2r_in Hs; q2r; split; nra).
  assert (HBq : -0.0058 * 301 <= B * q <= 0) by (q2r_in HB; q2r; split; nra).
  assert (Hss : 0 <= s ^ 2 <= 1849) by (q2r_in Hs; split; nra).
  q2r_in HAs. q2r_in HBq. q2r. split; lra.
Qed.
Example C13_nonvacuous : 0 <= 25 <= 40 /\ 0.5 <= 35 <= 43.
Proof. repeat split; q2r; lra. Qed.
Print Assumptions C13_seawater_density_range.

(* the published UNESCO check values (kg/m3): rho(5,0) = 999.96675,
   rho(5,35) = 1027.67547, rho(25,35) = 1023.34306 *)
Lemma sqrt35 : 5.91607978 < sqrt 35 < 5.91607979.
Proof.
  assert (Hs : sqrt 35 * sqrt 35 = 35) by (apply sqrt_sqrt; lra).
  assert (0 <= sqrt 35) by apply sqrt_pos. q2r. split; nra.
Qed.
Theorem C13_unesco_check_values :
  (exists r, fst (seawater_1atm_MP81 (Fin 5) (Fin 0)) = Fin r /\ Rabs (1000 * r - 999.96675) < 0.00001) /\
  (exists r, fst (seawater_1atm_MP81 (Fin 5) (Fin 35)) = Fin r /\ Rabs (1000 * r - 1027.67547) < 0.00001) /\
  (exists r, fst (seawater_1atm_MP81 (Fin 25) (Fin 35)) = Fin r /\ Rabs (1000 * r - 1023.34306) < 0.00001).
Proof.
  pose proof sqrt35 as Hs. q2r_in Hs.
  repeat split; unfold seawater_1atm_MP81; cbn [fst]; rewrite fin_pow15 by lra; xsimp;
    eexists; (split; [reflexivity|]).
  - rewrite sqrt_0. apply Rabs_def1; q2r; lra.
  - apply Rabs_def1; q2r; lra.
  - apply Rabs_def1; q2r; lra.
Qed.
Print Assumptions C13_unesco_check_values.

(* ---------------------------------------------------------------- C14 *)

Theorem C14_H2SO4_warning : forall m : R,
  snd (H2SO4_25C_EAIM (Fin m)) <> [] <-> (m < 0.05 \/ 3 < m).
Proof.
  intros m. unfold H2SO4_25C_EAIM. cbn [snd]. rewrite !fin_q.
  assert (E : nltb (Fin m) (Fin (Q2R 0.05)) || ngtb (Fin m) (Fin (Q2R 3)) = true <-> (m < 0.05 \/ 3 < m)).
  { rewrite orb_true_iff, x_ltb_fin, ngtb_fin. q2r. split; intros [h|h]; [left|right|left|right]; lra. }
  rewrite <- E. destruct (nltb (Fin m) (Fin (Q2R 0.05)) || ngtb (Fin m) (Fin (Q2R 3))); split; congruence.
Qed.
Print Assumptions C14_H2SO4_warning.

Theorem C14_H2SO4_density_increasing : forall m1 m2 : R, 0.05 <= m1 -> m1 < m2 -> m2 <= 3 ->
  exists r1 r2, fst (H2SO4_25C_EAIM (Fin m1)) = Fin r1 /\ fst (H2SO4_25C_EAIM (Fin m2)) = Fin r2 /\
    1 < r1 < r2.
Proof.
  intros m1 m2 H1 H12 H2. unfold H2SO4_25C_EAIM. cbn [fst]. xsimp. eexists _, _.
  split; [reflexivity|]. split; [reflexivity|]. q2r_in H1. q2r. split; nra.
Qed.
Example C14_nonvacuous : 0.05 <= 0.1 /\ 0.1 < 0.5 /\ 0.5 <= 3.
Proof. repeat split; q2r; lra. Qed.
Print Assumptions C14_H2SO4_density_increasing.
