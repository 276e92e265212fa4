(* PropWindow64.v -- C31 with the numbers the program computes with (binary64) *)
From Coq Require Import Reals Floats.SpecFloat ZArith Lia Lra.
From Flocq Require Import Core BinarySingleNaN.
From Verif Require Import Core SFNum PropDrift PropDilution64 PropCases PropPure PropCalHistory PropMean64.
Open Scope string_scope.
Open Scope list_scope.

Lemma leb_real x y : finite64 x -> finite64 y -> SFleb x y = true <-> (real_of x <= real_of y)%R.
Proof.
  intros Fx Fy. destruct (finite64_B x Fx) as (bx & -> & Hx). destruct (finite64_B y Fy) as (by_ & -> & Hy).
  unfold real_of. rewrite !SF2R_B2SF. change (SFleb (B2SF bx) (B2SF by_)) with (Bleb bx by_). rewrite (Bleb_correct _ _ bx by_ Hx Hy).
  split; intros L; [|now apply Rle_bool_true]. destruct (Rle_bool_spec (B2R bx) (B2R by_)); [assumption|discriminate].
Qed.

Lemma window_real (lm : libm) (pmin pmax : sf) (pH : list sf) i (p : sf) : finite64 pmin -> finite64 pmax -> nth_error pH i = Some p -> valid_binary 53 1024 p = true ->
  (nth_error (in_window (H := Num_sf lm) pmin pmax pH) i = Some true <-> finite64 p /\ (real_of pmin <= real_of p <= real_of pmax)%R).
Proof.
  intros F1 F2 Ip Vp. unfold in_window. rewrite nth_error_map, Ip. cbn [option_map].
  change (ngeb (H := Num_sf lm) p pmin) with (SFleb pmin p). change (nleb (Num := Num_sf lm) p pmax) with (SFleb p pmax).
  destruct (sf_isfinite p) eqn:Fp.
  - assert (F : finite64 p) by (split; assumption).
    pose proof (leb_real pmin p F1 F) as A. pose proof (leb_real p pmax F F2) as B. split.
    + intros Q. apply some_inj in Q. apply andb_prop in Q. split; [exact F|]. split; [now apply A|now apply B].
    + intros (_ & P1 & P2). apply A in P1. apply B in P2. now rewrite P1, P2.
  - split; [|intros ([_ F] & _); rewrite F in Fp; discriminate]. intros Q. exfalso. apply some_inj in Q. apply andb_prop in Q. destruct Q as [Q1 Q2].
    destruct F1 as [_ F1], F2 as [_ F2]. destruct p as [s|[|]| |s m e]; try discriminate Fp; try discriminate Q1;
      destruct pmin as [|[|]| |[|] ? ?]; try discriminate; destruct pmax as [|[|]| |[|] ? ?]; discriminate.
Qed.

(* Run in binary64 there is no tolerance at the ends of the window: a point is used exactly when its pH is a finite
   number from the closed interval. *)
Theorem C31_window_in_binary64 : forall (lm : libm) c tm pH temps M totals ks pmin pmax n,
  finite64 pmin -> finite64 pmax ->
  forall i p, nth_error pH i = Some p -> valid_binary 53 1024 p = true ->
    (forall r, solve_pH (H := Num_sf lm) c tm pH temps M totals ks pmin pmax n = Ok r ->
       (nth_error (sp_used r) i = Some true <-> finite64 p /\ (real_of pmin <= real_of p <= real_of pmax)%R)) /\
    (forall r, solve_pH_gran (H := Num_sf lm) c tm pH temps M totals ks pmin pmax n = Ok r ->
       (nth_error (sg_used r) i = Some true <-> finite64 p /\ (real_of pmin <= real_of p <= real_of pmax)%R)).
Proof.
  intros lm c tm pH temps M totals ks pmin pmax n F1 F2 i p Ip Vp. split; intros r E.
  - assert (U : sp_used r = in_window (H := Num_sf lm) pmin pmax pH).
    { unfold solve_pH in E. destruct (negb _); [discriminate|]. destruct (assert_ _); cbn [bind] in E; [|discriminate].
      destruct (alkalinity_all _ _ _ _ _ _ _) as [l|]; cbn [bind] in E; [|discriminate]. injection E as <-. reflexivity. }
    rewrite U. now apply window_real.
  - assert (U : sg_used r = in_window (H := Num_sf lm) pmin pmax pH).
    { unfold solve_pH_gran in E. destruct (negb _); [discriminate|]. destruct (assert_ _); cbn [bind] in E; [|discriminate].
      cbv zeta in E. destruct (linregress _ _) as [l|]; cbn [bind] in E; [|discriminate]. injection E as <-. reflexivity. }
    rewrite U. now apply window_real.
Qed.

Example C31_binary64_nonvacuous : exists r,
  solve_pH (H := Num_sf flm) (whole 1) [whole 0; whole 1; whole 2; whole 3] [whole 3; whole 4; whole 5; S754_nan] [] (whole 1) [] [("k_water", NdS (whole 1))] (whole 3) (whole 4) (whole 1) = Ok r /\
  sp_used r = [true; true; false; false] /\ finite64 (whole 3) /\ finite64 (whole 4).
Proof. eexists. split; [vm_compute; reflexivity|]. repeat split; vm_compute; reflexivity. Qed.
