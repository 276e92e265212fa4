(* PropAmount.v -- properties C09-C11 (convert.amount_units) *)
From Coq Require Import Reals Qreals Lra.
From Verif Require Import SpecConvert ConvertProofs.
Open Scope R_scope.

(* ---------------------------------------------------------------- C09 *)

(* The same titration with amounts in kg, in g and in ml (density rho, g/ml):
   the whole outcome, errors included, is the same. *)
Theorem C09_titrant_units_interchangeable :
  forall (a : list R) (meas temps : list xr) (sal : val xr) (kw : kwargs xr) (u_kg u_g u_ml : string) (rho : R),
  lower u_kg = "kg" -> lower u_g = "g" -> lower u_ml = "ml" -> rho <> 0 ->
  let data amounts := {| dd_titrant_amount := map Fin amounts; dd_measurement := meas; dd_temperature := temps |} in
  let in_kg := amount_units (data a) sal (dset "titrant_amount_unit" (VStr u_kg) kw) in
  let in_g := amount_units (data (map (fun x => x * 1000) a)) sal (dset "titrant_amount_unit" (VStr u_g) kw) in
  let in_ml := amount_units (data (map (fun x => x * 1000 / rho) a)) sal
                 (dset "titrant_amount_unit" (VStr u_ml) (dset "titrant_density" (VNum (Fin rho)) kw)) in
  in_g = in_kg /\ in_ml = in_kg /\
  (forall cv, in_kg = Ok cv -> cv_titrant_mass cv = map Fin a).
Proof.
  intros a meas temps sal kw ukg ug uml rho Hkg Hg Hml Hrho data in_kg in_g in_ml.
  subst in_kg in_g in_ml data.
  unfold amount_units, cau_titrant_mass, cau_analyte_mass.
  kwsimp. cbn [as_str bind]. rewrite Hkg, Hg, Hml.
  change (mem_str "kg" ["ml"; "g"; "kg"]) with true. change (mem_str "g" ["ml"; "g"; "kg"]) with true.
  change (mem_str "ml" ["ml"; "g"; "kg"]) with true. cbn [assert_ bind].
  change (String.eqb "kg" "ml") with false. change (String.eqb "kg" "g") with false.
  change (String.eqb "g" "ml") with false. change (String.eqb "g" "g") with true.
  change (String.eqb "ml" "ml") with true. cbn [orb bind as_num dd_titrant_amount dd_measurement dd_temperature].
  assert (Eg : map (fun x => x ⊗ nofQ 0.001)%num (map Fin (map (fun x => x * 1000) a)) = map Fin a).
  { rewrite !map_map. apply map_ext. intros x. xsimp. f_equal. q2r. lra. }
  assert (Eml : map (fun x => x ⊗ Fin rho ⊗ nofQ 0.001)%num (map Fin (map (fun x => x * 1000 / rho) a)) = map Fin a).
  { rewrite !map_map. apply map_ext. intros x. xsimp. f_equal. q2r. field. assumption. }
  rewrite Eg, Eml. split; [reflexivity|]. split; [reflexivity|].
  intros cv Hcv.
  apply bind_ok in Hcv as [? [_ Hcv]]. apply bind_ok in Hcv as [? [_ Hcv]].
  apply bind_ok in Hcv as [? [_ Hcv]]. injection Hcv as <-. reflexivity.
Qed.
Example C09_nonvacuous :
  lower "KG" = "kg" /\ lower "g" = "g" /\ lower "mL" = "ml" /\ 1.02 <> 0 /\
  exists cv,
    amount_units {| dd_titrant_amount := [Fin 0; Fin 0.001]; dd_measurement := [Fin 300; Fin 400];
                    dd_temperature := [Fin 25; Fin 25] |} (VNum (Fin 35))
      (dset "titrant_amount_unit" (VStr "KG") [("analyte_mass", VNum (Fin 0.1))]) = Ok cv.
Proof. repeat split; try reflexivity; [q2r; lra|]. eexists. reflexivity. Qed.
Print Assumptions C09_titrant_units_interchangeable.

(* ---------------------------------------------------------------- C10 *)

Section C10.
Context {T : Type} `{Num T}.

(* a non-null analyte mass is returned as it is, and the volume is irrelevant *)
Theorem C10_mass_takes_precedence : forall (dd : DatData T) (sal : val T) (kw : kwargs T) (m w : val T),
  dget "analyte_mass" kw = Some m -> isnull m = false ->
  (forall cv, amount_units dd sal kw = Ok cv -> as_num m = Ok (cv_analyte_mass cv)) /\
  amount_units dd sal (dset "analyte_volume" w kw) = amount_units dd sal kw.
Proof.
  intros dd sal kw m w Hm Hnn. split.
  - intros cv Hcv. unfold amount_units in Hcv.
    apply bind_ok in Hcv as [? [_ Hcv]]. apply bind_ok in Hcv as [? [_ Hcv]].
    apply bind_ok in Hcv as [? [_ Hcv]]. apply bind_ok in Hcv as [am [Ham Hcv]]. injection Hcv as <-.
    cbn. unfold cau_analyte_mass, kwarg in Ham. rewrite Hm, Hnn in Ham. exact Ham.
  - unfold amount_units, cau_titrant_mass, cau_analyte_mass. kwsimp.
    replace (kwarg "analyte_mass" VNone kw) with m by (unfold kwarg; rewrite Hm; reflexivity).
    rewrite Hnn. reflexivity.
Qed.

(* neither: the call raises, whatever the data *)
Theorem C10_neither_raises : forall (dd : DatData T) (sal : val T) (kw : kwargs T),
  (forall m, dget "analyte_mass" kw = Some m -> isnull m = true) ->
  (forall v, dget "analyte_volume" kw = Some v -> isnull v = true) ->
  exists e, amount_units dd sal kw = Err e.
Proof.
  intros dd sal kw Hm Hv. unfold amount_units.
  destruct (check_kwargs keys_cau kw); cbn [bind]; [|eauto].
  match goal with |- context [bind ?x _] => destruct x as [temps|] end; cbn [bind]; [|eauto].
  destruct (cau_titrant_mass _ _); cbn [bind]; [|eauto].
  unfold cau_analyte_mass, kwarg.
  assert (E : isnull (match dget "analyte_mass" kw with Some v => v | None => VNone end) = true).
  { destruct (dget "analyte_mass" kw); [auto|reflexivity]. }
  rewrite E.
  assert (E' : notnull (match dget "analyte_volume" kw with Some v => v | None => VNone end) = false).
  { unfold notnull. destruct (dget "analyte_volume" kw) as [v|]; [rewrite (Hv v eq_refl)|]; reflexivity. }
  rewrite E'. cbn. eauto.
Qed.

(* unrecognised unit, or unrecognised titrant when its density is needed *)
Theorem C10_bad_unit_or_titrant_raises : forall (dd : DatData T) (sal : val T) (kw : kwargs T),
  (exists u, dget "titrant_amount_unit" kw = Some (VStr u) /\ ~ In (lower u) ["ml"; "g"; "kg"]) \/
  (dget "titrant_amount_unit" kw = None /\ dget "titrant_density" kw = None /\
   exists t, dget "titrant" kw = Some (VStr t) /\ ~ In (upper t) ["H2SO4"; "HCL"]) ->
  exists e, amount_units dd sal kw = Err e.
Proof.
  intros dd sal kw Hbad. unfold amount_units.
  destruct (check_kwargs keys_cau kw); cbn [bind]; [|eauto].
  match goal with |- context [bind ?x _] => destruct x as [temps|] end; cbn [bind]; [|eauto].
  assert (exists e, cau_titrant_mass (dd_titrant_amount dd) kw = Err e) as [e ->]; [|cbn; eauto].
  unfold cau_titrant_mass, kwarg. destruct Hbad as [[u [-> Hu]]|[-> [-> [t [-> Ht]]]]].
  - cbn [as_str bind]. apply mem_str_false in Hu. rewrite Hu. cbn. eauto.
  - cbn [as_str bind]. change (lower "ml") with "ml".
    change (mem_str "ml" ["ml"; "g"; "kg"]) with true. cbn [assert_ bind].
    change (String.eqb "ml" "ml") with true. cbn [bind as_str].
    apply mem_str_false in Ht. rewrite Ht. cbn. eauto.
Qed.
End C10.
Example C10_nonvacuous :
  isnull (VNum (Fin 0.1) : val xr) = false /\ isnull (VNum NaN : val xr) = true /\
  ~ In (lower "litres") ["ml"; "g"; "kg"] /\ ~ In (upper "HNO3") ["H2SO4"; "HCL"].
Proof. repeat split; try reflexivity; cbn; intuition discriminate. Qed.

(* otherwise the mass is volume x seawater density at the first temperature *)
Theorem C10_mass_from_volume : forall (dd : DatData xr) (sal : R) (kw : kwargs xr) (v t0 : R) (ts : list xr) (cv : Converted xr),
  (forall m, dget "analyte_mass" kw = Some m -> isnull m = true) ->
  dget "analyte_volume" kw = Some (VNum (Fin v)) ->
  dget "temperature_override" kw = None ->
  dd_temperature dd = Fin t0 :: ts ->
  amount_units dd (VNum (Fin sal)) kw = Ok cv ->
  cv_analyte_mass cv = (Fin v ⊗ fst (seawater_1atm_MP81 (Fin t0) (Fin sal)) ⊗ Fin 0.001)%num.
Proof.
  intros dd sal kw v t0 ts cv Hm Hv Ho Ht Hcv. unfold amount_units in Hcv.
  apply bind_ok in Hcv as [? [_ Hcv]]. apply bind_ok in Hcv as [temps [Htemps Hcv]].
  apply bind_ok in Hcv as [? [_ Hcv]]. apply bind_ok in Hcv as [am [Ham Hcv]]. injection Hcv as <-.
  cbn [cv_analyte_mass]. unfold kwarg in Htemps. rewrite Ho in Htemps. injection Htemps as <-.
  unfold cau_analyte_mass, kwarg in Ham.
  assert (E : isnull (match dget "analyte_mass" kw with Some v => v | None => VNone end) = true).
  { destruct (dget "analyte_mass" kw); [auto|reflexivity]. }
  rewrite E, Hv, Ht in Ham. change (notnull (VNum (Fin v))) with true in Ham.
  cbn [assert_ bind as_num nth_error of_opt] in Ham. injection Ham as <-. reflexivity.
Qed.
Example C10_from_volume_nonvacuous : exists cv,
    amount_units {| dd_titrant_amount := [Fin 0; Fin 0.001]; dd_measurement := [Fin 300; Fin 400];
                    dd_temperature := [Fin 25; Fin 25] |} (VNum (Fin 35))
      [("titrant_amount_unit", VStr "kg"); ("analyte_volume", VNum (Fin 100)); ("analyte_mass", VNum NaN)] = Ok cv.
Proof. eexists. unfold amount_units, cau_analyte_mass. cbn. reflexivity. Qed.
Print Assumptions C10_mass_takes_precedence.
Print Assumptions C10_neither_raises.
Print Assumptions C10_bad_unit_or_titrant_raises.
Print Assumptions C10_mass_from_volume.

(* ---------------------------------------------------------------- C11 *)

Section C11.
Context {T : Type} `{Num T}.

Theorem C11_temperature_override : forall (dd : DatData T) (sal v : val T) (t : T) (kw : kwargs T) (cv : Converted T),
  v <> VNone -> as_num v = Ok t ->
  amount_units dd sal (dset "temperature_override" v kw) = Ok cv ->
  (forall x, In x (cv_temperature cv) -> x = t) /\
  length (cv_temperature cv) = length (dd_temperature dd) /\
  cv_measurement cv = dd_measurement dd /\
  cv_salinity cv = sal /\
  exists cv', amount_units dd sal (dset "temperature_override" VNone kw) = Ok cv' /\
    cv_titrant_mass cv' = cv_titrant_mass cv /\
    (forall m, dget "analyte_mass" kw = Some m -> isnull m = false ->
       cv_analyte_mass cv' = cv_analyte_mass cv).
Proof.
  intros dd sal v t kw cv Hnone Hv Hcv. unfold amount_units in *. revert Hcv. kwsimp.
  destruct (check_kwargs keys_cau kw) eqn:Eck; cbn [bind]; [|discriminate].
  match goal with |- bind ?x _ = _ -> _ =>
    assert (Ev : x = Ok (map (fun _ : T => t) (dd_temperature dd)))
      by (destruct v; [congruence|rewrite Hv; reflexivity..]);
    rewrite Ev; clear Ev end.
  cbn [bind]. unfold cau_titrant_mass. kwsimp.
  match goal with |- context [bind ?x _] => destruct x as [tmass|] end; cbn [bind]; [|discriminate].
  unfold cau_analyte_mass. kwsimp.
  intros Hcv. apply bind_ok in Hcv as [am [Ham Hcv]]. injection Hcv as <-. cbn [cv_temperature cv_measurement
    cv_salinity cv_titrant_mass cv_analyte_mass].
  split; [intros x Hx; apply in_map_iff in Hx as [? [<- _]]; reflexivity|].
  split; [apply map_length|]. split; [reflexivity|]. split; [reflexivity|].
  destruct (isnull (kwarg "analyte_mass" VNone kw)) eqn:En.
  - apply bind_ok in Ham as [? [E1 Ham]]. apply bind_ok in Ham as [av [E2 Ham]].
    apply bind_ok in Ham as [t0 [E3 Ham]]. apply bind_ok in Ham as [s [E4 Ham]].
    rewrite E1. cbn [bind]. rewrite E2. cbn [bind].
    destruct (dd_temperature dd) as [|t1 ts] eqn:Ets; [discriminate|]. cbn [nth_error of_opt bind].
    rewrite E4. cbn [bind]. eexists. split; [reflexivity|]. split; [reflexivity|].
    intros m Hm Hnn. unfold kwarg in En. rewrite Hm in En. congruence.
  - rewrite Ham. cbn [bind]. eexists. split; [reflexivity|]. split; reflexivity.
Qed.
End C11.
Example C11_nonvacuous : exists cv,
    amount_units {| dd_titrant_amount := [Fin 0; Fin 0.001]; dd_measurement := [Fin 300; Fin 400];
                    dd_temperature := [Fin 25; Fin 26] |} (VNum (Fin 35))
      (dset "temperature_override" (VNum (Fin 20))
         [("titrant_amount_unit", VStr "kg"); ("analyte_mass", VNum (Fin 0.1))]) = Ok cv.
Proof. eexists. reflexivity. Qed.
Print Assumptions C11_temperature_override.
