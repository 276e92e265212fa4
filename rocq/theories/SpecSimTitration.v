(* SpecSimTitration.v -- vocabulary of the statements about simulated titrations (C81, C82).
   Nothing here refers to the model of simulate._titration. *)
From Coq Require Import Reals.
From Verif Require Export SpecConvert SpecLoss Simulate.
Open Scope list_scope.
Open Scope R_scope.

(* the titrant masses start, start + step, start + 2 step, ... *)
Definition ramp (start step : R) (n : nat) : list R := map (fun i => start + INR i * step) (seq 0 n).

(* the ten salts of a titration *)
Definition salts : list string :=
  ["total_alpha"; "total_ammonia"; "total_beta"; "total_borate"; "total_calcium"; "total_fluoride";
   "total_phosphate"; "total_silicate"; "total_sulfate"; "total_sulfide"].

(* What is assumed of PyCO2SYS: results are arrays of the shape of the arguments; salts that are given are
   returned as they were given, and so is the DIC *)
Record keeps_inputs (sys : dict (nd xr) -> res (dict (nd xr))) : Prop := {
  ki_shape : forall n kw r, sys kw = Ok r -> shaped n kw -> shaped n r;
  ki_salts : forall kw r k v, sys kw = Ok r -> In k salts -> dget k kw = Some v -> dget k r = Some v;
  ki_dic : forall kw r v, sys kw = Ok r -> dget "par2_type" kw = Some (NdS (Fin 2)) -> dget "par2" kw = Some v ->
    dget "dic" r = Some v
}.

(* contents in mol/kg and equilibrium constants in a result of PyCO2SYS, which works in micromol/kg *)
Definition molar (v : nd xr) : nd xr := nd_map (fun x => nmul x (Fin 0.000001)) v.
Definition contents (r : dict (nd xr)) : dict (nd xr) :=
  dset "dic" (match dget "dic" r with Some v => molar v | None => NdS NaN end)
    (dmap molar (filter (fun kv => startswith (fst kv) "total_") r)).
Definition constants (r : dict (nd xr)) : dict (nd xr) := filter (fun kv => startswith (fst kv) "k_") r.

(* ... and, given alkalinity and DIC, the free-scale pH returned is one at which the species have the
   given alkalinity *)
Definition balances (sys : dict (nd xr) -> res (dict (nd xr))) : Prop :=
  forall n kw r alk, sys kw = Ok r -> shaped n kw -> length alk = n ->
    dget "par1" kw = Some (NdA (map Fin alk)) ->
    dget "par1_type" kw = Some (NdS (Fin 1)) -> dget "par2_type" kw = Some (NdS (Fin 2)) ->
    dget "opt_pH_scale" kw = Some (NdS (Fin 3)) ->
    exists pH, dget "pH_free" r = Some (NdA (map Fin pH)) /\ length pH = n /\
      forall i x a, nth_error pH i = Some x -> nth_error alk i = Some a ->
        alkalinity (Fin x) (slice_at (contents r) i) (slice_at (constants r) i) 3 = Ok (Fin (a * 0.000001)).

(* the fCO2 it returns for one point is a finite number *)
Definition finite_fCO2 (sys : dict (nd xr) -> res (dict (nd xr))) : Prop :=
  forall kw r, sys kw = Ok r -> exists f, dget "fCO2" r = Some (NdS (Fin f)).
