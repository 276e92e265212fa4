(* SpecConvert.v -- vocabulary for the statements about conversions (C01-C14, C87).
   Plain reals; no helper of the model except dict lookup and array indexing. *)
From Coq Require Import Reals.
From Verif Require Export XR.
Open Scope R_scope.

(* "the dict d holds the content c of substance k at titration point i" *)
Definition holds (d : dict (nd xr)) (k : string) (i : nat) (c : R) : Prop :=
  exists v, dget k d = Some v /\ nd_at v i = Fin c.

(* a titration: non-negative titrant masses, positive analyte mass *)
Definition masses_ok (tm : list R) (M : R) : Prop := 0 < M /\ Forall (fun m => 0 <= m) tm.

(* every array in d is as long as the titration (scalars are fine) *)
Definition shaped (n : nat) (d : dict (nd xr)) : Prop :=
  forall k v, In (k, v) d ->
    match v with NdS _ => True | NdA l => length l = n \/ length l = 1%nat end.

(* Nernst: [H+] seen by an electrode with standard potential E0 (mV) at t Celsius;
   R in J/mol/K, F in kC/mol *)
Definition nernst_h (E E0 t : R) : R :=
  exp ((E - E0) * 96.4853365 / (8.3144621 * (t + 273.15))).
Definition pH_of_h (h : R) : R := - (ln h / ln 10).

(* the ten salts that PyCO2SYS knows under these names *)
Definition pyco2_salts : list string :=
  ["TB"; "TF"; "TSO4"; "TCa"; "alpha"; "beta"; "TPO4"; "TSi"; "TNH3"; "TH2S"].

(* calkulate's names of salts and PyCO2SYS's names of the same salts *)
Definition salt_names : list (string * string) :=
  [("total_ammonia", "TNH3"); ("total_phosphate", "TPO4"); ("total_silicate", "TSi");
   ("total_sulfide", "TH2S"); ("total_borate", "TB"); ("total_fluoride", "TF");
   ("total_sulfate", "TSO4")].

(* Density of HCl in NaCl solution, Dickson et al. (2007), as one fraction *)
Definition DSC07 (a b : R) : R :=
  let t := a + b in
  let phiA := 17.854 + 1.460 * sqrt t - 0.307 * t in
  let phiB := 16.613 + 1.811 * sqrt t + 0.094 * t in
  0.99704 * (1000 + 36.46 * a + 58.44 * b) / (1000 + (a * phiA + b * phiB) * 0.99704).
