(* SpecSimulate.v -- vocabulary for the statements about the chemical speciation
   model (C15-C24): which substances exist, which constants and species belong
   to them.  Nothing here refers to the model. *)
From Coq Require Import Reals.
From Verif Require Export XR.
Open Scope list_scope.
Open Scope R_scope.

(* every content is a non-negative real number *)
Definition nonneg_totals (totals : dict xr) : Prop :=
  forall k v, dget k totals = Some v -> exists r, v = Fin r /\ 0 <= r.

(* every equilibrium constant is a positive real number *)
Definition pos_constants (ks : dict xr) : Prop :=
  forall k v, dget k ks = Some v -> exists r, v = Fin r /\ 0 < r.

(* hydrogen ion content of a solution of the given pH *)
Definition h_of (pH : R) : R := Rpower 10 (- pH).

(* the constants each substance needs; HF counts on the Total (1) and Free (3)
   scales, HSO4 only on the Free scale (3) *)
Definition needs (scale : Z) : list (string * list string) :=
  [("dic", ["k_carbonic_1"; "k_carbonic_2"]);
   ("total_borate", ["k_borate"]);
   ("total_phosphate", ["k_phosphoric_1"; "k_phosphoric_2"; "k_phosphoric_3"]);
   ("total_silicate", ["k_silicate"]); ("total_ammonia", ["k_ammonia"]);
   ("total_sulfide", ["k_sulfide"]); ("total_alpha", ["k_alpha"]); ("total_beta", ["k_beta"])]
  ++ (if Z.eqb scale 1 || Z.eqb scale 3 then [("total_fluoride", ["k_fluoride"])] else [])
  ++ (if Z.eqb scale 3 then [("total_sulfate", ["k_bisulfate"])] else []).

(* species and the total they are part of *)
Definition species_of : list (string * string) :=
  [("CO2", "dic"); ("HCO3", "dic"); ("CO3", "dic"); ("BOH4", "total_borate");
   ("H3PO4", "total_phosphate"); ("HPO4", "total_phosphate"); ("PO4", "total_phosphate");
   ("H3SiO4", "total_silicate"); ("NH3", "total_ammonia"); ("HS", "total_sulfide");
   ("HF", "total_fluoride"); ("HSO4", "total_sulfate")].

(* monoprotic acids: reported species, is it the base form?, total, constant, scales *)
Definition monoprotic : list (string * bool * string * string * list Z) :=
  [("BOH4", true, "total_borate", "k_borate", [1; 2; 3]%Z);
   ("H3SiO4", true, "total_silicate", "k_silicate", [1; 2; 3]%Z);
   ("NH3", true, "total_ammonia", "k_ammonia", [1; 2; 3]%Z);
   ("HS", true, "total_sulfide", "k_sulfide", [1; 2; 3]%Z);
   ("HF", false, "total_fluoride", "k_fluoride", [1; 3]%Z);
   ("HSO4", false, "total_sulfate", "k_bisulfate", [3]%Z)].

(* content of a species among the components (0 if it is not listed) *)
Definition content (c : dict xr) (s : string) : R := match dget s c with Some (Fin x) => x | _ => 0 end.

(* total alkalinity (Dickson 1981): proton acceptors minus proton donors relative to the
   zero level of protons, plus what the extra acids alpha and beta contribute *)
Definition dickson (c : dict xr) : R :=
  content c "HCO3" + 2 * content c "CO3" + content c "BOH4" + content c "OH" + content c "HPO4" + 2 * content c "PO4"
  + content c "H3SiO4" + content c "NH3" + content c "HS"
  - content c "H" - content c "HSO4" - content c "HF" - content c "H3PO4"
  + content c "alk_alpha" + content c "alk_beta".
