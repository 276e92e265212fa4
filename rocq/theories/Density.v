(* Density.v -- model of calkulate/density.py *)
From Verif Require Export Num.

(* the two kinds of warning these functions issue *)
Inductive dwarn := WarnTemperature | WarnSalinity | WarnH2SO4.

Section Density.
Context {T : Type} `{Num T}.

(* density.py:12-47  seawater_1atm_MP81, scalar arguments; second component:
   the warnings issued (lines 19-28) *)
Definition seawater_1atm_MP81 (temperature salinity : T) : T * list dwarn :=
  let w1 := if nltb temperature (nofQ 0) || ngtb temperature (nofQ 40) then [WarnTemperature] else [] in
  let w2 := if nltb salinity (nofQ 0.5) || ngtb salinity (nofQ 43) then [WarnSalinity] else [] in
  let t := temperature in
  let rho :=
    (nofQ 999.842594
       ⊕ nofQ 0.06793952 ⊗ t
       ⊖ nofQ 0.009095290 ⊗ npow t 2
       ⊕ nofQ 0.0001001685 ⊗ npow t 3
       ⊖ nofQ 0.000001120083 ⊗ npow t 4
       ⊕ nofQ 0.000000006536336 ⊗ npow t 5
       ⊕ (nofQ 0.824493
            ⊖ nofQ 0.0040899 ⊗ t
            ⊕ nofQ 0.000076438 ⊗ npow t 2
            ⊖ nofQ 0.00000082467 ⊗ npow t 3
            ⊕ nofQ 0.0000000053875 ⊗ npow t 4)
           ⊗ salinity
       ⊕ (nofQ (-0.00572466) ⊕ nofQ 0.00010227 ⊗ t ⊖ nofQ 0.0000016546 ⊗ npow t 2)
           ⊗ npow15 salinity
       ⊕ nofQ 0.00048314 ⊗ npow salinity 2)
    ⊗ nofQ 0.001 in
  (rho, (w1 ++ w2)%list).

(* density.py:50-86  HCl_NaCl_25C_DSC07; the [None] defaults are default.py:17-18.
   Both molinities are Python floats, so a zero total raises ZeroDivisionError
   at line 78; the later divisions (lines 79-85) have an np.float64 numerator
   (np.sqrt) and follow numpy. *)
Definition HCl_NaCl_25C_DSC07 (molinity_HCl molinity_NaCl : option T) : res T :=
  let mHCl := match molinity_HCl with Some x => x | None => nofQ 0.1 end in
  let mNaCl := match molinity_NaCl with Some x => x | None => nofQ 0.6 end in
  let rhow25 := nofQ 0.99704 in
  let molinity_total := mHCl ⊕ mNaCl in
  let phiHCl := nofQ 17.854 ⊕ nofQ 1.460 ⊗ nsqrt molinity_total ⊖ nofQ 0.307 ⊗ molinity_total in
  let phiNaCl := nofQ 16.613 ⊕ nofQ 1.811 ⊗ nsqrt molinity_total ⊕ nofQ 0.094 ⊗ molinity_total in
  mT <- pydiv (nofQ 36.46 ⊗ mHCl ⊕ nofQ 58.44 ⊗ mNaCl) (mHCl ⊕ mNaCl) ;;
  let phi_mix := (mHCl ⊗ phiHCl ⊕ mNaCl ⊗ phiNaCl) ⊘ (mHCl ⊕ mNaCl) in
  Ok ((rhow25 ⊗ (nofQ 1000 ⊕ mT ⊗ (mHCl ⊕ mNaCl)))
        ⊘ (nofQ 1000 ⊕ phi_mix ⊗ (mHCl ⊕ mNaCl) ⊗ rhow25)).

(* density.py:89-99  H2SO4_25C_EAIM *)
Definition H2SO4_25C_EAIM (titrant_molinity : T) : T * list dwarn :=
  let w := if nltb titrant_molinity (nofQ 0.05) || ngtb titrant_molinity (nofQ 3) then [WarnH2SO4] else [] in
  (nofQ 0.99750018 ⊕ nofQ 0.06181819 ⊗ titrant_molinity ⊖ nofQ 0.00285491 ⊗ npow titrant_molinity 2, w).

End Density.
