(* Simulate.v -- model of calkulate/simulate.py:11-129 (chemical speciation and
   the alkalinity equation).  simulate._titration is in SimTitration.v. *)
From Verif Require Export Convert.

Section Simulate.
Context {T : Type} `{Num T}.

(* default.py:30  zlp *)
Definition zlp : T := nofQ 4.5.

(* simulate.py:44-47, 57-68: monoprotic acids whose base form counts *)
Definition base_form (total k h : T) : T := total ⊗ k ⊘ (k ⊕ h).
(* simulate.py:86-95: the protonated form (HF, HSO4) *)
Definition acid_form (total k h : T) : T := total ⊗ h ⊘ (k ⊕ h).
(* simulate.py:72-76, 80-84: extra acids with the zero-level-of-protons rule *)
Definition zlp_form (total k h : T) : T :=
  let a := total ⊗ k ⊘ (k ⊕ h) in
  let aH := total ⊖ a in
  if nleb (nopp (nlog10 k)) zlp then nopp aH else a.

(* simulate.py:11-96  alkalinity_components at one titration point; the numpy
   arrays of the code are mapped point by point in [alkalinity_arr] below *)
Definition alkalinity_components (pH : T) (totals ks : dict T) (opt_pH_scale : Z) : res (dict T) :=
  _ <- assert_ (existsb (Z.eqb opt_pH_scale) [1; 2; 3]%Z) ;;
  let h := npow10 (nopp pH) in
  let c0 : dict T := [("H", h)] in
  let c1 := match dget "k_water" ks with Some kw => dset "OH" (kw ⊘ h) c0 | None => c0 end in
  c2 <- match dget "dic" totals with
        | None => Ok c1
        | Some TCO2 =>
            K1 <- dgetE "k_carbonic_1" ks ;;
            K2 <- dgetE "k_carbonic_2" ks ;;
            let CO2 := TCO2 ⊘ (nofQ 1 ⊕ K1 ⊘ h ⊕ K1 ⊗ K2 ⊘ npow h 2) in
            let HCO3 := K1 ⊗ CO2 ⊘ h in
            let CO3 := K2 ⊗ HCO3 ⊘ h in
            Ok (dset "CO3" CO3 (dset "HCO3" HCO3 (dset "CO2" CO2 c1)))
        end ;;
  c3 <- match dget "total_borate" totals with
        | None => Ok c2
        | Some TB => KB <- dgetE "k_borate" ks ;; Ok (dset "BOH4" (base_form TB KB h) c2)
        end ;;
  c4 <- match dget "total_phosphate" totals with
        | None => Ok c3
        | Some TPO4 =>
            KP1 <- dgetE "k_phosphoric_1" ks ;;
            KP2 <- dgetE "k_phosphoric_2" ks ;;
            KP3 <- dgetE "k_phosphoric_3" ks ;;
            let denom := npow h 3 ⊕ KP1 ⊗ npow h 2 ⊕ KP1 ⊗ KP2 ⊗ h ⊕ KP1 ⊗ KP2 ⊗ KP3 in
            let H3PO4 := TPO4 ⊗ npow h 3 ⊘ denom in
            let HPO4 := TPO4 ⊗ KP1 ⊗ KP2 ⊗ h ⊘ denom in
            let PO4 := TPO4 ⊗ KP1 ⊗ KP2 ⊗ KP3 ⊘ denom in
            Ok (dset "PO4" PO4 (dset "HPO4" HPO4 (dset "H3PO4" H3PO4 c3)))
        end ;;
  c5 <- match dget "total_silicate" totals with
        | None => Ok c4
        | Some TSi => KSi <- dgetE "k_silicate" ks ;; Ok (dset "H3SiO4" (base_form TSi KSi h) c4)
        end ;;
  c6 <- match dget "total_ammonia" totals with
        | None => Ok c5
        | Some TNH3 => KNH3 <- dgetE "k_ammonia" ks ;; Ok (dset "NH3" (base_form TNH3 KNH3 h) c5)
        end ;;
  c7 <- match dget "total_sulfide" totals with
        | None => Ok c6
        | Some TH2S => KH2S <- dgetE "k_sulfide" ks ;; Ok (dset "HS" (base_form TH2S KH2S h) c6)
        end ;;
  c8 <- match dget "total_alpha" totals with
        | None => Ok c7
        | Some ta => ka <- dgetE "k_alpha" ks ;; Ok (dset "alk_alpha" (zlp_form ta ka h) c7)
        end ;;
  c9 <- match dget "total_beta" totals with
        | None => Ok c8
        | Some tb => kb <- dgetE "k_beta" ks ;; Ok (dset "alk_beta" (zlp_form tb kb h) c8)
        end ;;
  c10 <- (if existsb (Z.eqb opt_pH_scale) [1; 3]%Z then
            match dget "total_fluoride" totals with
            | None => Ok c9
            | Some TF => KF <- dgetE "k_fluoride" ks ;; Ok (dset "HF" (acid_form TF KF h) c9)
            end
          else Ok c9) ;;
  (if Z.eqb opt_pH_scale 3 then
     match dget "total_sulfate" totals with
     | None => Ok c10
     | Some TSO4 => KSO4 <- dgetE "k_bisulfate" ks ;; Ok (dset "HSO4" (acid_form TSO4 KSO4 h) c10)
     end
   else Ok c10).

(* simulate.py:101-119  component_multipliers *)
Definition component_multipliers : dict Z :=
  [("H", -1); ("OH", 1); ("CO2", 0); ("HCO3", 1); ("CO3", 2); ("BOH4", 1); ("HSO4", -1);
   ("HF", -1); ("H3PO4", -1); ("HPO4", 1); ("PO4", 2); ("H3SiO4", 1); ("NH3", 1); ("HS", 1);
   ("alk_alpha", 1); ("alk_beta", 1); ("alkalinity_estimate", 1)]%Z.

(* simulate.py:127-129  the weighted sum *)
Definition weighted_sum (components : dict T) : res T :=
  terms <- mapM (fun kv => m <- dgetE (fst kv) component_multipliers ;;
                           Ok (snd kv ⊗ nofZ m)) components ;;
  Ok (nsum terms).

(* simulate.py:122-129  alkalinity at one titration point *)
Definition alkalinity (pH : T) (totals ks : dict T) (opt_pH_scale : Z) : res T :=
  components <- alkalinity_components pH totals ks opt_pH_scale ;;
  weighted_sum components.

(* default.py:16  opt_pH_scale *)
Definition default_opt_pH_scale : Z := 3.

(* simulate.alkalinity on whole arrays: numpy broadcasting evaluates the formula
   at every index.  Simplification: every entry of totals and k_constants must
   be broadcastable with pH, also those that the formula does not use. *)
Definition alkalinity_arr (pH : list T) (totals ks : dict (nd T)) (opt_pH_scale : Z) : res (list T) :=
  if all_fit (length pH) totals && all_fit (length pH) ks then
    (* errors do not depend on the point: they are raised even for empty arrays *)
    _ <- (match pH with
          | [] => c <- alkalinity_components nnan (slice_at totals 0) (slice_at ks 0) opt_pH_scale ;; Ok tt
          | _ => Ok tt
          end) ;;
    mapM (fun ip => alkalinity (snd ip) (slice_at totals (fst ip)) (slice_at ks (fst ip)) opt_pH_scale)
         (combine (seq 0 (length pH)) pH)
  else Err ValueError.

End Simulate.
