(* Convert.v -- model of calkulate/convert.py and constants.py *)
From Verif Require Export Density.

Section Convert.
Context {T : Type} `{Num T}.

(* constants.py:5-7, convert.py:20-21 *)
Definition absolute_zero : T := nofQ 273.15.
Definition faraday : T := nofQ 96.4853365.
Definition ideal_gas : T := nofQ 8.3144621.

(* convert.py:24-26  get_dilution_factor *)
Definition get_dilution_factor (titrant_mass analyte_mass : T) : T :=
  analyte_mass ⊘ (titrant_mass ⊕ analyte_mass).

Definition dilution_factors (titrant_mass : list T) (analyte_mass : T) : list T :=
  map (fun m => get_dilution_factor m analyte_mass) titrant_mass.

(* convert.py:29-32  dilute_totals *)
Definition dilute_totals (totals : dict (nd T)) (titrant_mass : list T) (analyte_mass : T)
  : res (dict (nd T)) :=
  let df := NdA (dilution_factors titrant_mass analyte_mass) in
  dmapM (fun v => nd_map2 nmul v df) totals.

(* convert.py:43-52: the keys diluted by dilute_totals_pyco2 *)
Definition pyco2_diluted_keys : list string :=
  ["TB"; "TF"; "TSO4"; "TCa"; "alpha"; "beta"; "TPO4"; "TSi"; "TNH3"; "TH2S"].

(* convert.py:35-57  dilute_totals_pyco2 *)
Definition dilute_totals_pyco2 (totals_pyco2 : dict (nd T)) (titrant_mass : list T) (analyte_mass : T)
  : res (dict (nd T)) :=
  let df := NdA (dilution_factors titrant_mass analyte_mass) in
  mapM (fun kv =>
          if mem_str (fst kv) pyco2_diluted_keys
          then v <- nd_map2 nmul (snd kv) df ;; Ok (fst kv, v)
          else Ok kv)
       totals_pyco2.

(* interface.py:11-22  calk_to_pyco2__totals *)
Definition calk_to_pyco2__totals : list (string * string) :=
  [("total_ammonia", "TNH3"); ("total_phosphate", "TPO4"); ("total_silicate", "TSi");
   ("total_sulfide", "TH2S"); ("total_borate", "TB"); ("total_fluoride", "TF");
   ("total_sulfate", "TSO4"); ("total_alpha", "total_alpha"); ("total_beta", "total_beta");
   ("total_calcium", "total_calcium")].

(* interface.py:39  pyco2_to_calk__totals *)
Definition pyco2_to_calk__totals : list (string * string) :=
  map (fun kv => (snd kv, fst kv)) calk_to_pyco2__totals.

(* convert.py:60-67  totals_to_pyco2 *)
Definition totals_to_pyco2 (totals : dict (nd T)) (salinity : T) : dict (nd T) :=
  dset "Sal" (NdS salinity)
    (map (fun pc => (fst pc, match dget (snd pc) totals with Some v => v | None => NdS n0 end))
         pyco2_to_calk__totals).

(* convert.py:70-82  dilute_totals_H2SO4 *)
Definition dilute_totals_H2SO4 (totals : dict (nd T)) (titrant_molinity : T)
  (titrant_mass : list T) (analyte_mass : T) : res (dict (nd T)) :=
  let df := NdA (dilution_factors titrant_mass analyte_mass) in
  mapM (fun kv =>
          if negb (String.eqb (fst kv) "total_sulfate")
          then v <- nd_map2 nmul (snd kv) df ;; Ok (fst kv, v)
          else
            v1 <- nd_map2 nadd (nd_map (fun x => x ⊗ analyte_mass) (snd kv))
                    (NdA (map (fun m => titrant_molinity ⊗ m) titrant_mass)) ;;
            v2 <- nd_map2 ndiv v1 (NdA (map (fun m => analyte_mass ⊕ m) titrant_mass)) ;;
            Ok (fst kv, v2))
       totals.

(* convert.py:97-106: the keys diluted by dilute_totals_pyco2_H2SO4 *)
Definition pyco2_H2SO4_diluted_keys : list string :=
  ["TB"; "TF"; "TCa"; "alpha"; "beta"; "TPO4"; "TSi"; "TNH3"; "TH2S"].

(* convert.py:85-114  dilute_totals_pyco2_H2SO4 *)
Definition dilute_totals_pyco2_H2SO4 (totals_pyco2 : dict (nd T)) (titrant_molinity : T)
  (titrant_mass : list T) (analyte_mass : T) : res (dict (nd T)) :=
  let df := NdA (dilution_factors titrant_mass analyte_mass) in
  d <- mapM (fun kv =>
          if mem_str (fst kv) pyco2_H2SO4_diluted_keys
          then v <- nd_map2 nmul (snd kv) df ;; Ok (fst kv, v)
          else Ok kv)
       totals_pyco2 ;;
  tso4 <- dgetE "TSO4" d ;;
  v1 <- nd_map2 nadd (nd_map (fun x => x ⊗ analyte_mass) tso4)
          (NdA (map (fun m => titrant_molinity ⊗ m) titrant_mass)) ;;
  v2 <- nd_map2 ndiv v1 (NdA (map (fun m => analyte_mass ⊕ m) titrant_mass)) ;;
  Ok (dset "TSO4" v2 d).

(* convert.py:117-121  emf_to_h *)
Definition emf_to_h (emf emf0 temperature : T) : T :=
  let temperature_K := temperature ⊕ absolute_zero in
  nexp ((emf ⊖ emf0) ⊗ faraday ⊘ (ideal_gas ⊗ temperature_K)).

(* convert.py:124-126  emf_to_pH *)
Definition emf_to_pH (emf emf0 temperature : T) : T :=
  nopp (nlog10 (emf_to_h emf emf0 temperature)).

(* convert.py:129-132  h_to_emf *)
Definition h_to_emf (h emf0 temperature : T) : T :=
  let temperature_K := temperature ⊕ absolute_zero in
  emf0 ⊕ nln h ⊗ ideal_gas ⊗ temperature_K ⊘ faraday.

(* convert.py:135-138  pH_to_emf *)
Definition pH_to_emf (pH emf0 temperature : T) : T :=
  h_to_emf (npow10 (nopp pH)) emf0 temperature.

(* convert.py:141-144  f_to_demf0 *)
Definition f_to_demf0 (f temperature : T) : T :=
  let temperature_K := temperature ⊕ absolute_zero in
  nln f ⊗ ideal_gas ⊗ temperature_K ⊘ faraday.

(* read/titrations.py:13-15  DatData; orgalk_excel files give a plain 4-tuple
   instead (titrations.py:91-97), on which attribute access fails *)
Record DatData := { dd_titrant_amount : list T; dd_measurement : list T; dd_temperature : list T }.

(* convert.py:14-17  Converted *)
Record Converted := {
  cv_titrant_mass : list T;
  cv_measurement : list T;
  cv_temperature : list T;
  cv_analyte_mass : T;
  cv_salinity : val T
}.

(* convert.py:256  keys_cau = the parameters of amount_units with defaults *)
Definition keys_cau : list string :=
  ["analyte_mass"; "analyte_volume"; "molinity_H2SO4"; "molinity_HCl"; "molinity_NaCl";
   "temperature_override"; "titrant_amount_unit"; "titrant_density"; "titrant"].

(* value of a keyword parameter with a default *)
Definition kwarg (k : string) (default : val T) (kw : kwargs T) : val T :=
  match dget k kw with Some v => v | None => default end.

(* calling f with a keyword it does not accept *)
Definition check_kwargs (allowed : list string) (kw : kwargs T) : res unit :=
  if forallb (fun kv => mem_str (fst kv) allowed) kw then Ok tt else Err TypeError.

(* an optional numeric parameter of density.HCl_NaCl_25C_DSC07: None means default *)
Definition opt_num (v : val T) : res (option T) :=
  match v with VNone => Ok None | _ => x <- as_num v ;; Ok (Some x) end.

(* convert.py:213-237  the titrant mass part of amount_units *)
Definition cau_titrant_mass (amount : list T) (kw : kwargs T) : res (list T) :=
  u <- as_str (kwarg "titrant_amount_unit" (VStr "ml") kw) ;;
  _ <- assert_ (mem_str (lower u) ["ml"; "g"; "kg"]) ;;
  if String.eqb (lower u) "ml" then
    match kwarg "titrant_density" VNone kw with
    | VNone =>
        ti <- as_str (kwarg "titrant" (VStr "HCl") kw) ;;
        _ <- assert_ (mem_str (upper ti) ["H2SO4"; "HCL"]) ;;
        if String.eqb (upper ti) "H2SO4" then
          m <- as_num (kwarg "molinity_H2SO4" (VNum (nofQ 0.1)) kw) ;;
          let rho := fst (H2SO4_25C_EAIM m) in
          Ok (map (fun a => a ⊗ rho ⊗ nofQ 0.001) amount)
        else
          mh <- opt_num (kwarg "molinity_HCl" (VNum (nofQ 0.1)) kw) ;;
          mn <- opt_num (kwarg "molinity_NaCl" (VNum (nofQ 0.6)) kw) ;;
          rho <- HCl_NaCl_25C_DSC07 mh mn ;;
          Ok (map (fun a => a ⊗ rho ⊗ nofQ 0.001) amount)
    | v => rho <- as_num v ;; Ok (map (fun a => a ⊗ rho ⊗ nofQ 0.001) amount)
    end
  else if String.eqb (lower u) "g" then Ok (map (fun a => a ⊗ nofQ 0.001) amount)
  else Ok amount.

(* convert.py:239-250  the analyte mass part of amount_units *)
Definition cau_analyte_mass (temperature : list T) (salinity : val T) (kw : kwargs T) : res T :=
  let am := kwarg "analyte_mass" VNone kw in
  if isnull am then
    let av := kwarg "analyte_volume" VNone kw in
    _ <- assert_ (notnull av) ;;
    v <- as_num av ;;
    t0 <- of_opt (nth_error temperature 0) IndexError ;;
    s <- as_num salinity ;;
    Ok (v ⊗ fst (seawater_1atm_MP81 t0 s) ⊗ nofQ 0.001)
  else as_num am.

(* convert.py:147-253  amount_units(dat_data, salinity, **kw) *)
Definition amount_units (dd : DatData) (salinity : val T) (kw : kwargs T) : res Converted :=
  _ <- check_kwargs keys_cau kw ;;
  temperature <-
    match kwarg "temperature_override" VNone kw with
    | VNone => Ok (dd_temperature dd)
    | v => t <- as_num v ;; Ok (map (fun _ => t) (dd_temperature dd))
    end ;;
  titrant_mass <- cau_titrant_mass (dd_titrant_amount dd) kw ;;
  analyte_mass <- cau_analyte_mass temperature salinity kw ;;
  Ok {| cv_titrant_mass := titrant_mass;
        cv_measurement := dd_measurement dd;
        cv_temperature := temperature;
        cv_analyte_mass := analyte_mass;
        cv_salinity := salinity |}.

End Convert.
Arguments DatData : clear implicits.
Arguments Converted : clear implicits.
