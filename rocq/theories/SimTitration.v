(* SimTitration.v -- model of the simulated titrations of calkulate/simulate.py *)
From Verif Require Export Loss Convert.

Section SimTitration.
Context {T : Type} `{Num T}.

(* PyCO2SYS.sys with all arguments given by name: an oracle.  Simplification: arguments and results are
   numbers or 1-d arrays of numbers (integer options are the numbers they stand for). *)
Definition co2sys_t := dict (nd T) -> res (dict (nd T)).

(* a call with the keyword arguments of a and of b: Python raises TypeError if a name is given twice *)
Definition call_kwargs (a b : dict (nd T)) : res (dict (nd T)) :=
  if existsb (fun k => dmem k b) (dkeys a) then Err TypeError else Ok (a ++ b)%list.

(* default.py:13-17, 19  the PyCO2SYS options, simulate.py:198-206 *)
Definition default_options : list (string * Z) :=
  [("opt_gas_constant", 3); ("opt_k_bisulfate", 1); ("opt_k_carbonic", 10); ("opt_k_fluoride", 1);
   ("opt_total_borate", 1)]%Z.

(* simulate.py:198-206 *)
Definition add_default_options (kw : dict (nd T)) : dict (nd T) :=
  fold_left (fun kw o => if dmem (fst o) kw then kw else dset (fst o) (NdS (nofZ (snd o))) kw) default_options kw.

(* simulate.py:223-234 *)
Definition diluted_totals : list string :=
  ["total_alpha"; "total_ammonia"; "total_beta"; "total_borate"; "total_calcium"; "total_fluoride";
   "total_phosphate"; "total_silicate"; "total_sulfate"; "total_sulfide"].

(* simulate.py:235 *)
Definition dilute_into (start : dict (nd T)) (df : list T) (kw : dict (nd T)) (k : string) : res (dict (nd T)) :=
  v <- dgetE k start ;;
  v' <- nd_map2 nmul v (NdA df) ;;
  Ok (dset k v' kw).

(* the loop simulate.py:223-235 *)
Fixpoint dilute_all (start : dict (nd T)) (df : list T) (names : list string) (kw : dict (nd T)) : res (dict (nd T)) :=
  match names with
  | [] => Ok kw
  | k :: names' => kw' <- dilute_into start df kw k ;; dilute_all start df names' kw'
  end.

(* simulate.py:241-244  kwargs_i *)
Definition kwargs_at (i : nat) (kw : dict (nd T)) : res (dict (nd T)) :=
  mapM (fun kv => match snd kv with
                  | NdS x => Ok (fst kv, NdS x)
                  | NdA l => x <- of_opt (nth_error l i) IndexError ;; Ok (fst kv, NdS x)
                  end) kw.

(* the value of a result that can be stored in one array element *)
Definition as_element (v : nd T) : res T :=
  match v with NdS x => Ok x | NdA [x] => Ok x | NdA _ => Err ValueError end.

(* simulate.py:240-260: dic_titration[i] = x and the values after it *)
Fixpoint sim_loss_steps (sys : co2sys_t) (kw : dict (nd T)) (k analyte_mass step fCO2_air : T)
  (i : nat) (x : T) (masses alks : list T) : res (list T) :=
  match masses, alks with
  | m :: ((_ :: _) as masses'), a :: alks' =>
      kw_i <- kwargs_at i kw ;;
      args <- call_kwargs [("par1", NdS a); ("par2", NdS x); ("par1_type", NdS (nofZ 1)); ("par2_type", NdS (nofZ 2))] kw_i ;;
      r <- sys args ;;
      f <- dgetE "fCO2" r ;;
      fCO2 <- as_element f ;;
      let delta_fCO2 := fCO2 ⊖ fCO2_air in
      let dic_loss := k ⊗ delta_fCO2 ⊗ step in
      rest <- sim_loss_steps sys kw k analyte_mass step fCO2_air (S i)
                (x ⊗ get_dilution_factor step (analyte_mass ⊕ m) ⊖ dic_loss) masses' alks' ;;
      Ok (x :: rest)
  | _, _ => Ok [x]
  end.

(* what _titration returns *)
Record simulated := {
  sm_titrant_mass : list T;
  sm_emf : nd T;
  sm_temperature : nd T;
  sm_analyte_mass : T;
  sm_totals : dict (nd T);
  sm_k_constants : dict (nd T)
}.

(* the parameters of _titration, simulate.py:132-146 (without alkalinity and the pyco2sys_kwargs) *)
Record sim_params := {
  pm_analyte_mass : T;
  pm_dic : T;
  pm_emf0 : T;
  pm_fCO2_air : T;
  pm_k_dic_loss : option T;
  pm_salinity : nd T;
  pm_temperature : nd T;
  pm_titrant_mass_start : T;
  pm_titrant_mass_step : T;
  pm_titrant_mass_stop : T;
  pm_titrant_molinity : T
}.

(* simulate.py:268-276: entries whose names start with p *)
Definition named (p : string) (d : dict (nd T)) : dict (nd T) := filter (fun kv => startswith (fst kv) p) d.

(* simulate.py:215-221  alkalinity_titration *)
Definition alkalinity_titration (alkalinity analyte_mass titrant_molinity : T) (titrant_mass : list T) : list T :=
  map (fun m => nofQ 1000000 ⊗ (analyte_mass ⊗ alkalinity ⊗ nofQ 0.000001 ⊖ m ⊗ titrant_molinity)
                  ⊘ (analyte_mass ⊕ m)) titrant_mass.

(* simulate.py:132-278  _titration *)
Definition sim_titration (sys : co2sys_t) (alkalinity : T) (p : sim_params) (pyco2sys_kwargs : dict (nd T))
  : res simulated :=
  let analyte_mass := pm_analyte_mass p in
  titrant_mass <- arange (pm_titrant_mass_start p) (pm_titrant_mass_stop p) (pm_titrant_mass_step p) ;;
  let temperature := match pm_temperature p with NdS t => NdA (map (fun _ => t) titrant_mass) | v => v end in
  kwargs_start <- call_kwargs [("salinity", pm_salinity p); ("temperature", temperature); ("opt_pH_scale", NdS (nofZ 3))]
                    (add_default_options pyco2sys_kwargs) ;;
  co2sys_start <- sys kwargs_start ;;
  let dilution_factor := map (fun m => get_dilution_factor m analyte_mass) titrant_mass in
  let alks := alkalinity_titration alkalinity analyte_mass (pm_titrant_molinity p) titrant_mass in
  kwargs_titration <- dilute_all co2sys_start dilution_factor diluted_totals kwargs_start ;;
  dic_titration <-
    match pm_k_dic_loss p with
    | Some k =>
        match titrant_mass with
        | [] => Err IndexError
        | _ => sim_loss_steps sys kwargs_titration k analyte_mass (pm_titrant_mass_step p) (pm_fCO2_air p) 0 (pm_dic p)
                 titrant_mass alks
        end
    | None => Ok (map (fun d => pm_dic p ⊗ d) dilution_factor)
    end ;;
  args <- call_kwargs [("par1", NdA alks); ("par2", NdA dic_titration); ("par1_type", NdS (nofZ 1)); ("par2_type", NdS (nofZ 2))]
            kwargs_titration ;;
  co2sys_titration <- sys args ;;
  pH_titration <- dgetE "pH_free" co2sys_titration ;;
  emf <- nd_map2 (fun pH t => pH_to_emf pH (pm_emf0 p) t) pH_titration temperature ;;
  let totals := dmap (nd_map (fun x => x ⊗ nofQ 0.000001)) (named "total_" co2sys_titration) in
  dic <- dgetE "dic" co2sys_titration ;;
  Ok {| sm_titrant_mass := titrant_mass;
        sm_emf := emf;
        sm_temperature := temperature;
        sm_analyte_mass := analyte_mass;
        sm_totals := dset "dic" (nd_map (fun x => x ⊗ nofQ 0.000001) dic) totals;
        sm_k_constants := named "k_" co2sys_titration |}.

(* simulate.py:281-360  titration: the first thing it does is look up the name Titration (line 334), which
   simulate.py neither defines nor imports (simulate.py:5-8).  Names of the module: *)
Definition simulate_globals : list string :=
  ["np"; "pyco2"; "convert"; "default"; "alkalinity_components"; "component_multipliers"; "alkalinity";
   "_titration"; "titration"].

(* what a reference to a global name gives: the builtins of Python do not include Titration either *)
Definition lookup_global (name : string) : res unit :=
  if existsb (String.eqb name) simulate_globals then Ok tt else Err (NameError name).

Definition simulate_titration (sys : co2sys_t) (alkalinity : T) (p : sim_params) (pyco2sys_kwargs : dict (nd T))
  : res simulated :=
  _ <- lookup_global "Titration" ;;
  sim_titration sys alkalinity p pyco2sys_kwargs.

End SimTitration.
Arguments co2sys_t : clear implicits.
Arguments simulated : clear implicits.
Arguments sim_params : clear implicits.
