(* Files.v -- model of calkulate/files.py *)
From Verif Require Export Core Titrations Meta.

Section Files.
Context {T : Type} `{Num T}.

(* files.py:41-49  keys_calibrate, 50-59  keys_solve.  Unions of Python sets: lists
   here, possibly with repetitions. *)
Definition keys_calibrate : list string :=
  (keys_read_dat ++ keys_cau ++ keys_totals_ks ++ keys_calibrate_emf ++ keys_calibrate_pH ++
   keys_calibrate_pH_gran ++ ["solve_mode"; "file_path"])%list.
Definition keys_solve : list string :=
  (keys_read_dat ++ keys_cau ++ keys_totals_ks ++ keys_titrant_totals ++ keys_solve_emf ++
   keys_solve_pH ++ keys_solve_pH_gran ++ ["solve_mode"; "file_path"])%list.

(* the three result tuples of core.solve_* *)
Inductive solve_result : Type :=
| SrEmf (r : emf_result T)
| SrPh (r : ph_result T)
| SrPhGran (r : phgran_result T).

(* f(file_name, ..., solve_mode="emf", **kwargs): solve_mode is a parameter of its own *)
Definition mode_of (kw : kwargs T) : val T := kwarg "solve_mode" (VStr "emf") kw.
Definition without_mode (kw : kwargs T) : kwargs T :=
  filter (fun kv => negb (String.eqb (fst kv) "solve_mode")) kw.

(* files.py:95-104: names reported by files.calibrate as not recognised *)
Definition calibrate_ignored (kw : kwargs T) : list string :=
  filter (fun k => negb (mem_str k keys_calibrate)) (dkeys (without_mode kw)).

(* files.py:106-107, 212-213: os.path.join *)
Definition full_name (file_name : val T) (kw : kwargs T) : res string :=
  match dget "file_path" kw, file_name with
  | Some (VStr p), VStr f => Ok (path_join p f)
  | None, VStr f => Ok f
  | _, _ => Err TypeError
  end.

(* files.py:105-115, 211-221: import, convert, total salts and constants *)
Definition load (e : env T) (file_name salinity : val T) (kw : kwargs T)
  : res (Converted T * (dict (nd T) * dict (nd T))) :=
  f <- full_name file_name kw ;;
  dd <- read_dat e f (get_kwargs_for keys_read_dat kw None) ;;
  cv <- amount_units_dat dd salinity (get_kwargs_for keys_cau kw None) ;;
  tk <- totals_ks e cv (get_kwargs_for keys_totals_ks kw None) ;;
  Ok (cv, tk).

(* gran_logic == "..." is False for anything that is not a string *)
Definition logic_of (v : val T) : string := match v with VStr s => s | _ => "" end.

(* core.solve_emf called with keyword arguments (core.py:544-560: the defaults) *)
Definition call_solve_emf (e : env T) (c : T) (tm emf temps : list T) (M : T) (totals ks : dict (nd T))
  (kw : kwargs T) : res (emf_result T) :=
  _ <- check_kwargs keys_solve_emf kw ;;
  ai <- opt_num (kwarg "alkalinity_init" VNone kw) ;;
  ei <- opt_num (kwarg "emf0_init" VNone kw) ;;
  pmin <- as_num (kwarg "pH_min" (VInt 3) kw) ;;
  pmax <- as_num (kwarg "pH_max" (VInt 4) kw) ;;
  n <- as_num (kwarg "titrant_normality" (VInt 1) kw) ;;
  solve_emf (e_strat e) c tm emf temps M totals ks ai (truthy (kwarg "double" (VBool true) kw)) ei
    (logic_of (kwarg "gran_logic" (VStr "v23.7+") kw)) pmin pmax n.

(* core.solve_pH and core.solve_pH_gran with keyword arguments (core.py:716-727, 796-807) *)
Definition call_solve_pH (c : T) (tm pH temps : list T) (M : T) (totals ks : dict (nd T))
  (kw : kwargs T) : res (ph_result T) :=
  _ <- check_kwargs keys_solve_pH kw ;;
  pmin <- as_num (kwarg "pH_min" (VInt 3) kw) ;;
  pmax <- as_num (kwarg "pH_max" (VInt 4) kw) ;;
  n <- as_num (kwarg "titrant_normality" (VInt 1) kw) ;;
  solve_pH c tm pH temps M totals ks pmin pmax n.
Definition call_solve_pH_gran (c : T) (tm pH temps : list T) (M : T) (totals ks : dict (nd T))
  (kw : kwargs T) : res (phgran_result T) :=
  _ <- check_kwargs keys_solve_pH_gran kw ;;
  pmin <- as_num (kwarg "pH_min" (VInt 3) kw) ;;
  pmax <- as_num (kwarg "pH_max" (VInt 4) kw) ;;
  n <- as_num (kwarg "titrant_normality" (VInt 1) kw) ;;
  solve_pH_gran c tm pH temps M totals ks pmin pmax n.

Definition pH_to_emf_arr (pH : list T) (emf0 : T) (temps : list T) : list T :=
  map2 (fun p t => pH_to_emf p emf0 t) pH temps.

(* files.py:231-288  choose the solver *)
Definition dispatch_solve (e : env T) (mode : val T) (c : T) (cv : Converted T) (totals ks : dict (nd T))
  (kw : kwargs T) : res solve_result :=
  m <- as_str mode ;;
  if String.eqb (lower m) "emf" then
    r <- call_solve_emf e c (cv_titrant_mass cv) (cv_measurement cv) (cv_temperature cv)
           (cv_analyte_mass cv) totals ks (get_kwargs_for keys_solve_emf kw None) ;;
    Ok (SrEmf r)
  else if String.eqb (lower m) "ph_adjust" then
    r <- call_solve_emf e c (cv_titrant_mass cv)
           (pH_to_emf_arr (cv_measurement cv) n0 (cv_temperature cv)) (cv_temperature cv)
           (cv_analyte_mass cv) totals ks
           (dset "emf0_init" (VInt 0) (get_kwargs_for keys_solve_emf kw None)) ;;
    Ok (SrEmf r)
  else if String.eqb (lower m) "ph" then
    r <- call_solve_pH c (cv_titrant_mass cv) (cv_measurement cv) (cv_temperature cv)
           (cv_analyte_mass cv) totals ks (get_kwargs_for keys_solve_pH kw None) ;;
    Ok (SrPh r)
  else if String.eqb (lower m) "ph_gran" then
    r <- call_solve_pH_gran c (cv_titrant_mass cv) (cv_measurement cv) (cv_temperature cv)
           (cv_analyte_mass cv) totals ks (get_kwargs_for keys_solve_pH_gran kw None) ;;
    Ok (SrPhGran r)
  else Err GenericException.

(* files.py:179-289  solve.  Simplification: a titrant_molinity that is not a number
   raises TypeError here, in Python a little later. *)
Definition files_solve (e : env T) (file_name titrant_molinity salinity : val T) (kw0 : kwargs T)
  : res solve_result :=
  let kw := without_mode kw0 in
  '(cv, (totals, ks)) <- load e file_name salinity kw ;;
  c <- as_num titrant_molinity ;;
  let (totals', r) := add_titrant_totals totals (cv_titrant_mass cv) (cv_analyte_mass cv) c n0
                        (get_kwargs_for keys_titrant_totals kw None) in
  _ <- r ;;
  dispatch_solve e (mode_of kw0) c cv totals' ks kw.

(* core.calibrate_* with keyword arguments: everything that is not a parameter goes to
   **titrant_totals (core.py:921-940, 1058-1073, 1178-1193) *)
Definition titrant_totals_of (named : list string) (kw : kwargs T) : kwargs T :=
  filter (fun kv => negb (mem_str (fst kv) named)) kw.

Definition call_calibrate_emf (e : env T) (cert : T) (tm emf temps : list T) (M : T)
  (totals ks : dict (nd T)) (kw : kwargs T) : res (opt_result T) :=
  ai <- opt_num (kwarg "alkalinity_init" VNone kw) ;;
  ei <- opt_num (kwarg "emf0_init" VNone kw) ;;
  pmin <- as_num (kwarg "pH_min" (VInt 3) kw) ;;
  pmax <- as_num (kwarg "pH_max" (VInt 4) kw) ;;
  init <- as_num (kwarg "titrant_molinity_init" (VNum (nofQ 0.1)) kw) ;;
  n <- as_num (kwarg "titrant_normality" (VInt 1) kw) ;;
  snd (calibrate_emf (e_strat e) cert tm emf temps M totals ks ai ei
         (truthy (kwarg "double" (VBool true) kw)) pmin pmax init n
         (titrant_totals_of ["alkalinity_init"; "emf0_init"; "double"; "pH_min"; "pH_max";
                             "titrant_molinity_init"; "titrant_normality"] kw)).

Definition call_calibrate_pH (e : env T) (cert : T) (tm pH temps : list T) (M : T)
  (totals ks : dict (nd T)) (kw : kwargs T) : res (opt_result T) :=
  pmin <- as_num (kwarg "pH_min" (VInt 3) kw) ;;
  pmax <- as_num (kwarg "pH_max" (VInt 4) kw) ;;
  init <- as_num (kwarg "titrant_molinity_init" (VNum (nofQ 0.1)) kw) ;;
  n <- as_num (kwarg "titrant_normality" (VInt 1) kw) ;;
  snd (calibrate_pH (e_strat e) cert tm pH temps M totals ks pmin pmax init n
         (titrant_totals_of ["pH_min"; "pH_max"; "titrant_molinity_init"; "titrant_normality"] kw)).

Definition call_calibrate_pH_gran (e : env T) (cert : T) (tm pH temps : list T) (M : T)
  (totals ks : dict (nd T)) (kw : kwargs T) : res (opt_result T) :=
  pmin <- as_num (kwarg "pH_min" (VInt 3) kw) ;;
  pmax <- as_num (kwarg "pH_max" (VInt 4) kw) ;;
  init <- as_num (kwarg "titrant_molinity_init" (VNum (nofQ 0.1)) kw) ;;
  n <- as_num (kwarg "titrant_normality" (VInt 1) kw) ;;
  snd (calibrate_pH_gran (e_strat e) cert tm pH temps M totals ks pmin pmax init n
         (titrant_totals_of ["pH_min"; "pH_max"; "titrant_molinity_init"; "titrant_normality"] kw)).

(* files.py:116-175  choose the calibration *)
Definition dispatch_calibrate (e : env T) (mode : val T) (cert : T) (cv : Converted T)
  (totals ks : dict (nd T)) (kw : kwargs T) : res (opt_result T) :=
  m <- as_str mode ;;
  if String.eqb (lower m) "emf" then
    call_calibrate_emf e cert (cv_titrant_mass cv) (cv_measurement cv) (cv_temperature cv)
      (cv_analyte_mass cv) totals ks (get_kwargs_for keys_calibrate_emf kw None)
  else if String.eqb (lower m) "ph_adjust" then
    call_calibrate_emf e cert (cv_titrant_mass cv)
      (pH_to_emf_arr (cv_measurement cv) n0 (cv_temperature cv)) (cv_temperature cv)
      (cv_analyte_mass cv) totals ks
      (dset "emf0_init" (VInt 0) (get_kwargs_for keys_calibrate_emf kw None))
  else if String.eqb (lower m) "ph" then
    call_calibrate_pH e cert (cv_titrant_mass cv) (cv_measurement cv) (cv_temperature cv)
      (cv_analyte_mass cv) totals ks (get_kwargs_for keys_calibrate_pH kw None)
  else if String.eqb (lower m) "ph_gran" then
    call_calibrate_pH_gran e cert (cv_titrant_mass cv) (cv_measurement cv) (cv_temperature cv)
      (cv_analyte_mass cv) totals ks (get_kwargs_for keys_calibrate_pH_gran kw None)
  else Err GenericException.

(* files.py:62-176  calibrate *)
Definition files_calibrate (e : env T) (file_name alkalinity_certified salinity : val T) (kw0 : kwargs T)
  : res (opt_result T) :=
  let kw := without_mode kw0 in
  '(cv, (totals, ks)) <- load e file_name salinity kw ;;
  cert <- as_num alkalinity_certified ;;
  dispatch_calibrate e (mode_of kw0) cert cv totals ks kw.

End Files.
Arguments solve_result : clear implicits.
