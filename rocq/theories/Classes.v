(* Classes.v -- model of calkulate/classes.py *)
From Verif Require Export Dataset SimTitration.

Section Classes.
Context {T : Type} `{Num T}.

(* The DataFrame tt.titration: its numeric columns.  Simplification: the boolean columns "used" and
   "gran_used" stay in the solver's result; they are as long as the column titrant_mass. *)
Definition ttable := dict (list T).

(* a value stored in a DataFrame with n rows: a number fills the column, an array must fit *)
Definition column (n : nat) (v : nd T) : res (list T) :=
  match v with
  | NdS x => Ok (repeat x n)
  | NdA l => if Nat.eqb (length l) n then Ok l else Err ValueError
  end.

Definition col (k : string) (st : ttable) : res (list T) := of_opt (dget k st) (AttributeError k).

(* what the three results have in common *)
Definition sr_titrant_mass (sr : solve_result T) : list T :=
  match sr with SrEmf s => se_titrant_mass s | SrPh s => sp_titrant_mass s | SrPhGran s => sg_titrant_mass s end.
Definition sr_temperature (sr : solve_result T) : list T :=
  match sr with SrEmf s => se_temperature s | SrPh s => sp_temperature s | SrPhGran s => sg_temperature s end.
Definition sr_pH (sr : solve_result T) : list T :=
  match sr with SrEmf s => se_pH s | SrPh s => sp_pH s | SrPhGran s => sg_pH s end.
Definition sr_totals (sr : solve_result T) : dict (nd T) :=
  match sr with SrEmf s => se_totals s | SrPh s => sp_totals s | SrPhGran s => sg_totals s end.
Definition sr_k_constants (sr : solve_result T) : dict (nd T) :=
  match sr with SrEmf s => se_k_constants s | SrPh s => sp_k_constants s | SrPhGran s => sg_k_constants s end.

Definition sr_analyte_mass (sr : solve_result T) : T :=
  match sr with SrEmf s => se_analyte_mass s | SrPh s => sp_analyte_mass s | SrPhGran s => sg_analyte_mass s end.
Definition sr_all (sr : solve_result T) : option (list T) :=
  match sr with SrEmf s => Some (se_alkalinity_all s) | SrPh s => Some (sp_alkalinity_all s) | SrPhGran _ => None end.

(* classes.py:177-202  the dict self.t, before it becomes a DataFrame *)
Definition table_dict (sr : solve_result T) : dict (nd T) :=
  let d0 := [("titrant_mass", NdA (sr_titrant_mass sr)); ("temperature", NdA (sr_temperature sr)); ("pH", NdA (sr_pH sr))] in
  let d1 := match sr with
            | SrEmf s => dupdate d0 [("emf", NdA (se_emf s)); ("gran_func", NdA (ga_gfunc (gg_ga (se_ggr s))));
                                     ("gran_emf0", NdA (gg_emf0s (se_ggr s))); ("gran_pH", NdA (gg_pH (se_ggr s)))]
            | SrPh _ => d0
            | SrPhGran s => dupdate d0 [("gran_func", NdA (sg_gfunc s))]
            end in
  dupdate (dupdate d1 (sr_totals sr)) (sr_k_constants sr).

(* classes.py:203  pd.DataFrame(self.t) *)
Definition data_frame (n : nat) (d : dict (nd T)) : res ttable :=
  mapM (fun kv => l <- column n (snd kv) ;; Ok (fst kv, l)) d.

(* classes.py:237-241  get_alkalinity_from_acid *)
Definition get_alkalinity_from_acid (r : row T) (st : ttable) : res ttable :=
  a <- attr "alkalinity" r ;; a <- as_num a ;;
  M <- attr "analyte_mass" r ;; M <- as_num M ;;
  c <- attr "titrant_molinity" r ;; c <- as_num c ;;
  tm <- col "titrant_mass" st ;;
  Ok (dset "alkalinity_from_acid" (map (fun m => (nofQ 0.000001 ⊗ a ⊗ M ⊖ m ⊗ c) ⊘ (M ⊕ m)) tm) st).

(* classes.py:250-262 *)
Definition co2sys_totals : list string :=
  ["total_sulfate"; "total_fluoride"; "total_borate"; "total_phosphate"; "total_silicate"; "total_ammonia";
   "total_sulfide"; "total_alpha"; "total_beta"].
Definition totals_for_sys (st : ttable) : dict (nd T) :=
  map (fun k => (k, match dget k st with
                    | Some l => NdA (map (fun x => x ⊗ nofQ 1000000) l)
                    | None => NdS (nofZ 0)
                    end)) co2sys_totals.
(* classes.py:263-265 *)
Definition ks_for_sys (st : ttable) : dict (nd T) :=
  map (fun kv => (fst kv, NdA (snd kv))) (filter (fun kv => startswith (fst kv) "k_") st).

(* classes.py:277, 278, 294, 296-297: a result stored as a column *)
Definition store (n : nat) (f : T -> T) (name result : string) (results : dict (nd T)) (st : ttable) : res ttable :=
  v <- dgetE result results ;;
  l <- column n (nd_map f v) ;;
  Ok (dset name l st).

(* classes.py:279-294 *)
Definition species : list string :=
  ["HCO3"; "CO3"; "BOH4"; "PO4"; "HPO4"; "H3PO4"; "HSO4"; "HF"; "H3SiO4"; "NH3"; "HS"; "OH"].
Definition from_umol (x : T) : T := x ⊗ nofQ 0.000001.
Fixpoint store_species (n : nat) (names : list string) (results : dict (nd T)) (st : ttable) : res ttable :=
  match names with
  | [] => Ok st
  | k :: names' => st' <- store n from_umol k k results st ;; store_species n names' results st'
  end.

(* classes.py:298-301 *)
Definition estimate (M c a m df : T) : T := (a ⊕ m ⊗ c ⊘ (m ⊕ M)) ⊘ df.

(* classes.py:243-301  do_CO2SYS.  pyco2.sys is an oracle, called with keyword arguments. *)
Definition do_CO2SYS (sys : co2sys_t T) (r : row T) (st0 : ttable) : res ttable :=
  tm <- col "titrant_mass" st0 ;;
  let n := length tm in
  M <- attr "analyte_mass" r ;; M <- as_num M ;;
  let st := dset "dilution_factor" (map (fun m => get_dilution_factor m M) tm) st0 in
  dic <- col "dic" st ;;
  pH <- col "pH" st ;;
  s <- attr "salinity" r ;; s <- as_num s ;;
  temperature <- col "temperature" st ;;
  results <- sys ([("par1", NdA (map (fun x => x ⊗ nofQ 1000000) dic)); ("par2", NdA pH); ("par1_type", NdS (nofZ 2));
                   ("par2_type", NdS (nofZ 3)); ("opt_pH_scale", NdS (nofZ 3)); ("salinity", NdS s);
                   ("temperature", NdA temperature)] ++ totals_for_sys st ++ ks_for_sys st)%list ;;
  st1 <- store n from_umol "alkalinity_from_pH" "alkalinity" results st ;;
  st2 <- store n (fun x => x) "k_CO2" "k_CO2" results st1 ;;
  st3 <- store_species n species results st2 ;;
  let st4 := dset "H" (map (fun p => npow10 (nopp p)) pH) st3 in
  st5 <- store n from_umol "alk_alpha" "alkalinity_alpha" results st4 ;;
  st6 <- store n from_umol "alk_beta" "alkalinity_beta" results st5 ;;
  afp <- col "alkalinity_from_pH" st6 ;;
  c <- attr "titrant_molinity" r ;; c <- as_num c ;;
  df <- col "dilution_factor" st6 ;;
  Ok (dset "alkalinity_estimate" (map3 (fun a m d => estimate M c a m d) afp tm df) st6).

Record titration := { ti_row : row T; ti_sr : solve_result T; ti_table : ttable }.

(* solve of files.py called with the entries of a row by name: file_name, titrant_molinity, salinity have no
   default, everything else (also null values) is a keyword argument *)
Definition solve_named (e : env T) (r : row T) : res (solve_result T) :=
  f <- of_opt (dget "file_name" r) TypeError ;;
  c <- of_opt (dget "titrant_molinity" r) TypeError ;;
  s <- of_opt (dget "salinity" r) TypeError ;;
  files_solve e f c s (filter (fun kv => negb (mem_str (fst kv) ["file_name"; "titrant_molinity"; "salinity"])) r).

(* classes.py:171-205  __init__(row, kwargs).  _backcompat (dataset.py:42-57) changes kwargs in place, so the
   loop of lines 174-175 stores the translated names too. *)
Definition Titration (e : env T) (sys : co2sys_t T) (r0 : row T) (kw0 : kwargs T) : res titration :=
  kw <- backcompat kw0 r0 ;;
  let r := dupdate r0 kw in
  sr <- solve_named e r ;;
  _ <- of_opt (nth_error (sr_pH sr) 0) IndexError ;;
  _ <- of_opt (nth_error (sr_temperature sr) 0) IndexError ;;
  let r' := add_solve_results r sr in
  st <- data_frame (length (sr_titrant_mass sr)) (table_dict sr) ;;
  st' <- get_alkalinity_from_acid r' st ;;
  st'' <- do_CO2SYS sys r' st' ;;
  Ok {| ti_row := r'; ti_sr := sr; ti_table := st'' |}.

(* classes.py:12-30, 67-83  to_Titration(ds, index, kwargs).  Simplification: the index is the position of the
   row (frames have no labels here); a label that does not exist is a KeyError. *)
Definition to_Titration (e : env T) (sys : co2sys_t T) (ds : frame T) (index : nat) (kw : kwargs T) : res titration :=
  r <- of_opt (nth_error (f_rows ds) index) (KeyError "index") ;; Titration e sys r kw.

(* classes.py:206-215  tt.name for a name that is not an attribute of the object; 217-221  tt[name] *)
Definition getattr (t : titration) (name : string) : res (val T) := of_opt (dget name (ti_row t)) (AttributeError name).
Definition getitem (t : titration) (name : string) : res (val T) := of_opt (dget name (ti_row t)) (AttributeError name).

(* classes.py:223-228 and 230-235  __str__ and __repr__.  No value has an attribute file_name. *)
Definition str_titration (t : titration) : res string :=
  f <- match dget "file_path" (ti_row t) with
       | Some p =>
           f <- attr "file_name" (ti_row t) ;;
           match p, f with VStr p, VStr f => Ok (path_join p f) | _, _ => Err TypeError end
       | None => _ <- getattr t "ro" ;; Err (AttributeError "file_name")
       end ;;
  Ok ("calkulate.Titration for file """ ++ f ++ """")%string.

End Classes.
Arguments titration : clear implicits.
Arguments ttable : clear implicits.
