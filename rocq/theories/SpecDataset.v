(* SpecDataset.v -- vocabulary of the dataset properties: what a metadata table is, which
   columns mean something, and what a blank result is *)
From Verif Require Import Dataset SpecSettings.
Open Scope list_scope.
Open Scope string_scope.

(* columns that are read besides the optional settings *)
Definition input_columns : list string :=
  ["file_name"; "salinity"; "titrant_molinity"; "alkalinity_certified"; "file_good";
   "analysis_batch"; "reference_good"; "read_dat_method"].
(* columns that solve and calibrate write *)
Definition result_columns : list string :=
  ["alkalinity"; "alkalinity_std"; "alkalinity_npts"; "alkalinity_offset"; "emf0"; "gran_alkalinity";
   "gran_emf0"; "pH_init"; "temperature_init"; "titrant_molinity_here"; "titrant_molinity"].
(* settings that are filled in where they are null or absent *)
Definition filled_columns : list string :=
  ["opt_total_borate"; "total_sulfate"; "total_borate"; "total_fluoride"; "analyte_mass";
   "titrant_amount_unit"; "file_good"; "analysis_batch"; "reference_good"].
Definition recognised : list string :=
  input_columns ++ result_columns ++ filled_columns ++ solve_settings ++ calibrate_settings.

Section Spec.
Context {T : Type} `{Num T}.

(* a table: distinct column names, and a value in every column of every row *)
Definition is_table (ds : frame T) : Prop :=
  NoDup (f_cols ds) /\ forall r, In r (f_rows ds) -> dkeys r = f_cols ds.

Definition value (ds : frame T) (i : nat) (c : string) : option (val T) :=
  match nth_error (f_rows ds) i with Some r => dget c r | None => None end.

Definition n_rows (ds : frame T) : nat := length (f_rows ds).

(* the table with the same columns and the given rows *)
Definition with_rows (ds : frame T) (rows : list (row T)) : frame T :=
  {| f_cols := f_cols ds; f_rows := rows |}.

(* two tables with the same rows, apart from the columns whose name satisfies P *)
Definition same_but (P : string -> Prop) (ds ds' : frame T) : Prop :=
  n_rows ds = n_rows ds' /\
  (forall c, ~ P c -> (In c (f_cols ds) <-> In c (f_cols ds'))) /\
  (forall c i, ~ P c -> value ds i c = value ds' i c).

(* two worlds that differ only in their files *)
Definition same_but_files (e e' : env T) : Prop :=
  e_salts e = e_salts e' /\ e_equil e = e_equil e' /\ e_sys_salt e = e_sys_salt e' /\ e_strat e = e_strat e'.

(* the result of a titration that was not solved *)
Definition blank_results : list (string * val T) :=
  [("alkalinity", VNum nnan); ("alkalinity_std", VNum nnan); ("alkalinity_npts", VInt 0);
   ("emf0", VNum nnan); ("gran_alkalinity", VNum nnan); ("gran_emf0", VNum nnan);
   ("pH_init", VNum nnan); ("temperature_init", VNum nnan)].
Definition is_blank (ds : frame T) (i : nat) : Prop :=
  forall c v, In (c, v) blank_results -> value ds i c = Some v.

Definition is_null (v : val T) : Prop := isnull v = true.
Definition numeric (v : val T) : Prop := exists x, as_num v = Ok x.
(* every cell of a column *)
Definition all_cells (ds : frame T) (c : string) (P : val T -> Prop) : Prop :=
  forall r v, In r (f_rows ds) -> dget c r = Some v -> P v.

Definition no_old_kwargs (kw : kwargs T) : Prop :=
  dget "read_dat_kwargs" kw = None /\ dget "pH_range" kw = None.

(* one API call *)
Inductive call : Type :=
| CallTotalSalts | CallPrepare
| CallSolve (kw : kwargs T) | CallCalibrate (kw : kwargs T) | CallCalkulate (kw : kwargs T).
Definition run (e : env T) (c : call) (ds : frame T) : res (frame T) :=
  match c with
  | CallTotalSalts => get_total_salts e ds
  | CallPrepare => prepare e ds
  | CallSolve kw => solve e kw ds
  | CallCalibrate kw => calibrate e kw ds
  | CallCalkulate kw => calkulate e kw ds
  end.
Fixpoint run_all (e : env T) (cs : list call) (ds : frame T) : res (frame T) :=
  match cs with [] => Ok ds | c :: cs' => ds' <- run e c ds ;; run_all e cs' ds' end.

(* the reference titrations of a batch: good, and calibrated to a number *)
Definition good_reference (b : val T) (r : row T) : list T :=
  match dget "analysis_batch" r, dget "reference_good" r, dget "titrant_molinity_here" r with
  | Some b', Some (VBool true), Some (VNum x) => if key_eqb b' b && negb (nisnan x) then [x] else []
  | _, _, _ => []
  end.
Definition batch_references (ds : frame T) (b : val T) : list T := flat_map (good_reference b) (f_rows ds).

End Spec.
