(* Dataset.v -- model of calkulate/dataset.py *)
From Verif Require Export Files.

Section Dataset.
Context {T : Type} `{Num T}.

(* A pandas DataFrame: column names and rows.  Simplifications: row labels and dtypes
   are not modelled, and neither is what is left of the frame when a function raises.
   A frame without rows is not special here (pandas' apply is). *)
Record frame := { f_cols : list string; f_rows : list (row T) }.

Definition has (c : string) (ds : frame) : bool := mem_str c (f_cols ds).

(* row.c *)
Definition cell (c : string) (r : row T) : val T :=
  match dget c r with Some v => v | None => VNone end.

(* ds[c] = ...; a new column goes last *)
Definition set_col (c : string) (f : row T -> val T) (ds : frame) : frame :=
  {| f_cols := if has c ds then f_cols ds else (f_cols ds ++ [c])%list;
     f_rows := map (fun r => dset c (f r) r) (f_rows ds) |}.

Definition set_col_list (c : string) (vs : list (val T)) (ds : frame) : frame :=
  {| f_cols := if has c ds then f_cols ds else (f_cols ds ++ [c])%list;
     f_rows := map2 (fun r v => dset c v r) (f_rows ds) vs |}.

(* a numeric cell in arithmetic: null is nan *)
Definition cell_num (v : val T) : res T := if isnull v then Ok nnan else as_num v.

(* ------------------------------------------------------------------ *)
(** * Preparation *)

Definition salts : list string := ["total_sulfate"; "total_borate"; "total_fluoride"].

(* dataset.py:35-38  ds[salt] = ds[salt].where(ds[salt].notnull(), other=results[salt]) *)
Definition fill_salt (e : env T) (salt : string) (r : row T) : res (val T) :=
  if notnull (cell salt r) then Ok (cell salt r)
  else
    s <- cell_num (cell "salinity" r) ;;
    b <- cell_num (cell "opt_total_borate" r) ;;
    Ok (VNum (e_sys_salt e s b salt)).

Definition fill_col (e : env T) (salt : string) (ds : frame) : res frame :=
  vs <- mapM (fill_salt e salt) (f_rows ds) ;; Ok (set_col_list salt vs ds).

Fixpoint fill_cols (e : env T) (ss : list string) (ds : frame) : res frame :=
  match ss with [] => Ok ds | s :: ss' => ds' <- fill_col e s ds ;; fill_cols e ss' ds' end.

(* dataset.py:16-39  get_total_salts *)
Definition get_total_salts (e : env T) (ds : frame) : res frame :=
  _ <- assert_ (has "salinity" ds) ;;
  let ds1 := set_col "opt_total_borate"
               (fun r => let v := cell "opt_total_borate" r in if notnull v then v else VInt 1) ds in
  if forallb (fun s => has s ds1 && forallb (fun r => notnull (cell s r)) (f_rows ds1)) salts
  then Ok ds1
  else fill_cols e salts ds1.

(* dataset.py:110-127  prepare *)
Definition prepare (e : env T) (ds : frame) : res frame :=
  ds1 <- get_total_salts e ds ;;
  ds2 <- (if has "analyte_mass" ds1 then Ok ds1
          else _ <- assert_ (has "analyte_volume" ds1) ;;
               Ok (set_col "analyte_mass" (fun _ => VNum nnan) ds1)) ;;
  _ <- assert_ (has "salinity" ds2) ;;
  let ds3 := if has "titrant_amount_unit" ds2
             then set_col "titrant_amount_unit"
                    (fun r => let v := cell "titrant_amount_unit" r in
                              if isnull v then VStr "ml" else v) ds2
             else ds2 in
  Ok (if has "file_good" ds3 then ds3 else set_col "file_good" (fun _ => VBool true) ds3).

(* ------------------------------------------------------------------ *)
(** * Settings *)

(* dataset.py:44-48 and 49-50: read_dat_kwargs and pH_range.  Simplification: a string or a dict of
   length two given as pH_range could be unpacked; it is an error here. *)
Definition backcompat_dict (kw : kwargs T) : res (kwargs T) :=
  match dget "read_dat_kwargs" kw with
  | None => Ok kw
  | Some (VDict d) => Ok (dupdate kw d)
  | Some _ => Err (AttributeError "items")
  end.
Definition backcompat_range (kw : kwargs T) : res (kwargs T) :=
  match dget "pH_range" kw with
  | None => Ok kw
  | Some (VTup [a; b]) => Ok (dset "pH_max" b (dset "pH_min" a kw))
  | Some (VTup _) | Some (VStr _) | Some (VDict _) => Err ValueError
  | Some _ => Err TypeError
  end.

(* dataset.py:42-57  _backcompat(kwargs, row) *)
Definition backcompat (kw : kwargs T) (r : row T) : res (kwargs T) :=
  kw1 <- backcompat_dict kw ;;
  kw2 <- backcompat_range kw1 ;;
  let kw3 := match dget "read_dat_method" kw2 with Some v => dset "file_type" v kw2 | None => kw2 end in
  Ok (match dget "read_dat_method" r with Some v => dset "file_type" v kw3 | None => kw3 end).

(* row.c for a column that may not exist *)
Definition attr (c : string) (r : row T) : res (val T) := of_opt (dget c r) (AttributeError c).

(* "except Exception": the handler prints row.file_name, which raises when there is no
   such column *)
Definition handler {A} (r : row T) (a : A) : res A :=
  _ <- attr "file_name" r ;; Ok a.

(* ------------------------------------------------------------------ *)
(** * Calibration *)

(* dataset.py:70-78  the body of the try statement *)
Definition calibrate_row_try (e : env T) (kw : kwargs T) (r : row T) : res T :=
  kw1 <- backcompat kw r ;;
  let kw2 := get_kwargs_for keys_calibrate kw1 (Some r) in
  f <- attr "file_name" r ;;
  c <- attr "alkalinity_certified" r ;;
  s <- attr "salinity" r ;;
  cal <- files_calibrate e f c s kw2 ;;
  of_opt (nth_error (or_x cal) 0) IndexError.

(* dataset.py:60-83  calibrate_row *)
Definition calibrate_row (e : env T) (kw : kwargs T) (r : row T) : res T :=
  c <- attr "alkalinity_certified" r ;;
  g <- attr "file_good" r ;;
  if notnull c && truthy g then
    match calibrate_row_try e kw r with
    | Ok x => Ok x
    | Err _ => handler r nnan
    end
  else Ok nnan.

(* equality of group keys *)
Definition key_eqb (a b : val T) : bool :=
  match a, b with
  | VStr s, VStr s' => String.eqb s s'
  | _, _ => match as_num a, as_num b with Ok x, Ok y => neqb x y | _, _ => false end
  end.

(* reference_good in "reference_good & ..."; null counts as False *)
Definition good_ref (v : val T) : res bool :=
  if isnull v then Ok false else
  match v with VBool b => Ok b | VInt z => Ok (Z.odd z) | _ => Err TypeError end.

(* dataset.py:88-90  the values averaged by get_group_calibration for one group *)
Fixpoint good_molinities (rows : list (row T)) : res (list T) :=
  match rows with
  | [] => Ok []
  | r :: rows' =>
      rest <- good_molinities rows' ;;
      b <- good_ref (cell "reference_good" r) ;;
      x <- cell_num (cell "titrant_molinity_here" r) ;;
      Ok (if b && negb (nisnan x) then x :: rest else rest)
  end.

Definition in_batch (k : val T) (r : row T) : bool := key_eqb (cell "analysis_batch" r) k.

(* Series.std() of pandas (ddof=1) of values that are not nan: nan for fewer than two values *)
Definition nstd1 (l : list T) : T :=
  match l with
  | [] | [_] => nnan
  | _ =>
      let mu := nmean l in
      nsqrt (nsum (map (fun x => npow (x ⊖ mu) 2) l) ⊘ nofZ (Z.of_nat (length l) - 1))
  end.

(* dataset.py:86-97  get_group_calibration *)
Record batch := { b_molinity : T; b_std : T; b_count : nat }.
Definition get_group_calibration (rows : list (row T)) : res batch :=
  l <- good_molinities rows ;;
  Ok {| b_molinity := nmean l; b_std := nstd1 l; b_count := length l |}.

(* dataset.py:100-107 and 161-164  groupby("analysis_batch") and batches.loc[...]:
   groupby drops rows whose key is null, so looking such a key up raises KeyError *)
Definition batch_molinity (rows : list (row T)) (r : row T) : res T :=
  let k := cell "analysis_batch" r in
  match k with
  | VTup _ | VDict _ => Err TypeError
  | _ =>
      if isnull k then Err (KeyError "analysis_batch")
      else b <- get_group_calibration (filter (in_batch k) rows) ;; Ok (b_molinity b)
  end.

(* ------------------------------------------------------------------ *)
(** * Solving *)

(* dataset.py:197-209  the blank result *)
Definition blank (r : row T) : row T :=
  [("alkalinity_npts", VInt 0); ("alkalinity_std", VNum nnan); ("alkalinity", VNum nnan);
   ("analyte_mass", cell "analyte_mass" r); ("emf0", VNum nnan); ("gran_alkalinity", VNum nnan);
   ("gran_emf0", VNum nnan); ("pH_init", VNum nnan); ("temperature_init", VNum nnan)].

Definition n_used (used : list bool) : val T := VInt (Z.of_nat (count_true used)).

(* pH_init and temperature_init: sr.pH[0], sr.temperature[0].  The dict is updated in
   place, so the entries set before an IndexError stay (first component). *)
Definition set_inits (pH temperature : list T) (d : row T) : row T :=
  match nth_error pH 0 with
  | None => d
  | Some p => let d1 := dset "pH_init" (VNum p) d in
              match nth_error temperature 0 with
              | None => d1
              | Some t => dset "temperature_init" (VNum t) d1
              end
  end.

(* dataset.py:170-191  add_solve_results (the result when [0] raises IndexError is what
   solve_row then returns) *)
Definition add_solve_results (d : row T) (sr : solve_result T) : row T :=
  match sr with
  | SrEmf s =>
      let d1 := dset "alkalinity_npts" (n_used (se_used s)) d in
      let d2 := dset "alkalinity_std" (VNum (nstd (mask (se_used s) (se_alkalinity_all s)))) d1 in
      let d3 := dset "alkalinity" (VNum (se_alkalinity s)) d2 in
      let d4 := dset "emf0" (VNum (se_emf0 s)) d3 in
      let d5 := dset "gran_alkalinity" (VNum (ga_alkalinity (gg_ga (se_ggr s)) ⊗ nofQ 1000000)) d4 in
      let d6 := dset "gran_emf0" (VNum (gg_emf0 (se_ggr s))) d5 in
      set_inits (se_pH s) (se_temperature s) d6
  | SrPh s =>
      let d1 := dset "alkalinity_npts" (n_used (sp_used s)) d in
      let d2 := dset "alkalinity_std" (VNum (nstd (mask (sp_used s) (sp_alkalinity_all s)))) d1 in
      let d3 := dset "alkalinity" (VNum (sp_alkalinity s)) d2 in
      set_inits (sp_pH s) (sp_temperature s) d3
  | SrPhGran s =>
      let d1 := dset "alkalinity_npts" (n_used (sg_used s)) d in
      let d2 := dset "alkalinity" (VNum (sg_alkalinity s)) d1 in
      set_inits (sg_pH s) (sg_temperature s) d2
  end.

(* dataset.py:213-222  the body of the try statement *)
Definition solve_row_try (e : env T) (kw : kwargs T) (r : row T) : res (solve_result T) :=
  kw1 <- backcompat kw r ;;
  let kw2 := get_kwargs_for keys_solve kw1 (Some r) in
  f <- attr "file_name" r ;;
  c <- attr "titrant_molinity" r ;;
  s <- attr "salinity" r ;;
  files_solve e f c s kw2.

(* dataset.py:194-227  solve_row *)
Definition solve_row (e : env T) (kw : kwargs T) (r : row T) : res (row T) :=
  c <- attr "titrant_molinity" r ;;
  g <- attr "file_good" r ;;
  if notnull c && truthy g then
    match solve_row_try e kw r with
    | Ok sr => Ok (add_solve_results (blank r) sr)
    | Err _ => handler r (blank r)
    end
  else Ok (blank r).

(* dataset.py:247-256  the names reported as not recognised *)
Definition solve_ignored (kw : kwargs T) : res (list string) :=
  kw1 <- backcompat kw [] ;;
  Ok (filter (fun k => negb (mem_str k (keys_calibrate ++ ["pH_range"; "read_dat_kwargs"])%list)) (dkeys kw1)).

Definition output_cols : list string :=
  ["alkalinity_npts"; "alkalinity_std"; "alkalinity"; "analyte_mass"; "emf0"; "gran_alkalinity";
   "gran_emf0"; "pH_init"; "temperature_init"].

(* dataset.py:262-263  for k, v in solved_rows.items(): ds[k] = v *)
Definition set_results (solved : list (row T)) (ds : frame) : frame :=
  fold_left (fun d k => set_col_list k (map (cell k) solved) d) output_cols ds.

(* dataset.py:264-265 *)
Definition offset_of (r : row T) : res (val T) :=
  a <- cell_num (cell "alkalinity" r) ;;
  c <- cell_num (cell "alkalinity_certified" r) ;;
  Ok (VNum (a ⊖ c)).

(* dataset.py:230-267  solve.  Simplification: tables with at least one row; on an empty frame pandas' apply returns a
   copy without result columns. *)
Definition solve (e : env T) (kw : kwargs T) (ds : frame) : res frame :=
  _ <- solve_ignored kw ;;
  ds1 <- prepare e ds ;;
  _ <- assert_ (has "titrant_molinity" ds1) ;;
  solved <- mapM (solve_row e kw) (f_rows ds1) ;;
  let ds2 := set_results solved ds1 in
  if has "alkalinity_certified" ds2 then
    offs <- mapM offset_of (f_rows ds2) ;;
    Ok (set_col_list "alkalinity_offset" offs ds2)
  else Ok ds2.

(* dataset.py:130-164  calibrate, up to the call of solve.  Simplification: tables with at least one row, as in solve. *)
Definition calibrate_only (e : env T) (kw : kwargs T) (ds : frame) : res frame :=
  ds1 <- prepare e ds ;;
  _ <- assert_ (has "alkalinity_certified" ds1) ;;
  here <- mapM (calibrate_row e kw) (f_rows ds1) ;;
  let ds2 := set_col_list "titrant_molinity_here" (map VNum here) ds1 in
  let ds3 := if has "analysis_batch" ds2 then ds2 else set_col "analysis_batch" (fun _ => VInt 0) ds2 in
  let ds4 := if has "reference_good" ds3 then ds3
             else set_col "reference_good"
                    (fun r => VBool (notnull (cell "titrant_molinity_here" r))) ds3 in
  ms <- mapM (batch_molinity (f_rows ds4)) (f_rows ds4) ;;
  Ok (set_col_list "titrant_molinity" (map VNum ms) ds4).

Definition calibrate (e : env T) (kw : kwargs T) (ds : frame) : res frame :=
  ds1 <- calibrate_only e kw ds ;; solve e kw ds1.

(* dataset.py:270-288  calkulate *)
Definition calkulate (e : env T) (kw : kwargs T) (ds : frame) : res frame :=
  ds1 <- calibrate e kw ds ;; solve e kw ds1.

End Dataset.
Arguments frame : clear implicits.
