(* Interrupt.v -- prepare, solve, calibrate and calkulate as the sequences of in-place assignments they are.
   dataset.solve and its companions change the caller's table one column at a time.  Here the same programs as in
   Dataset.v also say which tables the caller holds on the way, so that one can ask what is left when the call
   is interrupted (Ctrl-C, or an exception that is not caught) between two assignments. *)
From Verif Require Import Dataset.
Open Scope list_scope.
Open Scope string_scope.

Section I.
Context {T : Type} `{Num T}.

(* the tables seen so far, oldest first, and the outcome *)
Definition W (A : Type) : Type := (list (frame T) * res A)%type.
Definition pure {A} (r : res A) : W A := ([], r).
(* one assignment ds[c] = ... has been made *)
Definition put (ds : frame T) : W (frame T) := ([ds], Ok ds).
Definition wbind {A B} (w : W A) (k : A -> W B) : W B :=
  match snd w with
  | Ok a => let v := k a in ((fst w ++ fst v)%list, snd v)
  | Err x => (fst w, Err x)
  end.
Notation "x <~ w ;; k" := (wbind w (fun x => k)) (at level 100, w at next level, right associativity).

(* dataset.py:35-38, one salt: the column is made of nan if it is missing, then filled *)
Definition fill_col_w (e : env T) (salt : string) (ds : frame T) : W (frame T) :=
  ds1 <~ (if has salt ds then pure (Ok ds) else put (set_col salt (fun _ => VNum nnan) ds)) ;;
  vs <~ pure (mapM (fill_salt e salt) (f_rows ds1)) ;;
  put (set_col_list salt vs ds1).

Fixpoint fill_cols_w (e : env T) (ss : list string) (ds : frame T) : W (frame T) :=
  match ss with [] => pure (Ok ds) | s :: ss' => ds' <~ fill_col_w e s ds ;; fill_cols_w e ss' ds' end.

(* dataset.py:16-39  get_total_salts *)
Definition get_total_salts_w (e : env T) (ds : frame T) : W (frame T) :=
  _ <~ pure (assert_ (has "salinity" ds)) ;;
  ds1 <~ put (set_col "opt_total_borate"
               (fun r => let v := cell "opt_total_borate" r in if notnull v then v else VInt 1) ds) ;;
  if forallb (fun s => has s ds1 && forallb (fun r => notnull (cell s r)) (f_rows ds1)) salts
  then pure (Ok ds1)
  else fill_cols_w e salts ds1.

(* dataset.py:110-127  prepare *)
Definition prepare_w (e : env T) (ds : frame T) : W (frame T) :=
  ds1 <~ get_total_salts_w e ds ;;
  ds2 <~ (if has "analyte_mass" ds1 then pure (Ok ds1)
          else _ <~ pure (assert_ (has "analyte_volume" ds1)) ;;
               put (set_col "analyte_mass" (fun _ => VNum nnan) ds1)) ;;
  _ <~ pure (assert_ (has "salinity" ds2)) ;;
  ds3 <~ (if has "titrant_amount_unit" ds2
          then put (set_col "titrant_amount_unit"
                      (fun r => let v := cell "titrant_amount_unit" r in if isnull v then VStr "ml" else v) ds2)
          else pure (Ok ds2)) ;;
  (if has "file_good" ds3 then pure (Ok ds3) else put (set_col "file_good" (fun _ => VBool true) ds3)).

(* dataset.py:262-263  for k, v in solved_rows.items(): ds[k] = v *)
Fixpoint set_results_w (solved : list (row T)) (ks : list string) (ds : frame T) : W (frame T) :=
  match ks with
  | [] => pure (Ok ds)
  | k :: ks' => ds' <~ put (set_col_list k (map (cell k) solved) ds) ;; set_results_w solved ks' ds'
  end.

(* dataset.py:230-267  solve *)
Definition solve_w (e : env T) (kw : kwargs T) (ds : frame T) : W (frame T) :=
  _ <~ pure (solve_ignored kw) ;;
  ds1 <~ prepare_w e ds ;;
  _ <~ pure (assert_ (has "titrant_molinity" ds1)) ;;
  solved <~ pure (mapM (solve_row e kw) (f_rows ds1)) ;;
  ds2 <~ set_results_w solved output_cols ds1 ;;
  if has "alkalinity_certified" ds2 then
    offs <~ pure (mapM offset_of (f_rows ds2)) ;;
    put (set_col_list "alkalinity_offset" offs ds2)
  else pure (Ok ds2).

(* dataset.py:130-164  calibrate, up to the call of solve *)
Definition calibrate_only_w (e : env T) (kw : kwargs T) (ds : frame T) : W (frame T) :=
  ds1 <~ prepare_w e ds ;;
  _ <~ pure (assert_ (has "alkalinity_certified" ds1)) ;;
  here <~ pure (mapM (calibrate_row e kw) (f_rows ds1)) ;;
  ds2 <~ put (set_col_list "titrant_molinity_here" (map VNum here) ds1) ;;
  ds3 <~ (if has "analysis_batch" ds2 then pure (Ok ds2) else put (set_col "analysis_batch" (fun _ => VInt 0) ds2)) ;;
  ds4 <~ (if has "reference_good" ds3 then pure (Ok ds3)
          else put (set_col "reference_good" (fun r => VBool (notnull (cell "titrant_molinity_here" r))) ds3)) ;;
  ms <~ pure (mapM (batch_molinity (f_rows ds4)) (f_rows ds4)) ;;
  put (set_col_list "titrant_molinity" (map VNum ms) ds4).

(* dataset.py:130-167  calibrate *)
Definition calibrate_w (e : env T) (kw : kwargs T) (ds : frame T) : W (frame T) :=
  ds1 <~ calibrate_only_w e kw ds ;; solve_w e kw ds1.

(* dataset.py:270-288  calkulate *)
Definition calkulate_w (e : env T) (kw : kwargs T) (ds : frame T) : W (frame T) :=
  ds1 <~ calibrate_w e kw ds ;; solve_w e kw ds1.

End I.
