(* Metadata.v -- model of calkulate/read/metadata.py *)
From Verif Require Export Dataset Text.

(* ------------------------------------------------------------------ *)
(** * Format strings *)

(* the pieces of a format string such as "{s}-{c}.dat" *)
Inductive piece : Type := Lit (s : string) | Field (name : string).

(* Parsing of format strings; None stands for the ValueError of str.format (single braces).
   [acc] is the literal text or the field name read so far, reversed.
   Simplification: conversions and format specifications ("{s:03d}") are taken as part
   of the field name, which then is not found. *)
Fixpoint parse_format (in_field : bool) (acc l : list ascii) : option (list piece) :=
  let text := string_of_list (rev acc) in
  match l with
  | [] => if in_field then None else Some [Lit text]
  | c :: l' =>
      if in_field then
        if Ascii.eqb c "}" then
          match parse_format false [] l' with Some ps => Some (Field text :: ps) | None => None end
        else parse_format true (c :: acc) l'
      else if Ascii.eqb c "{" then
        match l' with
        | c' :: l'' =>
            if Ascii.eqb c' "{" then parse_format false ("{"%char :: acc) l''
            else match parse_format true [] l' with Some ps => Some (Lit text :: ps) | None => None end
        | [] => None
        end
      else if Ascii.eqb c "}" then
        match l' with
        | c' :: l'' => if Ascii.eqb c' "}" then parse_format false ("}"%char :: acc) l'' else None
        | [] => None
        end
      else parse_format false (c :: acc) l'
  end.

Fixpoint fill_pieces (fields : dict string) (ps : list piece) : res string :=
  match ps with
  | [] => Ok ""
  | Lit s :: ps' => t <- fill_pieces fields ps' ;; Ok (s ++ t)
  | Field k :: ps' => s <- dgetE k fields ;; t <- fill_pieces fields ps' ;; Ok (s ++ t)
  end%string.

(* format.format with keyword arguments *)
Definition format_named (fmt : string) (fields : dict string) : res string :=
  match parse_format false [] (list_of_string fmt) with
  | Some ps => fill_pieces fields ps
  | None => Err ValueError
  end.

Section Metadata.
Context {T : Type} `{Num T}.

(* x rounded towards zero *)
Definition ntrunc (x : T) : Z :=
  let z := nround 0 x in
  if nleb n0 x then (if nltb x (nofZ z) then (z - 1)%Z else z)
  else (if nltb (nofZ z) x then (z + 1)%Z else z).

(* an optionally signed run of digits *)
Definition parse_int (s : string) : option Z :=
  let '(neg, l) := match list_of_string (strip is_space s) with
                   | c :: r => if Ascii.eqb c "-" then (true, r)
                               else if Ascii.eqb c "+" then (false, r) else (false, c :: r)
                   | [] => (false, [])
                   end in
  match take_digits l with
  | ((_ :: _) as ds, []) => Some (neg_if neg (digits_value ds))
  | _ => None
  end.

(* int(v); infinite values, which raise OverflowError, are reported as ValueError *)
Definition py_int (v : val T) : res Z :=
  match v with
  | VInt z => Ok z
  | VBool b => Ok (if b then 1 else 0)%Z
  | VNum x => if nisfinite x then Ok (ntrunc x) else Err ValueError
  | VStr s => of_opt (parse_int s) ValueError
  | VNone | VTup _ | VDict _ => Err TypeError
  end.

(* the text of a value in "{}".format(v) or an f-string; how values other than
   integers and strings are shown is left to [show] *)
Definition py_str (show : val T -> string) (v : val T) : string :=
  match v with VStr s => s | VInt z => string_of_Z z | _ => show v end.

Definition is_str (s : string) (v : val T) : bool :=
  match v with VStr s' => String.eqb s' s | _ => false end.

(* metadata.py:56  the default of filename_format *)
Definition default_filename_format : string := "{s}-{c}  {n}  ({d}){b}.dat".

(* row["c"] for a column that may not exist *)
Definition item (c : string) (r : row T) : res (val T) := of_opt (dget c r) (KeyError c).

(* metadata.py:63-76  one pass of the loop over the rows *)
Definition vindta_row (show : val T -> string) (fmt : string) (r : row T) : res (row T) :=
  rt <- attr "run_type" r ;;
  if is_str "bottle" rt then
    s <- attr "station" r ;; zs <- py_int s ;;
    c <- attr "cast" r ;; zc <- py_int c ;;
    n <- attr "niskin" r ;; zn <- py_int n ;;
    d <- attr "depth" r ;; zd <- py_int d ;;
    b <- attr "bottle" r ;;
    name <- format_named fmt [("s", string_of_Z zs); ("c", string_of_Z zc); ("n", string_of_Z zn);
                              ("d", string_of_Z zd); ("b", py_str show b)] ;;
    Ok (dset "file_name" (VStr name) r)
  else if is_str "CRM" rt then
    batch <- attr "batch" r ;;
    bottle <- attr "bottle" r ;;
    cert <- item "cert. CRM AT" r ;;
    Ok (dset "alkalinity_certified" cert
          (dset "file_name" (VStr ("CRM" ++ py_str show batch ++ py_str show bottle ++ ".dat")) r))
  else Ok (dset "file_good" (VBool false) r).

(* metadata.py:56-77  get_VINDTA_filenames: dbs.loc[i, "alkalinity_certified"] makes the column,
   with nan in the other rows, when the first CRM row is met *)
Definition get_VINDTA_filenames (show : val T -> string) (fmt : string) (ds : frame T) : res (frame T) :=
  let ds1 := set_col "file_name" (fun _ => VStr "") ds in
  let ds2 := if has "file_good" ds1 then ds1 else set_col "file_good" (fun _ => VBool true) ds1 in
  let any_crm := existsb (fun r => is_str "CRM" (cell "run_type" r)) (f_rows ds2) in
  let ds3 := if any_crm && negb (has "alkalinity_certified" ds2)
             then set_col "alkalinity_certified" (fun _ => VNum nnan) ds2 else ds2 in
  rows <- mapM (vindta_row show fmt) (f_rows ds3) ;;
  Ok {| f_cols := f_cols ds3; f_rows := rows |}.

(* metadata.py:38-53  dbs_datetime; np.datetime64 of a text is the parameter [dt], its NaT is
   VNone *)
Definition dbs_datetime (dt : string -> res (val T)) (r : row T) : res (val T) :=
  date <- item "date" r ;;
  match date with
  | VStr s =>
      let dspl := split_on "/" s in
      yy <- of_opt (nth_error dspl 2) IndexError ;;
      mm <- of_opt (nth_error dspl 0) IndexError ;;
      dd <- of_opt (nth_error dspl 1) IndexError ;;
      time <- item "time" r ;;
      match time with
      | VStr t => dt (("20" ++ yy) ++ "-" ++ mm ++ "-" ++ dd ++ "T" ++ t)%string
      | _ => Err TypeError
      end
  | _ => Ok VNone                  (* AttributeError: no attribute split *)
  end.

(* df.rename(columns={old: new}) for one column *)
Definition rename_col (old new : string) (ds : frame T) : frame T :=
  let f k := if String.eqb k old then new else k in
  {| f_cols := map f (f_cols ds); f_rows := map (map (fun kv => (f (fst kv), snd kv))) (f_rows ds) |}.

(* metadata.py:80-130  read_dbs, from the table that pd.read_table returns.
   [dt] is np.datetime64 and [datenum] is mdates.date2num.
   Simplification: the join of metadata.py:33-35 raises if the file already has a
   column analysis_datetime; here it is overwritten. *)
Definition read_dbs (show : val T -> string) (dt : string -> res (val T)) (datenum : val T -> val T)
  (fname : string) (analyte_volume : val T) (analyte_mass file_path : val T) (fmt : string)
  (table : frame T) : res (frame T) :=
  let ds := set_col "dbs_fname" (fun _ => VStr fname) (rename_col "run type" "run_type" table) in
  stamps <- mapM (dbs_datetime dt) (f_rows ds) ;;
  let ds1 := set_col_list "analysis_datetime" stamps ds in
  let ds2 := set_col "analysis_datenum" (fun r => datenum (cell "analysis_datetime" r)) ds1 in
  ds3 <- get_VINDTA_filenames show fmt ds2 ;;
  let ds4 := match analyte_mass with
             | VNone => set_col "analyte_volume" (fun _ => analyte_volume) ds3
             | m => set_col "analyte_mass" (fun _ => m) ds3
             end in
  match file_path with
  | VNone => Ok ds4
  | VStr p => Ok (set_col "file_path" (fun _ => VStr p) ds4)
  | _ => Err AssertionError
  end.

End Metadata.
