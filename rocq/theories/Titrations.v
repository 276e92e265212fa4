(* Titrations.v -- model of calkulate/read/titrations.py *)
From Verif Require Export Text Convert Interface.

Section Titrations.
Context {T : Type} `{Num T}.

(* f.read().splitlines() and line iteration in text mode: universal newlines.
   Simplification: of the characters that str.splitlines breaks at, only newline
   and carriage return + newline are considered. *)
Definition strip_cr (s : string) : string :=
  match srev s with String c r => if Ascii.eqb c cr then srev r else s | EmptyString => s end.
Fixpoint drop_last_empty (l : list string) : list string :=
  match l with
  | [] => []
  | [s] => if String.eqb s "" then [] else [s]
  | s :: l' => s :: drop_last_empty l'
  end.
Definition lines_of (text : string) : list string :=
  map strip_cr (drop_last_empty (split_on nl text)).

(* a keyword argument that must be an int *)
Definition as_int (v : val T) : res Z :=
  match v with VInt z => Ok z | VBool b => Ok (if b then 1 else 0)%Z | _ => Err TypeError end.

(* the file's text, read from the file system *)
Definition read_text (e : env T) (file_name : string) : res string :=
  of_opt (e_file e file_name) FileNotFoundError.

(* data[:, col] of a two-dimensional array *)
Definition column (rows : list (list T)) (col : Z) : res (list T) :=
  mapM (fun r => of_opt (pyindex r col) IndexError) rows.

Definition three_columns (rows : list (list T)) (ca cm ct : Z) : res (DatData T) :=
  a <- column rows ca ;;
  m <- column rows cm ;;
  t <- column rows ct ;;
  Ok {| dd_titrant_amount := a; dd_measurement := m; dd_temperature := t |}.

(* ------------------------------------------------------------------ *)
(** * np.genfromtxt *)

(* numpy's LineSplitter: cut at "#", strip " \r\n", split at the delimiter *)
Definition genfromtxt_split (delim : ascii) (line : string) : list string :=
  let before := match split_on "#" line with w :: _ => w | [] => "" end in
  let stripped := strip (fun c => Ascii.eqb c " " || Ascii.eqb c cr || Ascii.eqb c nl) before in
  if String.eqb stripped "" then [] else split_on delim stripped.

Definition is_nil {A} (l : list A) : bool := match l with [] => true | _ => false end.
Definition not_nil {A} (l : list A) : bool := negb (is_nil l).

(* a field that is not a number becomes nan *)
Definition field_value (s : string) : T :=
  match parse_float s with Some x => x | None => nnan end.

(* np.genfromtxt(text, delimiter, skip_header) for float data: the rows of a
   two-dimensional result.  Rows of different lengths raise ValueError; with fewer
   than two rows or fewer than two columns numpy squeezes the result to fewer
   dimensions, so that data[:, col] raises IndexError. *)
Definition genfromtxt (text : string) (delim : ascii) (skip_header : Z) : res (list (list T)) :=
  let fields := filter not_nil (map (genfromtxt_split delim) (skipn (Z.to_nat skip_header) (lines_of text))) in
  match fields with
  | [] => Err IndexError
  | first :: _ =>
      if negb (forallb (fun r => Nat.eqb (length r) (length first)) fields) then Err ValueError
      else if (length fields <? 2)%nat || (length first <? 2)%nat then Err IndexError
      else Ok (map (map field_value) fields)
  end.

(* delimiters other than one-character strings are not modelled *)
Definition as_delim (v : val T) : res ascii :=
  match v with VStr (String c EmptyString) => Ok c | _ => Err TypeError end.

(* titrations.py:18-34  read_dat_genfromtxt; of the extra keyword arguments that
   could be passed on to numpy only encoding is in keys_read_dat, n_cols makes numpy
   raise TypeError.  Simplification: decoding is the identity. *)
Definition read_dat_genfromtxt (e : env T) (file_name : string) (kw : kwargs T) : res (DatData T) :=
  _ <- check_kwargs ["col_titrant_amount"; "col_measurement"; "col_temperature"; "delimiter";
                     "skip_header"; "encoding"] kw ;;
  d <- as_delim (kwarg "delimiter" (VStr (String tab EmptyString)) kw) ;;
  sk <- as_int (kwarg "skip_header" (VInt 2) kw) ;;
  text <- read_text e file_name ;;
  rows <- genfromtxt text d sk ;;
  ca <- as_int (kwarg "col_titrant_amount" (VInt 0) kw) ;;
  cm <- as_int (kwarg "col_measurement" (VInt 1) kw) ;;
  ct <- as_int (kwarg "col_temperature" (VInt 2) kw) ;;
  three_columns rows ca cm ct.

(* ------------------------------------------------------------------ *)
(** * PC-LIMS reports *)

(* a character of [\d\.] *)
Definition num_char (c : ascii) : bool := is_digit c || Ascii.eqb c ".".
Fixpoint all_chars (p : ascii -> bool) (s : string) : bool :=
  match s with EmptyString => true | String c s' => p c && all_chars p s' end.

(* re.compile(r"[\d\.]*" + r"\t[\d\.]*" * (n_cols - 1)).match(line): the first n_cols - 1
   tab-separated fields consist of digits and dots and there is an n_cols-th field (of
   which the pattern matches any, possibly empty, prefix) *)
Definition matches_data (n_cols : Z) (line : string) : bool :=
  let fields := split_on tab line in
  let k := Z.to_nat (n_cols - 1) in
  (k <? length fields)%nat && forallb (all_chars num_char) (firstn k fields).

(* titrations.py:49-62: skip lines until the first match, then take lines while they match *)
Fixpoint take_while {A} (p : A -> bool) (l : list A) : list A :=
  match l with x :: l' => if p x then x :: take_while p l' else [] | [] => [] end.
Fixpoint first_block {A} (p : A -> bool) (l : list A) : list A :=
  match l with
  | x :: l' => if p x then take_while p l else first_block p l'
  | [] => []
  end.

(* np.array(list of lists of str, dtype="float64") *)
Definition float_table (rows : list (list string)) : res (list (list T)) :=
  match rows with
  | [] => Err IndexError            (* 1-dimensional and empty: data[:, col] raises *)
  | first :: _ =>
      if forallb (fun r => Nat.eqb (length r) (length first)) rows
      then mapM (mapM (fun s => of_opt (parse_float s) ValueError)) rows
      else Err ValueError
  end.

(* titrations.py:37-68  read_dat_pclims.  Simplification: the backslash escapes of the
   "unicode-escape" codec are not interpreted. *)
Definition read_dat_pclims (e : env T) (file_name : string) (kw : kwargs T) : res (DatData T) :=
  _ <- check_kwargs ["col_titrant_amount"; "col_measurement"; "col_temperature"; "n_cols"] kw ;;
  text <- read_text e file_name ;;
  n <- as_int (kwarg "n_cols" (VInt 6) kw) ;;
  let data := map (split_on tab) (first_block (matches_data n) (lines_of text)) in
  rows <- float_table data ;;
  ca <- as_int (kwarg "col_titrant_amount" (VInt 1) kw) ;;
  cm <- as_int (kwarg "col_measurement" (VInt 2) kw) ;;
  ct <- as_int (kwarg "col_temperature" (VInt 5) kw) ;;
  three_columns rows ca cm ct.

(* ------------------------------------------------------------------ *)
(** * Tiamo *)

Fixpoint index_of (s : string) (l : list string) : option nat :=
  match l with
  | [] => None
  | x :: l' => if String.eqb x s then Some O
               else match index_of s l' with Some i => Some (S i) | None => None end
  end.

(* "Temperatur [°C]"; the degree sign is the single character 176 (latin-1, which is
   how "unicode_escape" decodes it) *)
Definition temperatur : string := "Temperatur [" ++ String (ascii_of_nat 176) "C]".

(* one column of pd.read_csv(sep=";"): the fields under the given header; short rows
   are padded with nan; an empty field is nan; a field that is not a number makes the
   column non-numeric, which is only noticed when it is used in arithmetic (TypeError) *)
Definition csv_column (header : list string) (rows : list (list string)) (name : string) (e : exn)
  : res (list T) :=
  i <- of_opt (index_of name header) e ;;
  mapM (fun r => match nth_error r i with
                 | None => Ok nnan
                 | Some s => if String.eqb s "" then Ok nnan else of_opt (parse_float s) TypeError
                 end) rows.

(* titrations.py:100-123  _read_tiamo_de_df and 126-149  read_tiamo_de *)
Definition read_tiamo_de (e : env T) (file_name : string) (kw : kwargs T) : res (DatData T) :=
  _ <- check_kwargs ["encoding"] kw ;;
  text <- read_text e file_name ;;
  let data := lines_of text in
  gran_line <- of_opt (index_of "Gran.1" data) ValueError ;;
  before <- of_opt (pyindex data (Z.of_nat gran_line - 3)) IndexError ;;
  f2 <- of_opt (nth_error (split_on ";" before) 2) IndexError ;;
  volume_start <- of_opt (parse_float f2) ValueError ;;
  let csv := filter (fun s => negb (String.eqb s "")) (skipn (gran_line + 1) data) in
  match csv with
  | [] => Err ValueError                        (* pandas EmptyDataError *)
  | h :: body =>
      let header := split_on ";" h in
      let rows := map (split_on ";") body in
      if negb (forallb (fun r => (length r <=? length header)%nat) rows) then Err ValueError
      else
        volume <- csv_column header rows "Volumen [mL]" (KeyError "volume") ;;
        pH <- csv_column header rows "Messwert" (AttributeError "pH") ;;
        temperature <- csv_column header rows temperatur (AttributeError "temperature") ;;
        Ok {| dd_titrant_amount := map (fun v => v ⊕ volume_start) volume;
              dd_measurement := pH;
              dd_temperature := temperature |}
  end.

(* ------------------------------------------------------------------ *)
(** * read_dat *)

(* what read_dat returns: a DatData, or the plain 4-tuple of read_dat_orgalk_excel *)
Inductive dat : Type :=
| Dat (d : DatData T)
| Tuple4 (a b c d : list T).

(* titrations.py:71-97  read_dat_orgalk_excel *)
Definition read_dat_orgalk_excel (e : env T) (file_name : string) (kw : kwargs T) : res dat :=
  _ <- check_kwargs [] kw ;;
  match e_excel e file_name with
  | Some (a, b, c, d) => Ok (Tuple4 a b c d)
  | None => Err FileNotFoundError
  end.

(* titrations.py:152-158  file_types *)
Definition file_types : list string := ["genfromtxt"; "vindta"; "orgalk_excel"; "pclims"; "tiamo_de"].

(* titrations.py:159-168  keys_read_dat *)
Definition keys_read_dat : list string :=
  ["col_measurement"; "col_temperature"; "col_titrant_amount"; "delimiter"; "encoding"; "file_type";
   "n_cols"; "skip_header"].

(* the reader registered under a name *)
Definition reader (e : env T) (file_type file_name : string) (kw : kwargs T) : res dat :=
  if String.eqb file_type "orgalk_excel" then read_dat_orgalk_excel e file_name kw
  else if String.eqb file_type "pclims" then d <- read_dat_pclims e file_name kw ;; Ok (Dat d)
  else if String.eqb file_type "tiamo_de" then d <- read_tiamo_de e file_name kw ;; Ok (Dat d)
  else d <- read_dat_genfromtxt e file_name kw ;; Ok (Dat d).

(* titrations.py:171-177  read_dat: the file type that is used and the method that the
   warning names (173-174: file_type is overwritten before the message is built).
   Unhashable values (lists, dicts) raise TypeError. *)
Definition read_dat_type (kw : kwargs T) : res (string * option string) :=
  match kwarg "file_type" (VStr "genfromtxt") kw with
  | VStr s => if mem_str s file_types then Ok (s, None) else Ok ("genfromtxt", Some "genfromtxt")
  | VTup _ | VDict _ => Err TypeError
  | _ => Ok ("genfromtxt", Some "genfromtxt")
  end.

Definition read_dat (e : env T) (file_name : string) (kw : kwargs T) : res dat :=
  tw <- read_dat_type kw ;;
  reader e (fst tw) file_name (filter (fun kv => negb (String.eqb (fst kv) "file_type")) kw).

(* amount_units(read_dat(...)): the plain tuple has no attribute "temperature"
   (convert.py:208-211) *)
Definition amount_units_dat (d : dat) (salinity : val T) (kw : kwargs T) : res (Converted T) :=
  match d with
  | Dat dd => amount_units dd salinity kw
  | Tuple4 _ _ _ _ => Err (AttributeError "temperature")
  end.

(* ------------------------------------------------------------------ *)
(** * write_dat *)

Definition fs := string -> option string.
Definition fs_write (f : fs) (path content : string) : fs :=
  fun p => if String.eqb p path then Some content else f p.

Definition nl_str : string := String nl EmptyString.
Definition tab_str : string := String tab EmptyString.

(* titrations.py:195-214  one row; formats are of the form ".df" *)
Definition dat_line (da dm dt : nat) (a m t : T) : string :=
  format_fixed da a ++ tab_str ++ format_fixed dm m ++ tab_str ++ format_fixed dt t ++ nl_str.

Fixpoint dat_lines (da dm dt : nat) (a m t : list T) : string :=
  match a, m, t with
  | x :: a', y :: m', z :: t' => dat_line da dm dt x y z ++ dat_lines da dm dt a' m' t'
  | _, _, _ => ""                        (* zip stops at the shortest *)
  end.

Definition line0_default : string := "Titration data exported by Calkulate".
Definition line1_default : string :=
  "titrant_amount" ++ tab_str ++ "measurement" ++ tab_str ++ "temperature".

Definition dat_text (da dm dt : nat) (line0 line1 : string) (a m t : list T) : string :=
  line0 ++ nl_str ++ line1 ++ nl_str ++ dat_lines da dm dt a m t.

(* titrations.py:180-214  write_dat; modes "x" (the default), "w" and "a" *)
Inductive wmode := ModeX | ModeW | ModeA.
Definition write_dat (f : fs) (filepath : string) (a m t : list T) (line0 line1 : string)
  (mode : wmode) (da dm dt : nat) : fs * res unit :=
  let content := dat_text da dm dt line0 line1 a m t in
  match mode, f filepath with
  | ModeX, Some _ => (f, Err FileExistsError)
  | ModeA, Some old => (fs_write f filepath (old ++ content), Ok tt)
  | _, _ => (fs_write f filepath content, Ok tt)
  end.

End Titrations.
Arguments dat : clear implicits.
