(* PropReadSettings.v -- C112: the reading settings choose the lines and columns of a file *)
From Coq Require Import Lia ZArith.
From Verif Require Import Files TextProofs SpecText DictLemmas PropText PropReaders.
Open Scope string_scope.
Open Scope list_scope.

(* ------------------------------------------------------------------ *)
(** * Vocabulary *)

Section Spec.
Context {T : Type} `{Num T}.

(* a setting that is given, or left at its default *)
Definition setting (kw : kwargs T) (k : string) (default v : val T) : Prop :=
  dget k kw = Some v \/ (dget k kw = None /\ v = default).

(* fields separated by a character *)
Fixpoint join_with (d : ascii) (fields : list string) : string :=
  match fields with
  | [] => ""
  | [f] => f
  | f :: fs => (f ++ String d (join_with d fs))%string
  end.

(* the text of a field: something, without the separator, blanks, line breaks or the comment character *)
Definition plain_field (d : ascii) (f : string) : Prop :=
  f <> "" /\ forall c, In c [d; " "; "#"; nl; cr]%char -> ~ In c (list_of_string f).

(* what a field says: a number, or nan if it is not a number *)
Definition says (f : string) (x : T) : Prop :=
  parse_float f = Some x \/ (parse_float f = None /\ x = nnan).

(* column z of a table that is k columns wide; negative numbers count from the right *)
Definition column_at (k : nat) (z : Z) (rows : list (list T)) (col : list T) : Prop :=
  exists j, (j < k)%nat /\ (z = Z.of_nat j \/ z = Z.of_nat j - Z.of_nat k)%Z /\ column_is j rows col.
Definition in_table (k : nat) (z : Z) : Prop := (- Z.of_nat k <= z < Z.of_nat k)%Z.
End Spec.

Section P.
Context {T : Type} `{Num T}.

Lemma split_join_with d fields : fields <> [] ->
  (forall f, In f fields -> ~ In d (list_of_string f)) -> split_on d (join_with d fields) = fields.
Proof.
  intros N A.
  assert (G : forall f, In f fields -> no_char d f = true).
  { intros f I. apply all_chars_spec. intros c J. specialize (A f I).
    destruct (Ascii.eqb_spec c d) as [->|]; [contradiction | reflexivity]. }
  clear A. induction fields as [|f fs IH]; [congruence|].
  destruct fs as [|g fs].
  - apply split_on_none, G. now left.
  - change (join_with d (f :: g :: fs)) with (f ++ String d (join_with d (g :: fs)))%string. rewrite split_on_app by (apply G; now left).
    f_equal. apply IH; [discriminate|]. intros h I. apply G. now right.
Qed.

Lemma chars_join_with d fields c : In c (list_of_string (join_with d fields)) -> c = d \/ exists f, In f fields /\ In c (list_of_string f).
Proof.
  induction fields as [|f fs IH]; [intros []|]. destruct fs as [|g fs].
  - cbn [join_with]. intros I. right. exists f. split; [now left|exact I].
  - change (join_with d (f :: g :: fs)) with (f ++ String d (join_with d (g :: fs)))%string. rewrite los_app, in_app_iff. cbn [list_of_string].
    intros [I|[I|I]]; [right; exists f; split; [now left|exact I]|left; congruence|].
    destruct (IH I) as [E|(x & X & Y)]; [now left|]. right. exists x. split; [now right|exact Y].
Qed.

(* strip leaves a string alone whose first and last characters stay *)
Lemma strip_same p s : (forall a l, list_of_string s = a :: l -> p a = false) -> (forall a l, list_of_string s = l ++ [a] -> p a = false) -> strip p s = s.
Proof.
  intros A B. unfold strip.
  assert (L : forall s, (forall a l, list_of_string s = a :: l -> p a = false) -> lstrip p s = s).
  { intros [|c s'] X; [reflexivity|]. cbn [lstrip]. rewrite (X c (list_of_string s') eq_refl). reflexivity. }
  rewrite (L s A), L; [apply srev_srev|]. intros a l E. rewrite srev_spec, los_sol in E.
  apply (f_equal (@rev _)) in E. rewrite rev_involutive in E. cbn [rev] in E. now apply B in E.
Qed.

Lemma join_first d f fs : exists s, list_of_string (join_with d (f :: fs)) = list_of_string f ++ s.
Proof.
  destruct fs as [|g fs]; [exists []; now rewrite app_nil_r|].
  change (join_with d (f :: g :: fs)) with (f ++ String d (join_with d (g :: fs)))%string. rewrite los_app. eauto.
Qed.
Lemma join_last d fields : fields <> [] -> exists s f, In f fields /\ list_of_string (join_with d fields) = s ++ list_of_string f.
Proof.
  induction fields as [|f fs IH]; [congruence|]. intros _. destruct fs as [|g fs]; [exists [], f; split; [now left|reflexivity]|].
  destruct IH as (s & h & I & E); [discriminate|]. exists (list_of_string f ++ d :: s), h. split; [now right|].
  change (join_with d (f :: g :: fs)) with (f ++ String d (join_with d (g :: fs)))%string. rewrite los_app. cbn [list_of_string]. now rewrite E, <- app_assoc.
Qed.

Lemma los_nonempty s : s <> "" -> exists c l, list_of_string s = c :: l.
Proof. destruct s; [congruence|]. cbn. eauto. Qed.

Lemma split_line d fields : d <> "#"%char -> fields <> [] -> (forall f, In f fields -> plain_field d f) ->
  genfromtxt_split d (join_with d fields) = fields.
Proof.
  intros Nh N P. unfold genfromtxt_split.
  assert (NC : no_char "#" (join_with d fields) = true).
  { apply all_chars_spec. intros c I. apply chars_join_with in I. destruct (Ascii.eqb_spec c "#") as [->|]; [|reflexivity]. exfalso.
    destruct I as [E|(f & If & Ic)]; [congruence|]. destruct (P f If) as [_ Q]. apply (Q "#"%char); cbn; tauto. }
  rewrite (split_on_none _ _ NC). cbn beta iota zeta.
  assert (Pf : forall c f, In f fields -> In c (list_of_string f) -> (Ascii.eqb c " " || Ascii.eqb c cr || Ascii.eqb c nl)%bool = false).
  { intros c f If Ic. destruct (P f If) as [_ Q].
    rewrite !orb_false_iff. repeat split; apply Ascii.eqb_neq; intros ->; eapply Q; [|exact Ic| |exact Ic| |exact Ic]; cbn; tauto. }
  rewrite strip_same.
  - assert (E : String.eqb (join_with d fields) "" = false).
    { apply String.eqb_neq. intros E. destruct (join_last d fields N) as (s & f & If & El). rewrite E in El. cbn in El.
      destruct (los_nonempty f) as (c & l & Ef); [apply P, If|]. rewrite Ef in El. destruct s; discriminate. }
    rewrite E. apply split_join_with; [exact N|]. intros f If. destruct (P f If) as [_ Q]. apply Q. cbn. tauto.
  - intros a l E. destruct fields as [|f fs]; [congruence|]. destruct (join_first d f fs) as (s & Ej).
    destruct (los_nonempty f) as (c & l' & Ef); [apply P; now left|]. rewrite Ej, Ef in E. injection E as -> _.
    apply (Pf a f); [now left|]. rewrite Ef. now left.
  - intros a l E. destruct (join_last d fields N) as (s & f & If & Ej). 
    destruct (los_nonempty f) as (c & l' & Ef); [apply P, If|]. rewrite Ej in E.
    destruct (exists_last (l := list_of_string f)) as (l2 & b & Eb); [rewrite Ef; discriminate|]. rewrite Eb, app_assoc in E.
    apply app_inj_tail in E. destruct E as [_ <-]. apply (Pf b f If). rewrite Eb. apply in_or_app. right. now left.
Qed.

Lemma column_at_spec k (rows : list (list T)) z : in_table k z -> (forall r, In r rows -> length r = k) ->
  exists c, column rows z = Ok c /\ column_at k z rows c.
Proof.
  intros R L. unfold in_table in R.
  set (j := Z.to_nat (if (z <? 0)%Z then z + Z.of_nat k else z)%Z).
  assert (J : (j < k)%nat) by (unfold j; destruct (Z.ltb_spec z 0); lia).
  assert (Zj : (z = Z.of_nat j \/ z = Z.of_nat j - Z.of_nat k)%Z) by (unfold j; destruct (Z.ltb_spec z 0); lia).
  assert (G : exists c, column rows z = Ok c /\ column_is j rows c).
  { unfold column, column_is. clear Zj. induction rows as [|r rows IH]; [exists []; split; constructor|].
    destruct IH as [c [E F]]; [intros r' I; apply L; now right|]. specialize (L r (or_introl eq_refl)).
    destruct (nth_error r j) as [x|] eqn:X. 2:{ apply nth_error_None in X. lia. }
    exists (x :: c). cbn [mapM]. unfold pyindex at 1. rewrite L.
    replace (if (z <? 0)%Z then if (z + Z.of_nat k <? 0)%Z then None else nth_error r (Z.to_nat (z + Z.of_nat k)) else nth_error r (Z.to_nat z)) with (nth_error r j).
    - rewrite X. cbn [of_opt bind]. rewrite E. split; [reflexivity|]. now constructor.
    - unfold j. destruct (Z.ltb_spec z 0); [|reflexivity]. destruct (Z.ltb_spec (z + Z.of_nat k) 0); [lia|reflexivity]. }
  destruct G as (c & E & C). exists c. split; [exact E|]. exists j. auto.
Qed.

Lemma pairwise_length {A B} (R : A -> B -> Prop) l l' : Forall2 R l l' -> length l = length l'.
Proof. induction 1; cbn [length]; congruence. Qed.

Lemma says_value f (x : T) : says f x -> field_value f = x.
Proof. unfold says, field_value. intros [->|[-> ->]]; reflexivity. Qed.

Lemma setting_get (kw : kwargs T) k default v : setting kw k default v -> kwarg k default kw = v.
Proof. unfold setting, kwarg. intros [->|[-> ->]]; reflexivity. Qed.

(* ------------------------------------------------------------------ *)
(** * C112 *)

(* A text file of header lines and data lines, read with any delimiter, header length and columns: the
   header is skipped and every data line is one point, with its amount, measurement and temperature from
   the chosen columns. *)
Theorem C112_text_columns : forall (e : env T) path kw d sk ca cm ct header table rows k,
  (dget "file_type" kw = None \/ dget "file_type" kw = Some (VStr "genfromtxt") \/ dget "file_type" kw = Some (VStr "vindta")) ->
  (forall key, In key (dkeys kw) -> In key ["file_type"; "delimiter"; "skip_header"; "encoding"; "col_titrant_amount"; "col_measurement"; "col_temperature"]) ->
  setting kw "delimiter" (VStr (String tab "")) (VStr (String d "")) -> ~ In d ["#"; nl; cr]%char ->
  setting kw "skip_header" (VInt 2) (VInt (Z.of_nat sk)) ->
  setting kw "col_titrant_amount" (VInt 0) (VInt ca) -> setting kw "col_measurement" (VInt 1) (VInt cm) -> setting kw "col_temperature" (VInt 2) (VInt ct) ->
  e_file e path = Some (text_of_lines (header ++ map (join_with d) table)) ->
  length header = sk -> (forall l, In l header -> one_line l) ->
  (2 <= length table)%nat -> (2 <= k)%nat -> (forall fields, In fields table -> length fields = k /\ forall f, In f fields -> plain_field d f) ->
  Forall2 (Forall2 says) table rows ->
  in_table k ca -> in_table k cm -> in_table k ct ->
  exists dat, read_dat e path kw = Ok (Dat dat) /\
    column_at k ca rows (dd_titrant_amount dat) /\ column_at k cm rows (dd_measurement dat) /\ column_at k ct rows (dd_temperature dat).
Proof.
  intros e path kw d sk ca cm ct header table rows k FT Keys Sd Nd Ss Sa Sm St F Lh Oh Lt Lk Tab Says Ia Im It.
  set (kw' := filter (fun kv => negb (String.eqb (fst kv) "file_type")) kw).
  assert (G : forall key, key <> "file_type" -> dget key kw' = dget key kw).
  { intros key N. unfold kw'. rewrite (dget_filter (fun k => negb (String.eqb k "file_type"))). apply String.eqb_neq in N. now rewrite N. }
  assert (E : read_dat e path kw = (x <- read_dat_genfromtxt e path kw' ;; Ok (Dat x))).
  { unfold read_dat, read_dat_type, kwarg. destruct FT as [->|[->| ->]]; reflexivity. }
  assert (SG : forall key dv v, key <> "file_type" -> setting kw key dv v -> kwarg key dv kw' = v).
  { intros key dv v N S. apply setting_get. unfold setting in *. now rewrite G. }
  assert (CK : check_kwargs ["col_titrant_amount"; "col_measurement"; "col_temperature"; "delimiter"; "skip_header"; "encoding"] kw' = Ok tt).
  { unfold check_kwargs. replace (forallb _ kw') with true; [reflexivity|]. symmetry. apply forallb_forall. intros [key v] I.
    unfold kw' in I. apply filter_In in I. destruct I as [I N]. cbn [fst] in *. apply negb_true_iff, String.eqb_neq in N.
    apply mem_str_spec. specialize (Keys key (in_map fst _ _ I)). cbn in Keys |- *. intuition congruence. }
  rewrite E. unfold read_dat_genfromtxt. rewrite CK. cbn [bind].
  rewrite (SG "delimiter" _ _ ltac:(discriminate) Sd), (SG "skip_header" _ _ ltac:(discriminate) Ss), (SG "col_titrant_amount" _ _ ltac:(discriminate) Sa), (SG "col_measurement" _ _ ltac:(discriminate) Sm), (SG "col_temperature" _ _ ltac:(discriminate) St).
  cbn [as_delim as_int bind]. unfold read_text. rewrite F. cbn [of_opt bind].
  assert (Ol : forall fields, In fields table -> one_line (join_with d fields)).
  { intros fields If. destruct (Tab fields If) as [_ P].
    assert (X : forall c, In c [nl; cr] -> ~ In c (list_of_string (join_with d fields))).
    { intros c Ic J. apply chars_join_with in J. destruct J as [->|(f & I1 & I2)]; [apply Nd; cbn in *; tauto|].
      destruct (P f I1) as [_ Q]. apply (Q c); [cbn in *; tauto|exact I2]. }
    split; apply X; cbn; tauto. }
  assert (GX : genfromtxt (text_of_lines (header ++ map (join_with d) table)) d (Z.of_nat sk) = Ok rows).
  { unfold genfromtxt. rewrite lines_of_text.
    2:{ intros l I. apply in_app_iff in I. destruct I as [I|I]; [now apply Oh|]. apply in_map_iff in I. destruct I as (fs & <- & I). now apply Ol. }
    rewrite Nat2Z.id, <- Lh, skipn_app, skipn_all, Nat.sub_diag. cbn [skipn app]. rewrite map_map.
    assert (Em : map (fun x => genfromtxt_split d (join_with d x)) table = table).
    { transitivity (map (fun x => x) table); [|apply map_id]. apply map_ext_in. intros fs I. destruct (Tab fs I) as [L P]. apply split_line; [intros ->; apply Nd; cbn; tauto| |exact P].
      intros ->. cbn in L. lia. }
    rewrite Em.
    assert (Ef : filter not_nil table = table).
    { clear -Tab Lk. induction table as [|fs t IH]; [reflexivity|]. cbn [filter].
      assert (N : not_nil fs = true) by (destruct fs; [destruct (Tab [] (or_introl eq_refl)) as [L _]; cbn in L; lia|reflexivity]).
      rewrite N. f_equal. apply IH. intros x I. apply Tab. now right. }
    rewrite Ef.
    assert (Ev : map (map field_value) table = rows).
    { clear -Says. induction Says as [|fs r t rs S _ IH]; [reflexivity|]. cbn [map]. f_equal; [|exact IH].
      clear -S. induction S as [|f x fs xs S _ IH]; [reflexivity|]. cbn [map]. f_equal; [now apply says_value|exact IH]. }
    destruct table as [|f0 t] eqn:Et; [cbn in Lt; lia|]. rewrite <- Et in *.
    assert (L0 : length f0 = k) by (apply Tab; rewrite Et; now left).
    replace (forallb (fun r => Nat.eqb (length r) (length f0)) table) with true.
    2:{ symmetry. apply forallb_forall. intros x I. apply Nat.eqb_eq. rewrite L0. now apply Tab. }
    cbn [negb]. rewrite L0. replace (length table <? 2)%nat with false by (symmetry; apply Nat.ltb_ge; lia).
    replace (k <? 2)%nat with false by (symmetry; apply Nat.ltb_ge; lia). cbn [orb]. now rewrite Ev. }
  rewrite GX. cbn [bind].
  assert (Lr : forall r, In r rows -> length r = k).
  { clear -Says Tab. induction Says as [|fs r t rs S _ IH]; intros x I; [destruct I|]. destruct I as [<-|I].
    - rewrite <- (pairwise_length _ _ _ S). apply Tab. now left.
    - apply IH; auto. intros y J. apply Tab. now right. }
  unfold three_columns.
  destruct (column_at_spec k rows ca Ia Lr) as (c1 & -> & C1). destruct (column_at_spec k rows cm Im Lr) as (c2 & -> & C2).
  destruct (column_at_spec k rows ct It Lr) as (c3 & -> & C3). cbn [bind]. eexists. split; [reflexivity|]. cbn. auto.
Qed.

(* The same for a PC-LIMS report, whose data lines are recognised by their first n_cols fields. *)
Theorem C112_pclims_columns : forall (e : env T) path kw n ca cm ct pre block post rows k,
  dget "file_type" kw = Some (VStr "pclims") ->
  (forall key, In key (dkeys kw) -> In key ["file_type"; "n_cols"; "col_titrant_amount"; "col_measurement"; "col_temperature"]) ->
  setting kw "n_cols" (VInt 6) (VInt (Z.of_nat (S n))) ->
  setting kw "col_titrant_amount" (VInt 1) (VInt ca) -> setting kw "col_measurement" (VInt 2) (VInt cm) -> setting kw "col_temperature" (VInt 5) (VInt ct) ->
  e_file e path = Some (text_of_lines (pre ++ block ++ post)) ->
  report (S n) pre block post ->
  Forall2 fields_are block rows -> (forall r, In r rows -> length r = k) ->
  in_table k ca -> in_table k cm -> in_table k ct ->
  exists dat, read_dat e path kw = Ok (Dat dat) /\
    column_at k ca rows (dd_titrant_amount dat) /\ column_at k cm rows (dd_measurement dat) /\ column_at k ct rows (dd_temperature dat).
Proof.
  intros e path kw n ca cm ct pre block post rows k FT Keys Sn Sa Sm St F R Fl Lr Ia Im It.
  set (kw' := filter (fun kv => negb (String.eqb (fst kv) "file_type")) kw).
  assert (G : forall key, key <> "file_type" -> dget key kw' = dget key kw).
  { intros key N. unfold kw'. rewrite (dget_filter (fun k => negb (String.eqb k "file_type"))). apply String.eqb_neq in N. now rewrite N. }
  assert (E : read_dat e path kw = (x <- read_dat_pclims e path kw' ;; Ok (Dat x))).
  { unfold read_dat, read_dat_type, kwarg. rewrite FT. reflexivity. }
  assert (SG : forall key dv v, key <> "file_type" -> setting kw key dv v -> kwarg key dv kw' = v).
  { intros key dv v N S. apply setting_get. unfold setting in *. now rewrite G. }
  assert (CK : check_kwargs ["col_titrant_amount"; "col_measurement"; "col_temperature"; "n_cols"] kw' = Ok tt).
  { unfold check_kwargs. replace (forallb _ kw') with true; [reflexivity|]. symmetry. apply forallb_forall. intros [key v] I.
    unfold kw' in I. apply filter_In in I. destruct I as [I N]. cbn [fst] in *. apply negb_true_iff, String.eqb_neq in N.
    apply mem_str_spec. specialize (Keys key (in_map fst _ _ I)). cbn in Keys |- *. intuition congruence. }
  rewrite E. unfold read_dat_pclims. rewrite CK. cbn [bind]. unfold read_text. rewrite F. cbn [of_opt bind].
  rewrite (SG "n_cols" _ _ ltac:(discriminate) Sn), (SG "col_titrant_amount" _ _ ltac:(discriminate) Sa), (SG "col_measurement" _ _ ltac:(discriminate) Sm), (SG "col_temperature" _ _ ltac:(discriminate) St).
  cbn [as_int bind]. rewrite report_block.
  2:{ replace (S (Z.to_nat (Z.of_nat (S n) - 1))) with (S n) by lia. exact R. }
  rewrite (float_table_spec k block rows (rp_some _ _ _ _ R) Fl Lr). cbn [bind]. unfold three_columns.
  destruct (column_at_spec k rows ca Ia Lr) as (c1 & -> & C1). destruct (column_at_spec k rows cm Im Lr) as (c2 & -> & C2).
  destruct (column_at_spec k rows ct It Lr) as (c3 & -> & C3). cbn [bind]. eexists. split; [reflexivity|]. cbn. auto.
Qed.

(* A setting that the reader does not know stops the import. *)
Theorem C112_n_cols_needs_pclims : forall (e : env T) path kw v,
  dget "n_cols" kw = Some v ->
  (dget "file_type" kw = None \/ exists s, dget "file_type" kw = Some (VStr s) /\ s <> "pclims") ->
  exists err, read_dat e path kw = Err err.
Proof.
  intros e path kw v Gn FT.
  set (kw' := filter (fun kv => negb (String.eqb (fst kv) "file_type")) kw).
  assert (G : dget "n_cols" kw' = Some v).
  { unfold kw'. rewrite (dget_filter (fun k => negb (String.eqb k "file_type"))). exact Gn. }
  assert (NC : forall l, ~ In "n_cols" l -> check_kwargs l kw' = Err TypeError).
  { intros l N. unfold check_kwargs. replace (forallb _ kw') with false; [reflexivity|]. symmetry. apply Bool.not_true_is_false. intros Q.
    rewrite forallb_forall in Q. apply dget_in in G. specialize (Q _ G). cbn [fst] in Q. apply mem_str_spec in Q. contradiction. }
  unfold read_dat, read_dat_type. fold kw'.
  assert (R : forall ft, ft <> "pclims" -> exists err, reader e ft path kw' = Err err).
  { intros ft N. apply String.eqb_neq in N. unfold reader, read_dat_orgalk_excel, read_tiamo_de, read_dat_genfromtxt. rewrite N.
    rewrite !NC by (cbn; intuition discriminate). cbn [bind]. destruct (String.eqb ft "orgalk_excel"); [eauto|]. destruct (String.eqb ft "tiamo_de"); eauto. }
  unfold kwarg. destruct FT as [->|(s & -> & N)].
  - cbn [mem_str existsb file_types String.eqb Ascii.eqb Bool.eqb orb bind fst]. apply R. discriminate.
  - destruct (mem_str s file_types); cbn [bind fst]; apply R; [exact N|discriminate].
Qed.
End P.

(* ------------------------------------------------------------------ *)
(** * Examples *)

Definition comma : ascii := ","%char.
Definition csv_header : list string := ["a comma-separated file"].
Definition csv_table : list (list string) := [["25.0"; "0.10"; "x"; "400.5"]; ["25.1"; "0.20"; "y"; "-410"]].
Definition csv_kw {T} : kwargs T :=
  [("delimiter", VStr (String comma "")); ("skip_header", VInt 1); ("col_titrant_amount", VInt 1); ("col_measurement", VInt (-1)); ("col_temperature", VInt 0)].

(* a file with commas, one header line and the columns in another order meets the hypotheses *)
Example C112_nonvacuous {T} `{Num T} (st : strategy T) : exists dat,
  read_dat (env_with_file (text_of_lines (csv_header ++ map (join_with comma) csv_table)) st) "f" csv_kw = Ok (Dat dat) /\
  dd_titrant_amount dat = [nofQ (10 # 100); nofQ (20 # 100)] /\ length (dd_measurement dat) = 2%nat.
Proof.
  edestruct (C112_text_columns (env_with_file (text_of_lines (csv_header ++ map (join_with comma) csv_table)) st) "f" csv_kw comma 1 1 (-1) 0 csv_header csv_table
    (map (map field_value) csv_table) 4) as (dat & E & (j & Lj & Zj & Ca) & (j' & Lj' & Zj' & Cm) & _).
  - now left.
  - intros key I. cbn in I |- *. intuition.
  - now left.
  - cbn. intuition discriminate.
  - now left.
  - now left.
  - now left.
  - now left.
  - reflexivity.
  - reflexivity.
  - intros l [<-|[]]. split; cbn; intuition discriminate.
  - cbn. lia.
  - lia.
  - intros fs [<-|[<-|[]]]; (split; [reflexivity|]); intros f I; cbn in I; intuition (subst f; split; [discriminate|]; cbn; intuition (subst; discriminate)).
  - assert (G : forall f, says (T := T) f (field_value f)) by (intros f; unfold says, field_value; destruct (parse_float f); auto).
    repeat constructor; apply G.
  - unfold in_table. lia.
  - unfold in_table. lia.
  - unfold in_table. lia.
  - exists dat. split; [exact E|]. assert (j = 1%nat) by lia. subst j. split.
    + inversion Ca as [|? ? ? ? A1 Ca']; subst. inversion Ca' as [|? ? ? ? A2 Ca'']; subst. inversion Ca''; subst.
      cbn in A1, A2. injection A1 as <-. injection A2 as <-. reflexivity.
    + symmetry. apply (pairwise_length _ _ _ Cm).
Qed.

(* a report whose amounts are in the third column and measurements in the second *)
Example C112_pclims_nonvacuous {T} `{Num T} (st : strategy T) : exists dat,
  read_dat (env_with_file (text_of_lines (lims_pre ++ lims_block ++ ["end"])) st) "f"
    [("file_type", VStr "pclims"); ("col_titrant_amount", VInt 2); ("col_measurement", VInt (-5))] = Ok (Dat dat) /\
  dd_measurement dat = [nofQ (10 # 100); nofQ (20 # 100)].
Proof.
  destruct (C68_nonvacuous st) as (rows & Fr & Lr & _).
  edestruct (C112_pclims_columns (env_with_file (text_of_lines (lims_pre ++ lims_block ++ ["end"])) st) "f"
    [("file_type", VStr "pclims"); ("col_titrant_amount", VInt 2); ("col_measurement", VInt (-5))] 5 2 (-5) 5 lims_pre lims_block ["end"] rows 6) as (dat & E & _).
  - reflexivity.
  - intros key I. cbn in I |- *. intuition.
  - right. split; reflexivity.
  - now left.
  - now left.
  - right. split; reflexivity.
  - reflexivity.
  - apply lims_report; [|reflexivity]. intros l [<-|[]]. split; cbn; intuition discriminate.
  - exact Fr.
  - exact Lr.
  - unfold in_table. lia.
  - unfold in_table. lia.
  - unfold in_table. lia.
  - eexists. split; reflexivity.
Qed.

Example C112_n_cols_nonvacuous {T} `{Num T} (st : strategy T) :
  exists err, read_dat (env_with_file (text_of_lines (csv_header ++ map (join_with comma) csv_table)) st) "f" [("n_cols", VInt 4)] = Err err.
Proof. apply (C112_n_cols_needs_pclims _ _ _ (VInt 4)); [reflexivity | now left]. Qed.

Print Assumptions C112_text_columns.
Print Assumptions C112_pclims_columns.
Print Assumptions C112_n_cols_needs_pclims.
