(* PropReaders.v -- properties of the PC-LIMS and Tiamo readers and of the choice of reader *)
From Coq Require Import Lia.
From Coq Require Import Reals Lra.
From Verif Require Import Files TextProofs SpecText DictLemmas XRLemmas PropText.
Open Scope string_scope.
Open Scope list_scope.

(* ------------------------------------------------------------------ *)
(** * The data pattern *)

Lemma digit_or_dot_spec c : digit_or_dot c <-> num_char c = true.
Proof.
  unfold digit_or_dot.
  assert (A : Bool.eqb (existsb (Ascii.eqb c) (list_of_string "0123456789.")) (num_char c) = true).
  { revert c. apply all_ascii. vm_compute. reflexivity. }
  apply Bool.eqb_prop in A. rewrite <- A, existsb_exists. split.
  - intros I. exists c. split; [exact I | apply Ascii.eqb_refl].
  - intros [x [I E]]. apply Ascii.eqb_eq in E. now subst.
Qed.

Lemma all_chars_spec (p : ascii -> bool) s :
  all_chars p s = true <-> forall c, In c (list_of_string s) -> p c = true.
Proof. rewrite all_chars_forallb. apply forallb_forall. Qed.

Lemma split_on_cons c s : exists w ws, split_on c s = w :: ws.
Proof.
  induction s as [|a s [w [ws E]]]; cbn; [eauto|].
  destruct (Ascii.eqb a c); [eauto|]. rewrite E. eauto.
Qed.

Lemma join_tab_cons f fs : fs <> [] -> join_tab (f :: fs) = (f ++ String tab (join_tab fs))%string.
Proof. destruct fs; [congruence | reflexivity]. Qed.

Lemma join_split s : join_tab (split_on tab s) = s.
Proof.
  induction s as [|a s IH]; [reflexivity|]. cbn [split_on].
  destruct (split_on_cons tab s) as [w [ws E]]. rewrite E in IH.
  destruct (Ascii.eqb_spec a tab) as [->|N].
  - rewrite E. change (String tab (join_tab (w :: ws)) = String tab s). now rewrite IH.
  - rewrite E. destruct ws as [|w' ws]; cbn in *; now rewrite IH.
Qed.

Lemma join_tab_at k L : (k < length L)%nat ->
  join_tab L = (join_tab (firstn k L ++ [""]) ++ join_tab (skipn k L))%string.
Proof.
  revert L; induction k as [|k IH]; intros [|f L] A; cbn [length] in A; try lia; [reflexivity|].
  cbn [firstn skipn app].
  rewrite (join_tab_cons f L) by (destruct L; cbn in A; [lia | discriminate]).
  rewrite (join_tab_cons f (firstn k L ++ [""])) by (intros E; apply app_eq_nil in E as [_ E]; discriminate).
  rewrite (IH L) by lia. now rewrite sapp_assoc.
Qed.

Lemma num_no_tab f : (forall c, In c (list_of_string f) -> digit_or_dot c) -> no_char tab f = true.
Proof.
  intros A. apply all_chars_spec. intros c I. apply A, digit_or_dot_spec in I.
  destruct (Ascii.eqb_spec c tab) as [->|N]; [discriminate | reflexivity].
Qed.

(* matches_data is the pattern of the specification *)
Lemma matches_data_spec n line :
  matches_data n line = true <-> data_line (S (Z.to_nat (n - 1))) line.
Proof.
  unfold matches_data, data_line. set (k := Z.to_nat (n - 1)). clearbody k.
  rewrite andb_true_iff, Nat.ltb_lt, forallb_forall. split.
  - intros [L F]. exists (firstn k (split_on tab line) ++ [""]), (join_tab (skipn k (split_on tab line))).
    split; [|split].
    + rewrite app_length, firstn_length; cbn. lia.
    + intros f c I J. apply in_app_or in I as [I|I].
      * apply digit_or_dot_spec. specialize (F f I). rewrite all_chars_spec in F. auto.
      * destruct I as [<-|[]]. destruct J.
    + rewrite <- join_tab_at by exact L. symmetry. apply join_split.
  - intros [fields [rest [L [F ->]]]].
    revert fields L F; induction k as [|k IH]; intros [|f fs] L F; try discriminate L.
    + split; [|intros x []]. destruct (split_on_cons tab (join_tab (f :: fs) ++ rest)) as [w [ws ->]].
      cbn; lia.
    + injection L as L. assert (N : fs <> []) by (destruct fs; [discriminate L | discriminate]).
      rewrite (join_tab_cons f fs N), sapp_assoc. cbn [append].
      rewrite split_on_app by (apply num_no_tab; intros c I; apply (F f c); [now left | exact I]).
      destruct (IH fs L) as [A B]; [intros g c I J; apply (F g c); [now right | exact J]|].
      split; [cbn; lia|]. cbn [firstn]. intros x [<-|I]; [|now apply B].
      apply all_chars_spec. intros c I. apply digit_or_dot_spec. apply (F f c); [now left | exact I].
Qed.

(* ------------------------------------------------------------------ *)
(** * The first block *)

Lemma take_while_block {A} (p : A -> bool) block post :
  (forall l, In l block -> p l = true) ->
  match post with [] => True | x :: _ => p x = false end ->
  take_while p (block ++ post) = block.
Proof.
  intros B P. induction block as [|x b IH]; cbn [app take_while].
  - destruct post as [|y post]; [reflexivity|]. cbn. now rewrite P.
  - rewrite (B x) by now left. f_equal. apply IH. intros l I. apply B. now right.
Qed.

Lemma first_block_spec {A} (p : A -> bool) pre block post :
  (forall l, In l pre -> p l = false) -> block <> [] ->
  (forall l, In l block -> p l = true) ->
  match post with [] => True | x :: _ => p x = false end ->
  first_block p (pre ++ block ++ post) = block.
Proof.
  intros R N B P. induction pre as [|x pre IH]; cbn [app].
  - destruct block as [|x b]; [congruence|]. cbn [app first_block]. rewrite (B x) by now left.
    apply (take_while_block p (x :: b) post B P).
  - cbn [first_block]. rewrite (R x) by now left. apply IH. intros l I. apply R. now right.
Qed.

(* a report: some lines, then a block of data lines, then the rest *)
Record report (n : nat) (pre block post : list string) : Prop := {
  rp_lines : forall l, In l (pre ++ block ++ post) -> one_line l;
  rp_pre : forall l, In l pre -> ~ data_line n l;
  rp_some : block <> [];
  rp_block : forall l, In l block -> data_line n l;
  rp_post : match post with [] => True | l :: _ => ~ data_line n l end
}.

Lemma text_of_lines_join ls : text_of_lines ls = join_nl ls.
Proof. induction ls as [|l ls IH]; cbn; [reflexivity | now rewrite IH]. Qed.

Lemma lines_of_text ls : (forall l, In l ls -> one_line l) -> lines_of (text_of_lines ls) = ls.
Proof.
  intros A. rewrite text_of_lines_join. apply lines_of_join; apply forallb_forall;
    intros l I; now apply one_line_no, A.
Qed.

Lemma not_data_false n l : ~ data_line (S (Z.to_nat (n - 1))) l -> matches_data n l = false.
Proof.
  intros N. destruct (matches_data n l) eqn:E; [|reflexivity]. elim N. now apply matches_data_spec.
Qed.

Lemma report_block n pre block post :
  report (S (Z.to_nat (n - 1))) pre block post ->
  first_block (matches_data n) (lines_of (text_of_lines (pre ++ block ++ post))) = block.
Proof.
  intros [L P S B Q]. rewrite (lines_of_text _ L). apply first_block_spec.
  - intros l I. now apply not_data_false, P.
  - exact S.
  - intros l I. now apply matches_data_spec, B.
  - destruct post as [|l post]; [exact I | now apply not_data_false].
Qed.

Definition fields_are {T} `{Num T} (line : string) (r : list T) : Prop :=
  exists fields, line = join_tab fields /\ fields <> [] /\
    (forall f, In f fields -> ~ In tab (list_of_string f)) /\
    Forall2 (fun f x => parse_float f = Some x) fields r.

Lemma split_join fields : fields <> [] ->
  (forall f, In f fields -> ~ In tab (list_of_string f)) -> split_on tab (join_tab fields) = fields.
Proof.
  intros N A.
  assert (G : forall f, In f fields -> no_char tab f = true).
  { intros f I. apply all_chars_spec. intros c J. specialize (A f I).
    destruct (Ascii.eqb_spec c tab) as [->|]; [contradiction | reflexivity]. }
  clear A. induction fields as [|f fs IH]; [congruence|].
  destruct fs as [|g fs].
  - apply split_on_none, G. now left.
  - rewrite join_tab_cons by discriminate. rewrite split_on_app by (apply G; now left).
    f_equal. apply IH; [discriminate|]. intros h I. apply G. now right.
Qed.

Section Readers.
Context {T : Type} `{Num T}.

Lemma parse_row line (r : list T) : fields_are line r ->
  mapM (fun s => of_opt (parse_float s) ValueError) (split_on tab line) = Ok r /\
  length (split_on tab line) = length r.
Proof.
  intros [fields [-> [N [A F]]]]. rewrite (split_join fields N A). clear N A. split.
  - induction F as [|f x fs xs P F IH]; [reflexivity|]. cbn [mapM]. rewrite P; cbn [of_opt bind].
    now rewrite IH.
  - clear -F. induction F; cbn; congruence.
Qed.

Lemma float_table_spec k block (rows : list (list T)) :
  block <> [] -> Forall2 fields_are block rows -> (forall r, In r rows -> length r = k) ->
  float_table (map (split_on tab) block) = Ok rows.
Proof.
  intros N F L. unfold float_table.
  assert (W : forall k', k' = k ->
    forallb (fun r => Nat.eqb (length r) k') (map (split_on tab) block) = true).
  { intros k' ->. clear N. induction F as [|l r ls rs P F IH]; [reflexivity|].
    cbn [map forallb]. rewrite (proj2 (parse_row l r P)), (L r) by now left.
    rewrite Nat.eqb_refl. apply IH. intros r' I. apply L. now right. }
  assert (M : mapM (mapM (fun s => of_opt (parse_float s) ValueError)) (map (split_on tab) block) = Ok rows).
  { clear N W L. induction F as [|l r ls rs P F IH]; [reflexivity|].
    cbn [map mapM]. rewrite (proj1 (parse_row l r P)). cbn [bind]. now rewrite IH. }
  destruct F as [|l r ls rs P F]; [congruence|]. cbn [map] in *.
  rewrite (W (length (split_on tab l))); [exact M|].
  rewrite (proj2 (parse_row l r P)). apply L. now left.
Qed.

Lemma column_spec k (rows : list (list T)) (i : Z) :
  (0 <= i < Z.of_nat k)%Z -> (forall r, In r rows -> length r = k) ->
  exists c, column rows i = Ok c /\ column_is (Z.to_nat i) rows c.
Proof.
  intros R L. unfold column, column_is. induction rows as [|r rows IH]; [exists []; split; constructor|].
  destruct IH as [c [E F]]; [intros r' I; apply L; now right|].
  specialize (L r (or_introl eq_refl)).
  destruct (nth_error r (Z.to_nat i)) as [x|] eqn:X.
  2:{ apply nth_error_None in X. lia. }
  exists (x :: c). cbn [mapM]. unfold pyindex at 1.
  destruct (Z.ltb_spec i 0); [lia|]. rewrite X. cbn [of_opt bind].
  rewrite E. split; [reflexivity|]. now constructor.
Qed.

(** C68.  A PC-LIMS report is read as the rows of its first block of data lines (lines
    starting with n_cols = 6 tab-separated runs of digits and dots): amounts from the second
    field, measurements from the third, temperatures from the sixth, one point per line. *)
Theorem C68_first_block (e : env T) (path : string) (pre block post : list string)
  (rows : list (list T)) (k : nat) :
  e_file e path = Some (text_of_lines (pre ++ block ++ post)) ->
  report 6 pre block post ->
  Forall2 fields_are block rows -> (forall r, In r rows -> length r = k) -> (6 <= k)%nat ->
  exists d, read_dat e path [("file_type", VStr "pclims")] = Ok (Dat d) /\
    column_is 1 rows (dd_titrant_amount d) /\
    column_is 2 rows (dd_measurement d) /\
    column_is 5 rows (dd_temperature d).
Proof.
  intros F R P L K.
  assert (E : read_dat e path [("file_type", VStr "pclims")]
              = (d <- read_dat_pclims e path [] ;; Ok (Dat d))) by reflexivity.
  rewrite E. unfold read_dat_pclims, read_text. rewrite F.
  cbn [check_kwargs forallb bind of_opt kwarg dget as_int].
  rewrite (report_block 6 pre block post R).
  rewrite (float_table_spec k block rows (rp_some _ _ _ _ R) P L). cbn [bind].
  unfold three_columns.
  destruct (column_spec k rows 1 ltac:(lia) L) as [c1 [-> C1]].
  destruct (column_spec k rows 2 ltac:(lia) L) as [c2 [-> C2]].
  destruct (column_spec k rows 5 ltac:(lia) L) as [c5 [-> C5]].
  eexists; split; [reflexivity|]. cbn. auto.
Qed.

(** C68, second part.  With any settings, what comes before and after the first block has no
    influence at all, not even on whether the import fails. *)
Theorem C68_rest_ignored (e e' : env T) (path path' : string) (kw : kwargs T) (n : Z)
  (pre pre' block post post' : list string) :
  dget "file_type" kw = Some (VStr "pclims") ->
  (dget "n_cols" kw = None /\ n = 6%Z) \/ dget "n_cols" kw = Some (VInt n) ->
  e_file e path = Some (text_of_lines (pre ++ block ++ post)) ->
  e_file e' path' = Some (text_of_lines (pre' ++ block ++ post')) ->
  report (S (Z.to_nat (n - 1))) pre block post ->
  report (S (Z.to_nat (n - 1))) pre' block post' ->
  read_dat e path kw = read_dat e' path' kw.
Proof.
  intros K N F F' R R'.
  assert (G : forall (e : env T) path pre post,
    e_file e path = Some (text_of_lines (pre ++ block ++ post)) ->
    report (S (Z.to_nat (n - 1))) pre block post ->
    read_dat e path kw =
      (let kw' := filter (fun kv => negb (String.eqb (fst kv) "file_type")) kw in
       d <- (_ <- check_kwargs ["col_titrant_amount"; "col_measurement"; "col_temperature"; "n_cols"] kw' ;;
             rows <- float_table (map (split_on tab) block) ;;
             ca <- as_int (kwarg "col_titrant_amount" (VInt 1) kw') ;;
             cm <- as_int (kwarg "col_measurement" (VInt 2) kw') ;;
             ct <- as_int (kwarg "col_temperature" (VInt 5) kw') ;;
             three_columns rows ca cm ct) ;; Ok (Dat d))).
  { clear -K N. intros e path pre post F R. unfold read_dat, read_dat_type, kwarg at 1. rewrite K.
    change (mem_str "pclims" file_types) with true. cbn [bind fst]. unfold reader.
    cbn [String.eqb Ascii.eqb Bool.eqb]. unfold read_dat_pclims, read_text. rewrite F.
    set (kw' := filter _ kw).
    assert (D : dget "n_cols" kw' = dget "n_cols" kw) by
      exact (dget_filter (fun k => negb (String.eqb k "file_type")) "n_cols" kw).
    destruct (check_kwargs _ kw') as [[]|x]; [|reflexivity]. cbn [bind of_opt].
    assert (M : as_int (kwarg "n_cols" (VInt 6) kw') = Ok n).
    { unfold kwarg. rewrite D. destruct N as [[-> ->] | ->]; reflexivity. }
    rewrite M. cbn [bind]. now rewrite (report_block n pre block post R). }
  now rewrite (G e path pre post F R), (G e' path' pre' post' F' R').
Qed.

(* ------------------------------------------------------------------ *)
(** * Negative measurements *)

Definition no_tab (f : string) : Prop := ~ In tab (list_of_string f).

Lemma no_tab_char f : no_tab f -> no_char tab f = true.
Proof.
  intros N. apply all_chars_spec. intros c I.
  destruct (Ascii.eqb_spec c tab) as [->|]; [contradiction | reflexivity].
Qed.

Lemma negative_not_data (f1 f2 g : string) (fs : list string) :
  no_tab f1 -> no_tab f2 -> ~ data_line 6 (join_tab (f1 :: f2 :: String "-" g :: fs)).
Proof.
  intros N1 N2 D. apply (matches_data_spec 6) in D. unfold matches_data in D.
  apply andb_true_iff in D as [_ D].
  rewrite join_tab_cons, (split_on_app tab f1) in D by (discriminate || now apply no_tab_char).
  rewrite join_tab_cons, (split_on_app tab f2) in D by (discriminate || now apply no_tab_char).
  assert (E : exists u, join_tab (String "-" g :: fs) = String "-" u).
  { destruct fs as [|h fs]; [now exists g | eexists; reflexivity]. }
  destruct E as [u E0]. rewrite E0 in D. cbn [split_on] in D. change (Ascii.eqb "-" tab) with false in D.
  destruct (split_on_cons tab u) as [w [ws E]]. rewrite E in D.
  change (Z.to_nat (6 - 1)) with 5%nat in D. cbn [firstn forallb] in D.
  rewrite !andb_true_iff in D. destruct D as [_ [_ [D _]]]. discriminate D.
Qed.

(** C69 is false.  A row whose measurement is negative (an EMF, say) ends the data: it and
    every row after it are dropped without an error, however many there are. *)
Theorem C69_negative_dropped_refuted (e : env T) (path : string) (pre block more : list string)
  (f1 f2 g : string) (fs : list string) (rows : list (list T)) (k : nat) :
  e_file e path = Some (text_of_lines (pre ++ block ++ join_tab (f1 :: f2 :: String "-" g :: fs) :: more)) ->
  no_tab f1 -> no_tab f2 ->
  (forall l, In l (pre ++ block ++ join_tab (f1 :: f2 :: String "-" g :: fs) :: more) -> one_line l) ->
  (forall l, In l pre -> ~ data_line 6 l) -> block <> [] -> (forall l, In l block -> data_line 6 l) ->
  Forall2 fields_are block rows -> (forall r, In r rows -> length r = k) -> (6 <= k)%nat ->
  exists d, read_dat e path [("file_type", VStr "pclims")] = Ok (Dat d) /\
    length (dd_titrant_amount d) = length block /\ column_is 2 rows (dd_measurement d).
Proof.
  intros F N1 N2 L P S B R W K.
  destruct (C68_first_block e path pre block _ rows k F) as [d [E [C1 [C2 _]]]]; auto.
  { constructor; auto. cbn. now apply negative_not_data. }
  exists d. split; [exact E|]. split; [|exact C2].
  transitivity (length rows).
  - unfold column_is in C1. clear -C1. induction C1; cbn; congruence.
  - clear -R. induction R; cbn; congruence.
Qed.

(** The part that holds: a report whose data lines are all free of signs loses none of them. *)
Theorem C69_unsigned_kept_partial (e : env T) (path : string) (pre block : list string)
  (rows : list (list T)) (k : nat) :
  e_file e path = Some (text_of_lines (pre ++ block)) ->
  report 6 pre block [] ->
  Forall2 fields_are block rows -> (forall r, In r rows -> length r = k) -> (6 <= k)%nat ->
  exists d, read_dat e path [("file_type", VStr "pclims")] = Ok (Dat d) /\
    length (dd_titrant_amount d) = length block /\ length (dd_measurement d) = length block /\
    length (dd_temperature d) = length block.
Proof.
  intros F R P W K.
  destruct (C68_first_block e path pre block [] rows k) as [d [E [C1 [C2 C5]]]]; auto.
  { now rewrite app_nil_r. }
  exists d. split; [exact E|].
  assert (L : length rows = length block) by (clear -P; induction P; cbn; congruence).
  rewrite <- L. unfold column_is in *. clear -C1 C2 C5.
  assert (G : forall A B (R : A -> B -> Prop) l l', Forall2 R l l' -> length l' = length l)
    by (intros A B R l l' F; induction F; cbn; congruence).
  now rewrite (G _ _ _ _ _ C1), (G _ _ _ _ _ C2), (G _ _ _ _ _ C5).
Qed.

(* ------------------------------------------------------------------ *)
(** * Unknown file types *)

(** C70.  An unknown file type is read exactly as if no file type had been given ... *)
Theorem C70_fallback_partial (e : env T) (path s : string) (kw : kwargs T) :
  ~ In s ["genfromtxt"; "vindta"; "orgalk_excel"; "pclims"; "tiamo_de"] ->
  dget "file_type" kw = Some (VStr s) ->
  read_dat e path kw
  = read_dat e path (filter (fun kv => negb (String.eqb (fst kv) "file_type")) kw) /\
  exists w, read_dat_type kw = Ok ("genfromtxt", Some w).
Proof.
  intros N K.
  assert (M : mem_str s file_types = false).
  { destruct (mem_str s file_types) eqn:E; [|reflexivity]. elim N. now apply mem_str_spec. }
  split.
  2:{ unfold read_dat_type, kwarg. rewrite K, M. eauto. }
  unfold read_dat at 1. unfold read_dat_type, kwarg. rewrite K, M. cbn [bind fst].
  unfold read_dat, read_dat_type, kwarg.
  assert (D : dget "file_type" (filter (fun kv => negb (String.eqb (fst kv) "file_type")) kw) = None)
    by exact (dget_filter (fun k => negb (String.eqb k "file_type")) "file_type" kw).
  rewrite D. change (mem_str "genfromtxt" file_types) with true. cbn [bind fst].
  f_equal. clear. induction kw as [|[k v] kw IH]; [reflexivity|].
  cbn [filter fst]. destruct (String.eqb k "file_type") eqn:E; cbn [negb]; [exact IH|].
  cbn [filter fst]. rewrite E. cbn [negb]. f_equal. exact IH.
Qed.

(** ... but the warning names 'genfromtxt', never the type that was not recognised. *)
Theorem C70_warning_refuted (s : string) (kw : kwargs T) :
  ~ In s ["genfromtxt"; "vindta"; "orgalk_excel"; "pclims"; "tiamo_de"] ->
  dget "file_type" kw = Some (VStr s) ->
  exists w, read_dat_type kw = Ok ("genfromtxt", Some w) /\ w <> s.
Proof.
  intros N K.
  assert (M : mem_str s file_types = false).
  { destruct (mem_str s file_types) eqn:E; [|reflexivity]. elim N. now apply mem_str_spec. }
  unfold read_dat_type, kwarg. rewrite K, M. eexists; split; [reflexivity|].
  intros E. apply N. left. exact E.
Qed.

(* ------------------------------------------------------------------ *)
(** * Tiamo *)

Definition semicolon : ascii := ";".

(* the value of a column in one line *)
Definition cell_is (i : nat) (line : string) (x : T) : Prop :=
  exists f, nth_error (split_on semicolon line) i = Some f /\ parse_float f = Some x.

Lemma index_of_first (s : string) pre l : ~ In s pre -> index_of s (pre ++ s :: l) = Some (length pre).
Proof.
  intros N. induction pre as [|x pre IH]; cbn [app index_of length].
  - now rewrite String.eqb_refl.
  - destruct (String.eqb_spec x s) as [E|E]; [elim N; now left|].
    rewrite IH; [reflexivity|]. intros I. apply N. now right.
Qed.

Lemma index_of_nth (s : string) l i : NoDup l -> nth_error l i = Some s -> index_of s l = Some i.
Proof.
  revert l; induction i as [|i IH]; intros [|x l] N E; cbn in E; try discriminate.
  - injection E as ->. cbn. now rewrite String.eqb_refl.
  - inversion N as [|y l' N1 N2]; subst. cbn [index_of].
    destruct (String.eqb_spec x s) as [E'|E'].
    + elim N1. subst. eapply nth_error_In; eauto.
    + now rewrite (IH l N2 E).
Qed.

Lemma csv_column_spec header (body : list string) name i (xs : list T) ex :
  NoDup header -> nth_error header i = Some name -> Forall2 (cell_is i) body xs ->
  csv_column header (map (split_on semicolon) body) name ex = Ok xs.
Proof.
  intros N E F. unfold csv_column. rewrite (index_of_nth name header i N E). cbn [of_opt bind].
  induction F as [|l x ls xs [f [A B]] F IH]; [reflexivity|].
  cbn [map mapM]. rewrite A.
  destruct (String.eqb_spec f "") as [->|_].
  - exfalso. cbn in B. discriminate B.
  - rewrite B. cbn [of_opt bind]. now rewrite IH.
Qed.

(** C71.  In a Tiamo file the titration table follows the line "Gran.1" and a header line;
    the pre-titration volume is the third field of the line three above "Gran.1".  The
    amounts returned are the listed volumes plus that volume, line by line; pH and
    temperature are the listed ones. *)
Theorem C71_tiamo_offset (e : env T) (path : string) (pre : list string) (vline x y header : string)
  (body : list string) (v0 : T) (iv ip it : nat) (vs ps ts : list T) :
  e_file e path = Some (text_of_lines (pre ++ [vline; x; y] ++ "Gran.1" :: header :: body)) ->
  (forall l, In l (pre ++ [vline; x; y] ++ "Gran.1" :: header :: body) -> one_line l) ->
  ~ In "Gran.1" (pre ++ [vline; x; y]) ->
  cell_is 2 vline v0 ->
  header <> "" -> (forall l, In l body -> l <> "") ->
  NoDup (split_on semicolon header) ->
  nth_error (split_on semicolon header) iv = Some "Volumen [mL]" ->
  nth_error (split_on semicolon header) ip = Some "Messwert" ->
  nth_error (split_on semicolon header) it = Some temperatur ->
  (forall l, In l body -> (length (split_on semicolon l) <= length (split_on semicolon header))%nat) ->
  Forall2 (cell_is iv) body vs -> Forall2 (cell_is ip) body ps -> Forall2 (cell_is it) body ts ->
  read_dat e path [("file_type", VStr "tiamo_de")]
  = Ok (Dat {| dd_titrant_amount := map (fun v => v ⊕ v0) vs; dd_measurement := ps; dd_temperature := ts |}).
Proof.
  intros F L G V HN BN ND Iv Ip It W Fv Fp Ft.
  assert (E : read_dat e path [("file_type", VStr "tiamo_de")]
              = (d <- read_tiamo_de e path [] ;; Ok (Dat d))) by reflexivity.
  rewrite E. unfold read_tiamo_de, read_text. rewrite F. cbn [check_kwargs forallb bind of_opt].
  rewrite (lines_of_text _ L).
  rewrite app_assoc, index_of_first by exact G. cbn [of_opt bind].
  assert (LP : length (pre ++ [vline; x; y]) = (length pre + 3)%nat) by (rewrite app_length; reflexivity).
  rewrite LP.
  assert (PI : pyindex ((pre ++ [vline; x; y]) ++ "Gran.1" :: header :: body) (Z.of_nat (length pre + 3) - 3)
               = Some vline).
  { unfold pyindex. destruct (Z.ltb_spec (Z.of_nat (length pre + 3) - 3) 0); [lia|].
    replace (Z.to_nat (Z.of_nat (length pre + 3) - 3)) with (length pre) by lia.
    rewrite <- app_assoc, nth_error_app2 by lia. now rewrite Nat.sub_diag. }
  rewrite PI. cbn [of_opt bind].
  destruct V as [f [Vf Vp]]. unfold semicolon in Vf. rewrite Vf. cbn [of_opt bind]. rewrite Vp. cbn [of_opt bind].
  assert (SK : skipn (length pre + 3 + 1) ((pre ++ [vline; x; y]) ++ "Gran.1" :: header :: body)
               = header :: body).
  { rewrite <- LP. change ("Gran.1" :: header :: body) with (["Gran.1"] ++ header :: body).
    rewrite app_assoc. replace (length (pre ++ [vline; x; y]) + 1)%nat
      with (length ((pre ++ [vline; x; y]) ++ ["Gran.1"])) by (rewrite (app_length _ ["Gran.1"]); reflexivity).
    rewrite skipn_app, skipn_all, Nat.sub_diag. reflexivity. }
  rewrite SK.
  assert (FL : filter (fun s => negb (String.eqb s "")) (header :: body) = header :: body).
  { clear -HN BN. cbn [filter]. destruct (String.eqb_spec header "") as [|_]; [contradiction|]. cbn [negb]. f_equal.
    induction body as [|l b IH]; [reflexivity|]. cbn [filter].
    destruct (String.eqb_spec l "") as [Q|_]; [elim (BN l (or_introl eq_refl) Q)|]. cbn [negb]. f_equal.
    apply IH. intros l' I. apply BN. now right. }
  rewrite FL.
  assert (FW : forallb (fun r => (length r <=? length (split_on ";" header))%nat) (map (split_on ";") body) = true).
  { apply forallb_forall. intros r I. apply in_map_iff in I as [l [<- I]]. apply Nat.leb_le, (W l I). }
  rewrite FW. cbn [negb].
  pose proof (csv_column_spec _ _ _ _ _ (KeyError "volume") ND Iv Fv) as C1.
  pose proof (csv_column_spec _ _ _ _ _ (AttributeError "pH") ND Ip Fp) as C2.
  pose proof (csv_column_spec _ _ _ _ _ (AttributeError "temperature") ND It Ft) as C3.
  unfold semicolon in C1, C2, C3. rewrite C1, C2, C3. reflexivity.
Qed.

(* ------------------------------------------------------------------ *)
(** * Which file types can be used *)

Lemma excel_tuple (e : env T) path kw :
  dget "file_type" kw = Some (VStr "orgalk_excel") ->
  forall d, read_dat e path kw = Ok d -> exists a b c t, d = Tuple4 a b c t.
Proof.
  intros K d. unfold read_dat, read_dat_type, kwarg. rewrite K.
  change (mem_str "orgalk_excel" file_types) with true. cbn [bind fst]. unfold reader.
  cbn [String.eqb Ascii.eqb Bool.eqb]. unfold read_dat_orgalk_excel.
  destruct (check_kwargs _ _) as [[]|x]; cbn [bind]; [|discriminate].
  destruct (e_excel e path) as [[[[a b] c] t]|]; [|discriminate].
  intros E. injection E as <-. eauto.
Qed.

Lemma load_excel (e : env T) file sal kw :
  dget "file_type" kw = Some (VStr "orgalk_excel") -> forall x, load e file sal kw <> Ok x.
Proof.
  intros K x. unfold load. destruct (full_name file kw) as [f|]; cbn [bind]; [|discriminate].
  assert (D : dget "file_type" (get_kwargs_for keys_read_dat kw None) = Some (VStr "orgalk_excel")).
  { unfold get_kwargs_for. rewrite <- K. exact (dget_filter (fun k => mem_str k keys_read_dat) "file_type" kw). }
  pose proof (excel_tuple e f _ D) as X.
  destruct (read_dat e f _) as [d|]; cbn [bind]; [|discriminate].
  destruct (X d eq_refl) as (a & b & c & t & ->). discriminate.
Qed.

(** C85 is false: with file_type "orgalk_excel" neither solving nor calibrating can ever
    succeed, whatever the workbook and the settings. *)
Theorem C85_orgalk_excel_refuted (e : env T) (file c sal : val T) (kw : kwargs T) :
  In "orgalk_excel" file_types /\
  (dget "file_type" kw = Some (VStr "orgalk_excel") ->
   (forall r, files_solve e file c sal kw <> Ok r) /\ (forall r, files_calibrate e file c sal kw <> Ok r)).
Proof.
  split; [now apply mem_str_spec|]. intros K.
  assert (D : dget "file_type" (without_mode kw) = Some (VStr "orgalk_excel")).
  { unfold without_mode. rewrite <- K.
    exact (dget_filter (fun k => negb (String.eqb k "solve_mode")) "file_type" kw). }
  split; intros r; [unfold files_solve | unfold files_calibrate]; cbv zeta;
    pose proof (load_excel e file sal _ D) as N;
    destruct (load e file sal (without_mode kw)) as [[cv [t k]]|]; cbn [bind]; try discriminate;
    now elim (N (cv, (t, k))).
Qed.
End Readers.

(** The part of C85 that holds: with every other registered type whatever read_dat returns
    is a table of amounts, measurements and temperatures, and (in exact arithmetic) it can be
    converted to masses with the default settings and a known analyte mass.  That well-formed
    files of these types are read is C66, C68 and C71. *)
Theorem C85_other_types_partial (e : env xr) (ft path : string) (d : dat xr) (sal : val xr) (M : R) :
  In ft file_types -> ft <> "orgalk_excel" ->
  read_dat e path [("file_type", VStr ft)] = Ok d ->
  exists cv, amount_units_dat d sal [("analyte_mass", VNum (Fin M))] = Ok cv /\ cv_analyte_mass cv = Fin M.
Proof.
  intros I N R.
  assert (D : exists dd, d = Dat dd).
  { unfold read_dat, read_dat_type, kwarg in R. cbn [dget String.eqb Ascii.eqb Bool.eqb] in R.
    assert (Mm : mem_str ft file_types = true) by now apply mem_str_spec.
    rewrite Mm in R. cbn [bind fst] in R. unfold reader in R.
    destruct (String.eqb_spec ft "orgalk_excel") as [E|_]; [contradiction|].
    destruct (String.eqb ft "pclims"); [|destruct (String.eqb ft "tiamo_de")];
      match type of R with bind ?x _ = _ => destruct x as [dd|]; cbn [bind] in R; [|discriminate R] end;
      injection R as <-; eauto. }
  destruct D as [dd ->]. cbn [amount_units_dat].
  unfold amount_units. cbn [check_kwargs forallb bind kwarg dget String.eqb Ascii.eqb Bool.eqb].
  assert (TM : exists tm, cau_titrant_mass (dd_titrant_amount dd) [("analyte_mass", VNum (Fin M))] = Ok tm).
  { unfold cau_titrant_mass. cbn [kwarg dget String.eqb Ascii.eqb Bool.eqb as_str bind].
    change (assert_ (mem_str (lower "ml") ["ml"; "g"; "kg"])) with (@Ok unit tt). cbn [bind].
    change (String.eqb (lower "ml") "ml") with true. cbn iota.
    change (assert_ (mem_str (upper "HCl") ["H2SO4"; "HCL"])) with (@Ok unit tt). cbn [bind].
    change (String.eqb (upper "HCl") "H2SO4") with false. cbn [opt_num as_num bind].
    unfold HCl_NaCl_25C_DSC07. unfold pydiv. rewrite fin_n0, !fin_q, !fin_mul, !fin_add.
    rewrite x_eqb_fin_f. { cbn [bind]. eauto. }
    unfold Q2R; cbn [Qnum Qden]. Lra.lra. }
  destruct TM as [tm TM]. change (check_kwargs keys_cau [("analyte_mass", VNum (Fin M))]) with (@Ok unit tt).
  cbn [bind]. rewrite TM. cbn [bind].
  change (cau_analyte_mass (dd_temperature dd) sal [("analyte_mass", VNum (Fin M))]) with (Ok (Fin M)).
  cbn [bind]. eexists; split; reflexivity.
Qed.

(* ------------------------------------------------------------------ *)
(** * Examples *)

Definition tabs (l : list string) : string := join_tab l.

Definition lims_pre : list string := ["PC LIMS report"; "Volume"].
Definition lims_block : list string :=
  [tabs ["1"; "0.10"; "7.95"; "0"; "0"; "25.0"]; tabs ["2"; "0.20"; "7.80"; "0"; "0"; "25.1"]].
Definition lims_negative : string := tabs ["3"; "0.30"; "-7.70"; "0"; "0"; "25.2"].
Definition lims_more : list string := [tabs ["4"; "0.40"; "7.60"; "0"; "0"; "25.3"]].

Lemma lims_report post : (forall l, In l post -> one_line l) ->
  match post with [] => True | l :: _ => matches_data 6 l = false end ->
  report 6 lims_pre lims_block post.
Proof.
  intros L P.
  assert (G : forall s, forallb (fun c => negb (Ascii.eqb c nl || Ascii.eqb c cr)) (list_of_string s) = true
              -> one_line s).
  { intros s A. rewrite forallb_forall in A. split; intros I; specialize (A _ I); discriminate. }
  constructor.
  - intros l I. apply in_app_or in I as [I|I]; [|apply in_app_or in I as [I|I]; [|now apply L]];
      destruct I as [<-|[<-|[]]]; apply G; reflexivity.
  - intros l I D. apply (matches_data_spec 6) in D. destruct I as [<-|[<-|[]]]; discriminate D.
  - discriminate.
  - intros l I. apply (matches_data_spec 6). destruct I as [<-|[<-|[]]]; reflexivity.
  - destruct post as [|l post]; [exact I|]. intros D. apply (matches_data_spec 6) in D. congruence.
Qed.

Example C68_nonvacuous {T} `{Num T} (st : strategy T) :
  exists rows, Forall2 fields_are lims_block rows /\ (forall r : list T, In r rows -> length r = 6%nat) /\
    exists d, read_dat (env_with_file (text_of_lines (lims_pre ++ lims_block ++ ["end"])) st) "f"
                [("file_type", VStr "pclims")] = Ok (Dat d) /\
              dd_titrant_amount d = [nofQ (10 # 100); nofQ (20 # 100)].
Proof.
  eexists. split; [|split].
  - repeat constructor; (eexists; split; [reflexivity|]; split; [discriminate|]; split;
      [intros f I C; repeat (destruct I as [<-|I]; [revert C; cbn; intuition discriminate|]); destruct I
      | repeat constructor; reflexivity]).
  - intros r I. destruct I as [<-|[<-|[]]]; reflexivity.
  - eexists. split; reflexivity.
Qed.

Example C69_nonvacuous {T} `{Num T} (st : strategy T) :
  exists d, read_dat (env_with_file (text_of_lines (lims_pre ++ lims_block ++ lims_negative :: lims_more)) st) "f"
              [("file_type", VStr "pclims")] = Ok (Dat d) /\
            length (dd_titrant_amount d) = 2%nat.
Proof. eexists. split; reflexivity. Qed.

Example C70_nonvacuous {T} `{Num T} (st : strategy T) :
  read_dat_type (T := T) [("file_type", VStr "vindat")] = Ok ("genfromtxt", Some "genfromtxt").
Proof. reflexivity. Qed.

Definition tiamo_lines : list string :=
  ["Report"; "a;b;1.50"; "x"; "y"; "Gran.1";
   ("Volumen [mL];Messwert;" ++ temperatur)%string; "0.10;7.9;25.0"; "0.25;7.1;25.5"].

Example C71_nonvacuous {T} `{Num T} (st : strategy T) :
  read_dat (env_with_file (text_of_lines tiamo_lines) st) "f" [("file_type", VStr "tiamo_de")]
  = Ok (Dat {| dd_titrant_amount := [nofQ (10 # 100) ⊕ nofQ (150 # 100); nofQ (25 # 100) ⊕ nofQ (150 # 100)];
               dd_measurement := [nofQ (79 # 10); nofQ (71 # 10)];
               dd_temperature := [nofQ (250 # 10); nofQ (255 # 10)] |}).
Proof. reflexivity. Qed.

Example C85_nonvacuous (st : strategy xr) :
  exists d cv, read_dat (env_with_file (text_of_lines tiamo_lines) st) "f" [("file_type", VStr "tiamo_de")]
               = Ok d /\
    amount_units_dat d (VInt 35) [("analyte_mass", VNum (Fin (/ 10)))] = Ok cv.
Proof.
  eexists. destruct (C85_other_types_partial (env_with_file (text_of_lines tiamo_lines) st) "tiamo_de" "f" _
    (VInt 35) (/ 10) ltac:(now apply mem_str_spec) ltac:(discriminate) (C71_nonvacuous st)) as [cv [E _]].
  exists cv. split; [apply C71_nonvacuous | exact E].
Qed.

Print Assumptions C68_first_block.
Print Assumptions C68_rest_ignored.
Print Assumptions C69_negative_dropped_refuted.
Print Assumptions C69_unsigned_kept_partial.
Print Assumptions C70_fallback_partial.
Print Assumptions C70_warning_refuted.
Print Assumptions C71_tiamo_offset.
Print Assumptions C85_orgalk_excel_refuted.
Print Assumptions C85_other_types_partial.
