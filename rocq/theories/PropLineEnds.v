(* PropLineEnds.v -- C133: how a text file marks its lines, blank lines and comments play no part *)
From Coq Require Import Reals List.
From Verif Require Import Files DictLemmas SettingsProofs TableProofs SFNum SpecText TextProofs PropText PropReaders PropReadSettings Witness PropModes PropSupplied PropPure PropWhichFile.
Import ListNotations.
Open Scope string_scope.
Open Scope list_scope.

(* ------------------------------------------------------------------ *)
(** * Vocabulary *)

(* the text holds these lines: each line is followed by a line feed or by a carriage return and a line feed; the last
   line may also lack its end *)
Inductive holds : list string -> string -> Prop :=
| holds_none : holds [] ""
| holds_open l : l <> "" -> holds [l] l
| holds_lf l ls t : holds ls t -> holds (l :: ls) (l ++ String nl t)
| holds_crlf l ls t : holds ls t -> holds (l :: ls) (l ++ String cr (String nl t)).

(* spaces only *)
Definition blank (s : string) : Prop := forall c, In c (list_of_string s) -> c = " "%char.
(* what is left of a line without its comment and the spaces around *)
Definition trimmed (c : string) : Prop :=
  ~ In "#"%char (list_of_string c) /\ (forall a l, list_of_string c = a :: l -> a <> " "%char) /\ (forall a l, list_of_string c = l ++ [a] -> a <> " "%char).
Definition content_of (line c : string) : Prop := one_line line /\ trimmed c /\
  exists before after rest, blank before /\ blank after /\ line = (before ++ c ++ after ++ rest)%string /\ (rest = "" \/ exists comment, rest = String "#" comment).
(* the contents of the lines that have any *)
Inductive data_of : list string -> list string -> Prop :=
| dof_none : data_of [] []
| dof_skip l ls cs : content_of l "" -> data_of ls cs -> data_of (l :: ls) cs
| dof_line l c ls cs : c <> "" -> content_of l c -> data_of ls cs -> data_of (l :: ls) (c :: cs).

(* ------------------------------------------------------------------ *)
(** * Lines *)

Lemma holds_lines ls text : (forall l, In l ls -> one_line l) -> holds ls text -> lines_of text = ls.
Proof.
  intros P Hh.
  assert (A : exists us, split_on nl text = us /\ map strip_cr (drop_last_empty us) = ls /\ us <> []).
  { induction Hh as [|l N|l ls t Hh IH|l ls t Hh IH].
    - exists [""]. repeat split. discriminate.
    - exists [l]. destruct (one_line_no _ (P l (or_introl eq_refl))) as [A B]. split; [now apply split_on_none|]. split; [|discriminate].
      cbn. destruct (String.eqb_spec l ""); [contradiction|]. cbn. now rewrite strip_cr_none.
    - destruct IH as (us & E & M & N); [intros x I; apply P; now right|]. destruct (one_line_no _ (P l (or_introl eq_refl))) as [A B].
      exists (l :: us). split; [now rewrite split_on_app, E|]. split; [|discriminate].
      destruct us as [|u us]; [now destruct N|]. change (map strip_cr (l :: drop_last_empty (u :: us)) = l :: ls). cbn [map]. now rewrite strip_cr_none, M.
    - destruct IH as (us & E & M & N); [intros x I; apply P; now right|]. destruct (one_line_no _ (P l (or_introl eq_refl))) as [A B].
      exists ((l ++ String cr "")%string :: us). split.
      { replace (l ++ String cr (String nl t))%string with ((l ++ String cr "") ++ String nl t)%string by now rewrite sapp_assoc.
        rewrite split_on_app, E; [reflexivity|]. unfold no_char in *. rewrite all_chars_app, A. reflexivity. }
      split; [|discriminate]. destruct us as [|u us]; [now destruct N|].
      change (map strip_cr ((l ++ String cr "")%string :: drop_last_empty (u :: us)) = l :: ls). cbn [map]. rewrite M. f_equal.
      unfold strip_cr. rewrite srev_spec, los_app. cbn [list_of_string]. rewrite rev_app_distr. cbn [rev app string_of_list].
      rewrite Ascii.eqb_refl, srev_spec, los_sol, rev_involutive. apply sol_los. }
  destruct A as (us & E & M & _). unfold lines_of. now rewrite E.
Qed.

(* ------------------------------------------------------------------ *)
(** * Contents *)

Lemma lstrip_blank p b s : (forall c, In c (list_of_string b) -> p c = true) -> lstrip p (b ++ s)%string = lstrip p s.
Proof. induction b as [|c b IH]; intros B; [reflexivity|]. cbn [append lstrip]. rewrite (B c (or_introl eq_refl)). apply IH. intros x I. apply B. now right. Qed.

Lemma srev_app' a b : srev (a ++ b)%string = (srev b ++ srev a)%string.
Proof. rewrite !srev_spec, los_app, rev_app_distr. rewrite <- (sol_los (string_of_list (rev (list_of_string b)) ++ string_of_list (rev (list_of_string a)))%string), los_app, !los_sol. reflexivity. Qed.

Lemma strip_around p b c a : (forall x, In x (list_of_string b) -> p x = true) -> (forall x, In x (list_of_string a) -> p x = true) ->
  (forall x l, list_of_string c = x :: l -> p x = false) -> (forall x l, list_of_string c = l ++ [x] -> p x = false) -> strip p (b ++ c ++ a)%string = c.
Proof.
  intros B A F L. unfold strip. rewrite lstrip_blank by exact B.
  assert (S0 : lstrip p (c ++ a)%string = (c ++ a)%string \/ c = "").
  { destruct c as [|x c]; [now right|left]. cbn [append lstrip]. now rewrite (F x (list_of_string c) eq_refl). }
  destruct S0 as [S0 | ->].
  - rewrite S0, srev_app', lstrip_blank.
    + pose proof (strip_same p c F L) as S1. unfold strip in S1.
      assert (Lc : lstrip p c = c) by (destruct c as [|x c']; [reflexivity|cbn [lstrip]; now rewrite (F x (list_of_string c') eq_refl)]).
      now rewrite Lc in S1.
    + intros x I. rewrite srev_spec, los_sol in I. apply in_rev in I. now apply A.
  - cbn [append]. rewrite <- (sapp_nil a), lstrip_blank by exact A. reflexivity.
Qed.

Lemma content_split (d : ascii) l c : content_of l c -> genfromtxt_split d l = if String.eqb c "" then [] else split_on d c.
Proof.
  intros ([N1 N2] & (Nh & F & L) & b & a & r & B & A & E & R). unfold genfromtxt_split.
  assert (Hd : match split_on "#" l with w :: _ => w | [] => "" end = (b ++ c ++ a)%string).
  { assert (NC : no_char "#" (b ++ c ++ a)%string = true).
    { unfold no_char. apply all_chars_spec. intros x I. apply negb_true_iff, Ascii.eqb_neq. intros ->. rewrite !los_app, !in_app_iff in I.
      destruct I as [I|[I|I]]; [apply B in I; discriminate|now apply Nh|apply A in I; discriminate]. }
    subst l. destruct R as [->|(k & ->)].
    - rewrite sapp_nil. now rewrite split_on_none.
    - replace (b ++ c ++ a ++ String "#" k)%string with ((b ++ c ++ a) ++ String "#" k)%string by now rewrite !sapp_assoc.
      now rewrite split_on_app. }
  rewrite Hd. set (p := fun x => Ascii.eqb x " " || Ascii.eqb x cr || Ascii.eqb x nl).
  assert (Sp : forall x, x = " "%char -> p x = true) by (intros x ->; reflexivity).
  assert (In_c : forall x, In x (list_of_string c) -> x <> " "%char -> p x = false).
  { intros x I Ns. unfold p. apply orb_false_iff. split; [apply orb_false_iff; split|]; apply Ascii.eqb_neq; [exact Ns| |]; intros ->;
      [apply N2|apply N1]; subst l; rewrite !los_app, !in_app_iff; auto. }
  rewrite (strip_around p b c a).
  - reflexivity.
  - intros x I. now apply Sp, B.
  - intros x I. now apply Sp, A.
  - intros x k Ex. apply In_c; [rewrite Ex; now left|eauto].
  - intros x k Ex. apply In_c; [rewrite Ex; apply in_or_app; right; now left|eauto].
Qed.

Lemma split_not_nil d s : not_nil (split_on d s) = true.
Proof. destruct s as [|x s]; [reflexivity|]. cbn [split_on]. destruct (Ascii.eqb x d); [reflexivity|]. destruct (split_on d s); reflexivity. Qed.

Lemma data_fields d ls cs : data_of ls cs -> filter not_nil (map (genfromtxt_split d) ls) = map (split_on d) cs.
Proof.
  induction 1 as [|l ls cs C D IH|l c ls cs N C D IH]; [reflexivity| |]; cbn [map filter]; rewrite (content_split d _ _ C).
  - exact IH.
  - destruct (String.eqb_spec c ""); [contradiction|]. now rewrite split_not_nil, IH.
Qed.

(* ------------------------------------------------------------------ *)
(** * Reading *)

Section R.
Context {T : Type} `{Num T}.

(* any file type that is read as a table of numbers in text *)
Definition text_table (kw : kwargs T) : Prop := forall s, dget "file_type" kw = Some (VStr s) -> ~ In s ["pclims"; "tiamo_de"; "orgalk_excel"].

Lemma read_same_lines (e e' : env T) path kw text text' : e_file e path = Some text -> e_file e' path = Some text' -> e_excel e path = e_excel e' path ->
  lines_of text = lines_of text' -> read_dat e path kw = read_dat e' path kw.
Proof.
  intros F F' X L. unfold read_dat. destruct (read_dat_type kw) as [[t w]|]; [|reflexivity]. cbn [bind fst].
  unfold reader, read_dat_orgalk_excel, read_dat_pclims, read_tiamo_de, read_dat_genfromtxt, read_text, genfromtxt. rewrite F, F', X. cbn [of_opt bind]. rewrite L. reflexivity.
Qed.

Lemma read_same_data (e e' : env T) path kw text text' sk cs : text_table kw -> setting kw "skip_header" (VInt 2) (VInt (Z.of_nat sk)) ->
  e_file e path = Some text -> e_file e' path = Some text' ->
  data_of (skipn sk (lines_of text)) cs -> data_of (skipn sk (lines_of text')) cs -> read_dat e path kw = read_dat e' path kw.
Proof.
  intros P S F F' D D'. unfold read_dat. destruct (read_dat_type kw) as [[t w]|] eqn:Et; [|reflexivity]. cbn [bind fst].
  assert (Nt : ~ In t ["pclims"; "tiamo_de"; "orgalk_excel"]).
  { unfold read_dat_type, kwarg in Et. unfold text_table in P. destruct (dget "file_type" kw) as [v|].
    - destruct v; try discriminate Et; try (injection Et as <- _; apply mem_str_false; reflexivity).
      destruct (mem_str s file_types); injection Et as <- _; [now apply P|apply mem_str_false; reflexivity].
    - injection Et as <- _; apply mem_str_false; reflexivity. }
  assert (N1 : String.eqb t "orgalk_excel" = false) by (apply String.eqb_neq; intros ->; apply Nt; cbn; tauto).
  assert (N2 : String.eqb t "pclims" = false) by (apply String.eqb_neq; intros ->; apply Nt; cbn; tauto).
  assert (N3 : String.eqb t "tiamo_de" = false) by (apply String.eqb_neq; intros ->; apply Nt; cbn; tauto).
  unfold reader. rewrite N1, N2, N3. unfold read_dat_genfromtxt, read_text. rewrite F, F'. cbn [of_opt bind].
  set (K := filter _ kw).
  assert (Sk : kwarg "skip_header" (VInt 2) K = VInt (Z.of_nat sk)).
  { unfold kwarg, K. rewrite (dget_filter (fun k => negb (String.eqb k "file_type"))). cbn [String.eqb Ascii.eqb Bool.eqb negb]. destruct S as [-> | [-> ->]]; reflexivity. }
  rewrite Sk. cbn [as_int bind]. destruct (check_kwargs _ K); [cbn [bind]|reflexivity]. destruct (as_delim _) as [d|]; [cbn [bind]|reflexivity].
  assert (G : genfromtxt text d (Z.of_nat sk) = genfromtxt text' d (Z.of_nat sk)).
  { unfold genfromtxt. rewrite Nat2Z.id, (data_fields d _ _ D), (data_fields d _ _ D'). reflexivity. }
  rewrite G. reflexivity.
Qed.

Lemma same_reading (e e' : env T) name path c s kw : located kw name path -> same_services e e' ->
  read_dat e path (get_kwargs_for keys_read_dat kw None) = read_dat e' path (get_kwargs_for keys_read_dat kw None) ->
  files_solve e (VStr name) c s kw = files_solve e' (VStr name) c s kw /\ files_calibrate e (VStr name) c s kw = files_calibrate e' (VStr name) c s kw.
Proof.
  destruct e as [f1 x1 s1 k1 y1 o1], e' as [f2 x2 s2 k2 y2 o2]. intros L S R. unfold same_services in S. cbn [e_salts e_equil e_sys_salt e_strat] in S. destruct S as (<- & <- & <- & <-). apply located_join in L.
  assert (F : full_name (VStr name) (without_mode kw) = Ok path) by (rewrite <- L; unfold full_name; now rewrite dget_wm).
  assert (W : get_kwargs_for keys_read_dat (without_mode kw) None = get_kwargs_for keys_read_dat kw None) by (rewrite TitrationProofs.gkf_wm; reflexivity).
  assert (Ld : load (Build_env _ f1 x1 s1 k1 y1 o1) (VStr name) s (without_mode kw) = load (Build_env _ f2 x2 s1 k1 y1 o1) (VStr name) s (without_mode kw)).
  { unfold load. rewrite F. cbn [bind]. rewrite W, R. match goal with |- bind ?x _ = bind ?x _ => destruct x as [d|]; cbn [bind]; [|reflexivity] end.
    destruct (amount_units_dat d s _) as [cv|]; cbn [bind]; [|reflexivity].
    reflexivity. }
  unfold files_solve, files_calibrate. rewrite Ld. split; reflexivity.
Qed.

(* ------------------------------------------------------------------ *)
(** * C133 *)

(* Two texts with the same lines, whatever ends each line in each of them: the same results, for every file type. *)
Theorem C133_line_ends : forall (e e' : env T) name path c s kw lines text text',
  located kw name path -> same_services e e' -> e_excel e path = e_excel e' path ->
  (forall l, In l lines -> one_line l) -> holds lines text -> holds lines text' ->
  e_file e path = Some text -> e_file e' path = Some text' ->
  files_solve e (VStr name) c s kw = files_solve e' (VStr name) c s kw /\
  files_calibrate e (VStr name) c s kw = files_calibrate e' (VStr name) c s kw.
Proof.
  intros e e' name path c s kw lines text text' L S X O Hh Hh' F F'. apply (same_reading e e' name path c s kw L S).
  apply (read_same_lines e e' path _ text text' F F' X). now rewrite (holds_lines _ _ O Hh), (holds_lines _ _ O Hh').
Qed.

(* In a text table, what the header says, blank lines, comments and spaces at either end of a line play no part. *)
Theorem C133_blank_lines_and_comments : forall (e e' : env T) name path c s kw sk header header' body body' contents text text',
  located kw name path -> same_services e e' -> text_table kw ->
  setting kw "skip_header" (VInt 2) (VInt (Z.of_nat sk)) -> length header = sk -> length header' = sk ->
  (forall l, In l header \/ In l header' -> one_line l) ->
  data_of body contents -> data_of body' contents ->
  holds (header ++ body) text -> holds (header' ++ body') text' ->
  e_file e path = Some text -> e_file e' path = Some text' ->
  files_solve e (VStr name) c s kw = files_solve e' (VStr name) c s kw /\
  files_calibrate e (VStr name) c s kw = files_calibrate e' (VStr name) c s kw.
Proof.
  intros e e' name path c s kw sk header header' body body' contents text text' L S P Sk Lh Lh' O D D' Hh Hh' F F'.
  assert (Ob : forall b, data_of b contents -> forall l, In l b -> one_line l).
  { clear. intros b D. induction D as [|x ls cs (C & _) D IH|x c ls cs N (C & _) D IH]; intros l I; [destruct I| |]; (destruct I as [<-|I]; [exact C|now apply IH]). }
  apply (same_reading e e' name path c s kw L S).
  apply (read_same_data e e' path _ text text' sk contents); try assumption.
  - unfold text_table in *. intros v. rewrite PropSupplied.dget_gkf by (cbn; tauto). apply P.
  - unfold setting in *. rewrite PropSupplied.dget_gkf by (cbn; tauto). exact Sk.
  - rewrite (holds_lines (header ++ body)); [|intros l I; apply in_app_iff in I as [I|I]; [apply O; now left|now apply (Ob body D)]|exact Hh].
    rewrite <- Lh, skipn_app, skipn_all, Nat.sub_diag. exact D.
  - rewrite (holds_lines (header' ++ body')); [|intros l I; apply in_app_iff in I as [I|I]; [apply O; now right|now apply (Ob body' D')]|exact Hh'].
    rewrite <- Lh', skipn_app, skipn_all, Nat.sub_diag. exact D'.
Qed.
End R.

(* ------------------------------------------------------------------ *)
(** * Cases *)
#[local] Existing Instance Num_sf.
Definition row133 (a m t : string) : string := (a ++ String tab (m ++ String tab t))%string.
Definition data133 : list string := [row133 "1" "3.5" "25"; row133 "2" "3.6" "25"; row133 "3" "3.7" "25"].
Definition lines133 : list string := ["header"; "header"] ++ data133.
(* Unix, and Windows without a last line end *)
Fixpoint unix (ls : list string) : string := match ls with [] => "" | l :: ls' => (l ++ String nl (unix ls'))%string end.
Fixpoint windows (ls : list string) : string :=
  match ls with [] => "" | [l] => l | l :: ls' => (l ++ String cr (String nl (windows ls')))%string end.
Definition noted133 : list string :=
  [""; ("  " ++ row133 "1" "3.5" "25" ++ " # start")%string; "# changed the burette"; row133 "2" "3.6" "25"; "   "; (row133 "3" "3.7" "25" ++ "#last")%string; ""].
Definition env133 (text : string) : env sf := {|
  e_file := fun p => if String.eqb p "gen.dat" then Some text else None;
  e_excel := fun _ => None; e_salts := e_salts fenv; e_equil := e_equil fenv; e_sys_salt := e_sys_salt fenv; e_strat := e_strat fenv |}.
Definition solve133 (text : string) := files_solve (H := Num_sf flm) (env133 text) (VStr "gen.dat") (VInt 1) (VInt 35) kw29.

Lemma no_in (c : ascii) s : forallb (fun x => negb (Ascii.eqb x c)) (list_of_string s) = true -> ~ In c (list_of_string s).
Proof. intros F I. rewrite forallb_forall in F. specialize (F c I). now rewrite Ascii.eqb_refl in F. Qed.
Lemma one_line_b s : forallb (fun x => negb (Ascii.eqb x nl)) (list_of_string s) && forallb (fun x => negb (Ascii.eqb x cr)) (list_of_string s) = true -> one_line s.
Proof. intros B. apply andb_true_iff in B as [B B']. split; now apply no_in. Qed.
Lemma trimmed_b s : forallb (fun x => negb (Ascii.eqb x "#")) (list_of_string s) && forallb (fun x => negb (Ascii.eqb x " ")) (list_of_string s) = true -> trimmed s.
Proof.
  intros B. apply andb_true_iff in B as [B B']. apply no_in in B, B'. split; [exact B|].
  split; intros a l E ->; apply B'; rewrite E; [now left|apply in_or_app; right; now left].
Qed.
Lemma content_b before c after rest : one_line (before ++ c ++ after ++ rest)%string -> trimmed c ->
  forallb (Ascii.eqb " ") (list_of_string before) && forallb (Ascii.eqb " ") (list_of_string after) = true ->
  rest = "" \/ (exists k, rest = String "#" k) -> content_of (before ++ c ++ after ++ rest)%string c.
Proof.
  intros O Tr B R. apply andb_true_iff in B as [B B']. split; [exact O|]. split; [exact Tr|]. exists before, after, rest.
  rewrite forallb_forall in B, B'. repeat split; [| |exact R]; intros x I; symmetry; apply Ascii.eqb_eq; auto.
Qed.

Lemma data133_ok : data_of data133 data133.
Proof.
  repeat (apply dof_line; [discriminate|match goal with |- content_of ?l ?c => rewrite <- (sapp_nil l) at 1; change (l ++ "")%string with ("" ++ l ++ "" ++ "")%string end;
    apply content_b; [apply one_line_b; reflexivity|apply trimmed_b; reflexivity|reflexivity|now left]|]).
  apply dof_none.
Qed.
Lemma noted133_ok : data_of noted133 data133.
Proof.
  unfold noted133, data133.
  apply dof_skip; [apply (content_b "" "" "" ""); [apply one_line_b; reflexivity|apply trimmed_b; reflexivity|reflexivity|now left]|].
  apply dof_line; [discriminate|apply (content_b "  " (row133 "1" "3.5" "25") " " "# start"); [apply one_line_b; reflexivity|apply trimmed_b; reflexivity|reflexivity|right; eauto]|].
  apply dof_skip; [apply (content_b "" "" "" "# changed the burette"); [apply one_line_b; reflexivity|apply trimmed_b; reflexivity|reflexivity|right; eauto]|].
  apply dof_line; [discriminate|apply (content_b "" (row133 "2" "3.6" "25") "" ""); [apply one_line_b; reflexivity|apply trimmed_b; reflexivity|reflexivity|now left]|].
  apply dof_skip; [apply (content_b "   " "" "" ""); [apply one_line_b; reflexivity|apply trimmed_b; reflexivity|reflexivity|now left]|].
  apply dof_line; [discriminate|apply (content_b "" (row133 "3" "3.7" "25") "" "#last"); [apply one_line_b; reflexivity|apply trimmed_b; reflexivity|reflexivity|right; eauto]|].
  apply dof_skip; [apply (content_b "" "" "" ""); [apply one_line_b; reflexivity|apply trimmed_b; reflexivity|reflexivity|now left]|].
  apply dof_none.
Qed.

Lemma unix_holds ls : holds ls (unix ls).
Proof. induction ls as [|l ls IH]; [apply holds_none|apply holds_lf; exact IH]. Qed.

Example C133_nonvacuous :
  (forall l, In l lines133 -> one_line l) /\ holds lines133 (unix lines133) /\ holds lines133 (windows lines133) /\
  data_of data133 data133 /\ data_of noted133 data133 /\ holds (["1"; "2"] ++ noted133) (unix (["1"; "2"] ++ noted133)) /\
  text_table kw29 /\ setting kw29 "skip_header" (VInt 2) (VInt (Z.of_nat 2)) /\
  is_emf (solve133 (unix lines133)) = true /\ is_emf (solve133 (windows lines133)) = true /\ is_emf (solve133 (unix (["1"; "2"] ++ noted133))) = true /\
  (* a line of tabs is not blank *)
  is_ok (solve133 (unix (lines133 ++ [String tab ""]))) = false.
Proof.
  split. { intros l I. cbn in I. repeat (destruct I as [<-|I]; [apply one_line_b; reflexivity|]). destruct I. }
  split; [apply unix_holds|]. split. { repeat apply holds_crlf. apply holds_open. discriminate. }
  split; [apply data133_ok|]. split; [apply noted133_ok|]. split; [apply unix_holds|].
  split; [intros s E; discriminate E|]. split; [right; split; reflexivity|]. vm_compute. auto.
Qed.

