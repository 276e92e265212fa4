(* PropWhichFile.v -- C113: which file is read; C29: the Gran logic that files.solve is given *)
From Coq Require Import Reals Lra.
From Verif Require Import Files DictLemmas SettingsProofs TableProofs Witness SFNum PropModes PropPure.
Open Scope string_scope.
Open Scope list_scope.

(* ------------------------------------------------------------------ *)
(** * Where a file is: its name, below file_path if that is given and the name is relative *)

Section Where.
Context {T : Type} `{Num T}.

Definition absolute (name : string) : Prop := exists rest, name = ("/" ++ rest)%string.
Definition below (dir name path : string) : Prop :=
  path = (dir ++ "/" ++ name)%string \/ ((dir = "" \/ exists up, dir = (up ++ "/")%string) /\ path = (dir ++ name)%string).
Definition located (kw : kwargs T) (name path : string) : Prop :=
  (dget "file_path" kw = None /\ path = name) \/
  (exists dir, dget "file_path" kw = Some (VStr dir) /\
     ((absolute name /\ path = name) \/ (~ absolute name /\ below dir name path /\
        (* one separator, not two *) ((dir = "" \/ exists up, dir = (up ++ "/")%string) -> path = (dir ++ name)%string)))).

(* the same PyCO2SYS and scipy, but perhaps other files *)
Definition same_services (e e' : env T) : Prop :=
  e_salts e = e_salts e' /\ e_equil e = e_equil e' /\ e_sys_salt e = e_sys_salt e' /\ e_strat e = e_strat e'.

(* ------------------------------------------------------------------ *)
(** * Proofs *)

Lemma ends_with_spec s : ends_with_char "/" s = true <-> exists up, s = (up ++ "/")%string.
Proof.
  induction s as [|a s IH]; cbn [ends_with_char].
  - split; [discriminate|]. intros [[|b u] E]; discriminate.
  - destruct s as [|b s].
    + rewrite Ascii.eqb_eq. split; [intros ->; now exists ""|]. intros [[|c u] E]; [now injection E as ->|].
      injection E as _ E. destruct u; discriminate.
    + rewrite IH. split.
      * intros [u ->]. now exists (String a u).
      * intros [[|c u] E]; [discriminate|]. injection E as _ E. now exists u.
Qed.

Lemma absolute_spec s : startswith s "/" = true <-> absolute s.
Proof.
  unfold startswith, absolute. destruct s as [|a s]; cbn [String.prefix].
  - split; [discriminate|]. intros [r E]. discriminate.
  - destruct (ascii_dec "/" a) as [<-|N].
    + split; [intros _; now exists s|]. destruct s; reflexivity.
    + split; [discriminate|]. intros [r E]. injection E as -> _. congruence.
Qed.

Lemma located_join kw name path : located kw name path -> full_name (VStr name) kw = Ok path.
Proof.
  unfold located, full_name. intros [[-> ->]|(dir & -> & L)]; [reflexivity|]. unfold path_join. f_equal.
  destruct L as [[A ->]|(A & B & One)].
  - apply absolute_spec in A. now rewrite A.
  - destruct (startswith name "/") eqn:S; [apply absolute_spec in S; contradiction|].
    destruct (String.eqb dir "" || ends_with_char "/" dir) eqn:D.
    + symmetry. apply One. apply orb_true_iff in D. destruct D as [D|D]; [left; now apply String.eqb_eq|right; now apply ends_with_spec].
    + apply orb_false_iff in D. destruct D as [D1 D2]. destruct B as [B|[[B|B] _]]; [now symmetry| |].
      * apply String.eqb_neq in D1. contradiction.
      * apply ends_with_spec in B. congruence.
Qed.

(* the location always exists *)
Lemma located_ex kw name : (dget "file_path" kw = None \/ exists d, dget "file_path" kw = Some (VStr d)) -> exists path, located kw name path.
Proof.
  intros [N|[d D]]; [exists name; now left|]. destruct (startswith name "/") eqn:S.
  - exists name. right. exists d. split; [exact D|]. left. split; [now apply absolute_spec|reflexivity].
  - assert (A : ~ absolute name) by (intros A; apply absolute_spec in A; congruence).
    destruct (String.eqb d "" || ends_with_char "/" d) eqn:X.
    + assert (Y : d = "" \/ exists up, d = (up ++ "/")%string).
      { apply orb_true_iff in X. destruct X as [X|X]; [left; now apply String.eqb_eq|right; now apply ends_with_spec]. }
      exists (d ++ name)%string. right. exists d. split; [exact D|]. right. split; [exact A|]. split; [now right|auto].
    + exists (d ++ "/" ++ name)%string. right. exists d. split; [exact D|]. right. split; [exact A|]. split; [now left|].
      intros Y. exfalso. apply orb_false_iff in X. destruct X as [X1 X2]. destruct Y as [Y|Y]; [apply String.eqb_neq in X1; contradiction|].
      apply ends_with_spec in Y. congruence.
Qed.

(* a world with one file *)
Definition one_file (e : env T) (text : option string) (xls : option (list T * list T * list T * list T)) : env T :=
  {| e_file := fun _ => text; e_excel := fun _ => xls; e_salts := e_salts e; e_equil := e_equil e; e_sys_salt := e_sys_salt e; e_strat := e_strat e |}.
Definition no_path (kw : kwargs T) : kwargs T := filter (fun kv => negb (String.eqb (fst kv) "file_path")) kw.

Lemma filter_filter {A} (p q : A -> bool) l : filter p (filter q l) = filter (fun x => q x && p x) l.
Proof. induction l as [|x l IH]; [reflexivity|]. cbn [filter]. destruct (q x); cbn [filter andb]; [destruct (p x)|]; now rewrite IH. Qed.

Lemma gkf_no_path ks kw : mem_str "file_path" ks = false -> get_kwargs_for ks (without_mode kw) None = get_kwargs_for ks (without_mode (no_path kw)) None.
Proof.
  intros N. unfold get_kwargs_for, without_mode, no_path. rewrite !filter_filter. apply filter_ext. intros [k v]. cbn [fst].
  destruct (String.eqb_spec k "file_path") as [->|]; cbn [negb andb]; [|reflexivity]. now rewrite N, andb_false_r.
Qed.

Lemma mode_no_path kw : mode_of (no_path kw) = mode_of kw.
Proof. unfold mode_of, kwarg, no_path. now rewrite (dget_filter (fun k => negb (String.eqb k "file_path"))). Qed.

Lemma dispatch_no_path e text xls m c cv t ks kw :
  dispatch_solve e m c cv t ks (without_mode kw) = dispatch_solve (one_file e text xls) m c cv t ks (without_mode (no_path kw)).
Proof. unfold dispatch_solve. rewrite !(gkf_no_path _ kw) by reflexivity. reflexivity. Qed.
Lemma dispatch_cal_no_path e text xls m c cv t ks kw :
  dispatch_calibrate e m c cv t ks (without_mode kw) = dispatch_calibrate (one_file e text xls) m c cv t ks (without_mode (no_path kw)).
Proof. unfold dispatch_calibrate. rewrite !(gkf_no_path _ kw) by reflexivity. reflexivity. Qed.

Lemma read_one e path kw : read_dat e path kw = read_dat (one_file e (e_file e path) (e_excel e path)) "f" kw.
Proof. unfold read_dat, reader, read_dat_orgalk_excel, read_dat_pclims, read_tiamo_de, read_dat_genfromtxt, read_text. reflexivity. Qed.

Lemma load_one e name path s kw : located kw name path ->
  load e (VStr name) s (without_mode kw) = load (one_file e (e_file e path) (e_excel e path)) (VStr "f") s (without_mode (no_path kw)).
Proof.
  intros L. assert (F : full_name (VStr name) (without_mode kw) = Ok path).
  { apply located_join. unfold located in *. rewrite dget_wm by discriminate. exact L. }
  unfold load. rewrite F. unfold full_name.
  assert (N : dget "file_path" (without_mode (no_path kw)) = None).
  { rewrite dget_wm by discriminate. unfold no_path. now rewrite (dget_filter (fun k => negb (String.eqb k "file_path"))). }
  rewrite N. cbn [bind]. rewrite read_one, !(gkf_no_path _ kw) by reflexivity. reflexivity.
Qed.

Lemma solve_one e name path c s kw : located kw name path ->
  files_solve e (VStr name) c s kw = files_solve (one_file e (e_file e path) (e_excel e path)) (VStr "f") c s (no_path kw).
Proof.
  intros L. unfold files_solve. rewrite (load_one e name path s kw L), mode_no_path.
  destruct (load _ _ _ _) as [[cv [totals ks]]|]; cbn [bind]; [|reflexivity].
  destruct (as_num c) as [x|]; cbn [bind]; [|reflexivity]. rewrite (gkf_no_path keys_titrant_totals kw) by reflexivity.
  destruct (add_titrant_totals _ _ _ _ _ _) as [t [[]|]]; cbn [bind]; [|reflexivity]. apply dispatch_no_path.
Qed.
Lemma calibrate_one e name path c s kw : located kw name path ->
  files_calibrate e (VStr name) c s kw = files_calibrate (one_file e (e_file e path) (e_excel e path)) (VStr "f") c s (no_path kw).
Proof.
  intros L. unfold files_calibrate. rewrite (load_one e name path s kw L), mode_no_path.
  destruct (load _ _ _ _) as [[cv [totals ks]]|]; cbn [bind]; [|reflexivity].
  destruct (as_num c) as [x|]; cbn [bind]; [|reflexivity]. apply dispatch_cal_no_path.
Qed.

(* ------------------------------------------------------------------ *)
(** * C113 *)

(* Solving and calibrating depend on the file system only through the one file at the path: with the
   same contents there, wherever the file is and whatever else exists, the results are the same. *)
Theorem C113_one_file_is_read : forall (e e' : env T) name name' path path' c s kw kw',
  NoDup (dkeys kw) -> NoDup (dkeys kw') ->
  located kw name path -> located kw' name' path' ->
  (forall k, k <> "file_path" -> dget k kw = dget k kw') ->
  same_services e e' -> e_file e path = e_file e' path' -> e_excel e path = e_excel e' path' ->
  req (files_solve e (VStr name) c s kw) (files_solve e' (VStr name') c s kw') /\
  req (files_calibrate e (VStr name) c s kw) (files_calibrate e' (VStr name') c s kw').
Proof.
  intros e e' name name' path path' c s kw kw' W W' L L' K (S1 & S2 & S3 & S4) F X.
  rewrite (solve_one e name path c s kw L), (solve_one e' name' path' c s kw' L'), (calibrate_one e name path c s kw L), (calibrate_one e' name' path' c s kw' L').
  assert (E : one_file e (e_file e path) (e_excel e path) = one_file e' (e_file e' path') (e_excel e' path')).
  { unfold one_file. now rewrite S1, S2, S3, S4, F, X. }
  assert (D : deq (no_path kw) (no_path kw')).
  { intros k. unfold no_path. rewrite !(dget_filter (fun k => negb (String.eqb k "file_path"))).
    destruct (String.eqb_spec k "file_path"); [reflexivity|]. cbn [negb]. now apply K. }
  rewrite E. split; [apply files_solve_deq|apply files_calibrate_deq]; auto; now apply wfd_filter.
Qed.

(* If there is no such file, both raise. *)
Theorem C113_missing_file_raises : forall (e : env T) name path c s kw,
  located kw name path -> e_file e path = None -> e_excel e path = None ->
  (exists err, files_solve e (VStr name) c s kw = Err err) /\ (exists err, files_calibrate e (VStr name) c s kw = Err err).
Proof.
  intros e name path c s kw L F X. rewrite (solve_one e name path c s kw L), (calibrate_one e name path c s kw L).
  set (e1 := one_file e (e_file e path) (e_excel e path)).
  assert (R : forall k, exists err, read_dat e1 "f" k = Err err).
  { intros k. unfold read_dat. destruct (read_dat_type k) as [tw|]; cbn [bind]; [|eauto].
    unfold reader, read_dat_orgalk_excel, read_dat_pclims, read_tiamo_de, read_dat_genfromtxt, read_text, e1, one_file. cbn [e_file e_excel]. rewrite F, X. cbn [of_opt].
    repeat match goal with |- context [String.eqb (fst tw) ?x] => destruct (String.eqb (fst tw) x) end;
      repeat match goal with |- context [check_kwargs ?a ?b] => destruct (check_kwargs a b); cbn [bind]; eauto | |- context [as_delim ?b] => destruct (as_delim b); cbn [bind]; eauto
        | |- context [as_int ?b] => destruct (as_int b); cbn [bind]; eauto end. }
  assert (Ld : forall k, exists err, load e1 (VStr "f") s k = Err err).
  { intros k. unfold load. destruct (full_name (VStr "f") k) as [p|]; cbn [bind]; [|eauto].
    destruct (R (get_kwargs_for keys_read_dat k None)) as [err Er]. assert (Ep : read_dat e1 p (get_kwargs_for keys_read_dat k None) = Err err) by (rewrite <- Er; rewrite read_one; reflexivity).
    rewrite Ep. cbn [bind]. eauto. }
  destruct (Ld (without_mode (no_path kw))) as [err El]. unfold files_solve, files_calibrate. rewrite El. cbn [bind]. eauto.
Qed.
End Where.

(* ------------------------------------------------------------------ *)
(** * C29 for files.solve *)

Section Logic.
Context {T : Type} `{Num T}.

Lemma single_logic st (c : T) tm emf temps M totals ks ai ei logic pmin pmax n r :
  solve_emf st c tm emf temps M totals ks ai false ei logic pmin pmax n = Ok r -> gran_guesses tm emf temps M c n logic = Ok (se_ggr r).
Proof.
  unfold solve_emf. intros E. inv_binds E. injection E as <-. unfold solve_emf_once in A.
  destruct (gran_guesses tm emf temps M c n logic) as [g|]; cbn [bind] in A; [|discriminate]. inv_binds A. injection A as <-. reflexivity.
Qed.

(* the Gran results that files.solve gives for a single solve in the EMF mode are those of the requested logic,
   for the masses, EMFs and temperatures of the file *)
Theorem C29_files_solve_partial : forall (e : env T) f c s kw r logic,
  mode_is kw "emf" -> dget "double" kw = Some (VBool false) -> dget "gran_logic" kw = Some (VStr logic) ->
  files_solve e f c s kw = Ok (SrEmf r) ->
  exists cv tk mol n, load e f s (without_mode kw) = Ok (cv, tk) /\ as_num c = Ok mol /\ number kw "titrant_normality" (nofZ 1) n /\
    gran_guesses (cv_titrant_mass cv) (cv_measurement cv) (cv_temperature cv) (cv_analyte_mass cv) mol n logic = Ok (se_ggr r).
Proof.
  intros e f c s kw r logic M D G E. destruct (C50_mode_selects_solver e f c s kw "emf" _ M E) as (cv & totals & ks & mol & t & L & C & _ & S).
  unfold solved_as in S. cbv zeta in S. destruct S as (pmin & pmax & n & (W1 & W2 & W3) & r' & ai & ei & double & Er & _ & _ & Fl & Sv).
  exists cv, (totals, ks), mol, n. split; [exact L|]. split; [exact C|]. split; [exact W3|].
  unfold flag in Fl. rewrite D in Fl. cbn in Fl. subst double. unfold kwarg in Sv. rewrite G in Sv. cbn [logic_of] in Sv.
  assert (Q : r = r') by congruence. subst r'. eapply single_logic. exact Sv.
Qed.
End Logic.

(* ------------------------------------------------------------------ *)
(** * Examples *)
#[local] Existing Instance Num_sf.
Definition kw29 : kwargs sf :=
  [("analyte_mass", VInt 1); ("titrant_amount_unit", VStr "kg"); ("double", VBool false); ("gran_logic", VStr "legacy")].
Definition text29 : string :=
  (fline ["header"] ++ fline ["header"] ++ fline ["1"; "3.5"; "25"] ++ fline ["2"; "3.6"; "25"] ++ fline ["3"; "3.7"; "25"])%string.
Definition env29 (dir : string) : env sf := {|
  e_file := fun p => if String.eqb p (dir ++ "gen.dat")%string then Some text29 else None;
  e_excel := fun _ => None; e_salts := e_salts fenv; e_equil := e_equil fenv; e_sys_salt := e_sys_salt fenv; e_strat := e_strat fenv |}.
Definition is_emf {T} (r : res (solve_result T)) : bool := match r with Ok (SrEmf _) => true | _ => false end.
Definition with_dir (dir : string) : kwargs sf := ("file_path", VStr dir) :: kw29.
Definition solve29 (dir name : string) (kw : kwargs sf) := files_solve (H := Num_sf flm) (env29 dir) (VStr name) (VInt 1) (VInt 35) kw.

(* a single solve with the legacy Gran logic succeeds *)
Example C29_files_solve_nonvacuous : mode_is kw29 "emf" /\ is_emf (solve29 "" "gen.dat" kw29) = true.
Proof. split; [reflexivity|]. vm_compute. reflexivity. Qed.

(* the same file in the working directory, in data/, and given by an absolute name *)
Example C113_nonvacuous :
  located kw29 "gen.dat" "gen.dat" /\ located (with_dir "data") "gen.dat" "data/gen.dat" /\
  located (with_dir "data/") "gen.dat" "data/gen.dat" /\ located (with_dir "data") "/x/gen.dat" "/x/gen.dat" /\
  is_emf (solve29 "data/" "gen.dat" (with_dir "data")) = true /\ is_emf (solve29 "data/" "gen.dat" (with_dir "data/")) = true /\
  is_emf (solve29 "/x/" "/x/gen.dat" (with_dir "data")) = true /\ is_ok (solve29 "data/" "gen.dat" kw29) = false.
Proof.
  assert (NA : ~ absolute "gen.dat") by (intros [r E]; discriminate).
  split; [now left|]. split.
  { right. exists "data". split; [reflexivity|]. right. split; [exact NA|]. split; [now left|]. intros [E|[u E]]; [discriminate|]. exfalso.
    assert (X : ends_with_char "/" "data" = true) by (apply ends_with_spec; eauto). discriminate. }
  split. { right. exists "data/". split; [reflexivity|]. right. split; [exact NA|]. split; [right; split; [right; now exists "data"|reflexivity]|reflexivity]. }
  split. { right. exists "data". split; [reflexivity|]. left. split; [now exists "x/gen.dat"|reflexivity]. }
  vm_compute. auto.
Qed.

Print Assumptions C113_one_file_is_read.
Print Assumptions C113_missing_file_raises.
Print Assumptions C29_files_solve_partial.
