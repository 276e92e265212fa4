(* PropMetadata.v -- C72-C75, C91: VINDTA .dbs metadata *)
From Verif Require Import Metadata DictLemmas DatasetProofs TextProofs SpecMetadata PropDataset.
Open Scope string_scope.
Open Scope list_scope.

(* ------------------------------------------------------------------ *)
(** * Text of integers *)

(* reading an integer from the start of a text *)
Definition read_Z (l : list ascii) : Z * list ascii :=
  match l with
  | c :: l' => if Ascii.eqb c "-" then let (ds, r) := take_digits l' in ((- digits_value ds)%Z, r)
               else let (ds, r) := take_digits l in (digits_value ds, r)
  | [] => (0%Z, [])
  end.

Definition no_digit_first (l : list ascii) : Prop :=
  match l with [] => True | c :: _ => is_digit c = false end.

Lemma read_string_of_Z z rest : no_digit_first rest ->
  read_Z (list_of_string (string_of_Z z) ++ rest) = (z, rest).
Proof.
  intros N. unfold string_of_Z. destruct (z <? 0)%Z eqn:E.
  - apply Z.ltb_lt in E. destruct (int_digits_spec (- z) ltac:(lia)) as (V & D & _).
    cbn [list_of_string app]. rewrite los_sol. cbn [read_Z]. change (Ascii.eqb "-" "-") with true. cbv iota.
    rewrite take_digits_app by assumption. rewrite V. f_equal. lia.
  - apply Z.ltb_ge in E. destruct (int_digits_spec z ltac:(lia)) as (V & D & Ne).
    rewrite los_sol. destruct (int_digits z) as [|c ds] eqn:I; [contradiction|].
    cbn [app read_Z]. assert (Dc := D). cbn in Dc. apply andb_true_iff in Dc as [Dc _].
    destruct (Ascii.eqb_spec c "-") as [->|Nc]; [discriminate Dc|].
    change (c :: ds ++ rest) with ((c :: ds) ++ rest). rewrite take_digits_app by assumption. now rewrite V.
Qed.

Lemma los_inj s t : list_of_string s = list_of_string t -> s = t.
Proof. intros E. rewrite <- (sol_los s), <- (sol_los t). now rewrite E. Qed.

Lemma Z_text_split z z' r r' : no_digit_first (list_of_string r) -> no_digit_first (list_of_string r') ->
  (string_of_Z z ++ r)%string = (string_of_Z z' ++ r')%string -> z = z' /\ r = r'.
Proof.
  intros N N' E. apply (f_equal list_of_string) in E. rewrite !los_app in E.
  apply (f_equal read_Z) in E. rewrite !read_string_of_Z in E by assumption. injection E as -> E.
  split; [reflexivity|]. now apply los_inj.
Qed.

Lemma sapp_inv_tail s t u : (s ++ u)%string = (t ++ u)%string -> s = t.
Proof.
  intros E. apply (f_equal list_of_string) in E. rewrite !los_app in E. apply los_inj. now apply app_inv_tail in E.
Qed.

Lemma sapp_inv_head s t u : (u ++ s)%string = (u ++ t)%string -> s = t.
Proof.
  intros E. apply (f_equal list_of_string) in E. rewrite !los_app in E. apply los_inj. now apply app_inv_head in E.
Qed.

(* ------------------------------------------------------------------ *)
(** * What get_VINDTA_filenames does to one row *)

Section P.
Context {T : Type} `{Num T}.

(* the row as it is when the loop reaches it *)
Definition prepped (ds : frame T) (r : row T) : row T :=
  let r1 := dset "file_name" (VStr "") r in
  let r2 := if has "file_good" ds then r1 else dset "file_good" (VBool true) r1 in
  if existsb (fun r => is_str "CRM" (cell "run_type" r)) (f_rows ds) && negb (has "alkalinity_certified" ds)
  then dset "alkalinity_certified" (VNum nnan) r2 else r2.

Lemma has_set_col c k f (ds : frame T) : has k (set_col c f ds) = (has k ds || String.eqb k c)%bool.
Proof. unfold has. rewrite set_col_cols. apply mem_addc. Qed.

Lemma existsb_ext {A} (p q : A -> bool) l : (forall x, p x = q x) -> existsb p l = existsb q l.
Proof. intros E. induction l as [|x l IH]; [reflexivity|]. cbn. now rewrite E, IH. Qed.

Lemma existsb_map {A B} (f : A -> B) p l : existsb p (map f l) = existsb (fun x => p (f x)) l.
Proof. induction l as [|x l IH]; [reflexivity|]. cbn. now rewrite IH. Qed.

Lemma cell_dset c k v (r : row T) : c <> k -> cell c (dset k v r) = cell c r.
Proof. intros N. unfold cell. now rewrite dget_dset_other. Qed.

Lemma prepped_rows (ds : frame T) :
  f_rows
     (let ds1 := set_col "file_name" (fun _ => VStr "") ds in
      let ds2 := if has "file_good" ds1 then ds1 else set_col "file_good" (fun _ => VBool true) ds1 in
      if existsb (fun r => is_str "CRM" (cell "run_type" r)) (f_rows ds2) && negb (has "alkalinity_certified" ds2)
      then set_col "alkalinity_certified" (fun _ => VNum nnan) ds2 else ds2) = map (prepped ds) (f_rows ds).
Proof.
  cbv zeta. rewrite has_set_col. cbn [String.eqb]. rewrite orb_false_r. unfold prepped.
    destruct (has "file_good" ds) eqn:G; rewrite !has_set_col; cbn [String.eqb]; rewrite !orb_false_r;
      cbn [set_col f_rows]; rewrite !existsb_map.
    - match goal with |- context [existsb ?p (f_rows ds)] =>
        lazymatch p with context [@dset] =>
          replace (existsb p (f_rows ds)) with (existsb (fun r => is_str "CRM" (cell "run_type" r)) (f_rows ds))
            by (apply existsb_ext; intros x; now rewrite !cell_dset) end end.
      destruct (existsb _ _ && _)%bool; cbn [set_col f_rows]; rewrite ?map_map; reflexivity.
    - match goal with |- context [existsb ?p (f_rows ds)] =>
        lazymatch p with context [@dset] =>
          replace (existsb p (f_rows ds)) with (existsb (fun r => is_str "CRM" (cell "run_type" r)) (f_rows ds))
            by (apply existsb_ext; intros x; now rewrite !cell_dset) end end.
      destruct (existsb _ _ && _)%bool; cbn [set_col f_rows]; rewrite ?map_map; reflexivity. 
Qed.

Lemma vindta_inv show fmt (ds ds' : frame T) : get_VINDTA_filenames show fmt ds = Ok ds' ->
  n_rows ds' = n_rows ds /\
  forall i r, nth_error (f_rows ds) i = Some r ->
    exists r', nth_error (f_rows ds') i = Some r' /\ vindta_row show fmt (prepped ds r) = Ok r'.
Proof.
  unfold get_VINDTA_filenames. cbv zeta. intros E. apply DictLemmas.bind_ok in E. destruct E as (rows & E & R).
  injection R as <-. cbn [f_rows]. 
  pose proof (prepped_rows ds) as X.
  cbv zeta in X. rewrite X in E. clear X. apply mapM_ok in E. destruct E as [L E].
  rewrite map_length in L. split; [exact L|]. intros i r I.
  apply E. now apply map_nth_error.
Qed.

(* in terms of cells *)
Lemma prepped_get (ds : frame T) r c :
  ~ In c ["file_name"; "file_good"; "alkalinity_certified"] -> dget c (prepped ds r) = dget c r.
Proof.
  intros N. assert (c <> "file_name" /\ c <> "file_good" /\ c <> "alkalinity_certified") as (N1 & N2 & N3)
    by (repeat split; intros ->; apply N; cbn; tauto).
  unfold prepped. destruct (existsb _ _ && _)%bool, (has "file_good" ds); rewrite !dget_dset_other by assumption; reflexivity.
Qed.

Lemma prepped_good (ds : frame T) r : is_table ds -> In r (f_rows ds) ->
  dget "file_good" (prepped ds r) = Some (match dget "file_good" r with Some v => v | None => VBool true end).
Proof.
  intros W I. pose proof (wff_get ds "file_good" r W I) as G. unfold dmem in G.
  unfold prepped. rewrite G.
  destruct (existsb _ _ && _)%bool, (dget "file_good" r) eqn:D;
    repeat first [rewrite dget_dset_same | rewrite dget_dset_other by discriminate]; congruence.
Qed.

End P.

(* ------------------------------------------------------------------ *)
(** * C72, C73 file names *)

Section Names.
Context {T : Type} `{Num T}.

Lemma value_row (ds : frame T) i c v : value ds i c = Some v ->
  exists r, nth_error (f_rows ds) i = Some r /\ dget c r = Some v.
Proof. unfold value. destruct (nth_error (f_rows ds) i); [eauto|discriminate]. Qed.

Lemma value_at (ds : frame T) i r c : nth_error (f_rows ds) i = Some r -> value ds i c = dget c r.
Proof. unfold value. now intros ->. Qed.

Lemma format_default s c n d b :
  format_named default_filename_format [("s", s); ("c", c); ("n", n); ("d", d); ("b", b)] =
  Ok (s ++ "-" ++ c ++ "  " ++ n ++ "  (" ++ d ++ ")" ++ b ++ ".dat")%string.
Proof. reflexivity. Qed.

(* the name given to a bottle row, and what happens to the row's other cells *)
Lemma bottle_result show (ds ds' : frame T) i x :
  get_VINDTA_filenames show default_filename_format ds = Ok ds' -> bottle_row ds i x ->
  exists r r', nth_error (f_rows ds) i = Some r /\ nth_error (f_rows ds') i = Some r' /\
    r' = dset "file_name" (VStr (bottle_name x)) (prepped ds r).
Proof.
  intros E (B0 & B1 & B2 & B3 & B4 & B5).
  destruct (value_row _ _ _ _ B0) as (r & R & _). assert (Va := fun c => value_at ds i r c R).
  rewrite Va in B0, B1, B2, B3, B4, B5.
  apply vindta_inv in E. destruct E as [_ E]. destruct (E i r R) as (r' & R' & V).
  exists r, r'. split; [exact R|]. split; [exact R'|].
  unfold vindta_row, attr in V.
  rewrite !prepped_get in V by (cbn; intuition discriminate).
  rewrite B0, B1, B2, B3, B4, B5 in V.
  cbn [of_opt bind is_str String.eqb Ascii.eqb Bool.eqb py_int py_str] in V.
  rewrite format_default in V. cbn [bind] in V. injection V as <-. reflexivity.
Qed.

Lemma crm_result show fmt (ds ds' : frame T) i b n :
  get_VINDTA_filenames show fmt ds = Ok ds' -> crm_row ds i b n ->
  exists r r' cert, nth_error (f_rows ds) i = Some r /\ nth_error (f_rows ds') i = Some r' /\
    dget "cert. CRM AT" r = Some cert /\
    r' = dset "alkalinity_certified" cert (dset "file_name" (VStr (crm_name b n)) (prepped ds r)).
Proof.
  intros E (B0 & B1 & B2).
  destruct (value_row _ _ _ _ B0) as (r & R & _). assert (Va := fun c => value_at ds i r c R).
  rewrite Va in B0, B1, B2.
  apply vindta_inv in E. destruct E as [_ E]. destruct (E i r R) as (r' & R' & V).
  unfold vindta_row, attr, item in V.
  rewrite !prepped_get in V by (cbn; intuition discriminate).
  rewrite B0, B1, B2 in V.
  cbn [of_opt bind is_str String.eqb Ascii.eqb Bool.eqb py_int py_str] in V.
  destruct (dget "cert. CRM AT" r) as [cert|] eqn:C; [|discriminate V].
  cbn [of_opt bind] in V. injection V as <-.
  exists r, (dset "alkalinity_certified" cert (dset "file_name" (VStr (crm_name b n)) (prepped ds r))), cert. auto.
Qed.

Lemma bottle_name_inj x y : bottle_name x = bottle_name y -> x = y.
Proof.
  unfold bottle_name. destruct x as [s c n d b], y as [s' c' n' d' b']. cbn [station cast niskin depth bottle].
  intros E. apply Z_text_split in E as [-> E]; [|reflexivity|reflexivity]. apply sapp_inv_head in E.
  apply Z_text_split in E as [-> E]; [|reflexivity|reflexivity]. apply sapp_inv_head in E.
  apply Z_text_split in E as [-> E]; [|reflexivity|reflexivity]. apply sapp_inv_head in E.
  apply Z_text_split in E as [-> E]; [|reflexivity|reflexivity]. apply sapp_inv_head in E.
  apply sapp_inv_tail in E as ->. reflexivity.
Qed.

Lemma bottle_name_not_crm x t : bottle_name x <> ("CRM" ++ t)%string.
Proof.
  intros E. apply (f_equal list_of_string) in E. unfold bottle_name in E. rewrite los_app in E.
  unfold string_of_Z in E. destruct (station x <? 0)%Z eqn:L; [discriminate E|].
  apply Z.ltb_ge in L. destruct (int_digits_spec _ L) as (_ & D & Ne). rewrite los_sol in E.
  destruct (int_digits (station x)) as [|c l]; [contradiction|]. cbn in D. apply andb_true_iff in D as [D _].
  cbn in E. injection E as -> _. discriminate D.
Qed.

Theorem C72_bottle_names : forall show (ds ds' : frame T),
  get_VINDTA_filenames show default_filename_format ds = Ok ds' ->
  (forall i x, bottle_row ds i x -> value ds' i "file_name" = Some (VStr (bottle_name x))) /\
  (forall i j x y, bottle_row ds i x -> bottle_row ds j y ->
     value ds' i "file_name" = value ds' j "file_name" -> x = y) /\
  (forall i j x b n, bottle_row ds i x -> crm_row ds j b n ->
     value ds' i "file_name" <> value ds' j "file_name").
Proof.
  intros show ds ds' E.
  assert (N : forall i x, bottle_row ds i x -> value ds' i "file_name" = Some (VStr (bottle_name x))).
  { intros i x B. destruct (bottle_result show ds ds' i x E B) as (r & r' & _ & R' & ->).
    rewrite (value_at _ _ _ _ R'). apply dget_dset_same. }
  split; [exact N|]. split.
  - intros i j x y Bx By Q. rewrite (N i x Bx), (N j y By) in Q. injection Q as Q. now apply bottle_name_inj.
  - intros i j x b n Bx Bc Q. rewrite (N i x Bx) in Q.
    destruct (crm_result show _ ds ds' j b n E Bc) as (r & r' & cert & _ & R' & _ & ->).
    rewrite (value_at _ _ _ _ R'), dget_dset_other, dget_dset_same in Q by discriminate.
    injection Q as Q. exact (bottle_name_not_crm x _ Q).
Qed.

(* CRM rows whose batches have names of the same length, which is what is missing from C73 *)
Theorem C73_same_width_partial : forall show fmt (ds ds' : frame T) i j b n b' n',
  get_VINDTA_filenames show fmt ds = Ok ds' ->
  crm_row ds i b n -> crm_row ds j b' n' -> String.length b = String.length b' ->
  value ds' i "file_name" = Some (VStr (crm_name b n)) /\
  (value ds' i "file_name" = value ds' j "file_name" -> b = b' /\ n = n') /\
  (exists cert, value ds i "cert. CRM AT" = Some cert /\ value ds' i "alkalinity_certified" = Some cert).
Proof.
  intros show fmt ds ds' i j b n b' n' E B B' L.
  destruct (crm_result show _ ds ds' i b n E B) as (r & r' & cert & R & R' & C & ->).
  destruct (crm_result show _ ds ds' j b' n' E B') as (q & q' & cert' & Q & Q' & C' & ->).
  rewrite (value_at _ _ _ _ R'), (value_at _ _ _ _ Q').
  rewrite !(dget_dset_other "file_name"), !dget_dset_same by discriminate.
  split; [reflexivity|]. split.
  - intros K. rewrite dget_dset_other, dget_dset_same in K by discriminate. injection K as K.
    rewrite <- !sapp_assoc in K. apply sapp_inv_tail in K.
    clear - L K. revert b' L K. induction b as [|c b IH]; intros [|c' b'] L K; try discriminate; [auto|].
    cbn in K. injection K as -> K. cbn in L. destruct (IH b' ltac:(lia) K) as [-> ->]. auto.
  - exists cert. rewrite (value_at _ _ _ _ R). split; [exact C|]. rewrite (value_at _ _ _ _ R'). apply dget_dset_same.
Qed.

Theorem C73_names_collide_refuted : exists show (ds ds' : frame T) i j b n b' n',
  get_VINDTA_filenames show default_filename_format ds = Ok ds' /\ is_table ds /\
  crm_row ds i b n /\ crm_row ds j b' n' /\ b <> b' /\ n <> n' /\
  value ds' i "file_name" = value ds' j "file_name".
Proof.
  set (mk := fun b n => [("run_type", VStr "CRM"); ("batch", VStr b); ("bottle", VStr n); ("cert. CRM AT", VInt 2200)] : row T).
  exists (fun _ => ""), {| f_cols := ["run_type"; "batch"; "bottle"; "cert. CRM AT"];
                           f_rows := [mk "18" "1234"; mk "181" "234"] |}.
  eexists. exists 0%nat, 1%nat, "18", "1234", "181", "234".
  split; [reflexivity|]. split.
  { split; [repeat constructor; cbn; intuition discriminate|]. cbn. intros r [<-|[<-|[]]]; reflexivity. }
  repeat split; discriminate.
Qed.

(* ------------------------------------------------------------------ *)
(** * C74 rows of other run types *)

Theorem C74_file_good : forall show fmt (ds ds' : frame T), is_table ds ->
  get_VINDTA_filenames show fmt ds = Ok ds' ->
  n_rows ds' = n_rows ds /\
  forall i v, value ds i "run_type" = Some v ->
    ((v = VStr "bottle" \/ v = VStr "CRM") ->
     value ds' i "file_good" = match value ds i "file_good" with Some g => Some g | None => Some (VBool true) end) /\
    (v <> VStr "bottle" -> v <> VStr "CRM" ->
     value ds' i "file_good" = Some (VBool false) /\ value ds' i "file_name" = Some (VStr "")).
Proof.
  intros show fmt ds ds' W E. apply vindta_inv in E. destruct E as [L E]. split; [exact L|].
  intros i v V. destruct (value_row _ _ _ _ V) as (r & R & Rt). destruct (E i r R) as (r' & R' & X).
  assert (I : In r (f_rows ds)) by (eapply nth_error_In; exact R).
  rewrite !(value_at _ _ _ _ R'), (value_at _ _ _ _ R). unfold vindta_row, attr at 1 in X.
  rewrite prepped_get, Rt in X by (cbn; intuition discriminate). cbn [of_opt bind] in X.
  assert (K : forall s, is_str s v = true <-> v = VStr s).
  { intros s. destruct v; cbn; split; intros Q; try discriminate; [apply String.eqb_eq in Q; congruence|].
    injection Q as ->. apply String.eqb_refl. }
  split.
  - intros Hv.
    assert (G : dget "file_good" r' = dget "file_good" (prepped ds r)).
    { destruct (is_str "bottle" v) eqn:Kb.
      - repeat (apply DictLemmas.bind_ok in X; destruct X as (? & _ & X)). injection X as <-.
        apply dget_dset_other. discriminate.
      - destruct (is_str "CRM" v) eqn:Kc.
        + repeat (apply DictLemmas.bind_ok in X; destruct X as (? & _ & X)). injection X as <-.
          rewrite !dget_dset_other by discriminate. reflexivity.
        + destruct Hv as [Hv|Hv]; apply K in Hv; congruence. }
    rewrite G, (prepped_good ds r W I). now destruct (dget "file_good" r).
  - intros Nb Nc. destruct (is_str "bottle" v) eqn:Kb; [apply K in Kb; contradiction|].
    destruct (is_str "CRM" v) eqn:Kc; [apply K in Kc; contradiction|].
    injection X as <-. split; [apply dget_dset_same|]. rewrite dget_dset_other by discriminate.
    unfold prepped. destruct (existsb _ _ && _)%bool, (has "file_good" ds);
      rewrite ?(dget_dset_other "file_name") by discriminate; apply dget_dset_same.
Qed.

(* such a row stays blank when the table, with any other columns added or changed, is solved *)
Theorem C74_other_run_types_blank : forall show fmt e kw (ds ds' ds2 d : frame T) i v, is_table ds ->
  get_VINDTA_filenames show fmt ds = Ok ds' ->
  value ds i "run_type" = Some v -> v <> VStr "bottle" -> v <> VStr "CRM" ->
  is_table ds2 -> value ds2 i "file_good" = value ds' i "file_good" ->
  solve e kw ds2 = Ok d -> is_blank d i.
Proof.
  intros show fmt e kw ds ds' ds2 d i v W E V Nb Nc W2 G S.
  destruct (C74_file_good show fmt ds ds' W E) as [_ P]. destruct (P i v V) as [_ Q].
  destruct (Q Nb Nc) as [Q1 _]. rewrite Q1 in G.
  apply (C52_solve_ignores_bad_files e e kw ds2 d d i W2); [repeat split|exact S|exact S|].
  left. exists (VBool false). auto.
Qed.

(* ------------------------------------------------------------------ *)
(** * C75 dates *)

(* a text without the given character *)
Definition without (c : ascii) (s : string) : Prop := all_chars (fun a => negb (Ascii.eqb a c)) s = true.

Lemma split_date mm dd yy : without "/" mm -> without "/" dd -> without "/" yy ->
  split_on "/" (mm ++ "/" ++ dd ++ "/" ++ yy)%string = [mm; dd; yy].
Proof.
  intros M D Y.
  assert (K : forall s t, without "/" s -> split_on "/" (s ++ String "/" t)%string = s :: split_on "/" t).
  { intros s t W. apply split_on_app. exact W. }
  change (mm ++ "/" ++ dd ++ "/" ++ yy)%string with (mm ++ String "/" (dd ++ String "/" yy))%string.
  rewrite !K by assumption. rewrite split_on_none by exact Y. reflexivity.
Qed.

Theorem C75_dates : forall dt (r : row T) mm dd yy time,
  dget "date" r = Some (VStr (mm ++ "/" ++ dd ++ "/" ++ yy)%string) -> dget "time" r = Some (VStr time) ->
  without "/" mm -> without "/" dd -> without "/" yy ->
  dbs_datetime dt r = dt ("20" ++ yy ++ "-" ++ mm ++ "-" ++ dd ++ "T" ++ time)%string.
Proof.
  intros dt r mm dd yy time D Tm M Dd Y. unfold dbs_datetime, item. rewrite D, Tm. cbn [of_opt bind].
  rewrite split_date by assumption. reflexivity.
Qed.

Theorem C75_missing_date : forall dt (r : row T) v,
  dget "date" r = Some v -> (forall s, v <> VStr s) -> dbs_datetime dt r = Ok VNone.
Proof.
  intros dt r v D N. unfold dbs_datetime, item. rewrite D. cbn [of_opt bind].
  destruct v; try reflexivity. exfalso. exact (N s eq_refl).
Qed.

(* different dates have different stamps (all fields have two digits) *)
Theorem C75_stamps_differ : forall mm dd yy time mm' dd' yy' time',
  String.length mm = 2%nat -> String.length dd = 2%nat -> String.length yy = 2%nat ->
  String.length mm' = 2%nat -> String.length dd' = 2%nat -> String.length yy' = 2%nat ->
  ("20" ++ yy ++ "-" ++ mm ++ "-" ++ dd ++ "T" ++ time)%string =
  ("20" ++ yy' ++ "-" ++ mm' ++ "-" ++ dd' ++ "T" ++ time')%string ->
  mm = mm' /\ dd = dd' /\ yy = yy' /\ time = time'.
Proof.
  intros mm dd yy time mm' dd' yy' time' L1 L2 L3 L1' L2' L3' E. apply sapp_inv_head in E.
  assert (K : forall a b s t, String.length a = String.length b -> (a ++ s)%string = (b ++ t)%string -> a = b /\ s = t).
  { induction a as [|c a IH]; intros [|c' b] s t L Q; try discriminate; [auto|].
    cbn in Q. injection Q as -> Q. cbn in L. destruct (IH b s t ltac:(lia) Q) as [-> ->]. auto. }
  apply K in E as [-> E]; [|congruence]. apply sapp_inv_head in E.
  apply K in E as [-> E]; [|congruence]. apply sapp_inv_head in E.
  apply K in E as [-> E]; [|congruence]. apply sapp_inv_head in E. auto.
Qed.

End Names.

(* ------------------------------------------------------------------ *)
(** * C91 read_dbs *)

Section ReadDbs.
Context {T : Type} `{Num T}.

(* columns that read_dbs writes *)
Definition dbs_columns : list string :=
  ["run_type"; "run type"; "dbs_fname"; "analysis_datetime"; "analysis_datenum"; "file_name"; "file_good";
   "alkalinity_certified"; "analyte_volume"; "analyte_mass"; "file_path"].

Lemma value_set_col c k f (ds : frame T) i : c <> k -> value (set_col k f ds) i c = value ds i c.
Proof.
  intros N. unfold value. cbn [set_col f_rows]. rewrite nth_error_map.
  destruct (nth_error (f_rows ds) i); [|reflexivity]. cbn. now rewrite dget_dset_other.
Qed.

Lemma value_set_col_same c f (ds : frame T) i r : nth_error (f_rows ds) i = Some r ->
  value (set_col c f ds) i c = Some (f r).
Proof. intros R. unfold value. cbn [set_col f_rows]. rewrite nth_error_map, R. cbn. apply dget_dset_same. Qed.

Lemma nrows_set_col c f (ds : frame T) : n_rows (set_col c f ds) = n_rows ds.
Proof. apply map_length. Qed.

Lemma value_set_col_list c k vs (ds : frame T) i : length vs = n_rows ds -> c <> k ->
  value (set_col_list k vs ds) i c = value ds i c.
Proof.
  intros L N. unfold value, n_rows in *. cbn [set_col_list f_rows]. revert vs i L. generalize (f_rows ds).
  induction l as [|x l IH]; intros [|v vs] [|i] L; try discriminate; try reflexivity.
  - cbn. now rewrite dget_dset_other.
  - cbn in L |- *. apply IH. lia.
Qed.

Lemma nrows_set_col_list k vs (ds : frame T) : length vs = n_rows ds -> n_rows (set_col_list k vs ds) = n_rows ds.
Proof.
  unfold n_rows. cbn [set_col_list f_rows]. generalize (f_rows ds). intros l. revert vs.
  induction l as [|x l IH]; intros [|v vs] L; try discriminate; [reflexivity|]. cbn. f_equal. apply IH. cbn in L. lia.
Qed.

Lemma value_rename_other c old new (ds : frame T) i : c <> old -> c <> new ->
  value (rename_col old new ds) i c = value ds i c.
Proof.
  intros N1 N2. unfold value. cbn [rename_col f_rows]. revert i. generalize (f_rows ds).
  induction l as [|r l IHl]; intros [|i]; try reflexivity; [|exact (IHl i)]. cbn. clear IHl.
  induction r as [|[k v] r IH]; [reflexivity|]. cbn [map dget fst snd].
  destruct (String.eqb_spec k old) as [->|N].
  - destruct (String.eqb_spec c new) as [->|_]; [contradiction|].
    destruct (String.eqb_spec c old) as [->|_]; [contradiction|]. exact IH.
  - destruct (String.eqb c k); [reflexivity|]. exact IH.
Qed.

Lemma value_rename_new old new (ds : frame T) i : value ds i new = None ->
  value (rename_col old new ds) i new = value ds i old.
Proof.
  unfold value. cbn [rename_col f_rows]. revert i. generalize (f_rows ds).
  induction l as [|r l IHl]; intros [|i]; try reflexivity; [|exact (IHl i)]. cbn. clear IHl.
  induction r as [|[k v] r IH]; [reflexivity|]. cbn [map dget fst snd].
  destruct (String.eqb_spec new k) as [->|N]; [discriminate|]. intros D.
  destruct (String.eqb_spec k old) as [->|N'].
  - rewrite !String.eqb_refl. reflexivity.
  - destruct (String.eqb_spec new k) as [->|_]; [contradiction|].
    destruct (String.eqb_spec old k) as [->|_]; [contradiction|]. now apply IH.
Qed.

Lemma vindta_other show fmt (ds ds' : frame T) : get_VINDTA_filenames show fmt ds = Ok ds' ->
  n_rows ds' = n_rows ds /\
  forall i c, ~ In c ["file_name"; "file_good"; "alkalinity_certified"] -> value ds' i c = value ds i c.
Proof.
  intros E. apply vindta_inv in E. destruct E as [L E]. split; [exact L|]. intros i c N.
  destruct (nth_error (f_rows ds) i) as [r|] eqn:R.
  - destruct (E i r R) as (r' & R' & X). rewrite (value_at _ _ _ _ R'), (value_at _ _ _ _ R).
    rewrite <- (prepped_get ds r c N).
    assert (c <> "file_name" /\ c <> "file_good" /\ c <> "alkalinity_certified") as (N1 & N2 & N3)
      by (repeat split; intros ->; apply N; cbn; tauto).
    unfold vindta_row in X. apply DictLemmas.bind_ok in X. destruct X as (v & _ & X).
    destruct (is_str "bottle" v).
    + repeat (apply DictLemmas.bind_ok in X; destruct X as (? & _ & X)). injection X as <-.
      now rewrite dget_dset_other.
    + destruct (is_str "CRM" v).
      * repeat (apply DictLemmas.bind_ok in X; destruct X as (? & _ & X)). injection X as <-.
        now rewrite !dget_dset_other.
      * injection X as <-. now rewrite dget_dset_other.
  - unfold value. rewrite R. apply nth_error_None in R.
    destruct (nth_error (f_rows ds') i) eqn:R'; [|reflexivity].
    assert (i < n_rows ds')%nat by (apply nth_error_Some; congruence). unfold n_rows in *. lia.
Qed.

Theorem C91_read_dbs : forall show dt datenum fname volume mass path fmt (table ds : frame T),
  read_dbs show dt datenum fname volume mass path fmt table = Ok ds ->
  (forall i, value table i "run_type" = None) ->
  n_rows ds = n_rows table /\
  (forall i c, ~ In c dbs_columns -> value ds i c = value table i c) /\
  (forall i, value ds i "run_type" = value table i "run type") /\
  forall i, (i < n_rows table)%nat ->
    value ds i "dbs_fname" = Some (VStr fname) /\
    (mass = VNone -> value ds i "analyte_volume" = Some volume /\ value ds i "analyte_mass" = value table i "analyte_mass") /\
    (mass <> VNone -> value ds i "analyte_mass" = Some mass /\
                      value ds i "analyte_volume" = value table i "analyte_volume") /\
    (path <> VNone -> value ds i "file_path" = Some path).
Proof.
  intros show dt datenum fname volume mass path fmt table ds E NR.
  unfold read_dbs in E. cbv zeta in E. set (ds0 := set_col "dbs_fname" (fun _ => VStr fname) (rename_col "run type" "run_type" table)) in E.
  apply DictLemmas.bind_ok in E. destruct E as (stamps & Es & E). apply mapM_ok in Es. destruct Es as [Ls _].
  apply DictLemmas.bind_ok in E. destruct E as (ds3 & E3 & E). apply vindta_other in E3. destruct E3 as [L3 V3].
  set (ds2 := set_col "analysis_datenum" _ _) in *.
  assert (L0 : n_rows ds0 = n_rows table) by (unfold ds0; rewrite nrows_set_col; apply map_length).
  assert (L2 : n_rows ds2 = n_rows table).
  { unfold ds2. rewrite nrows_set_col, nrows_set_col_list by exact Ls. exact L0. }
  assert (V2 : forall i c, c <> "analysis_datenum" -> c <> "analysis_datetime" -> value ds2 i c = value ds0 i c).
  { intros i c N1 N2. unfold ds2. rewrite value_set_col by exact N1. now apply value_set_col_list. }
  set (ds4 := match mass with VNone => set_col "analyte_volume" (fun _ => volume) ds3
              | m => set_col "analyte_mass" (fun _ => m) ds3 end) in *.
  assert (L4 : n_rows ds4 = n_rows table).
  { unfold ds4. destruct mass; rewrite nrows_set_col; congruence. }
  assert (E' : ds = ds4 /\ path = VNone \/ exists p, path = VStr p /\ ds = set_col "file_path" (fun _ => VStr p) ds4).
  { destruct path; try discriminate; injection E as <-; [left; auto|right; eexists; split; reflexivity]. }
  assert (L : n_rows ds = n_rows table).
  { destruct E' as [[-> _]|(p & _ & ->)]; [exact L4|now rewrite nrows_set_col]. }
  assert (Vp : forall i c, c <> "file_path" -> value ds i c = value ds4 i c).
  { intros i c N. destruct E' as [[-> _]|(p & _ & ->)]; [reflexivity|now apply value_set_col]. }
  assert (V4 : forall i c, c <> "analyte_volume" -> c <> "analyte_mass" -> value ds4 i c = value ds3 i c).
  { intros i c N1 N2. unfold ds4. destruct mass; now apply value_set_col. }
  assert (Vt : forall i c, ~ In c dbs_columns -> value ds0 i c = value table i c).
  { intros i c N. unfold dbs_columns in N. unfold ds0. rewrite value_set_col by (intros ->; apply N; cbn; tauto).
    apply value_rename_other; intros ->; apply N; cbn; tauto. }
  assert (Nth : forall (d : frame T) i, (i < n_rows d)%nat -> exists r, nth_error (f_rows d) i = Some r).
  { intros d i I. apply nth_error_Some in I. destruct (nth_error (f_rows d) i); [eauto|contradiction]. }
  assert (Vm : forall i c, In c ["analyte_volume"; "analyte_mass"] -> value ds3 i c = value table i c).
  { intros i c I. assert (c = "analyte_volume" \/ c = "analyte_mass") as [->| ->] by (cbn in I; intuition congruence);
      rewrite V3 by (cbn; intuition discriminate); rewrite V2 by discriminate;
      unfold ds0; rewrite value_set_col by discriminate; apply value_rename_other; discriminate. }
  split; [exact L|]. split; [|split].
  - intros i c N. rewrite Vp, V4, V3, V2; try (intros ->; apply N; cbn; tauto); [now apply Vt|].
    intros I. apply N. cbn in I |- *. intuition.
  - intros i. rewrite Vp, V4, V3, V2 by (try discriminate; cbn; intuition discriminate).
    unfold ds0. rewrite value_set_col by discriminate. now apply value_rename_new.
  - intros i I. split; [|split; [|split]].
    + rewrite Vp, V4, V3, V2 by (try discriminate; cbn; intuition discriminate).
      destruct (Nth (rename_col "run type" "run_type" table) i) as (r & R).
      { unfold n_rows. cbn [rename_col f_rows]. now rewrite map_length. }
      unfold ds0. exact (value_set_col_same "dbs_fname" (fun _ => VStr fname) _ i r R).
    + intros Em. rewrite !Vp by discriminate. unfold ds4. rewrite Em.
      destruct (Nth ds3 i) as (r & R); [congruence|]. split.
      * exact (value_set_col_same "analyte_volume" (fun _ => volume) _ i r R).
      * rewrite value_set_col by discriminate. apply Vm. cbn; tauto.
    + intros Em. rewrite !Vp by discriminate.
      assert (D : ds4 = set_col "analyte_mass" (fun _ => mass) ds3) by (unfold ds4; destruct mass; congruence).
      rewrite D. destruct (Nth ds3 i) as (r & R); [congruence|]. split.
      * exact (value_set_col_same "analyte_mass" (fun _ => mass) _ i r R).
      * rewrite value_set_col by discriminate. apply Vm. cbn; tauto.
    + intros Np. destruct E' as [[_ C]|(p & -> & ->)]; [contradiction|].
      destruct (Nth ds4 i) as (r & R); [congruence|].
      exact (value_set_col_same "file_path" (fun _ => VStr p) _ i r R).
Qed.

End ReadDbs.

Print Assumptions C72_bottle_names.
Print Assumptions C73_same_width_partial.
Print Assumptions C73_names_collide_refuted.
Print Assumptions C74_file_good.
Print Assumptions C74_other_run_types_blank.
Print Assumptions C75_dates.
Print Assumptions C75_missing_date.
Print Assumptions C75_stamps_differ.
Print Assumptions C91_read_dbs.

(* ------------------------------------------------------------------ *)
(** * A table that meets the hypotheses *)

Section Examples.
Context {T : Type} `{Num T}.

Definition ex_row (rt bt b : string) : row T :=
  [("run type", VStr rt); ("station", VInt 660); ("cast", VInt (-1)); ("niskin", VInt 2); ("depth", VInt 10);
   ("bottle", VStr b); ("batch", VStr bt); ("cert. CRM AT", VInt 2200); ("date", VStr "03/24/21"); ("time", VStr "13:05")].
Definition ex_table : frame T :=
  {| f_cols := dkeys (ex_row "" "" "");
     f_rows := [ex_row "bottle" "0" "12"; ex_row "CRM" "181" "0234"; ex_row "test" "0" "1"] |}.

Example C91_nonvacuous : exists ds,
  read_dbs (fun _ => "") (fun s => Ok (VStr s)) (fun v => v) "x.dbs" (VInt 100) VNone (VStr "data/") default_filename_format
    ex_table = Ok ds /\
  value ds 0 "file_name" = Some (VStr "660--1  2  (10)12.dat") /\
  value ds 1 "file_name" = Some (VStr "CRM1810234.dat") /\
  value ds 1 "analysis_datetime" = Some (VStr "2021-03-24T13:05") /\
  value ds 2 "file_good" = Some (VBool false).
Proof. eexists. split; [reflexivity|]. repeat split. Qed.

Example C72_nonvacuous : exists ds,
  get_VINDTA_filenames (fun _ => "") default_filename_format (rename_col "run type" "run_type" ex_table) = Ok ds /\
  is_table (rename_col "run type" "run_type" ex_table) /\
  bottle_row (rename_col "run type" "run_type" ex_table) 0
    {| station := 660; cast := -1; niskin := 2; depth := 10; bottle := "12" |} /\
  crm_row (rename_col "run type" "run_type" ex_table) 1 "181" "0234" /\
  value (rename_col "run type" "run_type" ex_table) 2 "run_type" = Some (VStr "test").
Proof.
  eexists. split; [reflexivity|]. split.
  { split; [cbn; repeat constructor; cbn; intuition discriminate|]. cbn. intros r [<-|[<-|[<-|[]]]]; reflexivity. }
  repeat split.
Qed.

Definition ex_crms : frame T :=
  rename_col "run type" "run_type"
    {| f_cols := dkeys (ex_row "" "" ""); f_rows := [ex_row "CRM" "181" "234"; ex_row "CRM" "182" "34"] |}.

Example C73_nonvacuous_partial :
  crm_row ex_crms 0 "181" "234" /\ crm_row ex_crms 1 "182" "34" /\ String.length "181" = String.length "182" /\
  exists ds, get_VINDTA_filenames (fun _ => "") default_filename_format ex_crms = Ok ds /\
             value ds 0 "file_name" = Some (VStr "CRM181234.dat") /\ value ds 1 "file_name" = Some (VStr "CRM18234.dat").
Proof. repeat split. eexists. split; [reflexivity|]. repeat split. Qed.

(* a table read from the names above can be solved, and its third row, of run type test, stays blank *)
Example C74_nonvacuous : exists ds,
  get_VINDTA_filenames (fun _ => "") default_filename_format (rename_col "run type" "run_type" ex_table) = Ok ds /\
  is_table ds /\ value ds 2 "file_good" = Some (VBool false) /\ value ds 0 "file_good" = Some (VBool true).
Proof.
  eexists. split; [reflexivity|]. split.
  { split; [cbn; repeat constructor; cbn; intuition discriminate|]. cbn. intros r [<-|[<-|[<-|[]]]]; reflexivity. }
  repeat split.
Qed.

Example C75_nonvacuous : without "/" "03" /\ without "/" "24" /\ without "/" "21" /\
  dget "date" (ex_row "bottle" "0" "12") = Some (VStr ("03" ++ "/" ++ "24" ++ "/" ++ "21")%string).
Proof. repeat split. Qed.

End Examples.
