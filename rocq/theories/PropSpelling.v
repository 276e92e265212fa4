(* PropSpelling.v -- C130: VINDTA file names and the ways station, cast, Niskin and depth numbers may be written *)
From Coq Require Import Reals Lra Lia.
From Verif Require Import Metadata DictLemmas DatasetProofs TextProofs SpecMetadata PropDataset PropMetadata PropText XR XRLemmas.
Open Scope R_scope.
Open Scope string_scope.
Open Scope list_scope.

(* ------------------------------------------------------------------ *)
(** * Specification *)

(* z is x without its fractional part *)
Definition whole_part (x : R) (z : Z) : Prop :=
  (0 <= x -> IZR z <= x < IZR z + 1) /\ (x <= 0 -> IZR z - 1 < x <= IZR z).

Definition blanks (s : string) : Prop := all_chars is_space s = true.
Definition zeros (s : string) : Prop := all_chars (fun c => Ascii.eqb c "0") s = true.

(* the ways a table may hold the whole number z: as an integer, as a float with any fractional part, or as
   text with an optional sign, leading zeros and blanks around it *)
Inductive written (z : Z) : val xr -> Prop :=
| as_int : written z (VInt z)
| as_float x : whole_part x z -> written z (VNum (Fin x))
| as_text a sign o b : blanks a -> blanks b -> zeros o ->
    (sign = "-" /\ (z <= 0)%Z \/ (sign = "+" \/ sign = "") /\ (0 <= z)%Z) ->
    written z (VStr (a ++ sign ++ o ++ string_of_Z (Z.abs z) ++ b)%string).

(* a bottle row whose numbers are written in any of these ways *)
Definition spelled_row (ds : frame xr) (i : nat) (x : sample) : Prop :=
  value ds i "run_type" = Some (VStr "bottle") /\
  (exists v, value ds i "station" = Some v /\ written (station x) v) /\
  (exists v, value ds i "cast" = Some v /\ written (cast x) v) /\
  (exists v, value ds i "niskin" = Some v /\ written (niskin x) v) /\
  (exists v, value ds i "depth" = Some v /\ written (depth x) v) /\
  value ds i "bottle" = Some (VStr (bottle x)).

(* ------------------------------------------------------------------ *)
(** * int() *)

Lemma trunc_whole x z : whole_part x z -> ntrunc (Fin x) = z.
Proof.
  intros [P N]. unfold ntrunc. cbn [nround NumXR]. unfold x_round. change (10 ^ 0) with 1. rewrite Rmult_1_r.
  pose proof (round_even_close x) as C. destruct (round_even_sign x) as [S1 S2].
  assert (C' : - / 2 <= IZR (round_even x) - x <= / 2) by (unfold Rabs in C; destruct (Rcase_abs _); lra).
  set (r := round_even x) in *. clearbody r. clear C.
  rewrite !fin_Z. change (@n0 xr NumXR) with (Fin (Q2R 0)). 
  replace (Q2R 0) with 0 by (unfold Q2R; cbn; lra).
  cbn [nleb nltb NumXR]. unfold x_leb, x_ltb, x_eqb, rltb, reqb.
  assert (U : forall a b : Z, IZR a < IZR b + 1 -> IZR b < IZR a + 1 -> a = b).
  { intros a b L1 L2. rewrite <- plus_IZR in L1, L2. apply lt_IZR in L1, L2. lia. }
  destruct (Rlt_dec 0 x) as [L|L]; cbn [orb].
  - destruct (P ltac:(lra)). destruct (Rlt_dec x (IZR r)); apply U; rewrite ?minus_IZR; lra.
  - destruct (Req_EM_T 0 x) as [E|E]; cbn [orb].
    + destruct (P ltac:(lra)). destruct (Rlt_dec x (IZR r)); apply U; rewrite ?minus_IZR; lra.
    + destruct (N ltac:(lra)). destruct (Rlt_dec (IZR r) x); apply U; rewrite ?plus_IZR; lra.
Qed.

Lemma lstrip_blanks p a s : all_chars p a = true -> lstrip p (a ++ s)%string = lstrip p s.
Proof.
  induction a as [|c a IH]; intros E; [reflexivity|]. cbn in E. apply andb_true_iff in E as [E1 E2].
  cbn [String.append lstrip]. rewrite E1. auto.
Qed.

Lemma srev_app_s s t : srev (s ++ t)%string = (srev t ++ srev s)%string.
Proof.
  apply los_inj. rewrite los_app, !srev_spec, !los_sol, los_app, rev_app_distr. reflexivity.
Qed.

Lemma strip_blanks a m b : blanks a -> blanks b -> m <> "" -> all_chars (fun c => negb (is_space c)) m = true ->
  strip is_space (a ++ m ++ b)%string = m.
Proof.
  intros A B Ne Em. unfold strip. rewrite lstrip_blanks by exact A.
  assert (L : lstrip is_space (m ++ b)%string = (m ++ b)%string).
  { destruct m as [|c m]; [contradiction|]. cbn in Em. apply andb_true_iff in Em as [E _]. cbn [String.append lstrip].
    apply negb_true_iff in E. now rewrite E. }
  rewrite L, srev_app_s, lstrip_blanks by (rewrite srev_chars; exact B).
  rewrite lstrip_none by (rewrite srev_chars; exact Em). apply srev_srev.
Qed.

Lemma digits_zeros o l : zeros o -> digits_value (list_of_string o ++ l) = digits_value l.
Proof.
  unfold zeros. intros Z. rewrite all_chars_forallb in Z. induction (list_of_string o) as [|c r IH]; [reflexivity|].
  cbn in Z. apply andb_true_iff in Z as [Zc Zr]. apply Ascii.eqb_eq in Zc. subst c.
  unfold digits_value in *. cbn [app fold_left]. change (0 * 10 + digit_val "0")%Z with 0%Z. exact (IH Zr).
Qed.

Lemma zeros_digits o : zeros o -> forallb is_digit (list_of_string o) = true.
Proof.
  unfold zeros. rewrite all_chars_forallb. induction (list_of_string o) as [|c r IH]; [reflexivity|]. intros Z.
  cbn in Z. apply andb_true_iff in Z as [Zc Zr]. apply Ascii.eqb_eq in Zc. subst c. cbn. auto.
Qed.

Lemma not_space_digits l : forallb is_digit l = true -> forallb (fun c => negb (is_space c)) l = true.
Proof.
  induction l as [|c l IH]; [reflexivity|]. cbn. intros E. apply andb_true_iff in E as [E1 E2]. rewrite (IH E2), andb_true_r.
  unfold is_digit in E1. unfold is_space. apply andb_true_iff in E1 as [E1 E3]. apply Nat.leb_le in E1, E3.
  rewrite negb_true_iff. apply orb_false_iff. split; [apply Nat.eqb_neq; lia|].
  apply andb_false_iff. right. apply Nat.leb_gt. lia.
Qed.

Lemma text_int z a sign o b : blanks a -> blanks b -> zeros o ->
  (sign = "-" /\ (z <= 0)%Z \/ (sign = "+" \/ sign = "") /\ (0 <= z)%Z) ->
  parse_int (a ++ sign ++ o ++ string_of_Z (Z.abs z) ++ b)%string = Some z.
Proof.
  intros A B O S. destruct (int_digits_spec (Z.abs z) ltac:(lia)) as (V & D & Ne).
  set (l := list_of_string o ++ int_digits (Z.abs z)).
  assert (Dl : forallb is_digit l = true) by (unfold l; rewrite forallb_app, D, zeros_digits by exact O; reflexivity).
  assert (Vl : digits_value l = Z.abs z) by (unfold l; rewrite digits_zeros by exact O; exact V).
  assert (Nl : l <> []) by (unfold l; destruct (list_of_string o); [exact Ne|discriminate]).
  assert (Sg : exists c, sign = "" \/ sign = String c "" /\ is_space c = false).
  { destruct S as [[-> _]|[[->| ->] _]]; [exists "-"%char; auto|exists "+"%char; auto|exists "+"%char; auto]. }
  assert (Q : (a ++ sign ++ o ++ string_of_Z (Z.abs z) ++ b)%string = (a ++ (sign ++ string_of_list l) ++ b)%string).
  { rewrite !sapp_assoc. do 2 f_equal. rewrite <- sapp_assoc. f_equal. apply los_inj.
    rewrite los_app, los_sol. unfold l, string_of_Z. destruct (Z.ltb_spec (Z.abs z) 0); [lia|]. now rewrite los_sol. }
  unfold parse_int. rewrite Q, strip_blanks.
  - assert (T : take_digits l = (l, [])) by (rewrite <- (app_nil_r l) at 1; apply take_digits_app; [exact Dl|exact I]).
    destruct S as [[-> Hz]|[[->| ->] Hz]]; cbn [String.append list_of_string]; rewrite ?los_sol.
    + change (Ascii.eqb "-" "-") with true. cbv iota. rewrite T. destruct l; [contradiction|]. rewrite Vl. cbn [neg_if]. f_equal. lia.
    + change (Ascii.eqb "+" "-") with false. change (Ascii.eqb "+" "+") with true. cbv iota. rewrite T. destruct l; [contradiction|].
      rewrite Vl. cbn [neg_if]. f_equal. lia.
    + destruct l as [|c r]; [contradiction|]. assert (Dc := Dl). cbn in Dc. apply andb_true_iff in Dc as [Dc _].
      destruct (Ascii.eqb_spec c "-") as [->|_]; [discriminate Dc|]. destruct (Ascii.eqb_spec c "+") as [->|_]; [discriminate Dc|].
      rewrite T, Vl. cbn [neg_if]. f_equal. lia.
  - exact A.
  - exact B.
  - destruct Sg as [c [->|[-> _]]]; [|discriminate]. destruct l; [contradiction|discriminate].
  - rewrite all_chars_app. apply andb_true_iff. split.
    + destruct Sg as [c [->|[-> Hc]]]; [reflexivity|]. cbn. now rewrite Hc.
    + rewrite all_chars_forallb, los_sol. apply not_space_digits. exact Dl.
Qed.

Lemma written_int z v : written z v -> py_int v = Ok z.
Proof.
  intros [|x W|a sign o b A B O S]; cbn [py_int].
  - reflexivity.
  - change (nisfinite (Fin x)) with true. cbv iota. f_equal. now apply trunc_whole.
  - rewrite (text_int z a sign o b A B O S). reflexivity.
Qed.

(* ------------------------------------------------------------------ *)
(** * File names *)

Lemma spelled_row_ok show (ds : frame xr) i x r :
  nth_error (f_rows ds) i = Some r -> spelled_row ds i x ->
  vindta_row show default_filename_format (prepped ds r) = Ok (dset "file_name" (VStr (bottle_name x)) (prepped ds r)).
Proof.
  intros R (B0 & (v1 & B1 & W1) & (v2 & B2 & W2) & (v3 & B3 & W3) & (v4 & B4 & W4) & B5).
  assert (Va := fun c => value_at ds i r c R). rewrite Va in B0, B1, B2, B3, B4, B5.
  apply written_int in W1, W2, W3, W4.
  unfold vindta_row, attr. rewrite !prepped_get by (cbn; intuition discriminate).
  rewrite B0, B1, B2, B3, B4, B5. cbn [of_opt bind is_str String.eqb Ascii.eqb Bool.eqb].
  rewrite W1. cbn [bind]. rewrite W2. cbn [bind]. rewrite W3. cbn [bind]. rewrite W4. cbn [bind py_str].
  rewrite format_default. reflexivity.
Qed.

(** However the numbers are written, the file name is the one of the whole numbers they stand for: two rows get the
    same name exactly when they stand for the same sample.  In particular digits after the point are lost, so samples
    whose depths differ by less than that are taken from one and the same file. *)
Theorem C130_spelling_does_not_matter : forall show (ds ds' : frame xr),
  get_VINDTA_filenames show default_filename_format ds = Ok ds' ->
  (forall i x, spelled_row ds i x -> value ds' i "file_name" = Some (VStr (bottle_name x))) /\
  (forall i j x y, spelled_row ds i x -> spelled_row ds j y ->
     (value ds' i "file_name" = value ds' j "file_name" <-> x = y)).
Proof.
  intros show ds ds' E.
  assert (N : forall i x, spelled_row ds i x -> value ds' i "file_name" = Some (VStr (bottle_name x))).
  { intros i x B. destruct (value_row _ _ _ _ (proj1 B)) as (r & R & _).
    apply vindta_inv in E. destruct E as [_ E]. destruct (E i r R) as (r' & R' & V).
    rewrite (spelled_row_ok show ds i x r R B) in V. injection V as V. rewrite (value_at _ _ _ _ R'), <- V. apply dget_dset_same. }
  split; [exact N|]. intros i j x y Bx By. rewrite (N i x Bx), (N j y By). split.
  - intros Q. injection Q as Q. now apply bottle_name_inj.
  - intros ->. reflexivity.
Qed.

(** A table of such rows always gets its names: no spelling raises an error. *)
Theorem C130_always_named : forall show (ds : frame xr),
  (forall i, (i < n_rows ds)%nat -> exists x, spelled_row ds i x) ->
  exists ds', get_VINDTA_filenames show default_filename_format ds = Ok ds'.
Proof.
  intros show ds A.
  assert (M : exists rows, mapM (vindta_row show default_filename_format) (map (prepped ds) (f_rows ds)) = Ok rows).
  { assert (S : forall r, In r (f_rows ds) -> exists r', vindta_row show default_filename_format (prepped ds r) = Ok r').
    { intros r I. apply In_nth_error in I as [i I].
      destruct (A i) as [x X]; [unfold n_rows; apply nth_error_Some; congruence|].
      eexists. exact (spelled_row_ok show ds i x r I X). }
    revert S. generalize (f_rows ds). intros f. induction f as [|r l IH]; intros S; [exists []; reflexivity|].
    destruct (S r (or_introl eq_refl)) as [r' Er]. destruct IH as [rows Es]; [intros q I; apply S; now right|].
    exists (r' :: rows). cbn [map mapM]. rewrite Er. cbn [bind]. rewrite Es. reflexivity. }
  destruct M as [rows M]. unfold get_VINDTA_filenames. cbv zeta.
  pose proof (prepped_rows ds) as X. cbv zeta in X. rewrite X, M. cbn [bind]. eauto.
Qed.

(** A bottle row with a number that is missing (nan) or infinite stops the reading of the whole table. *)
Theorem C130_missing_number_stops : forall show fmt (ds : frame xr) i c v,
  value ds i "run_type" = Some (VStr "bottle") ->
  In c ["station"; "cast"; "niskin"; "depth"] ->
  value ds i c = Some v -> (v = VNone \/ v = VNum NaN \/ v = VNum PInf \/ v = VNum NInf) ->
  exists e, get_VINDTA_filenames show fmt ds = Err e.
Proof.
  intros show fmt ds i c v B C V Bad.
  destruct (get_VINDTA_filenames show fmt ds) as [ds'|e] eqn:E; [|eauto]. exfalso.
  destruct (value_row _ _ _ _ B) as (r & R & _). assert (Va := fun c => value_at ds i r c R). rewrite Va in B, V.
  apply vindta_inv in E. destruct E as [_ E]. destruct (E i r R) as (r' & _ & K).
  assert (P : exists e, py_int v = Err e) by (destruct Bad as [->|[->|[->| ->]]]; eexists; reflexivity).
  destruct P as [e P].
  unfold vindta_row, attr in K. rewrite !prepped_get in K by (cbn; intuition discriminate).
  rewrite B in K. cbn [of_opt bind is_str String.eqb Ascii.eqb Bool.eqb] in K.
  cbn in C. destruct C as [<-|[<-|[<-|[<-|[]]]]]; rewrite V in K;
    repeat first [ progress cbn [of_opt bind] in K
                 | rewrite P in K
                 | match type of K with context [of_opt ?o _] => destruct o end
                 | match type of K with context [py_int ?w] => destruct (py_int w) end
                 | discriminate K ].
Qed.

(* ------------------------------------------------------------------ *)
(** * Concrete cases *)

Definition sp_row (st ca ni de : val xr) : row xr :=
  [("run_type", VStr "bottle"); ("station", st); ("cast", ca); ("niskin", ni); ("depth", de); ("bottle", VStr "A")].
Definition sp_table : frame xr :=
  {| f_cols := dkeys (sp_row VNone VNone VNone VNone);
     f_rows := [sp_row (VInt 660) (VInt (-1)) (VNum (Fin 7.5)) (VNum (Fin 10.2));
                sp_row (VStr " +0660 ") (VStr "-01") (VStr "7") (VNum (Fin 10.7));
                sp_row (VNum (Fin (-660.9))) (VInt 1) (VInt 7) (VInt 10)] |}.

Definition sp_1 : sample := {| station := 660; cast := -1; niskin := 7; depth := 10; bottle := "A" |}.
Definition sp_2 : sample := {| station := -660; cast := 1; niskin := 7; depth := 10; bottle := "A" |}.

Lemma sp_0_ok : spelled_row sp_table 0 sp_1.
Proof.
  split; [reflexivity|]. split; [eexists; split; [reflexivity|apply as_int]|]. split; [eexists; split; [reflexivity|apply as_int]|].
  split; [eexists; split; [reflexivity|apply as_float; cbn [niskin sp_1]; split; intros; lra]|].
  split; [eexists; split; [reflexivity|apply as_float; cbn [depth sp_1]; split; intros; lra]|]. reflexivity.
Qed.

Lemma sp_1_ok : spelled_row sp_table 1 sp_1.
Proof.
  split; [reflexivity|].
  split; [exists (VStr " +0660 "); split; [reflexivity|apply (as_text 660 " " "+" "0" " "); try reflexivity; right; split; [auto|discriminate]]|].
  split; [exists (VStr "-01"); split; [reflexivity|apply (as_text (-1) "" "-" "0" ""); try reflexivity; left; split; [reflexivity|discriminate]]|].
  split; [exists (VStr "7"); split; [reflexivity|apply (as_text 7 "" "" "" ""); try reflexivity; right; split; [auto|discriminate]]|].
  split; [eexists; split; [reflexivity|apply as_float; cbn [depth sp_1]; split; intros; lra]|]. reflexivity.
Qed.

Lemma sp_2_ok : spelled_row sp_table 2 sp_2.
Proof.
  split; [reflexivity|].
  split; [eexists; split; [reflexivity|apply as_float; cbn [station sp_2]; split; intros; lra]|].
  split; [eexists; split; [reflexivity|apply as_int]|]. split; [eexists; split; [reflexivity|apply as_int]|].
  split; [eexists; split; [reflexivity|apply as_int]|]. reflexivity.
Qed.

Example C130_nonvacuous : exists ds',
  get_VINDTA_filenames (fun _ => "") default_filename_format sp_table = Ok ds' /\
  value ds' 0 "file_name" = Some (VStr "660--1  7  (10)A.dat") /\
  value ds' 1 "file_name" = Some (VStr "660--1  7  (10)A.dat") /\
  value ds' 2 "file_name" = Some (VStr "-660-1  7  (10)A.dat").
Proof.
  destruct (C130_always_named (fun _ => "") sp_table) as [ds' E].
  { intros [|[|[|i]]] L; [exists sp_1; exact sp_0_ok|exists sp_1; exact sp_1_ok|exists sp_2; exact sp_2_ok|].
    unfold n_rows in L. cbn in L. lia. }
  exists ds'. split; [exact E|]. destruct (C130_spelling_does_not_matter _ _ _ E) as [N _].
  split; [exact (N 0%nat _ sp_0_ok)|]. split; [exact (N 1%nat _ sp_1_ok)|exact (N 2%nat _ sp_2_ok)].
Qed.

Example C130_missing_nonvacuous :
  let ds := {| f_cols := dkeys (sp_row VNone VNone VNone VNone); f_rows := [sp_row (VInt 1) (VInt 1) (VInt 1) (VNum NaN)] |} in
  value ds 0 "run_type" = Some (VStr "bottle") /\ value ds 0 "depth" = Some (VNum NaN) /\
  get_VINDTA_filenames (fun _ => "") default_filename_format ds = Err ValueError.
Proof. repeat split. Qed.

