(* PropAppend.v -- C147: several titrations written to one file with mode "a" *)
From Coq Require Import Reals Lra Lia.
From Verif Require Import TextProofs SpecText XRLemmas PropText PropCrashWrite.
Open Scope R_scope.
Open Scope string_scope.
Open Scope list_scope.

(** Small specification: a titration is three columns of equal length. *)
Record titration_data T := { td_a : list T; td_m : list T; td_t : list T }.
Arguments td_a {T}. Arguments td_m {T}. Arguments td_t {T}.

Section Append.
Context {T : Type} `{Num T}.

(* one call of write_dat(path, ..., mode="a") after the other *)
Fixpoint append_all (f : fs) (path line0 line1 : string) (da dm dt : nat)
  (ts : list (titration_data T)) : fs :=
  match ts with
  | [] => f
  | d :: ts' =>
      append_all (fst (write_dat f path (td_a d) (td_m d) (td_t d) line0 line1 ModeA da dm dt))
        path line0 line1 da dm dt ts'
  end.

(* the lines of the file *)
Definition lines_for (line0 line1 : string) (da dm dt : nat) (d : titration_data T) : list string :=
  line0 :: line1 :: data_rows da dm dt (td_a d) (td_m d) (td_t d).

Lemma join_app l1 l2 : join_nl (l1 ++ l2) = (join_nl l1 ++ join_nl l2)%string.
Proof.
  induction l1 as [|l l1 IH]; [reflexivity|]. cbn [app join_nl]. rewrite IH, sapp_assoc. reflexivity.
Qed.

Lemma append_content path line0 line1 da dm dt ts : forall (f : fs) ls,
  f path = Some (join_nl ls) ->
  append_all f path line0 line1 da dm dt ts path
  = Some (join_nl (ls ++ concat (map (lines_for line0 line1 da dm dt) ts))).
Proof.
  induction ts as [|d ts IH]; intros f ls E; cbn [append_all map concat].
  - now rewrite app_nil_r.
  - rewrite app_assoc. apply IH. unfold write_dat. rewrite E. cbn [fst]. unfold fs_write.
    rewrite String.eqb_refl, dat_text_join, join_app. reflexivity.
Qed.

Lemma append_new path line0 line1 da dm dt (f : fs) ts : f path = None -> ts <> [] ->
  append_all f path line0 line1 da dm dt ts path
  = Some (join_nl (concat (map (lines_for line0 line1 da dm dt) ts))).
Proof.
  intros E N. destruct ts as [|d ts]; [now elim N|]. cbn [append_all map concat].
  apply append_content. unfold write_dat. rewrite E. cbn [fst]. unfold fs_write.
  now rewrite String.eqb_refl, dat_text_join.
Qed.

Lemma lines_no c line0 line1 da dm dt ts :
  (forall x, word_char x = true -> Ascii.eqb x c = false) -> Ascii.eqb tab c = false ->
  no_char c line0 = true -> no_char c line1 = true ->
  forallb (no_char c) (concat (map (lines_for line0 line1 da dm dt) ts)) = true.
Proof.
  intros A B C D. induction ts as [|d ts IH]; [reflexivity|].
  cbn [map concat]. rewrite forallb_app, IH. unfold lines_for. cbn [forallb].
  now rewrite C, D, (data_rows_no c da dm dt _ _ _ A B).
Qed.

Lemma lines_appended line0 line1 da dm dt ts : one_line line0 -> one_line line1 ->
  lines_of (join_nl (concat (map (lines_for line0 line1 da dm dt) ts)))
  = concat (map (lines_for line0 line1 da dm dt) ts).
Proof.
  intros A B. apply one_line_no in A as [A1 A2]. apply one_line_no in B as [B1 B2].
  apply lines_of_join; apply lines_no; try assumption; try reflexivity; intros c W; apply (word_char_plain c W).
Qed.

(* two lines with different numbers of fields *)
Lemma genfromtxt_widths text ls l l' : lines_of text = ls -> 
  In l (skipn (Z.to_nat 2) ls) -> In l' (skipn (Z.to_nat 2) ls) ->
  not_nil (genfromtxt_split tab l) = true -> not_nil (genfromtxt_split tab l') = true ->
  length (genfromtxt_split tab l) <> length (genfromtxt_split tab l') ->
  genfromtxt (H := H) text tab 2 = Err ValueError.
Proof.
  intros E I I' N N' D. unfold genfromtxt. rewrite E.
  set (fields := filter not_nil (map (genfromtxt_split tab) (skipn (Z.to_nat 2) ls))).
  assert (G : forall x, In x (skipn (Z.to_nat 2) ls) -> not_nil (genfromtxt_split tab x) = true ->
              In (genfromtxt_split tab x) fields).
  { intros x J K. apply filter_In. split; [now apply in_map|exact K]. }
  pose proof (G l I N) as F. pose proof (G l' I' N') as F'. clearbody fields.
  destruct fields as [|f0 fs0]; [contradiction F|].
  destruct (forallb (fun r => Nat.eqb (length r) (length f0)) (f0 :: fs0)) eqn:Q; [|reflexivity].
  rewrite forallb_forall in Q. apply Q in F. apply Q in F'.
  apply Nat.eqb_eq in F. apply Nat.eqb_eq in F'. congruence.
Qed.

(** C147.  Two or more titrations appended to a new file with the default header lines: the
    file is never read as one titration, read_dat raises ValueError. *)
Theorem C147_never_mixed_partial (f : fs) (path : string) (da dm dt : nat)
  (ts : list (titration_data T)) (e : env T) (kw : kwargs T) :
  f path = None -> (2 <= length ts)%nat ->
  reads_from e (append_all f path line0_default line1_default da dm dt ts) ->
  default_read kw ->
  read_dat e path kw = Err ValueError.
Proof.
  intros F L R K. specialize (R path).
  rewrite (append_new path line0_default line1_default da dm dt f ts F) in R by (now intros ->; cbn in L; lia).
  rewrite (read_default e path kw K). unfold read_dat_genfromtxt, read_text. rewrite R.
  cbn [check_kwargs forallb bind of_opt kwarg dget as_delim as_int].
  rewrite (genfromtxt_widths _ _ line0_default line1_default
             (lines_appended line0_default line1_default da dm dt ts (proj1 default_headers) (proj2 default_headers))).
  - reflexivity.
  - destruct ts as [|d [|d' ts]]; [cbn in L; lia|cbn in L; lia|].
    cbn [map concat]. unfold lines_for at 1. cbn [app].
    change (Z.to_nat 2) with 2%nat. cbn [skipn]. apply in_or_app. right. left. reflexivity.
  - destruct ts as [|d [|d' ts]]; [cbn in L; lia|cbn in L; lia|].
    cbn [map concat]. unfold lines_for at 1. cbn [app].
    change (Z.to_nat 2) with 2%nat. cbn [skipn]. apply in_or_app. right. right. left. reflexivity.
  - reflexivity.
  - reflexivity.
  - vm_compute. lia.
Qed.

(** The same for other header lines, as soon as one of them is plain text: not blank, without
    a tab and without the comment sign.  At least one point has been written. *)
Definition plain_header (h : string) : Prop :=
  ~ In "#"%char (list_of_string h) /\ ~ In tab (list_of_string h) /\
  exists c, In c (list_of_string h) /\ c <> " "%char.

Lemma lstrip_chars q p s : all_chars q s = true -> all_chars q (lstrip p s) = true.
Proof.
  induction s as [|c s IH]; intros A; [reflexivity|]. cbn [lstrip].
  destruct (p c); [|exact A]. cbn in A. apply andb_true_iff in A as [_ A]. now apply IH.
Qed.

Lemma lstrip_keeps p s c : In c (list_of_string s) -> p c = false -> In c (list_of_string (lstrip p s)).
Proof.
  induction s as [|x s IH]; intros I P; [contradiction I|]. cbn [lstrip].
  destruct (p x) eqn:X; [|exact I]. destruct I as [->|I]; [congruence|]. now apply IH.
Qed.

Lemma srev_in s c : In c (list_of_string s) -> In c (list_of_string (srev s)).
Proof. rewrite srev_spec, los_sol. apply in_rev. Qed.

Lemma not_in_no_char c s : ~ In c (list_of_string s) -> no_char c s = true.
Proof.
  intros N. unfold no_char. rewrite all_chars_forallb. apply forallb_forall. intros x I.
  destruct (Ascii.eqb_spec x c) as [E|E]; [now subst | reflexivity].
Qed.

Lemma plain_split h : one_line h -> plain_header h -> length (genfromtxt_split tab h) = 1%nat.
Proof.
  intros [N1 N2] (A & B & c & I & C). unfold genfromtxt_split.
  rewrite (split_on_none "#" h (not_in_no_char _ _ A)). cbn beta iota zeta.
  set (p := fun c : ascii => Ascii.eqb c " " || Ascii.eqb c cr || Ascii.eqb c nl).
  assert (P : p c = false).
  { unfold p. destruct (Ascii.eqb_spec c " "); [contradiction|].
    destruct (Ascii.eqb_spec c cr); [now subst|]. destruct (Ascii.eqb_spec c nl); [now subst|reflexivity]. }
  assert (K : In c (list_of_string (strip p h))).
  { unfold strip. apply srev_in, lstrip_keeps, P. apply srev_in, lstrip_keeps, P. exact I. }
  assert (Q : no_char tab (strip p h) = true).
  { unfold strip, no_char. rewrite srev_chars. apply lstrip_chars. rewrite srev_chars.
    apply lstrip_chars. exact (not_in_no_char _ _ B). }
  destruct (String.eqb_spec (strip p h) "") as [E|_]; [rewrite E in K; contradiction K|].
  now rewrite (split_on_none tab _ Q).
Qed.

Lemma row_line da dm dt a m t : a <> [] -> m <> [] -> t <> [] ->
  exists x y z, In (data_row da dm dt x y z) (data_rows da dm dt a m t).
Proof.
  intros A B C. destruct a as [|x a]; [now elim A|]. destruct m as [|y m]; [now elim B|].
  destruct t as [|z t]; [now elim C|]. exists x, y, z. now left.
Qed.

Theorem C147_plain_headers_partial (f : fs) (path line0 line1 : string) (da dm dt : nat)
  (ts : list (titration_data T)) (e : env T) (kw : kwargs T) :
  f path = None -> (2 <= length ts)%nat ->
  (exists d, In d ts /\ td_a d <> [] /\ td_m d <> [] /\ td_t d <> []) ->
  one_line line0 -> one_line line1 -> plain_header line0 \/ plain_header line1 ->
  reads_from e (append_all f path line0 line1 da dm dt ts) ->
  default_read kw ->
  read_dat e path kw = Err ValueError.
Proof.
  intros F L (d0 & I0 & N1 & N2 & N3) O0 O1 P R K. specialize (R path).
  assert (N : ts <> []) by (intros ->; cbn in L; lia).
  rewrite (append_new path line0 line1 da dm dt f ts F N) in R.
  rewrite (read_default e path kw K). unfold read_dat_genfromtxt, read_text. rewrite R.
  cbn [check_kwargs forallb bind of_opt kwarg dget as_delim as_int].
  destruct (row_line da dm dt _ _ _ N1 N2 N3) as (x & y & z & IR).
  assert (PH : exists h, (h = line0 \/ h = line1) /\ length (genfromtxt_split tab h) = 1%nat).
  { destruct P as [P|P]; [exists line0|exists line1]; (split; [auto|now apply plain_split]). }
  destruct PH as (h & Hh & Lh).
  assert (NN : forall l : string, length (genfromtxt_split tab l) <> 0%nat -> not_nil (genfromtxt_split tab l) = true).
  { intros l Q. destruct (genfromtxt_split tab l); [now elim Q|reflexivity]. }
  rewrite (genfromtxt_widths _ _ h (data_row da dm dt x y z) (lines_appended line0 line1 da dm dt ts O0 O1)).
  - reflexivity.
  - destruct ts as [|d [|d' ts]]; [cbn in L; lia|cbn in L; lia|].
    cbn [map concat]. unfold lines_for at 1. cbn [app].
    change (Z.to_nat 2) with 2%nat. cbn [skipn]. apply in_or_app. right.
    destruct Hh as [->| ->]; [left|right; left]; reflexivity.
  - destruct ts as [|d ts]; [now elim N|].
    cbn [map concat]. unfold lines_for at 1. cbn [app].
    change (Z.to_nat 2) with 2%nat. cbn [skipn]. apply in_or_app.
    destruct I0 as [->|I0]; [now left|]. right.
    apply in_concat. exists (lines_for line0 line1 da dm dt d0). split; [now apply in_map|].
    right. right. exact IR.
  - apply NN. rewrite Lh. discriminate.
  - apply NN. rewrite split_row. discriminate.
  - rewrite split_row, Lh. discriminate.
Qed.

(** No other file is touched, whatever the headers. *)
Theorem C147_other_files (f : fs) (path line0 line1 : string) (da dm dt : nat)
  (ts : list (titration_data T)) (other : string) :
  other <> path -> append_all f path line0 line1 da dm dt ts other = f other.
Proof.
  intros N. revert f; induction ts as [|d ts IH]; intros f; cbn [append_all]; [reflexivity|].
  rewrite IH. apply String.eqb_neq in N. unfold write_dat, fs_write.
  destruct (f path); cbn [fst]; now rewrite N.
Qed.

(** But with header lines that are comments, the file reads as one long titration: all the
    points of the first, then all of the second, and so on. *)
Lemma comment_split l : genfromtxt_split tab (String "#" l) = [].
Proof. unfold genfromtxt_split. cbn [split_on]. rewrite Ascii.eqb_refl. reflexivity. Qed.

Lemma fields_of_app da dm dt : forall a m t a' m' t', length m = length a -> length t = length a ->
  fields_of da dm dt (a ++ a') (m ++ m') (t ++ t') = fields_of da dm dt a m t ++ fields_of da dm dt a' m' t'.
Proof.
  induction a as [|x a IH]; intros [|y m] [|z t] a' m' t' A B; try discriminate; [reflexivity|].
  injection A as A; injection B as B. cbn [app fields_of]. now rewrite (IH m t a' m' t' A B).
Qed.

Definition all_of (p : titration_data T -> list T) (ts : list (titration_data T)) : list T := concat (map p ts).
Definition equal_columns (d : titration_data T) : Prop :=
  length (td_m d) = length (td_a d) /\ length (td_t d) = length (td_a d).

Lemma all_lengths ts : Forall equal_columns ts ->
  length (all_of td_m ts) = length (all_of td_a ts) /\ length (all_of td_t ts) = length (all_of td_a ts).
Proof.
  unfold all_of. induction 1 as [|d ts [A B] _ [IH1 IH2]]; [split; reflexivity|].
  cbn [map concat]. rewrite !app_length. lia.
Qed.

Lemma fields_all c0 c1 da dm dt ts : Forall equal_columns ts ->
  filter not_nil (map (genfromtxt_split tab)
    (concat (map (lines_for (String "#" c0) (String "#" c1) da dm dt) ts)))
  = fields_of da dm dt (all_of td_a ts) (all_of td_m ts) (all_of td_t ts).
Proof.
  unfold all_of. induction 1 as [|d ts [A B] _ IH]; [reflexivity|].
  cbn [map concat]. rewrite map_app, filter_app, IH. unfold lines_for. cbn [map].
  rewrite !comment_split. cbn [filter not_nil is_nil negb]. rewrite fields_split.
  now rewrite fields_of_app.
Qed.

Theorem C147_comments_refuted (f : fs) (path c0 c1 : string) (da dm dt : nat)
  (ts : list (titration_data T)) (e : env T) (kw : kwargs T) :
  let all p := concat (map p ts) in
  f path = None -> ts <> [] -> Forall equal_columns ts ->
  one_line (String "#" c0) -> one_line (String "#" c1) ->
  (2 <= length (all td_a))%nat ->
  reads_from e (append_all f path (String "#" c0) (String "#" c1) da dm dt ts) ->
  default_read kw ->
  exists d, read_dat e path kw = Ok (Dat d) /\
    length (dd_titrant_amount d) = length (all td_a) /\
    length (dd_measurement d) = length (all td_m) /\
    length (dd_temperature d) = length (all td_t) /\
    dd_titrant_amount d = map (written_value da) (all td_a) /\
    dd_measurement d = map (written_value dm) (all td_m) /\
    dd_temperature d = map (written_value dt) (all td_t).
Proof.
  intros all F N Q O0 O1 L R K. specialize (R path).
  rewrite (append_new path (String "#" c0) (String "#" c1) da dm dt f ts F N) in R.
  rewrite (read_default e path kw K). unfold read_dat_genfromtxt, read_text. rewrite R.
  cbn [check_kwargs forallb bind of_opt kwarg dget as_delim as_int].
  unfold genfromtxt. rewrite (lines_appended _ _ da dm dt ts O0 O1).
  assert (SK : filter not_nil (map (genfromtxt_split tab) (skipn (Z.to_nat 2)
                 (concat (map (lines_for (String "#" c0) (String "#" c1) da dm dt) ts))))
               = fields_of da dm dt (all_of td_a ts) (all_of td_m ts) (all_of td_t ts)).
  { rewrite <- (fields_all c0 c1 da dm dt ts Q). destruct ts as [|d ts']; [now elim N|].
    cbn [map concat]. unfold lines_for at 1 3. cbn [app]. change (Z.to_nat 2) with 2%nat. cbn [skipn map].
    rewrite !comment_split. reflexivity. }
  rewrite SK. destruct (all_lengths ts Q) as [L1 L2].
  pose proof (fields_length da dm dt _ _ _ L1 L2) as FL.
  pose proof (fields_width da dm dt (all_of td_a ts) (all_of td_m ts) (all_of td_t ts)) as FW.
  pose proof (columns_of da dm dt _ _ _ L1 L2) as FC.
  change (all td_a) with (all_of td_a ts) in *. change (all td_m) with (all_of td_m ts) in *.
  change (all td_t) with (all_of td_t ts) in *.
  destruct (fields_of da dm dt (all_of td_a ts) (all_of td_m ts) (all_of td_t ts)) as [|f0 fs0] eqn:FE.
  - cbn in FL. lia.
  - assert (L0 : length f0 = 3%nat).
    { specialize (FW 3%nat eq_refl). cbn [forallb] in FW. apply andb_true_iff in FW as [FW _].
      now apply Nat.eqb_eq. }
    rewrite (FW (length f0) L0), L0, FL. cbn [negb].
    replace (length (all_of td_a ts) <? 2)%nat with false by (symmetry; apply Nat.ltb_ge; exact L).
    change (3 <? 2)%nat with false. cbn [orb bind]. rewrite FC. cbn [bind].
    eexists; split; [reflexivity|]. cbn [dd_titrant_amount dd_measurement dd_temperature].
    rewrite !map_length. repeat split; reflexivity.
Qed.

End Append.

(* two titrations of two points each *)
Example C147_nonvacuous :
  let d := {| td_a := [Fin 0; Fin 1]; td_m := [Fin 100; Fin 200]; td_t := [Fin 25; Fin 25] |} in
  let f0 : fs := fun _ => None in
  (exists c, append_all f0 "x.dat" line0_default line1_default 3 3 3 [d; d] "x.dat" = Some c) /\
  (forall e, reads_from e (append_all f0 "x.dat" line0_default line1_default 3 3 3 [d; d]) ->
    read_dat e "x.dat" [] = Err ValueError) /\
  (forall e, reads_from e (append_all f0 "x.dat" "Batch 4" "" 3 3 3 [d; d]) ->
    read_dat e "x.dat" [] = Err ValueError) /\
  (forall e, reads_from e (append_all f0 "x.dat" "#one" "#two" 3 3 3 [d; d]) ->
    exists r, read_dat e "x.dat" [] = Ok (Dat r) /\ length (dd_titrant_amount r) = 4%nat).
Proof.
  intros d f0.
  assert (O : forall s, forallb (fun c => negb (Ascii.eqb c nl || Ascii.eqb c cr)) (list_of_string s) = true -> one_line s).
  { intros s A. rewrite forallb_forall in A. split; intros I; specialize (A _ I); discriminate. }
  split; [|split; [|split]].
  - eexists. apply append_new; [reflexivity|discriminate].
  - intros e R. apply (C147_never_mixed_partial f0 "x.dat" 3 3 3 [d; d] e []); [reflexivity|cbn; lia|exact R|now left].
  - intros e R. apply (C147_plain_headers_partial f0 "x.dat" "Batch 4" "" 3 3 3 [d; d] e []).
    + reflexivity.
    + cbn. lia.
    + exists d. split; [now left|]. repeat split; discriminate.
    + now apply O.
    + now apply O.
    + left. split; [|split].
      * intros I. cbn in I. intuition discriminate.
      * intros I. cbn in I. intuition discriminate.
      * exists "B"%char. split; [now left|discriminate].
    + exact R.
    + now left.
  - intros e R.
    destruct (C147_comments_refuted f0 "x.dat" "one" "two" 3 3 3 [d; d] e []) as [r [X [Y _]]].
    + reflexivity.
    + discriminate.
    + repeat constructor.
    + now apply O.
    + now apply O.
    + cbn. lia.
    + exact R.
    + now left.
    + exists r. split; [exact X|]. rewrite Y. reflexivity.
Qed.

