(* PropDamaged.v -- C148: a damaged number in a file changes only its own value *)
From Coq Require Import Lia ZArith.
From Verif Require Import Files TextProofs SpecText DictLemmas PropText PropReaders PropReadSettings.
Open Scope string_scope.
Open Scope list_scope.

(** Small specification: field c of row i of a table. *)
Definition field_at (table : list (list string)) (i c : nat) : option string :=
  match nth_error table i with Some fields => nth_error fields c | None => None end.

(* a table of k columns with at least two rows, whose fields are separated by tabs *)
Definition good_table (k : nat) (table : list (list string)) : Prop :=
  (2 <= length table)%nat /\
  forall fields, In fields table -> length fields = k /\ forall f, In f fields -> plain_field tab f.

(* value i of column c of what was read: titrant amount, measurement, temperature *)
Definition value_read {T} (d : DatData T) (i c : nat) : option T :=
  match c with
  | 0%nat => nth_error (dd_titrant_amount d) i
  | 1%nat => nth_error (dd_measurement d) i
  | 2%nat => nth_error (dd_temperature d) i
  | _ => None
  end.

Section P.
Context {T : Type} `{Num T}.

Lemma column_is_nth (rows : list (list T)) j col : column_is j rows col -> forall i,
  nth_error col i = match nth_error rows i with Some r => nth_error r j | None => None end.
Proof.
  unfold column_is. induction 1 as [|r x rows col E _ IH]; intros [|i]; cbn [nth_error]; auto.
Qed.

Lemma column_at_nth k (rows : list (list T)) j col : (j < k)%nat -> column_at k (Z.of_nat j) rows col -> forall i,
  nth_error col i = match nth_error rows i with Some r => nth_error r j | None => None end.
Proof.
  intros J (j' & K & E & C). assert (j' = j) by lia. subst j'. now apply column_is_nth.
Qed.

(* every value that is read is what its field says, whatever the other fields hold *)
Theorem C148_each_value_from_its_field (e : env T) path kw k header table :
  (3 <= k)%nat -> good_table k table -> length header = 2%nat -> (forall l, In l header -> one_line l) ->
  e_file e path = Some (text_of_lines (header ++ map (join_with tab) table)) -> default_read kw ->
  exists d, read_dat e path kw = Ok (Dat d) /\
    length (dd_titrant_amount d) = length table /\
    length (dd_measurement d) = length table /\
    length (dd_temperature d) = length table /\
    forall i c f, (c < 3)%nat -> field_at table i c = Some f ->
      exists x, value_read d i c = Some x /\ says f x.
Proof.
  intros K [L G] LH OH F D.
  set (rows := map (map (field_value (T := T))) table).
  assert (FV : forall f, says f (field_value (T := T) f)).
  { intros f. unfold says, field_value. destruct (parse_float f); [now left|now right]. }
  assert (S : Forall2 (Forall2 says) table rows).
  { unfold rows. clear -FV. induction table as [|r table IH]; constructor; [|exact IH].
    induction r as [|f r IHr]; constructor; [apply FV|exact IHr]. }
  assert (NT : ~ In tab ["#"; nl; cr]%char) by (cbn; intuition discriminate).
  assert (X : exists d, read_dat e path kw = Ok (Dat d) /\
    column_at k 0 rows (dd_titrant_amount d) /\ column_at k 1 rows (dd_measurement d) /\
    column_at k 2 rows (dd_temperature d)).
  { apply (C112_text_columns e path kw tab 2 0 1 2 header table rows k).
    - destruct D as [-> | [-> | ->]]; cbn; auto.
    - destruct D as [-> | [-> | ->]]; cbn; intros key I; tauto.
    - right. destruct D as [-> | [-> | ->]]; split; reflexivity.
    - exact NT.
    - right. destruct D as [-> | [-> | ->]]; split; reflexivity.
    - right. destruct D as [-> | [-> | ->]]; split; reflexivity.
    - right. destruct D as [-> | [-> | ->]]; split; reflexivity.
    - right. destruct D as [-> | [-> | ->]]; split; reflexivity.
    - exact F.
    - exact LH.
    - exact OH.
    - exact L.
    - lia.
    - exact G.
    - exact S.
    - unfold in_table. lia.
    - unfold in_table. lia.
    - unfold in_table. lia. }
  destruct X as (d & R & C0 & C1 & C2). exists d. split; [exact R|].
  assert (LR : length rows = length table) by apply map_length.
  assert (LC : forall z col, column_at k z rows col -> length col = length table).
  { intros z col (j & _ & _ & C). rewrite <- LR. symmetry. exact (pairwise_length _ _ _ C). }
  split; [exact (LC _ _ C0)|]. split; [exact (LC _ _ C1)|]. split; [exact (LC _ _ C2)|].
  intros i c f Hc Hf. exists (field_value f). split; [|apply FV].
  assert (V : match nth_error rows i with Some r => nth_error r c | None => None end = Some (field_value f)).
  { unfold field_at in Hf. unfold rows. rewrite nth_error_map.
    destruct (nth_error table i) as [r|]; [|discriminate Hf]. cbn [option_map].
    rewrite nth_error_map, Hf. reflexivity. }
  destruct c as [|[|[|c]]]; [| | |lia]; cbn [value_read]; rewrite <- V.
  - apply (column_at_nth k); [lia|exact C0].
  - apply (column_at_nth k); [lia|exact C1].
  - apply (column_at_nth k); [lia|exact C2].
Qed.

(** C148.  Two files that differ in one field only (a damaged digit, say): both are read, with
    the same number of points, and every value agrees except the one of that field. *)
Theorem C148_only_its_value (e e' : env T) path kw k header table table' row col :
  (3 <= k)%nat -> good_table k table -> good_table k table' ->
  length table' = length table ->
  (forall i c, (i, c) <> (row, col) -> field_at table' i c = field_at table i c) ->
  length header = 2%nat -> (forall l, In l header -> one_line l) ->
  e_file e path = Some (text_of_lines (header ++ map (join_with tab) table)) ->
  e_file e' path = Some (text_of_lines (header ++ map (join_with tab) table')) -> default_read kw ->
  exists d d', read_dat e path kw = Ok (Dat d) /\ read_dat e' path kw = Ok (Dat d') /\
    length (dd_titrant_amount d') = length (dd_titrant_amount d) /\
    forall i c, (i, c) <> (row, col) -> value_read d' i c = value_read d i c.
Proof.
  intros K G G' LL E LH OH F F' D.
  destruct (C148_each_value_from_its_field e path kw k header table K G LH OH F D)
    as (d & R & L0 & L1 & L2 & V).
  destruct (C148_each_value_from_its_field e' path kw k header table' K G' LH OH F' D)
    as (d' & R' & L0' & L1' & L2' & V').
  exists d, d'. split; [exact R|]. split; [exact R'|]. split; [congruence|].
  intros i c N. destruct (Nat.lt_ge_cases c 3) as [C|C].
  2:{ destruct c as [|[|[|c]]]; try lia. reflexivity. }
  destruct (Nat.lt_ge_cases i (length table)) as [I|I].
  - assert (X : exists f, field_at table i c = Some f).
    { unfold field_at. destruct (nth_error table i) as [r|] eqn:Q.
      - destruct (proj2 G r (nth_error_In _ _ Q)) as [Lr _].
        destruct (nth_error r c) as [f|] eqn:P; [eauto|]. apply nth_error_None in P. lia.
      - apply nth_error_None in Q. lia. }
    destruct X as (f & X). destruct (V i c f C X) as (x & Vx & Sx).
    rewrite <- (E i c N) in X. destruct (V' i c f C X) as (x' & Vx' & Sx').
    rewrite Vx, Vx'. f_equal. rewrite <- (says_value f x Sx). symmetry. now apply says_value.
  - assert (Z : forall (l : list T), length l = length table -> nth_error l i = None)
      by (intros l Q; apply nth_error_None; lia).
    destruct c as [|[|[|c]]]; [| | |lia]; cbn [value_read]; rewrite !Z; congruence.
Qed.

(** What is not a number becomes nan, without any complaint. *)
Theorem C148_damaged_is_nan (e : env T) path kw k header table row col f :
  (3 <= k)%nat -> good_table k table -> length header = 2%nat -> (forall l, In l header -> one_line l) ->
  e_file e path = Some (text_of_lines (header ++ map (join_with tab) table)) -> default_read kw ->
  (col < 3)%nat -> field_at table row col = Some f -> parse_float (T := T) f = None ->
  exists d, read_dat e path kw = Ok (Dat d) /\ value_read d row col = Some nnan.
Proof.
  intros K G LH OH F D C X P.
  destruct (C148_each_value_from_its_field e path kw k header table K G LH OH F D)
    as (d & R & _ & _ & _ & V).
  exists d. split; [exact R|]. destruct (V row col f C X) as (x & Vx & [S|[_ ->]]); congruence.
Qed.

End P.

(* the letter O in place of a zero *)
Definition hurt_header : list string := ["Titration data"; "amount"].
Definition hurt_table : list (list string) := [["0.1"; "100.5"; "25.0"]; ["0.2"; "2O1.5"; "25.0"]; ["0.3"; "301.5"; "25.0"]].
Definition sound_table : list (list string) := [["0.1"; "100.5"; "25.0"]; ["0.2"; "201.5"; "25.0"]; ["0.3"; "301.5"; "25.0"]].

Example C148_nonvacuous {T} `{Num T} (st : strategy T) :
  let e := env_with_file (text_of_lines (hurt_header ++ map (join_with tab) hurt_table)) st in
  let e0 := env_with_file (text_of_lines (hurt_header ++ map (join_with tab) sound_table)) st in
  (exists d, read_dat e "f" [] = Ok (Dat d) /\ value_read d 1 1 = Some nnan) /\
  (exists d d', read_dat e0 "f" [] = Ok (Dat d) /\ read_dat e "f" [] = Ok (Dat d') /\
    value_read d' 1 0 = value_read d 1 0 /\ value_read d' 2 1 = value_read d 2 1).
Proof.
  intros e e0.
  assert (PF : forall f, f <> "" ->
    forallb (fun c => negb (existsb (Ascii.eqb c) [tab; " "; "#"; nl; cr]%char)) (list_of_string f) = true -> plain_field tab f).
  { intros f N A. split; [exact N|]. intros c I J. rewrite forallb_forall in A. specialize (A c J).
    apply negb_true_iff in A. rewrite <- not_true_iff_false in A. apply A. apply existsb_exists.
    exists c. split; [exact I|apply Ascii.eqb_refl]. }
  assert (G : good_table 3 hurt_table).
  { split; [cbn; lia|]. intros fs I. cbn in I. intuition subst; try reflexivity;
      match goal with I : In _ _ |- _ => cbn in I; intuition subst; apply PF; [discriminate|reflexivity] end. }
  assert (G0 : good_table 3 sound_table).
  { split; [cbn; lia|]. intros fs I. cbn in I. intuition subst; try reflexivity;
      match goal with I : In _ _ |- _ => cbn in I; intuition subst; apply PF; [discriminate|reflexivity] end. }
  assert (OH : forall l, In l hurt_header -> one_line l).
  { intros l I. assert (A : forallb (fun c => negb (Ascii.eqb c nl || Ascii.eqb c cr)) (list_of_string l) = true)
      by (cbn in I; intuition subst; reflexivity).
    rewrite forallb_forall in A. split; intros J; specialize (A _ J); discriminate. }
  split.
  - apply (C148_damaged_is_nan e "f" [] 3 hurt_header hurt_table 1 1 "2O1.5"); try reflexivity; auto; now left.
  - destruct (C148_only_its_value e0 e "f" [] 3 hurt_header sound_table hurt_table 1 1) as (d & d' & R & R' & _ & V);
      try reflexivity; auto; [|now left|].
    + intros i c N. destruct i as [|[|[|i]]]; try reflexivity.
      destruct c as [|[|c]]; try reflexivity. now elim N.
    + exists d, d'. split; [exact R|]. split; [exact R'|]. split; apply V; discriminate.
Qed.

