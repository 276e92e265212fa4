(* PropCrashWrite.v -- C146: what write_dat leaves behind when it is interrupted *)
From Coq Require Import Reals Lra Lia.
From Verif Require Import TextProofs SpecText XRLemmas PropText.
Open Scope R_scope.
Open Scope string_scope.
Open Scope list_scope.

(* ------------------------------------------------------------------ *)
(** * Model *)

(* p is the beginning of s *)
Definition begins (p s : string) : Prop := exists q, s = (p ++ q)%string.

Section Left.
Context {T : Type} `{Num T}.

(* titrations.py:194-214  write_dat stopped at any point: before the file was opened nothing
   has changed; open creates the file (mode "x"), empties it (mode "w") or leaves what it
   held (mode "a"), and from then on the file holds what has been written so far.  Because
   Python and the operating system buffer output, the stop can come after any character, not
   only between two calls of f.write.  With mode "x" an existing file is never opened.
   Simplification: characters reach the file in the order in which they were written. *)
Inductive write_left (f : fs) (path : string) (a m t : list T) (line0 line1 : string)
  (mode : wmode) (da dm dt : nat) : fs -> Prop :=
| left_unopened : write_left f path a m t line0 line1 mode da dm dt f
| left_new p : mode = ModeX -> f path = None ->
    begins p (dat_text da dm dt line0 line1 a m t) ->
    write_left f path a m t line0 line1 mode da dm dt (fs_write f path p)
| left_over p : mode = ModeW ->
    begins p (dat_text da dm dt line0 line1 a m t) ->
    write_left f path a m t line0 line1 mode da dm dt (fs_write f path p)
| left_append p : mode = ModeA ->
    begins p (dat_text da dm dt line0 line1 a m t) ->
    write_left f path a m t line0 line1 mode da dm dt
      (fs_write f path (match f path with Some old => old | None => "" end ++ p)%string).

(* ------------------------------------------------------------------ *)
(** * Prefixes of lines *)

Lemma app_split (c : ascii) l j : forall p q, (l ++ String c j = p ++ q)%string ->
  (exists q', l = (p ++ q')%string) \/
  (exists p', p = (l ++ String c p')%string /\ j = (p' ++ q)%string).
Proof.
  induction l as [|x l IH]; intros [|y p] q E; cbn in E.
  - left. now exists "".
  - right. injection E as -> E. exists p. split; [reflexivity|exact E].
  - left. now exists (String x l).
  - injection E as -> E. destruct (IH p q E) as [[q' ->] | [p' [-> ->]]].
    + left. now exists q'.
    + right. now exists p'.
Qed.

Lemma join_prefix ls : forall p q, join_nl ls = (p ++ q)%string ->
  exists k r, p = (join_nl (firstn k ls) ++ r)%string /\
    (r = "" \/ exists l q', nth_error ls k = Some l /\ l = (r ++ q')%string).
Proof.
  induction ls as [|l ls IH]; intros p q E.
  - exists 0%nat, "". destruct p; [split; [reflexivity|now left] | discriminate E].
  - cbn [join_nl] in E. apply app_split in E as [[q' ->] | [p' [-> E]]].
    + exists 0%nat, p. split; [reflexivity|]. right. exists (p ++ q')%string, q'. now split.
    + destruct (IH p' q E) as [k [r [-> D]]]. exists (S k), r. split; [|exact D].
      cbn [firstn join_nl]. now rewrite sapp_assoc.
Qed.

Lemma split_join_rest ls r : forallb (no_char nl) ls = true -> no_char nl r = true ->
  split_on nl (join_nl ls ++ r)%string = ls ++ [r].
Proof.
  intros A R. induction ls as [|l ls IH]; cbn [forallb join_nl app].
  - now apply split_on_none.
  - cbn [forallb] in A. apply andb_true_iff in A as [A B].
    rewrite sapp_assoc. cbn [append]. now rewrite (split_on_app nl _ _ A), (IH B).
Qed.

Lemma drop_last_full ls r : r <> "" -> drop_last_empty (ls ++ [r]) = ls ++ [r].
Proof.
  intros N. induction ls as [|l ls IH]; cbn [app].
  - cbn. destruct (String.eqb_spec r ""); [contradiction|reflexivity].
  - destruct ls as [|l' ls]; [cbn; destruct (String.eqb_spec r ""); [contradiction|reflexivity]|].
    change (l :: drop_last_empty ((l' :: ls) ++ [r]) = l :: ((l' :: ls) ++ [r])). now rewrite IH.
Qed.

Lemma strip_cr_all ls : forallb (no_char cr) ls = true -> map strip_cr ls = ls.
Proof.
  induction ls as [|l ls IH]; intros B; [reflexivity|].
  cbn in B. apply andb_true_iff in B as [B C]. cbn [map]. now rewrite (strip_cr_none _ B), (IH C).
Qed.

Lemma lines_of_rest ls r : r <> "" ->
  forallb (no_char nl) (ls ++ [r]) = true -> forallb (no_char cr) (ls ++ [r]) = true ->
  lines_of (join_nl ls ++ r)%string = ls ++ [r].
Proof.
  intros N A B. unfold lines_of. pose proof A as A'. rewrite forallb_app in A'.
  apply andb_true_iff in A' as [A1 A2]. cbn in A2. rewrite andb_true_r in A2.
  rewrite (split_join_rest _ _ A1 A2), (drop_last_full _ _ N). now apply strip_cr_all.
Qed.

(* ------------------------------------------------------------------ *)
(** * The beginning of a data row *)

Definition row_char (c : ascii) : bool := word_char c || Ascii.eqb c tab.

Lemma row_char_plain c : row_char c = true ->
  Ascii.eqb c "#" = false /\ Ascii.eqb c " " = false /\ Ascii.eqb c cr = false /\ Ascii.eqb c nl = false.
Proof.
  unfold row_char. intros W. apply orb_true_iff in W as [W|W].
  - pose proof (word_char_plain c W) as P. repeat split; apply P.
  - apply Ascii.eqb_eq in W as ->. repeat split; reflexivity.
Qed.

Lemma row_chars da dm dt (x y z : T) : all_chars row_char (data_row da dm dt x y z) = true.
Proof.
  assert (F : forall d (v : T), all_chars row_char (format_fixed d v) = true).
  { intros d v. apply (all_chars_impl word_char); [|apply format_fixed_word].
    intros c W. unfold row_char. now rewrite W. }
  unfold data_row. rewrite !all_chars_app, !F. reflexivity.
Qed.

Lemma row_no c r : all_chars row_char r = true -> (c = "#"%char \/ c = cr \/ c = nl) -> no_char c r = true.
Proof.
  intros A C. unfold no_char. revert A. apply all_chars_impl. intros x W.
  destruct (row_char_plain x W) as (P1 & _ & P2 & P3).
  destruct C as [-> | [-> | ->]]; now rewrite ?P1, ?P2, ?P3.
Qed.

Lemma split_plain r : all_chars row_char r = true -> r <> "" -> genfromtxt_split tab r = split_on tab r.
Proof.
  intros A N. unfold genfromtxt_split.
  rewrite (split_on_none "#" r (row_no _ r A (or_introl eq_refl))). cbn beta iota zeta.
  rewrite strip_none.
  - now destruct (String.eqb_spec r "").
  - revert A. apply all_chars_impl. intros x W. destruct (row_char_plain x W) as (_ & P1 & P2 & P3).
    now rewrite P1, P2, P3.
Qed.

Lemma no_char_prefix c r q : no_char c (r ++ q)%string = true -> no_char c r = true.
Proof. unfold no_char. rewrite all_chars_app. intros A. now apply andb_true_iff in A as [A _]. Qed.

Lemma row_prefix da dm dt (x y z : T) r q : data_row da dm dt x y z = (r ++ q)%string -> r <> "" ->
  (length (genfromtxt_split tab r) = 1 \/ length (genfromtxt_split tab r) = 2)%nat \/
  exists w, genfromtxt_split tab r = [format_fixed da x; format_fixed dm y; w].
Proof.
  intros E N.
  assert (A : all_chars row_char r = true).
  { pose proof (row_chars da dm dt x y z) as A. rewrite E, all_chars_app in A.
    now apply andb_true_iff in A as [A _]. }
  rewrite (split_plain r A N).
  assert (NT : forall d (v : T), no_char tab (format_fixed d v) = true).
  { intros d v. apply word_not; [|apply format_fixed_word]. intros c W. apply (word_char_plain c W). }
  unfold data_row, tab_str in E. cbn [append] in E.
  apply app_split in E as [[q' E] | [p' [-> E]]].
  - left; left. rewrite split_on_none; [reflexivity|]. apply (no_char_prefix tab r q'). rewrite <- E. apply NT.
  - rewrite (split_on_app tab _ _ (NT da x)).
    apply app_split in E as [[q' E] | [p'' [-> E]]].
    + left; right. rewrite split_on_none; [reflexivity|].
      apply (no_char_prefix tab p' q'). rewrite <- E. apply NT.
    + rewrite (split_on_app tab _ _ (NT dm y)). right.
      rewrite split_on_none; [eexists; reflexivity|].
      apply (no_char_prefix tab p'' q). rewrite <- E. apply NT.
Qed.

Lemma data_rows_firstn da dm dt k : forall (a m t : list T),
  firstn k (data_rows da dm dt a m t) = data_rows da dm dt (firstn k a) (firstn k m) (firstn k t).
Proof.
  induction k as [|k IH]; intros [|x a] [|y m] [|z t]; try reflexivity.
  cbn [firstn data_rows]. now rewrite IH.
Qed.

Lemma data_rows_nth da dm dt k : forall (a m t : list T) l,
  nth_error (data_rows da dm dt a m t) k = Some l ->
  exists x y z, l = data_row da dm dt x y z /\
    nth_error a k = Some x /\ nth_error m k = Some y /\ nth_error t k = Some z.
Proof.
  induction k as [|k IH]; intros [|x a] [|y m] [|z t] l E; try discriminate E; cbn in E.
  - injection E as <-. exists x, y, z. repeat split; reflexivity.
  - now apply IH.
Qed.

Lemma firstn_snoc {A} k : forall (l : list A) x, nth_error l k = Some x -> firstn (S k) l = firstn k l ++ [x].
Proof.
  induction k as [|k IH]; intros [|y l] x E; try discriminate E; cbn in E.
  - now injection E as <-.
  - change (y :: firstn (S k) l = y :: (firstn k l ++ [x])). now rewrite (IH l x E).
Qed.

Lemma columns_rest da dm dt : forall (a m t : list T) u v w, length m = length a -> length t = length a ->
  three_columns (map (map field_value) (fields_of da dm dt a m t ++ [[u; v; w]])) 0 1 2
  = Ok {| dd_titrant_amount := map (written_value da) a ++ [field_value u];
          dd_measurement := map (written_value dm) m ++ [field_value v];
          dd_temperature := map (written_value dt) t ++ [field_value w] |}.
Proof.
  intros a m t u v w A B. unfold three_columns.
  assert (C0 : column (map (map field_value) (fields_of da dm dt a m t ++ [[u; v; w]])) 0
               = Ok (map (written_value da) a ++ [field_value u])).
  { revert m t A B; induction a as [|x a IH]; intros [|y m] [|z t] A B; try discriminate; try reflexivity.
    injection A as A; injection B as B. unfold column in *. cbn [fields_of app map mapM].
    rewrite (IH m t A B). reflexivity. }
  assert (C1 : column (map (map field_value) (fields_of da dm dt a m t ++ [[u; v; w]])) 1
               = Ok (map (written_value dm) m ++ [field_value v])).
  { clear C0. revert m t A B; induction a as [|x a IH]; intros [|y m] [|z t] A B; try discriminate; try reflexivity.
    injection A as A; injection B as B. unfold column in *. cbn [fields_of app map mapM].
    rewrite (IH m t A B). reflexivity. }
  assert (C2 : column (map (map field_value) (fields_of da dm dt a m t ++ [[u; v; w]])) 2
               = Ok (map (written_value dt) t ++ [field_value w])).
  { clear C0 C1. revert m t A B; induction a as [|x a IH]; intros [|y m] [|z t] A B; try discriminate; try reflexivity.
    injection A as A; injection B as B. unfold column in *. cbn [fields_of app map mapM].
    rewrite (IH m t A B). reflexivity. }
  now rewrite C0, C1, C2.
Qed.

Lemma read_default (e : env T) path kw : default_read kw ->
  read_dat e path kw = (d <- read_dat_genfromtxt e path [] ;; Ok (Dat d)).
Proof. intros [-> | [-> | ->]]; reflexivity. Qed.

Lemma firstn_len {A} k (l : list A) n : length l = n -> (k <= n)%nat -> length (firstn k l) = k.
Proof. intros L K. rewrite firstn_length. lia. Qed.

(* what can be read from the beginning of a written file *)
Lemma read_beginning (e : env T) path kw da dm dt line0 line1 (a m t : list T) p :
  one_line line0 -> one_line line1 -> length m = length a -> length t = length a ->
  begins p (dat_text da dm dt line0 line1 a m t) ->
  e_file e path = Some p -> default_read kw ->
  (exists er, read_dat e path kw = Err er) \/
  exists n w, (2 <= n <= length a)%nat /\
    read_dat e path kw
    = Ok (Dat {| dd_titrant_amount := map (written_value da) (firstn n a);
                 dd_measurement := map (written_value dm) (firstn n m);
                 dd_temperature := map (written_value dt) (firstn (n - 1) t) ++ [w] |}).
Proof.
  intros A B C D [q P] F K. rewrite dat_text_join in P.
  apply join_prefix in P as [k [r [P R]]].
  set (ls := line0 :: line1 :: data_rows da dm dt a m t) in *.
  (* complete rows only *)
  assert (W : forall j, (j <= length a)%nat -> p = join_nl (line0 :: line1 :: firstn j (data_rows da dm dt a m t)) ->
    (exists er, read_dat e path kw = Err er) \/
    exists n w, (2 <= n <= length a)%nat /\
      read_dat e path kw
      = Ok (Dat {| dd_titrant_amount := map (written_value da) (firstn n a);
                   dd_measurement := map (written_value dm) (firstn n m);
                   dd_temperature := map (written_value dt) (firstn (n - 1) t) ++ [w] |})).
  { intros j J Q. rewrite data_rows_firstn, <- dat_text_join in Q. rewrite Q in F.
    pose proof (read_genfromtxt_written e path kw da dm dt line0 line1 (firstn j a) (firstn j m) (firstn j t) A B) as G.
    rewrite (firstn_len j a _ eq_refl J), (firstn_len j m _ C J), (firstn_len j t _ D J) in G.
    specialize (G eq_refl eq_refl F K).
    destruct (Nat.ltb_spec j 2) as [L|L].
    - left. eexists; exact G.
    - right. destruct j as [|j]; [lia|].
      destruct (nth_error t j) as [z|] eqn:Z; [|apply nth_error_None in Z; lia].
      exists (S j), (written_value dt z). split; [lia|]. rewrite G.
      rewrite (firstn_snoc j t z Z), map_app. replace (S j - 1)%nat with j by lia. reflexivity. }
  (* reading *)
  rewrite (read_default e path kw K) in *. unfold read_dat_genfromtxt, read_text in *.
  rewrite F in *. cbn [check_kwargs forallb bind of_opt kwarg dget as_delim as_int] in *.
  pose proof (one_line_no _ A) as [A1 A2]. pose proof (one_line_no _ B) as [B1 B2].
  assert (Lnl : forallb (no_char nl) ls = true).
  { cbn [ls forallb]. rewrite A1, B1. apply data_rows_no; [|reflexivity]. intros c V. apply (word_char_plain c V). }
  assert (Lcr : forallb (no_char cr) ls = true).
  { cbn [ls forallb]. rewrite A2, B2. apply data_rows_no; [|reflexivity]. intros c V. apply (word_char_plain c V). }
  assert (Fn : forall c n, forallb (no_char c) ls = true -> forallb (no_char c) (firstn n ls) = true).
  { intros c n V. rewrite <- (firstn_skipn n ls), forallb_app in V. now apply andb_true_iff in V as [V _]. }
  assert (LR : lines_of p = firstn k ls ++ (if String.eqb r "" then [] else [r])).
  { rewrite P. destruct (String.eqb_spec r "") as [->|N].
    - rewrite sapp_nil, app_nil_r. apply lines_of_join; now apply Fn.
    - destruct R as [->|[l [q' [I ->]]]]; [now elim N|].
      assert (X : forall c, forallb (no_char c) ls = true -> no_char c r = true).
      { intros c V. apply (no_char_prefix c r q'). rewrite forallb_forall in V. apply V. eapply nth_error_In, I. }
      apply lines_of_rest; [exact N| |]; rewrite forallb_app, Fn by assumption; cbn [forallb andb];
        now rewrite X by assumption. }
  destruct k as [|[|j]].
  - left. exists IndexError. unfold genfromtxt. rewrite LR. cbn [firstn app].
    destruct (String.eqb r ""); reflexivity.
  - left. exists IndexError. unfold genfromtxt. rewrite LR. cbn [ls firstn app].
    destruct (String.eqb r ""); reflexivity.
  - change (firstn (S (S j)) ls) with (line0 :: line1 :: firstn j (data_rows da dm dt a m t)) in *.
    destruct (Nat.le_gt_cases j (length a)) as [J|J].
    2:{ (* more lines than there are *)
      assert (LL : length (data_rows da dm dt a m t) = length a).
      { clear -C D. revert m t C D; induction a as [|x a IH]; intros [|y m] [|z t] C D; try discriminate; try reflexivity.
        injection C as C; injection D as D. cbn [data_rows length]. now rewrite IH. }
      apply (W (length a)); [lia|]. rewrite P.
      rewrite (firstn_all2 (n := j)) by lia. rewrite <- LL at 1. rewrite firstn_all.
      destruct R as [->|[l [q' [I _]]]]; [apply sapp_nil|].
      change (nth_error (data_rows da dm dt a m t) j = Some l) in I.
      assert (j < length (data_rows da dm dt a m t))%nat by (apply nth_error_Some; congruence). lia. }
    destruct (String.eqb_spec r "") as [E|N].
    + apply (W j J). rewrite P, E. apply sapp_nil.
    + clear W. destruct R as [R|[l [q' [I E]]]]; [now elim N|].
      change (nth_error (data_rows da dm dt a m t) j = Some l) in I.
      apply data_rows_nth in I as [x [y [z [-> [Ix [Iy Iz]]]]]].
      assert (J' : (j < length a)%nat) by (apply nth_error_Some; congruence).
      unfold genfromtxt. rewrite LR.
      change (skipn (Z.to_nat 2) ((line0 :: line1 :: firstn j (data_rows da dm dt a m t)) ++ [r]))
        with (firstn j (data_rows da dm dt a m t) ++ [r]).
      rewrite data_rows_firstn, map_app, filter_app, fields_split.
      set (fa := firstn j a) in *. set (fm := firstn j m) in *. set (ft := firstn j t) in *.
      assert (La : length fa = j) by (apply (firstn_len j a _ eq_refl J)).
      assert (Lm : length fm = length fa) by (rewrite La; apply (firstn_len j m _ C J)).
      assert (Lt : length ft = length fa) by (rewrite La; apply (firstn_len j t _ D J)).
      pose proof (fields_width da dm dt fa fm ft) as FW.
      pose proof (fields_length da dm dt fa fm ft Lm Lt) as FL.
      pose proof (columns_rest da dm dt fa fm ft (format_fixed da x) (format_fixed dm y)) as FC.
      destruct (row_prefix da dm dt x y z r q' E N) as [G|[w G]].
      * left. cbn [map filter].
        assert (NN : not_nil (genfromtxt_split tab r) = true).
        { destruct (genfromtxt_split tab r); [cbn in G; lia|reflexivity]. }
        rewrite NN.
        destruct (fields_of da dm dt fa fm ft) as [|f0 fs0] eqn:FE.
        -- cbn [app forallb length]. rewrite Nat.eqb_refl. cbn. eexists; reflexivity.
        -- assert (L0 : length f0 = 3%nat).
           { specialize (FW 3%nat eq_refl). cbn [forallb] in FW. apply andb_true_iff in FW as [FW _].
             now apply Nat.eqb_eq. }
           cbn [app]. rewrite L0.
           change (f0 :: fs0 ++ [genfromtxt_split tab r]) with ((f0 :: fs0) ++ [genfromtxt_split tab r]).
           rewrite forallb_app, (FW 3%nat eq_refl). cbn [forallb andb].
           destruct G as [-> | ->]; cbn; eexists; reflexivity.
      * cbn [map filter]. rewrite G. cbn [not_nil is_nil negb].
        destruct (fields_of da dm dt fa fm ft) as [|f0 fs0] eqn:FE.
        -- left. cbn. eexists; reflexivity.
        -- right. assert (L0 : length f0 = 3%nat).
           { specialize (FW 3%nat eq_refl). cbn [forallb] in FW. apply andb_true_iff in FW as [FW _].
             now apply Nat.eqb_eq. }
           exists (S j), (field_value w).
           assert (1 <= j)%nat by (rewrite <- La, <- FL; cbn; lia).
           split; [lia|]. cbn [app]. rewrite L0.
           change (f0 :: fs0 ++ [[format_fixed da x; format_fixed dm y; w]])
             with ((f0 :: fs0) ++ [[format_fixed da x; format_fixed dm y; w]]).
           rewrite forallb_app, (FW 3%nat eq_refl). cbn [forallb andb length Nat.eqb negb].
           rewrite app_length. cbn [length].
           replace (S (length fs0) + 1 <? 2)%nat with false by (symmetry; apply Nat.ltb_ge; lia).
           change (3 <? 2)%nat with false. cbn [orb bind].
           rewrite (FC w Lm Lt). cbn [bind]. replace (S j - 1)%nat with j by lia.
           rewrite (firstn_snoc j a x Ix), (firstn_snoc j m y Iy), !map_app. reflexivity.
Qed.

End Left.

(* ------------------------------------------------------------------ *)
(** * C146 *)

(* a call of read_dat that finds the files f *)
Definition reads_from {T} (e : env T) (f : fs) : Prop := forall p, e_file e p = f p.

(** What is left of an interrupted write_dat (of a new file, or over an old one with mode
    "w") either cannot be read at all, or reads as the first n points of the titration: all
    their titrant amounts and measurements, and all their temperatures except possibly the
    last, are what was written.  No other file has changed. *)
Theorem C146_first_points_partial (f f' : fs) (path line0 line1 : string) (a m t : list xr)
  (mode : wmode) (da dm dt : nat) (e : env xr) (kw : kwargs xr) :
  length m = length a -> length t = length a ->
  one_line line0 -> one_line line1 ->
  mode = ModeX \/ mode = ModeW ->
  write_left f path a m t line0 line1 mode da dm dt f' ->
  reads_from e f' -> default_read kw ->
  (forall other, other <> path -> f' other = f other) /\
  (f' path = f path \/
   (exists er, read_dat e path kw = Err er) \/
   exists n d, (2 <= n <= length a)%nat /\ read_dat e path kw = Ok (Dat d) /\
     Forall2 (written_close da) (firstn n a) (dd_titrant_amount d) /\
     Forall2 (written_close dm) (firstn n m) (dd_measurement d) /\
     exists last, Forall2 (written_close dt) (firstn (n - 1) t) (removelast (dd_temperature d)) /\
       dd_temperature d = removelast (dd_temperature d) ++ [last]).
Proof.
  intros Lm Lt H0 H1 M W R K.
  assert (O : forall c other, other <> path -> fs_write f path c other = f other).
  { intros c other N. unfold fs_write. apply String.eqb_neq in N. now rewrite N. }
  assert (S : forall c, fs_write f path c path = Some c).
  { intros c. unfold fs_write. now rewrite String.eqb_refl. }
  assert (G : forall d l, Forall2 (written_close d) l (map (written_value d) l)).
  { intros d l. induction l as [|x l IH]; cbn [map]; constructor; [|exact IH].
    destruct (written_read d x) as [y [E C]]. unfold written_value, field_value.
    now rewrite E. }
  assert (Main : forall p, begins p (dat_text da dm dt line0 line1 a m t) -> f' = fs_write f path p ->
    (exists er, read_dat e path kw = Err er) \/
    exists n d, (2 <= n <= length a)%nat /\ read_dat e path kw = Ok (Dat d) /\
     Forall2 (written_close da) (firstn n a) (dd_titrant_amount d) /\
     Forall2 (written_close dm) (firstn n m) (dd_measurement d) /\
     exists last, Forall2 (written_close dt) (firstn (n - 1) t) (removelast (dd_temperature d)) /\
       dd_temperature d = removelast (dd_temperature d) ++ [last]).
  { intros p B E. specialize (R path). rewrite E, S in R.
    destruct (read_beginning e path kw da dm dt line0 line1 a m t p H0 H1 Lm Lt B R K)
      as [X|[n [w [N X]]]]; [now left|].
    right. exists n. eexists. split; [exact N|]. split; [exact X|]. cbn [dd_titrant_amount dd_measurement dd_temperature].
    split; [apply G|]. split; [apply G|]. exists w. rewrite removelast_last. split; [apply G|reflexivity]. }
  destruct W as [|p E F B|p E B|p E B].
  - split; [reflexivity|]. now left.
  - split; [apply O|]. right. now apply (Main p).
  - split; [apply O|]. right. now apply (Main p).
  - destruct M as [M|M]; rewrite M in E; discriminate E.
Qed.

(** Such shorter titrations are really left behind and read without complaint: for every
    titration and every n >= 2 there is a point of interruption after which read_dat returns
    exactly the first n points.  So a user cannot tell an interrupted file from a complete one. *)
Theorem C146_short_refuted (f : fs) (path line0 line1 : string) (a m t : list xr)
  (mode : wmode) (da dm dt n : nat) :
  length m = length a -> length t = length a ->
  one_line line0 -> one_line line1 ->
  mode = ModeX /\ f path = None \/ mode = ModeW ->
  (2 <= n < length a)%nat ->
  exists f', write_left f path a m t line0 line1 mode da dm dt f' /\
    forall e kw, reads_from e f' -> default_read kw ->
      exists d, read_dat e path kw = Ok (Dat d) /\ length (dd_titrant_amount d) = n /\
        Forall2 (written_close da) (firstn n a) (dd_titrant_amount d) /\
        Forall2 (written_close dm) (firstn n m) (dd_measurement d) /\
        Forall2 (written_close dt) (firstn n t) (dd_temperature d).
Proof.
  intros Lm Lt H0 H1 M N.
  set (p := dat_text da dm dt line0 line1 (firstn n a) (firstn n m) (firstn n t)).
  assert (B : begins p (dat_text da dm dt line0 line1 a m t)).
  { exists (join_nl (skipn n (data_rows da dm dt a m t))). unfold p.
    rewrite !dat_text_join, <- data_rows_firstn.
    assert (J : forall l1 l2, join_nl (l1 ++ l2) = (join_nl l1 ++ join_nl l2)%string).
    { intros l1 l2. induction l1 as [|l l1 IH]; [reflexivity|].
      cbn [app join_nl]. rewrite IH, sapp_assoc. reflexivity. }
    rewrite <- J. cbn [app]. now rewrite firstn_skipn. }
  exists (fs_write f path p). split.
  - destruct M as [[M F]| M]; [apply left_new | apply left_over]; assumption.
  - intros e kw R K. specialize (R path). unfold fs_write in R. rewrite String.eqb_refl in R.
    assert (Nn : (n <= length a)%nat) by lia.
    assert (L1 : length (firstn n m) = length (firstn n a))
      by (rewrite (firstn_len n a _ eq_refl Nn); exact (firstn_len n m _ Lm Nn)).
    assert (L2 : length (firstn n t) = length (firstn n a))
      by (rewrite (firstn_len n a _ eq_refl Nn); exact (firstn_len n t _ Lt Nn)).
    pose proof (read_genfromtxt_written e path kw da dm dt line0 line1 (firstn n a) (firstn n m) (firstn n t)
                  H0 H1 L1 L2 R K) as X.
    rewrite (firstn_len n a _ eq_refl Nn) in X.
    destruct (Nat.ltb_spec n 2); [lia|].
    eexists; split; [exact X|]. cbn [dd_titrant_amount dd_measurement dd_temperature].
    rewrite map_length, (firstn_len n a _ eq_refl Nn). split; [reflexivity|].
    assert (G : forall d l, Forall2 (written_close d) l (map (written_value d) l)).
    { intros d l. induction l as [|x l IH]; cbn [map]; constructor; [|exact IH].
      destruct (written_read d x) as [y [E C]]. unfold written_value, field_value.
      now rewrite E. }
    repeat split; apply G.
Qed.

(** The call can be made again: with mode "w" it gives the same files as without the
    interruption.  With the default mode it does so only if the file had not been opened;
    otherwise it raises FileExistsError and leaves the remains. *)
Theorem C146_again {T} `{Num T} (f f' : fs) (path line0 line1 : string) (a m t : list T)
  (mode : wmode) (da dm dt : nat) :
  write_left f path a m t line0 line1 mode da dm dt f' ->
  (mode = ModeW ->
   snd (write_dat f' path a m t line0 line1 ModeW da dm dt) = Ok tt /\
   forall p, fst (write_dat f' path a m t line0 line1 ModeW da dm dt) p
             = fst (write_dat f path a m t line0 line1 ModeW da dm dt) p) /\
  (mode = ModeX -> f' path <> None ->
   write_dat f' path a m t line0 line1 ModeX da dm dt = (f', Err FileExistsError)).
Proof.
  intros W. split; intros M.
  - assert (S : forall g : fs, snd (write_dat g path a m t line0 line1 ModeW da dm dt) = Ok tt).
    { intros g. unfold write_dat. now destruct (g path). }
    split; [apply S|]. intros p.
    assert (P : forall g : fs, fst (write_dat g path a m t line0 line1 ModeW da dm dt) p
                = if String.eqb p path then Some (dat_text da dm dt line0 line1 a m t) else g p).
    { intros g. unfold write_dat, fs_write. now destruct (g path). }
    rewrite !P. destruct (String.eqb p path) eqn:Q; [reflexivity|].
    destruct W; unfold fs_write; rewrite ?Q; reflexivity.
  - intros N. unfold write_dat. destruct (f' path); [reflexivity | now elim N].
Qed.

(** The call that is not interrupted is the last of these points: it leaves the whole text. *)
Theorem C146_complete {T} `{Num T} (f f' : fs) (path line0 line1 : string) (a m t : list T)
  (mode : wmode) (da dm dt : nat) :
  write_dat f path a m t line0 line1 mode da dm dt = (f', Ok tt) ->
  write_left f path a m t line0 line1 mode da dm dt f' /\
  exists before, f' path = Some (before ++ dat_text da dm dt line0 line1 a m t)%string /\
    (before = "" \/ mode = ModeA /\ f path = Some before).
Proof.
  assert (B : begins (dat_text da dm dt line0 line1 a m t) (dat_text da dm dt line0 line1 a m t))
    by (exists ""; symmetry; apply sapp_nil).
  assert (S : forall c, fs_write f path c path = Some c).
  { intros c. unfold fs_write. now rewrite String.eqb_refl. }
  unfold write_dat. intros W.
  destruct mode, (f path) as [old|] eqn:F; try discriminate W; injection W as <-.
  - split; [now apply left_new|]. exists "". rewrite S. split; [reflexivity|now left].
  - split; [now apply left_over|]. exists "". rewrite S. split; [reflexivity|now left].
  - split; [now apply left_over|]. exists "". rewrite S. split; [reflexivity|now left].
  - split.
    + pose proof (left_append f path a m t line0 line1 ModeA da dm dt _ eq_refl B) as X.
      rewrite F in X. exact X.
    + exists old. rewrite S. split; [reflexivity|]. right. now split.
  - split.
    + pose proof (left_append f path a m t line0 line1 ModeA da dm dt _ eq_refl B) as X.
      rewrite F in X. exact X.
    + exists "". rewrite S. split; [reflexivity|now left].
Qed.

(** With mode "w" the old file is given up before anything new has been written: whatever it
    held, there is a point of interruption that leaves an empty file. *)
Theorem C146_old_content_refuted {T} `{Num T} (f : fs) (path old line0 line1 : string) (a m t : list T)
  (da dm dt : nat) :
  f path = Some old ->
  exists f', write_left f path a m t line0 line1 ModeW da dm dt f' /\ f' path = Some "".
Proof.
  intros _. exists (fs_write f path ""). split.
  - apply left_over; [reflexivity|]. now eexists.
  - unfold fs_write. now rewrite String.eqb_refl.
Qed.

From Verif Require Import PropPure SFNum.

(** The last temperature of what is read can be one that was never measured: in double
    precision, 25.125 degrees cut off after its first digit reads as 2 degrees. *)
Definition crash_a : list sf := [sf_ofQ 0; sf_ofQ 1; sf_ofQ 2].
Definition crash_m : list sf := [sf_ofQ 100; sf_ofQ 200; sf_ofQ 300].
Definition crash_t : list sf := [sf_ofQ 25.125; sf_ofQ 25.125; sf_ofQ 25.125].
Definition crash_text : string := dat_text (H := Num_sf flm) 3 3 3 line0_default line1_default crash_a crash_m crash_t.
Definition crash_rest : string := "5.125" ++ String nl "".
Definition crash_part : string := String.substring 0 (String.length crash_text - String.length crash_rest) crash_text.

Theorem C146_cut_number_refuted :
  let f' := fs_write (fun _ => None) "x.dat" crash_part in
  write_left (H := Num_sf flm) (fun _ => None) "x.dat" crash_a crash_m crash_t line0_default line1_default ModeX 3 3 3 f' /\
  forall e, reads_from e f' ->
    exists d, read_dat (H := Num_sf flm) e "x.dat" [] = Ok (Dat d) /\
      dd_titrant_amount d = crash_a /\ dd_measurement d = crash_m /\
      dd_temperature d = [sf_ofQ 25.125; sf_ofQ 25.125; sf_ofQ 2].
Proof.
  intros f'. split.
  - apply left_new; [reflexivity|reflexivity|]. exists crash_rest. vm_compute. reflexivity.
  - intros e R. specialize (R "x.dat").
    assert (E : e_file e "x.dat" = Some crash_part) by (rewrite R; reflexivity).
    rewrite (read_default (H := Num_sf flm) e "x.dat" [] (or_introl eq_refl)).
    unfold read_dat_genfromtxt, read_text. rewrite E.
    eexists. split; [vm_compute; reflexivity|]. repeat split; vm_compute; reflexivity.
Qed.

(* three rows: something shorter is left by an interrupted write with either mode, and a
   second write over it completes it *)
Example C146_nonvacuous :
  let a := [Fin 0; Fin (/ 4); Fin 4] in
  let m := [Fin (- 183.25); Fin 1000000; NaN] in
  let t := [Fin 25; Fin 25; PInf] in
  exists f', write_left (fun _ => Some "old") "x.dat" a m t line0_default line1_default ModeW 3 3 3 f' /\
    f' "x.dat" <> Some "old" /\
    fst (write_dat f' "x.dat" a m t line0_default line1_default ModeW 3 3 3) "x.dat"
    = Some (dat_text 3 3 3 line0_default line1_default a m t) /\
    forall e, reads_from e f' ->
    exists n d, (2 <= n <= 3)%nat /\ read_dat e "x.dat" [] = Ok (Dat d) /\
      Forall2 (written_close 3) (firstn n m) (dd_measurement d).
Proof.
  intros a m t.
  destruct (C146_short_refuted (fun _ => Some "old") "x.dat" line0_default line1_default a m t ModeW 3 3 3 2
    eq_refl eq_refl (proj1 default_headers) (proj2 default_headers) (or_intror eq_refl) ltac:(cbn; lia))
    as [f' [W R]].
  exists f'. split; [exact W|].
  assert (X : forall e, reads_from e f' ->
    exists n d, (2 <= n <= 3)%nat /\ read_dat e "x.dat" [] = Ok (Dat d) /\
      Forall2 (written_close 3) (firstn n m) (dd_measurement d)).
  { intros e E. destruct (R e [] E (or_introl eq_refl)) as [d [D [_ [_ [M _]]]]].
    exists 2%nat, d. split; [lia|]. split; [exact D|exact M]. }
  split; [|split; [|exact X]].
  - intros O. set (e := {| e_file := f'; e_excel := fun _ => None;
      e_salts := fun _ _ _ _ _ _ _ d => Ok d; e_equil := fun _ d _ _ _ _ _ => Ok d;
      e_sys_salt := fun _ _ _ => n0 (T := xr); e_strat := {| s_next := fun _ => None; s_pick := fun _ => 0%nat; s_max := 0 |} |}).
    destruct (X e (fun _ => eq_refl)) as [n [d [_ [D _]]]].
    rewrite (read_default e "x.dat" [] (or_introl eq_refl)) in D.
    unfold read_dat_genfromtxt, read_text in D. cbn [e_file e] in D. rewrite O in D.
    vm_compute in D. discriminate D.
  - destruct (C146_again _ f' "x.dat" line0_default line1_default a m t ModeW 3 3 3 W) as [[_ Y] _]; [reflexivity|].
    now rewrite Y.
Qed.

