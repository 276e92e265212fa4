(* PropText.v -- properties of the titration file readers and the writer *)
From Coq Require Import Reals Lra Lia.
From Verif Require Import TextProofs SpecText XRLemmas.
Open Scope R_scope.
Open Scope string_scope.
Open Scope list_scope.

(* ------------------------------------------------------------------ *)
(** * Numbers: write, then read *)

Lemma round_even_close y : Rabs (IZR (round_even y) - y) <= / 2.
Proof.
  unfold round_even. pose proof (base_Int_part y) as [A B].
  destruct (Rlt_dec _ _) as [C|C]; [|destruct (Rlt_dec _ _) as [D|D]; [|destruct (Z.even _)]];
    rewrite ?plus_IZR; apply Rabs_le; lra.
Qed.

Lemma round_even_sign y : (0 <= y -> (0 <= round_even y)%Z) /\ (y <= 0 -> (round_even y <= 0)%Z).
Proof.
  pose proof (round_even_close y) as C0.
  assert (C : - / 2 <= IZR (round_even y) - y <= / 2)
    by (unfold Rabs in C0; destruct (Rcase_abs _); lra).
  split; intros S.
  - destruct (Z_le_gt_dec 0 (round_even y)) as [L|G]; [exact L|].
    assert (IZR (round_even y) <= -1) by (apply (IZR_le _ (-1)); lia). lra.
  - destruct (Z_le_gt_dec (round_even y) 0) as [L|G]; [exact L|].
    assert (1 <= IZR (round_even y)) by (apply (IZR_le 1); lia). lra.
Qed.

Lemma dec_real z d : (dec z (- Z.of_nat d) : xr) = Fin (IZR z / 10 ^ d).
Proof.
  unfold dec. destruct (Z.leb_spec 0 (- Z.of_nat d)) as [L|L].
  - assert (d = 0)%nat by lia. subst d. cbn [Z.of_nat Z.opp Z.pow pow].
    rewrite fin_q, Q2R_inject_Z. f_equal. rewrite Z.mul_1_r. lra.
  - rewrite fin_q. unfold Q2R; cbn [Qnum Qden].
    rewrite Z.opp_involutive. rewrite Z2Pos.id by (apply Z.pow_pos_nonneg; lia).
    rewrite <- pow_IZR. reflexivity.
Qed.

Lemma pow10_pos d : 0 < 10 ^ d.
Proof. apply pow_lt; lra. Qed.

Lemma written_read (d : nat) (x : xr) :
  exists y, parse_float (format_fixed d x) = Some y /\ written_close d x y.
Proof.
  destruct x as [r| | |].
  - rewrite format_fixed_finite by reflexivity.
    rewrite parse_float_decimal by lia. rewrite dec_real.
    eexists; split; [reflexivity|]. cbn [written_close]. eexists; split; [reflexivity|].
    set (z := nround d (Fin r)).
    assert (E : z = round_even (r * 10 ^ d)) by reflexivity.
    assert (S : neg_if (nltb (Fin r) n0) (Z.abs z) = z).
    { pose proof (pow10_pos d). rewrite E. pose proof (round_even_sign (r * 10 ^ d)) as [P N].
      rewrite fin_n0. destruct (Rlt_le_dec r 0) as [L|L].
      - rewrite x_ltb_fin_t by exact L. cbn [neg_if].
        assert (r * 10 ^ d <= 0) by nra. specialize (N H0). lia.
      - rewrite x_ltb_fin_f by exact L. cbn [neg_if].
        assert (0 <= r * 10 ^ d) by nra. specialize (P H0). lia. }
    rewrite S, E. pose proof (round_even_close (r * 10 ^ d)) as C.
    pose proof (pow10_pos d) as P.
    replace (IZR (round_even (r * 10 ^ d)) / 10 ^ d - r)
      with ((IZR (round_even (r * 10 ^ d)) - r * 10 ^ d) * / 10 ^ d) by (field; lra).
    rewrite Rabs_mult, (Rabs_pos_eq (/ 10 ^ d)).
    + apply Rmult_le_compat_r; [|exact C]. left. now apply Rinv_0_lt_compat.
    + left. now apply Rinv_0_lt_compat.
  - eexists; split; [|reflexivity]. cbn. vm_compute. reflexivity.
  - eexists; split; [|reflexivity]. vm_compute. reflexivity.
  - eexists; split; [|reflexivity]. vm_compute. reflexivity.
Qed.

(* ------------------------------------------------------------------ *)
(** * Files written by write_dat *)

Section Written.
Context {T : Type} `{Num T}.

Definition data_row (da dm dt : nat) (x y z : T) : string :=
  (format_fixed da x ++ tab_str ++ format_fixed dm y ++ tab_str ++ format_fixed dt z)%string.

Fixpoint data_rows (da dm dt : nat) (a m t : list T) : list string :=
  match a, m, t with
  | x :: a', y :: m', z :: t' => data_row da dm dt x y z :: data_rows da dm dt a' m' t'
  | _, _, _ => []
  end.

Lemma dat_lines_join da dm dt a m t :
  dat_lines da dm dt a m t = join_nl (data_rows da dm dt a m t).
Proof.
  revert m t; induction a as [|x a IH]; intros [|y m] [|z t]; try reflexivity.
  cbn [dat_lines data_rows join_nl]. rewrite IH. unfold dat_line, data_row.
  rewrite !sapp_assoc. reflexivity.
Qed.

Lemma dat_text_join da dm dt line0 line1 a m t :
  dat_text da dm dt line0 line1 a m t
  = join_nl (line0 :: line1 :: data_rows da dm dt a m t).
Proof. unfold dat_text. rewrite dat_lines_join. reflexivity. Qed.

Lemma word_not c s : (forall x, word_char x = true -> Ascii.eqb x c = false) ->
  all_chars word_char s = true -> no_char c s = true.
Proof.
  intros A. apply all_chars_impl. intros x W. now rewrite (A x W).
Qed.

Lemma data_row_no c da dm dt x y z :
  (forall x, word_char x = true -> Ascii.eqb x c = false) -> Ascii.eqb tab c = false ->
  no_char c (data_row da dm dt x y z) = true.
Proof.
  intros A B. unfold data_row, no_char. rewrite !all_chars_app.
  pose proof (fun d (x : T) => word_not c _ A (proj1 (format_fixed_word d x))) as F.
  unfold no_char in F. rewrite !F. unfold tab_str, all_chars. now rewrite B.
Qed.

Lemma data_rows_no c da dm dt a m t :
  (forall x, word_char x = true -> Ascii.eqb x c = false) -> Ascii.eqb tab c = false ->
  forallb (no_char c) (data_rows da dm dt a m t) = true.
Proof.
  intros A B. revert m t; induction a as [|x a IH]; intros [|y m] [|z t]; try reflexivity.
  cbn [data_rows forallb]. now rewrite (data_row_no c da dm dt x y z A B), IH.
Qed.

Lemma word_last d (x : T) : exists m b, format_fixed d x = (m ++ String b "")%string /\ word_char b = true.
Proof.
  destruct (format_fixed_word d x) as [W N].
  destruct (list_of_string (format_fixed d x)) as [|c l] eqn:E.
  - elim N. rewrite <- (sol_los (format_fixed d x)), E. reflexivity.
  - destruct (exists_last (l := c :: l) ltac:(discriminate)) as [m [b Eb]].
    exists (string_of_list m), b. split.
    + rewrite <- (sol_los (format_fixed d x)), E, Eb.
      rewrite <- (sol_los (string_of_list m ++ String b "")), los_app, los_sol. reflexivity.
    + rewrite all_chars_forallb, E, Eb, forallb_app in W.
      apply andb_true_iff in W as [_ W]. cbn in W. now rewrite andb_true_r in W.
Qed.

Lemma word_first d (x : T) : exists b m, format_fixed d x = String b m /\ word_char b = true.
Proof.
  destruct (format_fixed_word d x) as [W N].
  destruct (format_fixed d x) as [|b m]; [now elim N|].
  cbn in W. apply andb_true_iff in W as [W _]. eauto.
Qed.

Lemma split_row da dm dt x y z :
  genfromtxt_split tab (data_row da dm dt x y z)
  = [format_fixed da x; format_fixed dm y; format_fixed dt z].
Proof.
  unfold genfromtxt_split.
  assert (NH : no_char "#" (data_row da dm dt x y z) = true).
  { apply data_row_no; [|reflexivity]. intros c W. apply (word_char_plain c W). }
  rewrite (split_on_none "#" _ NH). cbn beta iota zeta.
  destruct (word_first da x) as [b0 [m0 [E0 W0]]].
  destruct (word_last dt z) as [m1 [b1 [E1 W1]]].
  assert (S : strip (fun c => Ascii.eqb c " " || Ascii.eqb c cr || Ascii.eqb c nl)
                (data_row da dm dt x y z) = data_row da dm dt x y z).
  { unfold data_row. rewrite E0, E1.
    change (String b0 m0 ++ ?r)%string with (String b0 (m0 ++ r)%string).
    rewrite <- !sapp_assoc. cbn [append].
    destruct (word_char_plain b0 W0) as (_ & _ & _ & A1 & A2 & _ & A3).
    destruct (word_char_plain b1 W1) as (_ & _ & _ & B1 & B2 & _ & B3).
    apply strip_ends; [now rewrite A1, A2, A3 | now rewrite B1, B2, B3]. }
  rewrite S.
  assert (N : String.eqb (data_row da dm dt x y z) "" = false).
  { unfold data_row. rewrite E0. reflexivity. }
  rewrite N. unfold data_row, tab_str. cbn [append].
  assert (NT : forall d (v : T), no_char tab (format_fixed d v) = true).
  { intros d v. apply word_not; [|apply format_fixed_word]. intros c W. apply (word_char_plain c W). }
  now rewrite (split_on_app tab _ _ (NT da x)), (split_on_app tab _ _ (NT dm y)),
    (split_on_none tab _ (NT dt z)).
Qed.

(* the fields of the data rows *)
Fixpoint fields_of (da dm dt : nat) (a m t : list T) : list (list string) :=
  match a, m, t with
  | x :: a', y :: m', z :: t' =>
      [format_fixed da x; format_fixed dm y; format_fixed dt z] :: fields_of da dm dt a' m' t'
  | _, _, _ => []
  end.

Lemma fields_split da dm dt a m t :
  filter not_nil (map (genfromtxt_split tab) (data_rows da dm dt a m t)) = fields_of da dm dt a m t.
Proof.
  revert m t; induction a as [|x a IH]; intros [|y m] [|z t]; try reflexivity.
  cbn [data_rows map filter fields_of]. rewrite split_row. cbn [not_nil is_nil negb].
  now rewrite IH.
Qed.

Definition written_value (d : nat) (x : T) : T := field_value (format_fixed d x).

Lemma fields_width da dm dt a m t n :
  n = 3%nat -> forallb (fun r => Nat.eqb (length r) n) (fields_of da dm dt a m t) = true.
Proof.
  intros ->. revert m t; induction a as [|x a IH]; intros [|y m] [|z t]; try reflexivity.
  cbn [fields_of forallb length Nat.eqb]. now rewrite IH.
Qed.

Lemma fields_length da dm dt a m t : length m = length a -> length t = length a ->
  length (fields_of da dm dt a m t) = length a.
Proof.
  revert m t; induction a as [|x a IH]; intros [|y m] [|z t] A B; try discriminate; try reflexivity.
  cbn [fields_of length]. f_equal. injection A as A; injection B as B. now apply IH.
Qed.

Lemma columns_of da dm dt a m t : length m = length a -> length t = length a ->
  three_columns (map (map field_value) (fields_of da dm dt a m t)) 0 1 2
  = Ok {| dd_titrant_amount := map (written_value da) a;
          dd_measurement := map (written_value dm) m;
          dd_temperature := map (written_value dt) t |}.
Proof.
  intros A B. unfold three_columns.
  assert (C0 : column (map (map field_value) (fields_of da dm dt a m t)) 0 = Ok (map (written_value da) a)).
  { clear -A B. revert m t A B; induction a as [|x a IH]; intros [|y m] [|z t] A B; try discriminate; try reflexivity.
    injection A as A; injection B as B. unfold column in *. cbn [fields_of map mapM].
    rewrite (IH m t A B). reflexivity. }
  assert (C1 : column (map (map field_value) (fields_of da dm dt a m t)) 1 = Ok (map (written_value dm) m)).
  { clear -A B. revert m t A B; induction a as [|x a IH]; intros [|y m] [|z t] A B; try discriminate; try reflexivity.
    injection A as A; injection B as B. unfold column in *. cbn [fields_of map mapM].
    rewrite (IH m t A B). reflexivity. }
  assert (C2 : column (map (map field_value) (fields_of da dm dt a m t)) 2 = Ok (map (written_value dt) t)).
  { clear -A B. revert m t A B; induction a as [|x a IH]; intros [|y m] [|z t] A B; try discriminate; try reflexivity.
    injection A as A; injection B as B. unfold column in *. cbn [fields_of map mapM].
    rewrite (IH m t A B). reflexivity. }
  now rewrite C0, C1, C2.
Qed.

Lemma one_line_no s : one_line s -> no_char nl s = true /\ no_char cr s = true.
Proof.
  assert (G : forall c, ~ In c (list_of_string s) -> no_char c s = true).
  { intros c N. unfold no_char. rewrite all_chars_forallb. apply forallb_forall. intros x I.
    destruct (Ascii.eqb_spec x c) as [E|E]; [now subst | reflexivity]. }
  intros [A B]. split; now apply G.
Qed.

Lemma written_lines da dm dt line0 line1 a m t : one_line line0 -> one_line line1 ->
  lines_of (dat_text da dm dt line0 line1 a m t) = line0 :: line1 :: data_rows da dm dt a m t.
Proof.
  intros A B. apply one_line_no in A as [A1 A2]. apply one_line_no in B as [B1 B2].
  rewrite dat_text_join. apply lines_of_join; cbn [forallb].
  - rewrite A1, B1. cbn [andb]. apply data_rows_no; [|reflexivity]. intros c W. apply (word_char_plain c W).
  - rewrite A2, B2. cbn [andb]. apply data_rows_no; [|reflexivity]. intros c W. apply (word_char_plain c W).
Qed.

(* what genfromtxt makes of a written file *)
Lemma genfromtxt_written da dm dt line0 line1 a m t :
  one_line line0 -> one_line line1 -> length m = length a -> length t = length a ->
  genfromtxt (dat_text da dm dt line0 line1 a m t) tab 2
  = if (length a <? 2)%nat then Err IndexError
    else Ok (map (map field_value) (fields_of da dm dt a m t)).
Proof.
  intros A B C D. unfold genfromtxt. rewrite written_lines by assumption.
  change (skipn (Z.to_nat 2) (line0 :: line1 :: data_rows da dm dt a m t)) with (data_rows da dm dt a m t).
  rewrite fields_split. pose proof (fields_length da dm dt a m t C D) as L.
  pose proof (fun n => fields_width da dm dt a m t n) as W.
  destruct (fields_of da dm dt a m t) as [|f0 fs] eqn:E.
  - cbn in L. now rewrite <- L.
  - assert (L0 : length f0 = 3%nat).
    { specialize (W 3%nat eq_refl). cbn [forallb] in W. apply andb_true_iff in W as [W _].
      now apply Nat.eqb_eq. }
    rewrite (W (length f0) L0), L, L0. cbn [negb]. change (3 <? 2)%nat with false.
    now rewrite orb_false_r.
Qed.

Lemma read_genfromtxt_written (e : env T) path kw da dm dt line0 line1 a m t :
  one_line line0 -> one_line line1 -> length m = length a -> length t = length a ->
  e_file e path = Some (dat_text da dm dt line0 line1 a m t) ->
  (kw = [] \/ kw = [("file_type", VStr "vindta")] \/ kw = [("file_type", VStr "genfromtxt")]) ->
  read_dat e path kw
  = if (length a <? 2)%nat then Err IndexError
    else Ok (Dat {| dd_titrant_amount := map (written_value da) a;
                    dd_measurement := map (written_value dm) m;
                    dd_temperature := map (written_value dt) t |}).
Proof.
  intros A B C D F K.
  assert (R : read_dat e path kw
              = (d <- read_dat_genfromtxt e path [] ;; Ok (Dat d))).
  { destruct K as [-> | [-> | ->]]; reflexivity. }
  rewrite R. unfold read_dat_genfromtxt, read_text. rewrite F.
  cbn [check_kwargs forallb bind of_opt kwarg dget as_delim as_int].
  rewrite genfromtxt_written by assumption.
  destruct (length a <? 2)%nat; [reflexivity|]. cbn [bind].
  rewrite columns_of by assumption. reflexivity.
Qed.

End Written.

(* the read settings that leave everything at its default *)
Definition default_read {T} (kw : kwargs T) : Prop :=
  kw = [] \/ kw = [("file_type", VStr "vindta")] \/ kw = [("file_type", VStr "genfromtxt")].

(** C65.  Whatever was written with write_dat (to a new file, or over an old one with mode
    "w"), with whatever numbers of decimals and one-line headers, read_dat returns it: as
    many points as were written, every value within half a unit of its last decimal, nan
    and infinities unchanged.  At least two rows. *)
Theorem C65_write_then_read (f : fs) (path line0 line1 : string) (a m t : list xr)
  (mode : wmode) (da dm dt : nat) (f' : fs) (e : env xr) (kw : kwargs xr) :
  (2 <= length a)%nat -> length m = length a -> length t = length a ->
  one_line line0 -> one_line line1 ->
  mode = ModeX \/ mode = ModeW ->
  write_dat f path a m t line0 line1 mode da dm dt = (f', Ok tt) ->
  e_file e path = f' path ->
  default_read kw ->
  exists d, read_dat e path kw = Ok (Dat d) /\
    Forall2 (written_close da) a (dd_titrant_amount d) /\
    Forall2 (written_close dm) m (dd_measurement d) /\
    Forall2 (written_close dt) t (dd_temperature d).
Proof.
  intros N Lm Lt H0 H1 M W F K.
  assert (P : f' path = Some (dat_text da dm dt line0 line1 a m t)).
  { unfold write_dat, fs_write in W.
    destruct M as [-> | ->]; destruct (f path) as [c|]; try discriminate W; injection W as <-;
      now rewrite String.eqb_refl. }
  rewrite P in F.
  rewrite (read_genfromtxt_written e path kw da dm dt line0 line1 a m t H0 H1 Lm Lt F K).
  destruct (Nat.ltb_spec (length a) 2); [lia|].
  eexists; split; [reflexivity|].
  assert (G : forall d l, Forall2 (written_close d) l (map (written_value d) l)).
  { intros d l. induction l as [|x l IH]; cbn [map]; constructor; [|exact IH].
    destruct (written_read d x) as [y [E C]]. unfold written_value, field_value.
    now rewrite E. }
  repeat split; apply G.
Qed.

(** C66.  In every arithmetic, a written file with at least two rows can be read ... *)
Theorem C66_two_rows_partial {T} `{Num T} (f : fs) (path line0 line1 : string) (a m t : list T)
  (mode : wmode) (da dm dt : nat) (f' : fs) (e : env T) (kw : kwargs T) :
  (2 <= length a)%nat -> length m = length a -> length t = length a ->
  one_line line0 -> one_line line1 ->
  mode = ModeX \/ mode = ModeW ->
  write_dat f path a m t line0 line1 mode da dm dt = (f', Ok tt) ->
  e_file e path = f' path ->
  default_read kw ->
  exists d, read_dat e path kw = Ok (Dat d) /\ length (dd_titrant_amount d) = length a /\
    length (dd_measurement d) = length a /\ length (dd_temperature d) = length a.
Proof.
  intros N Lm Lt H0 H1 M W F K.
  assert (P : f' path = Some (dat_text da dm dt line0 line1 a m t)).
  { unfold write_dat, fs_write in W.
    destruct M as [-> | ->]; destruct (f path) as [c|]; try discriminate W; injection W as <-;
      now rewrite String.eqb_refl. }
  rewrite P in F.
  rewrite (read_genfromtxt_written e path kw da dm dt line0 line1 a m t H0 H1 Lm Lt F K).
  destruct (Nat.ltb_spec (length a) 2); [lia|].
  eexists; split; [reflexivity|]. cbn. now rewrite !map_length, Lm, Lt.
Qed.

(** ... but never one with fewer: numpy squeezes the single row and the column index fails. *)
Theorem C66_single_row_refuted {T} `{Num T} (f : fs) (path line0 line1 : string) (a m t : list T)
  (mode : wmode) (da dm dt : nat) (f' : fs) (e : env T) (kw : kwargs T) :
  (length a < 2)%nat -> length m = length a -> length t = length a ->
  one_line line0 -> one_line line1 ->
  mode = ModeX \/ mode = ModeW ->
  write_dat f path a m t line0 line1 mode da dm dt = (f', Ok tt) ->
  e_file e path = f' path ->
  default_read kw ->
  read_dat e path kw = Err IndexError.
Proof.
  intros N Lm Lt H0 H1 M W F K.
  assert (P : f' path = Some (dat_text da dm dt line0 line1 a m t)).
  { unfold write_dat, fs_write in W.
    destruct M as [-> | ->]; destruct (f path) as [c|]; try discriminate W; injection W as <-;
      now rewrite String.eqb_refl. }
  rewrite P in F.
  rewrite (read_genfromtxt_written e path kw da dm dt line0 line1 a m t H0 H1 Lm Lt F K).
  destruct (Nat.ltb_spec (length a) 2); [reflexivity | lia].
Qed.

Lemma default_headers : one_line line0_default /\ one_line line1_default.
Proof.
  assert (G : forall s, forallb (fun c => negb (Ascii.eqb c nl || Ascii.eqb c cr)) (list_of_string s) = true
              -> one_line s).
  { intros s A. rewrite forallb_forall in A. split; intros I; specialize (A _ I); discriminate. }
  split; apply G; reflexivity.
Qed.

(* the default headers, three rows with negative, tiny, large and missing values *)
Definition env_with_file {T} `{Num T} (content : string) (st : strategy T) : env T :=
  {| e_file := fun _ => Some content; e_excel := fun _ => None;
     e_salts := fun _ _ _ _ _ _ _ d => Ok d; e_equil := fun _ d _ _ _ _ _ => Ok d;
     e_sys_salt := fun _ _ _ => n0; e_strat := st |}.

Example C65_nonvacuous st :
  let a := [Fin 0; Fin (/ 4); Fin 4] in
  let m := [Fin (- 183.25); Fin 1000000; NaN] in
  let t := [Fin 25; Fin 25; PInf] in
  let text := dat_text 3 3 3 line0_default line1_default a m t in
  snd (write_dat (fun _ => None) "x.dat" a m t line0_default line1_default ModeX 3 3 3) = Ok tt /\
  fst (write_dat (fun _ => None) "x.dat" a m t line0_default line1_default ModeX 3 3 3) "x.dat" = Some text /\
  exists d, read_dat (env_with_file text st) "x.dat" [] = Ok (Dat d) /\
    Forall2 (written_close 3) m (dd_measurement d).
Proof.
  intros a m t text. split; [reflexivity|]. split; [reflexivity|].
  destruct (C65_write_then_read (fun _ => None) "x.dat" line0_default line1_default a m t ModeX 3 3 3
            (fs_write (fun _ => None) "x.dat" text)
            (env_with_file text st) []
            ltac:(cbn; lia) eq_refl eq_refl (proj1 default_headers) (proj2 default_headers)
            (or_introl eq_refl) eq_refl eq_refl (or_introl eq_refl)) as [d [R [_ [M _]]]].
  exists d. split; assumption.
Qed.

(* ------------------------------------------------------------------ *)
(** * write_dat and the file system *)

(** C67.  With the default mode an existing file makes write_dat raise and nothing changes;
    otherwise the new file is there afterwards and no other file has changed. *)
Theorem C67_no_overwrite {T} `{Num T} (f : fs) (path line0 line1 : string) (a m t : list T)
  (da dm dt : nat) :
  let r := write_dat f path a m t line0 line1 ModeX da dm dt in
  (f path <> None -> snd r = Err FileExistsError /\ forall p, fst r p = f p) /\
  (f path = None -> snd r = Ok tt /\ fst r path <> None /\ forall p, p <> path -> fst r p = f p).
Proof.
  cbn zeta. unfold write_dat, fs_write. split.
  - intros N. destruct (f path); [|now elim N]. split; reflexivity.
  - intros E. rewrite E. cbn [fst snd]. rewrite String.eqb_refl.
    repeat split; [discriminate|]. intros p N. apply String.eqb_neq in N. now rewrite N.
Qed.

(* one call of write_dat *)
Record write_call T := { w_path : string; w_a : list T; w_m : list T; w_t : list T;
  w_line0 : string; w_line1 : string; w_mode : wmode; w_da : nat; w_dm : nat; w_dt : nat }.
Arguments w_path {T}. Arguments w_a {T}. Arguments w_m {T}. Arguments w_t {T}.
Arguments w_line0 {T}. Arguments w_line1 {T}. Arguments w_mode {T}.
Arguments w_da {T}. Arguments w_dm {T}. Arguments w_dt {T}.

Definition run_write {T} `{Num T} (f : fs) (w : write_call T) : fs :=
  fst (write_dat f (w_path w) (w_a w) (w_m w) (w_t w) (w_line0 w) (w_line1 w) (w_mode w)
         (w_da w) (w_dm w) (w_dt w)).

(** However many calls with the default mode are made, failing ones included, no file that
    existed at some point is ever changed or removed afterwards; and in any mode a file is
    only touched by a call that names it. *)
Theorem C67_history {T} `{Num T} (ws : list (write_call T)) (f : fs) (p : string) (c : string) :
  (f p = Some c -> (forall w, In w ws -> w_mode w = ModeX) -> fold_left run_write ws f p = Some c) /\
  ((forall w, In w ws -> w_path w <> p) -> fold_left run_write ws f p = f p).
Proof.
  revert f; induction ws as [|w ws IH]; intros f; cbn [fold_left]; [auto|]. split.
  - intros E M. apply IH; [|intros w' I; apply M; now right].
    unfold run_write, write_dat. rewrite (M w (or_introl eq_refl)).
    destruct (f (w_path w)) as [c'|] eqn:E'; [exact E|]. cbn [fst]. unfold fs_write.
    destruct (String.eqb_spec p (w_path w)) as [P|P]; [congruence | exact E].
  - intros N. rewrite (proj2 (IH _)) by (intros w' I; apply N; now right).
    assert (P : w_path w <> p) by (apply N; now left).
    assert (Q : String.eqb p (w_path w) = false) by (apply String.eqb_neq; congruence).
    unfold run_write, write_dat, fs_write.
    destruct (w_mode w), (f (w_path w)); cbn [fst]; now rewrite ?Q.
Qed.

Example C67_nonvacuous :
  let f : fs := fun p => if String.eqb p "old.dat" then Some "data" else None in
  snd (write_dat f "old.dat" [Fin 1] [Fin 2] [Fin 3] "" "" ModeX 3 3 3) = Err FileExistsError /\
  snd (write_dat f "new.dat" [Fin 1] [Fin 2] [Fin 3] "" "" ModeX 3 3 3) = Ok tt.
Proof. split; reflexivity. Qed.

Example C66_nonvacuous st :
  let text := dat_text 3 3 3 line0_default line1_default [Fin 1] [Fin 2] [Fin 3] in
  snd (write_dat (fun _ => None) "x.dat" [Fin 1] [Fin 2] [Fin 3] line0_default line1_default ModeX 3 3 3) = Ok tt /\
  read_dat (env_with_file text st) "x.dat" [] = Err IndexError.
Proof.
  cbn zeta. split; [reflexivity|].
  exact (C66_single_row_refuted (fun _ => None) "x.dat" line0_default line1_default [Fin 1] [Fin 2] [Fin 3] ModeX 3 3 3
          (fs_write (fun _ => None) "x.dat" (dat_text 3 3 3 line0_default line1_default [Fin 1] [Fin 2] [Fin 3]))
          (env_with_file (dat_text 3 3 3 line0_default line1_default [Fin 1] [Fin 2] [Fin 3]) st) []
          ltac:(cbn; lia) eq_refl eq_refl (proj1 default_headers) (proj2 default_headers)
          (or_introl eq_refl) eq_refl eq_refl (or_introl eq_refl)).
Qed.

Print Assumptions C65_write_then_read.
Print Assumptions C66_two_rows_partial.
Print Assumptions C66_single_row_refuted.
Print Assumptions C67_no_overwrite.
Print Assumptions C67_history.
