(* TextProofs.v -- lemmas about Text.v and the line splitting of Titrations.v *)
From Coq Require Import Lia.
From Verif Require Export Titrations.
Open Scope string_scope.
Open Scope list_scope.

(* ------------------------------------------------------------------ *)
(** * Strings as lists of characters *)

Lemma los_sol l : list_of_string (string_of_list l) = l.
Proof. induction l as [|c l IH]; cbn; [reflexivity | now rewrite IH]. Qed.

Lemma sol_los s : string_of_list (list_of_string s) = s.
Proof. induction s as [|c s IH]; cbn; [reflexivity | now rewrite IH]. Qed.

Lemma los_app s t : list_of_string (s ++ t)%string = list_of_string s ++ list_of_string t.
Proof. induction s as [|c s IH]; cbn; [reflexivity | now rewrite IH]. Qed.

Lemma all_chars_forallb p s : all_chars p s = forallb p (list_of_string s).
Proof. induction s as [|c s IH]; cbn; [reflexivity | now rewrite IH]. Qed.

Lemma all_chars_app p s t : all_chars p (s ++ t)%string = all_chars p s && all_chars p t.
Proof. rewrite !all_chars_forallb, los_app. apply forallb_app. Qed.

Lemma all_chars_impl (p q : ascii -> bool) s :
  (forall c, p c = true -> q c = true) -> all_chars p s = true -> all_chars q s = true.
Proof.
  intros H; induction s as [|c s IH]; cbn; [reflexivity|].
  rewrite !andb_true_iff; intros [A B]; auto.
Qed.

Lemma sapp_nil s : (s ++ "")%string = s.
Proof. induction s as [|c s IH]; cbn; [reflexivity | now rewrite IH]. Qed.

Lemma sapp_assoc a b c : ((a ++ b) ++ c)%string = (a ++ (b ++ c))%string.
Proof. induction a as [|x a IH]; cbn; [reflexivity | now rewrite IH]. Qed.

Lemma srev_app_spec s acc : list_of_string (srev_app s acc) = rev (list_of_string s) ++ list_of_string acc.
Proof.
  revert acc; induction s as [|c s IH]; intros acc; cbn; [reflexivity|].
  rewrite IH; cbn. now rewrite <- app_assoc.
Qed.

Lemma srev_spec s : srev s = string_of_list (rev (list_of_string s)).
Proof.
  rewrite <- (sol_los (srev s)). unfold srev. rewrite srev_app_spec; cbn.
  now rewrite app_nil_r.
Qed.

Lemma lstrip_none p s : all_chars (fun c => negb (p c)) s = true -> lstrip p s = s.
Proof.
  destruct s as [|c s]; cbn; [reflexivity|].
  rewrite andb_true_iff, negb_true_iff; intros [-> _]; reflexivity.
Qed.

Lemma srev_chars p s : all_chars p (srev s) = all_chars p s.
Proof.
  rewrite srev_spec, !all_chars_forallb, los_sol.
  generalize (list_of_string s) as l; intros l.
  induction l as [|c l IH]; cbn; [reflexivity|].
  rewrite forallb_app, IH; cbn. rewrite andb_true_r. apply andb_comm.
Qed.

Lemma srev_srev s : srev (srev s) = s.
Proof. rewrite !srev_spec, los_sol, rev_involutive. apply sol_los. Qed.

(* stripping does nothing when no character is to be stripped *)
Lemma strip_none p s : all_chars (fun c => negb (p c)) s = true -> strip p s = s.
Proof.
  intros A. unfold strip. rewrite (lstrip_none p s A).
  rewrite lstrip_none; [apply srev_srev|]. now rewrite srev_chars.
Qed.

(* it suffices that the first and the last character stay *)
Lemma strip_ends p a m b :
  p a = false -> p b = false -> strip p (String a (m ++ String b ""))%string = String a (m ++ String b "")%string.
Proof.
  intros A B. unfold strip. cbn [lstrip]. rewrite A.
  set (s := String a (m ++ String b "")).
  assert (E : list_of_string s = a :: list_of_string m ++ [b]).
  { unfold s; cbn. now rewrite los_app. }
  assert (F : lstrip p (srev s) = srev s).
  { rewrite srev_spec, E.
    change (rev (a :: list_of_string m ++ [b])) with (rev (list_of_string m ++ [b]) ++ [a]).
    rewrite rev_app_distr; cbn. now rewrite B. }
  rewrite F. apply srev_srev.
Qed.

(* ------------------------------------------------------------------ *)
(** * Splitting *)

Definition no_char (c : ascii) (s : string) : bool := all_chars (fun x => negb (Ascii.eqb x c)) s.

Lemma split_on_none c s : no_char c s = true -> split_on c s = [s].
Proof.
  unfold no_char; induction s as [|x s IH]; cbn; [reflexivity|].
  rewrite andb_true_iff, negb_true_iff; intros [A B]. rewrite A, (IH B). reflexivity.
Qed.

Lemma split_on_app c s t :
  no_char c s = true -> split_on c (s ++ String c t)%string = s :: split_on c t.
Proof.
  unfold no_char; induction s as [|x s IH]; cbn; intros A.
  - now rewrite Ascii.eqb_refl.
  - apply andb_true_iff in A as [A B]. apply negb_true_iff in A. rewrite A, (IH B). reflexivity.
Qed.

Fixpoint join_nl (ls : list string) : string :=
  match ls with [] => "" | l :: ls' => (l ++ String nl (join_nl ls'))%string end.

Lemma split_join_nl ls :
  forallb (no_char nl) ls = true -> split_on nl (join_nl ls) = ls ++ [""].
Proof.
  induction ls as [|l ls IH]; cbn [forallb join_nl app]; intros A; [reflexivity|].
  apply andb_true_iff in A as [A B].
  now rewrite (split_on_app nl _ _ A), (IH B).
Qed.

Lemma drop_last_empty_app ls : drop_last_empty (ls ++ [""]) = ls.
Proof.
  induction ls as [|l ls IH]; cbn [app]; [reflexivity|].
  destruct ls as [|l' ls]; [reflexivity|].
  change (l :: drop_last_empty ((l' :: ls) ++ [""]) = l :: l' :: ls). now rewrite IH.
Qed.

Lemma strip_cr_none s : no_char cr s = true -> strip_cr s = s.
Proof.
  intros A. unfold strip_cr. destruct (srev s) as [|c r] eqn:E; [reflexivity|].
  assert (B : no_char cr (srev s) = true) by (unfold no_char; now rewrite srev_chars).
  rewrite E in B. unfold no_char in B; cbn in B. apply andb_true_iff in B as [B _].
  apply negb_true_iff in B. now rewrite B.
Qed.

(* the lines of a text that ends with a newline *)
Lemma lines_of_join ls :
  forallb (no_char nl) ls = true -> forallb (no_char cr) ls = true -> lines_of (join_nl ls) = ls.
Proof.
  intros A B. unfold lines_of. rewrite (split_join_nl _ A), drop_last_empty_app.
  clear A. induction ls as [|l ls IH]; [reflexivity|].
  cbn in B. apply andb_true_iff in B as [B C]. cbn [map]. now rewrite (strip_cr_none _ B), (IH C).
Qed.

(* ------------------------------------------------------------------ *)
(** * Digits *)

Lemma ascii_nat n : (n < 256)%nat -> nat_of_ascii (ascii_of_nat n) = n.
Proof. apply nat_ascii_embedding. Qed.

Lemma digit_char_spec d : (0 <= d < 10)%Z ->
  is_digit (digit_char d) = true /\ digit_val (digit_char d) = d.
Proof.
  intros R. unfold is_digit, digit_val, digit_char.
  rewrite ascii_nat by lia. split.
  - apply andb_true_iff; split; apply Nat.leb_le; lia.
  - lia.
Qed.

Lemma digits_value_acc l a :
  fold_left (fun a c => a * 10 + digit_val c)%Z l a
  = (a * 10 ^ Z.of_nat (length l) + digits_value l)%Z.
Proof.
  unfold digits_value. revert a; induction l as [|c l IH]; intros a; cbn [fold_left length].
  - rewrite Z.pow_0_r; lia.
  - rewrite IH, (IH (0 * 10 + digit_val c)%Z), Nat2Z.inj_succ, Z.pow_succ_r by lia. lia.
Qed.

Lemma digits_value_app l l' :
  digits_value (l ++ l') = (digits_value l * 10 ^ Z.of_nat (length l') + digits_value l')%Z.
Proof. unfold digits_value at 1. rewrite fold_left_app. apply digits_value_acc. Qed.

Lemma fixed_digits_length d n : length (fixed_digits d n) = d.
Proof. revert n; induction d as [|d IH]; intros n; cbn; [reflexivity|]. rewrite app_length, IH; cbn; lia. Qed.

Lemma fixed_digits_digits d n : forallb is_digit (fixed_digits d n) = true.
Proof.
  revert n; induction d as [|d IH]; intros n; cbn; [reflexivity|].
  rewrite forallb_app, IH; cbn. rewrite andb_true_r.
  apply digit_char_spec. apply Z.mod_pos_bound; lia.
Qed.

Lemma fixed_digits_value d n : digits_value (fixed_digits d n) = (n mod 10 ^ Z.of_nat d)%Z.
Proof.
  revert n; induction d as [|d IH]; intros n; cbn [fixed_digits].
  - cbn. now rewrite Z.mod_1_r.
  - rewrite digits_value_app, IH; cbn [length].
    change (digits_value [digit_char (n mod 10)]) with (0 * 10 + digit_val (digit_char (n mod 10)))%Z.
    destruct (digit_char_spec (n mod 10)) as [_ ->]; [apply Z.mod_pos_bound; lia|].
    change (10 ^ Z.of_nat 1)%Z with 10%Z.
    rewrite Nat2Z.inj_succ, Z.pow_succ_r by lia.
    rewrite Z.rem_mul_r by (try apply Z.pow_nonzero; lia). lia.
Qed.

Lemma int_digits_fuel_spec fuel n :
  (0 <= n < 10 ^ Z.of_nat (S fuel))%Z ->
  digits_value (int_digits_fuel fuel n) = n /\
  forallb is_digit (int_digits_fuel fuel n) = true /\
  int_digits_fuel fuel n <> [].
Proof.
  revert n; induction fuel as [|f IH]; intros n R; cbn [int_digits_fuel].
  - change (10 ^ Z.of_nat 1)%Z with 10%Z in R. rewrite Z.mod_small by lia.
    change (digits_value [digit_char n]) with (0 * 10 + digit_val (digit_char n))%Z.
    destruct (digit_char_spec n R) as [A B]. cbn. rewrite A, B. repeat split; try lia; try discriminate.
  - destruct (Z.ltb_spec n 10).
    + change (digits_value [digit_char n]) with (0 * 10 + digit_val (digit_char n))%Z.
      destruct (digit_char_spec n) as [A B]; [lia|]. cbn. rewrite A, B. repeat split; try lia; try discriminate.
    + assert (R' : (0 <= n / 10 < 10 ^ Z.of_nat (S f))%Z).
      { split; [apply Z.div_pos; lia|]. apply Z.div_lt_upper_bound; [lia|].
        rewrite (Nat2Z.inj_succ (S f)), Z.pow_succ_r in R by lia. lia. }
      destruct (IH _ R') as [A [B _]].
      rewrite digits_value_app, A, forallb_app, B. cbn [length].
      change (digits_value [digit_char (n mod 10)]) with (0 * 10 + digit_val (digit_char (n mod 10)))%Z.
      destruct (digit_char_spec (n mod 10)) as [C D]; [apply Z.mod_pos_bound; lia|].
      cbn. rewrite C, D. change (10 ^ Z.of_nat 1)%Z with 10%Z. repeat split.
      * pose proof (Z.div_mod n 10). lia.
      * intros E. apply app_eq_nil in E as [_ E]; discriminate.
Qed.

Lemma int_digits_spec n : (0 <= n)%Z ->
  digits_value (int_digits n) = n /\ forallb is_digit (int_digits n) = true /\ int_digits n <> [].
Proof.
  intros R. apply int_digits_fuel_spec. split; [exact R|].
  destruct (Z.eq_dec n 0) as [->|N]; [apply Z.pow_pos_nonneg; lia|].
  pose proof (Z.log2_spec n ltac:(lia)) as [_ L].
  eapply Z.lt_le_trans; [exact L|].
  pose proof (Z.log2_nonneg n).
  rewrite Nat2Z.inj_succ, Z2Nat.id by lia.
  transitivity (10 ^ Z.succ (Z.log2 n))%Z.
  - apply Z.pow_le_mono_l; lia.
  - apply Z.pow_le_mono_r; lia.
Qed.

Lemma take_digits_app ds rest :
  forallb is_digit ds = true ->
  match rest with [] => True | c :: _ => is_digit c = false end ->
  take_digits (ds ++ rest) = (ds, rest).
Proof.
  intros A N. induction ds as [|c ds IH]; cbn.
  - destruct rest as [|c r]; [reflexivity|]. cbn. now rewrite N.
  - cbn in A. apply andb_true_iff in A as [A B]. now rewrite A, (IH B).
Qed.

(* ------------------------------------------------------------------ *)
(** * Reading back a number written with a fixed number of decimals *)

Section Numbers.
Context {T : Type} `{Num T}.

(* ddd.ddd with n decimals, or ddd when n = 0 *)
Definition decimal (d : nat) (a : Z) : list ascii :=
  int_digits (a / 10 ^ Z.of_nat d) ++
  (match d with O => [] | _ => "."%char :: fixed_digits d a end).

Lemma parse_unsigned_decimal (neg : bool) (d : nat) (a : Z) : (0 <= a)%Z ->
  parse_unsigned neg (decimal d a) = Some (dec (neg_if neg a) (- Z.of_nat d)).
Proof.
  intros A. unfold decimal.
  assert (P : (0 < 10 ^ Z.of_nat d)%Z) by (apply Z.pow_pos_nonneg; lia).
  destruct (int_digits_spec (a / 10 ^ Z.of_nat d)) as [V [D N]]; [apply Z.div_pos; lia|].
  unfold parse_unsigned. destruct d as [|d].
  - rewrite take_digits_app by (exact D || exact I). cbn beta iota zeta.
    rewrite app_nil_r. change (10 ^ Z.of_nat 0)%Z with 1%Z in *. rewrite Z.div_1_r in *.
    destruct (int_digits a) as [|c l]; [now elim N|].
    cbn [parse_exponent length]. now rewrite V.
  - rewrite take_digits_app by (exact D || reflexivity). cbn beta iota zeta.
    rewrite Ascii.eqb_refl.
    rewrite <- (app_nil_r (fixed_digits (S d) a)) at 1.
    rewrite take_digits_app by (apply fixed_digits_digits || exact I).
    assert (E : (int_digits (a / 10 ^ Z.of_nat (S d)) ++ fixed_digits (S d) a)%list <> []).
    { intros E. apply app_eq_nil in E as [E _]; now elim N. }
    assert (W : digits_value (int_digits (a / 10 ^ Z.of_nat (S d)) ++ fixed_digits (S d) a)%list = a).
    { rewrite digits_value_app, V, fixed_digits_value, fixed_digits_length.
      rewrite Z.mul_comm. symmetry. apply Z.div_mod. lia. }
    destruct (int_digits (a / 10 ^ Z.of_nat (S d)) ++ fixed_digits (S d) a)%list as [|c l]; [now elim E|].
    cbn [parse_exponent]. rewrite fixed_digits_length. now rewrite W.
Qed.

Definition float_char (c : ascii) : bool := is_digit c || Ascii.eqb c "." || Ascii.eqb c "-".

Lemma digit_float l : forallb is_digit l = true -> forallb float_char l = true.
Proof.
  induction l as [|c l IH]; cbn; [reflexivity|].
  rewrite !andb_true_iff; intros [A B]. unfold float_char at 1. rewrite A. auto.
Qed.

Lemma decimal_chars d a : (0 <= a)%Z -> forallb float_char (decimal d a) = true.
Proof.
  intros A. unfold decimal.
  assert (P : (0 < 10 ^ Z.of_nat d)%Z) by (apply Z.pow_pos_nonneg; lia).
  destruct (int_digits_spec (a / 10 ^ Z.of_nat d)) as [_ [D _]]; [apply Z.div_pos; lia|].
  rewrite forallb_app, (digit_float _ D). destruct d; [reflexivity|].
  change (true && (float_char "." && forallb float_char (fixed_digits (S d) a)) = true).
  rewrite (digit_float _ (fixed_digits_digits (S d) a)). reflexivity.
Qed.

Lemma decimal_head d a : (0 <= a)%Z -> exists c l, decimal d a = c :: l /\ is_digit c = true.
Proof.
  intros A. unfold decimal.
  assert (P : (0 < 10 ^ Z.of_nat d)%Z) by (apply Z.pow_pos_nonneg; lia).
  destruct (int_digits_spec (a / 10 ^ Z.of_nat d)) as [_ [D N]]; [apply Z.div_pos; lia|].
  destruct (int_digits _) as [|c l]; [now elim N|].
  cbn in D. apply andb_true_iff in D as [D _]. eexists; eexists; split; [reflexivity | exact D].
Qed.

(* a statement about all characters is checked character by character *)
Lemma all_ascii (p : ascii -> bool) :
  forallb (fun n => p (ascii_of_nat n)) (seq 0 256) = true -> forall c, p c = true.
Proof.
  intros A c. rewrite <- (ascii_nat_embedding c).
  rewrite forallb_forall in A. apply A. apply in_seq.
  pose proof (nat_ascii_bounded c). lia.
Qed.

Lemma float_char_plain c : float_char c = true ->
  is_space c = false /\ Ascii.eqb c "+" = false /\ Ascii.eqb c tab = false /\ Ascii.eqb c nl = false /\
  Ascii.eqb c cr = false /\ Ascii.eqb c "#" = false /\ Ascii.eqb c " " = false.
Proof.
  intros F.
  assert (A : implb (float_char c)
                (negb (is_space c) && negb (Ascii.eqb c "+") && negb (Ascii.eqb c tab) &&
                 negb (Ascii.eqb c nl) && negb (Ascii.eqb c cr) && negb (Ascii.eqb c "#") &&
                 negb (Ascii.eqb c " ")) = true).
  { revert c F. intros c _. revert c. apply all_ascii. vm_compute. reflexivity. }
  rewrite F in A. cbn in A. rewrite !andb_true_iff, !negb_true_iff in A. tauto.
Qed.

Lemma digit_plain c : is_digit c = true ->
  Ascii.eqb c "-" = false /\ Ascii.eqb c "+" = false /\
  Ascii.eqb (lower_ascii c) "n" = false /\ Ascii.eqb (lower_ascii c) "i" = false.
Proof.
  intros F.
  assert (A : implb (is_digit c)
                (negb (Ascii.eqb c "-") && negb (Ascii.eqb c "+") &&
                 negb (Ascii.eqb (lower_ascii c) "n") && negb (Ascii.eqb (lower_ascii c) "i")) = true).
  { revert c F. intros c _. revert c. apply all_ascii. vm_compute. reflexivity. }
  rewrite F in A. cbn in A. rewrite !andb_true_iff, !negb_true_iff in A. tauto.
Qed.

Definition signed (neg : bool) (l : list ascii) : string :=
  string_of_list (if neg then "-"%char :: l else l).

Lemma signed_chars neg d a : (0 <= a)%Z -> all_chars float_char (signed neg (decimal d a)) = true.
Proof.
  intros A. unfold signed. rewrite all_chars_forallb, los_sol.
  destruct neg; [|now apply decimal_chars].
  change (true && forallb float_char (decimal d a) = true). now rewrite decimal_chars.
Qed.

Lemma parse_float_decimal (neg : bool) (d : nat) (a : Z) : (0 <= a)%Z ->
  parse_float (signed neg (decimal d a)) = Some (dec (neg_if neg a) (- Z.of_nat d)).
Proof.
  intros A. unfold parse_float.
  rewrite strip_none.
  2:{ apply (all_chars_impl float_char); [|now apply signed_chars].
      intros c F. now rewrite (proj1 (float_char_plain c F)). }
  destruct (decimal_head d a A) as [c [l [E D]]].
  destruct (digit_plain c D) as [M [P [N I]]].
  rewrite <- (parse_unsigned_decimal neg d a A), E.
  unfold signed. destruct neg; cbn [string_of_list list_of_string].
  - rewrite Ascii.eqb_refl. rewrite los_sol. cbn [string_of_list]. unfold lower; cbn [smap].
    unfold String.eqb; fold String.eqb. rewrite N, I. reflexivity.
  - rewrite los_sol, M, P. cbn [string_of_list]. unfold lower; cbn [smap].
    unfold String.eqb; fold String.eqb. rewrite N, I. reflexivity.
Qed.

Lemma format_fixed_finite d x : nisnan x = false -> nisfinite x = true ->
  format_fixed d x = signed (nltb x n0) (decimal d (Z.abs (nround d x))).
Proof. intros A B. unfold format_fixed, signed, decimal. now rewrite A, B. Qed.

(* the characters of a written number *)
Definition word_char (c : ascii) : bool :=
  float_char c || Ascii.eqb c "n" || Ascii.eqb c "a" || Ascii.eqb c "i" || Ascii.eqb c "f".

Lemma word_char_plain c : word_char c = true ->
  is_space c = false /\ Ascii.eqb c "+" = false /\ Ascii.eqb c tab = false /\ Ascii.eqb c nl = false /\
  Ascii.eqb c cr = false /\ Ascii.eqb c "#" = false /\ Ascii.eqb c " " = false.
Proof.
  intros F.
  assert (A : implb (word_char c)
                (negb (is_space c) && negb (Ascii.eqb c "+") && negb (Ascii.eqb c tab) &&
                 negb (Ascii.eqb c nl) && negb (Ascii.eqb c cr) && negb (Ascii.eqb c "#") &&
                 negb (Ascii.eqb c " ")) = true).
  { revert c F. intros c _. revert c. apply all_ascii. vm_compute. reflexivity. }
  rewrite F in A. cbn in A. rewrite !andb_true_iff, !negb_true_iff in A. tauto.
Qed.

Lemma format_fixed_word d x :
  all_chars word_char (format_fixed d x) = true /\ format_fixed d x <> ""%string.
Proof.
  destruct (nisnan x) eqn:N.
  { unfold format_fixed. rewrite N. split; [reflexivity | discriminate]. }
  destruct (nisfinite x) eqn:F.
  - rewrite (format_fixed_finite d x N F). split.
    + apply (all_chars_impl float_char); [|apply signed_chars; lia].
      intros c C. unfold word_char. now rewrite C.
    + destruct (decimal_head d (Z.abs (nround d x)) ltac:(lia)) as [c [l [E _]]].
      unfold signed. rewrite E. destruct (nltb x n0); discriminate.
  - unfold format_fixed. rewrite N, F. destruct (nltb x n0); split; (reflexivity || discriminate).
Qed.

End Numbers.
