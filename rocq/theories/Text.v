(* Text.v -- decimal numbers in text: Python's float(str) and "{:.df}".format(x).
   Models the Python built-ins that calkulate/read/titrations.py relies on. *)
From Verif Require Export Num.

(* ------------------------------------------------------------------ *)
(** * Digits *)

Definition is_digit (c : ascii) : bool :=
  let n := nat_of_ascii c in (48 <=? n)%nat && (n <=? 57)%nat.
Definition digit_val (c : ascii) : Z := Z.of_nat (nat_of_ascii c) - 48.
Definition digit_char (d : Z) : ascii := ascii_of_nat (Z.to_nat d + 48).

(* the longest prefix of digits, and the rest *)
Fixpoint take_digits (l : list ascii) : list ascii * list ascii :=
  match l with
  | c :: l' => if is_digit c then let (d, r) := take_digits l' in (c :: d, r) else ([], l)
  | [] => ([], [])
  end.

(* the number written by a list of digits *)
Definition digits_value (l : list ascii) : Z := fold_left (fun a c => a * 10 + digit_val c)%Z l 0%Z.

(* n as exactly d digits (n mod 10^d) *)
Fixpoint fixed_digits (d : nat) (n : Z) : list ascii :=
  match d with
  | O => []
  | S d' => (fixed_digits d' (n / 10) ++ [digit_char (n mod 10)])%list
  end.

(* n >= 0 without leading zeros; the fuel is more than enough (log2 n + 1 digits) *)
Fixpoint int_digits_fuel (fuel : nat) (n : Z) : list ascii :=
  match fuel with
  | O => [digit_char (n mod 10)]
  | S f => if (n <? 10)%Z then [digit_char n]
           else (int_digits_fuel f (n / 10) ++ [digit_char (n mod 10)])%list
  end.
Definition int_digits (n : Z) : list ascii := int_digits_fuel (Z.to_nat (Z.log2 n + 1)) n.

(* str(z) *)
Definition string_of_Z (z : Z) : string :=
  if (z <? 0)%Z then String "-" (string_of_list (int_digits (- z)))
  else string_of_list (int_digits z).

(* whitespace that float() strips *)
Definition is_space (c : ascii) : bool :=
  let n := nat_of_ascii c in (n =? 32)%nat || ((9 <=? n)%nat && (n <=? 13)%nat).

Section Text.
Context {T : Type} `{Num T}.

(* v * 10^k *)
Definition dec (v k : Z) : T :=
  if (0 <=? k)%Z then nofQ (inject_Z (v * 10 ^ k))
  else nofQ (Qmake v (Z.to_pos (10 ^ (- k)))).

Definition neg_if (b : bool) (z : Z) : Z := if b then (- z)%Z else z.

(* the exponent part: "" or e[+-]digits *)
Definition parse_exponent (l : list ascii) : option Z :=
  match l with
  | [] => Some 0%Z
  | e :: l' =>
      if Ascii.eqb e "e" || Ascii.eqb e "E" then
        let '(neg, l1) := match l' with
                          | c :: r => if Ascii.eqb c "-" then (true, r)
                                      else if Ascii.eqb c "+" then (false, r) else (false, l')
                          | [] => (false, [])
                          end in
        match take_digits l1 with
        | ((_ :: _) as ds, []) => Some (neg_if neg (digits_value ds))
        | _ => None
        end
      else None
  end.

(* an unsigned decimal number *)
Definition parse_unsigned (neg : bool) (l : list ascii) : option T :=
  let (ip, r1) := take_digits l in
  let '(fp, r2) := match r1 with
                   | c :: r => if Ascii.eqb c "." then take_digits r else ([], r1)
                   | [] => ([], [])
                   end in
  match (ip ++ fp)%list with
  | [] => None
  | ds => match parse_exponent r2 with
          | Some k => Some (dec (neg_if neg (digits_value ds)) (k - Z.of_nat (length fp)))
          | None => None
          end
  end.

(* float(s); None stands for the ValueError.  Simplification: underscores between
   digits and non-ASCII digits are not accepted. *)
Definition parse_float (s : string) : option T :=
  let t := strip is_space s in
  let '(neg, l) := match list_of_string t with
                   | c :: r => if Ascii.eqb c "-" then (true, r)
                               else if Ascii.eqb c "+" then (false, r) else (false, c :: r)
                   | [] => (false, [])
                   end in
  let w := lower (string_of_list l) in
  if String.eqb w "nan" then Some nnan
  else if String.eqb w "inf" || String.eqb w "infinity" then Some (if neg then nopp ninf else ninf)
  else parse_unsigned neg l.

(* "{:.df}".format(x).  Simplification: the sign of a negative zero is not shown. *)
Definition format_fixed (d : nat) (x : T) : string :=
  if nisnan x then "nan"
  else if nisfinite x then
    let z := nround d x in
    let a := Z.abs z in
    let body := (int_digits (a / 10 ^ Z.of_nat d) ++
                 (match d with O => [] | _ => "."%char :: fixed_digits d a end))%list in
    string_of_list (if nltb x n0 then "-"%char :: body else body)
  else if nltb x n0 then "-inf" else "inf".

End Text.
