(* SpecText.v -- what the file format properties (C65-C71, C85) mean *)
From Coq Require Import Reals.
From Verif Require Export Titrations XR.
Open Scope R_scope.
Open Scope string_scope.
Open Scope list_scope.

(* a number that was written with d decimals and read again: finite numbers change by at
   most half a unit of the last decimal, nan and the infinities not at all *)
Definition written_close (d : nat) (x y : xr) : Prop :=
  match x with
  | Fin r => exists s, y = Fin s /\ Rabs (s - r) <= / 2 * / 10 ^ d
  | _ => y = x
  end.

(* one line of text: no line breaks in it *)
Definition one_line (s : string) : Prop :=
  ~ In nl (list_of_string s) /\ ~ In cr (list_of_string s).

(* fields separated by tabs *)
Fixpoint join_tab (fields : list string) : string :=
  match fields with
  | [] => ""
  | [f] => f
  | f :: fs => (f ++ String tab (join_tab fs))%string
  end.

(* a character matched by [\d\.] *)
Definition digit_or_dot (c : ascii) : Prop := In c (list_of_string "0123456789.").

(* a line that starts with n tab-separated fields of digits and dots; this is what
   re.match accepts for the pattern of titrations.py:47, a run of digits and dots followed
   n - 1 times by a tab and a run of digits and dots *)
Definition data_line (n : nat) (line : string) : Prop :=
  exists fields rest, length fields = n /\
    (forall f c, In f fields -> In c (list_of_string f) -> digit_or_dot c) /\
    line = (join_tab fields ++ rest)%string.

(* a text consisting of the given lines *)
Fixpoint text_of_lines (ls : list string) : string :=
  match ls with [] => "" | l :: ls' => (l ++ String nl (text_of_lines ls'))%string end.

(* column i of a table of numbers *)
Definition column_is {A} (i : nat) (rows : list (list A)) (col : list A) : Prop :=
  Forall2 (fun r x => nth_error r i = Some x) rows col.
