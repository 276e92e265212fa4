(* Base.v -- the Python run-time vocabulary used by every other model file:
   exceptions as values, dicts, dynamically typed values, string helpers.

   Nothing in here models calkulate itself; it models the parts of Python,
   numpy and pandas that calkulate's code is written in. *)

From Coq Require Export String Ascii ZArith QArith Bool Lia List.
Export ListNotations.
Open Scope list_scope.
Open Scope string_scope.

(* ------------------------------------------------------------------ *)
(** * Exceptions and results *)

(* Python exceptions raised (explicitly or implicitly) by calkulate.  Messages
   are not modelled; [KeyError] and friends keep the offending name. *)
Inductive exn : Type :=
| KeyError (k : string)
| AttributeError (k : string)
| NameError (k : string)
| ValueError
| AssertionError
| TypeError
| IndexError
| ZeroDivisionError
| FileExistsError
| FileNotFoundError
| GenericException.           (* raise Exception("...") *)

Inductive res (A : Type) : Type :=
| Ok (a : A)
| Err (e : exn).
Arguments Ok {A} a.
Arguments Err {A} e.

Definition bind {A B} (r : res A) (k : A -> res B) : res B :=
  match r with Ok a => k a | Err e => Err e end.
Notation "x <- e1 ;; e2" := (bind e1 (fun x => e2))
  (at level 61, e1 at next level, right associativity).
Notation "' p <- e1 ;; e2" := (bind e1 (fun p => e2))
  (at level 61, p pattern, e1 at next level, right associativity).

(* Python's [assert] *)
Definition assert_ (b : bool) : res unit := if b then Ok tt else Err AssertionError.

Definition of_opt {A} (o : option A) (e : exn) : res A :=
  match o with Some a => Ok a | None => Err e end.

Definition is_ok {A} (r : res A) : bool := match r with Ok _ => true | Err _ => false end.

(* map in the result monad: stops at the first failure, like a Python loop *)
Fixpoint mapM {A B} (f : A -> res B) (l : list A) : res (list B) :=
  match l with
  | [] => Ok []
  | x :: l' => y <- f x ;; ys <- mapM f l' ;; Ok (y :: ys)
  end.

(* ------------------------------------------------------------------ *)
(** * Python dicts with string keys: insertion-ordered association lists *)

Definition dict (A : Type) := list (string * A).

Fixpoint dget {A} (k : string) (d : dict A) : option A :=
  match d with
  | [] => None
  | (k', v) :: d' => if String.eqb k k' then Some v else dget k d'
  end.

(* d[k] = v : an existing key keeps its position, a new one goes last *)
Fixpoint dset {A} (k : string) (v : A) (d : dict A) : dict A :=
  match d with
  | [] => [(k, v)]
  | (k', v') :: d' => if String.eqb k k' then (k, v) :: d' else (k', v') :: dset k v d'
  end.

(* k in d *)
Definition dmem {A} (k : string) (d : dict A) : bool :=
  match dget k d with Some _ => true | None => false end.

(* d[k], raising KeyError *)
Definition dgetE {A} (k : string) (d : dict A) : res A := of_opt (dget k d) (KeyError k).

Definition dkeys {A} (d : dict A) : list string := map fst d.

(* d.update(d') *)
Definition dupdate {A} (d d' : dict A) : dict A :=
  fold_left (fun acc kv => dset (fst kv) (snd kv) acc) d' d.

(* {k: f v for k, v in d.items()} *)
Definition dmap {A B} (f : A -> B) (d : dict A) : dict B :=
  map (fun kv => (fst kv, f (snd kv))) d.

Definition dmapM {A B} (f : A -> res B) (d : dict A) : res (dict B) :=
  mapM (fun kv => y <- f (snd kv) ;; Ok (fst kv, y)) d.

Definition mem_str (k : string) (l : list string) : bool := existsb (String.eqb k) l.

(* the usual dict well-formedness: no duplicated key *)
Definition wfd {A} (d : dict A) : Prop := NoDup (dkeys d).

(* ------------------------------------------------------------------ *)
(** * Strings *)

Definition lower_ascii (c : ascii) : ascii :=
  let n := nat_of_ascii c in
  if (65 <=? n)%nat && (n <=? 90)%nat then ascii_of_nat (n + 32) else c.
Definition upper_ascii (c : ascii) : ascii :=
  let n := nat_of_ascii c in
  if (97 <=? n)%nat && (n <=? 122)%nat then ascii_of_nat (n - 32) else c.

Fixpoint smap (f : ascii -> ascii) (s : string) : string :=
  match s with EmptyString => EmptyString | String c s' => String (f c) (smap f s') end.

(* str.lower / str.upper, ASCII letters only (simplification: non-ASCII
   letters are left alone; every keyword calkulate compares with is ASCII) *)
Definition lower (s : string) : string := smap lower_ascii s.
Definition upper (s : string) : string := smap upper_ascii s.

(* s.startswith(p) *)
Definition startswith (s p : string) : bool := String.prefix p s.

(* s[n:] *)
Fixpoint sdrop (n : nat) (s : string) : string :=
  match n, s with
  | O, _ => s
  | S n', String _ s' => sdrop n' s'
  | S _, EmptyString => EmptyString
  end.

(* s.split(c) for a one-character separator *)
Fixpoint split_on (c : ascii) (s : string) : list string :=
  match s with
  | EmptyString => [EmptyString]
  | String a s' =>
      if Ascii.eqb a c then EmptyString :: split_on c s'
      else match split_on c s' with
           | w :: ws => String a w :: ws
           | [] => [String a EmptyString]
           end
  end.

Fixpoint string_of_list (l : list ascii) : string :=
  match l with [] => EmptyString | c :: l' => String c (string_of_list l') end.
Fixpoint list_of_string (s : string) : list ascii :=
  match s with EmptyString => [] | String c s' => c :: list_of_string s' end.

Fixpoint srev_app (s acc : string) : string :=
  match s with EmptyString => acc | String c s' => srev_app s' (String c acc) end.
Definition srev (s : string) : string := srev_app s EmptyString.

Fixpoint lstrip (p : ascii -> bool) (s : string) : string :=
  match s with
  | EmptyString => EmptyString
  | String c s' => if p c then lstrip p s' else s
  end.
Definition strip (p : ascii -> bool) (s : string) : string := srev (lstrip p (srev (lstrip p s))).

Definition tab : ascii := "009"%char.
Definition nl : ascii := "010"%char.
Definition cr : ascii := "013"%char.

Fixpoint ends_with_char (c : ascii) (s : string) : bool :=
  match s with
  | EmptyString => false
  | String a EmptyString => Ascii.eqb a c
  | String _ s' => ends_with_char c s'
  end.

(* os.path.join(a, b) on POSIX, two components *)
Definition path_join (a b : string) : string :=
  if startswith b "/" then b
  else if String.eqb a "" || ends_with_char "/" a then a ++ b
  else a ++ "/" ++ b.

(* ------------------------------------------------------------------ *)
(** * Dynamically typed values: kwargs and DataFrame cells *)

Inductive val (T : Type) : Type :=
| VNone
| VBool (b : bool)
| VInt (z : Z)
| VNum (x : T)                       (* float, including nan *)
| VStr (s : string)
| VTup (l : list (val T))            (* tuple or list *)
| VDict (d : list (string * val T)).
Arguments VNone {T}.
Arguments VBool {T} b.
Arguments VInt {T} z.
Arguments VNum {T} x.
Arguments VStr {T} s.
Arguments VTup {T} l.
Arguments VDict {T} d.

Definition kwargs (T : Type) := dict (val T).
Definition row (T : Type) := dict (val T).

(* Python indexing l[i] with negative indices counting from the end *)
Definition pyindex {A} (l : list A) (i : Z) : option A :=
  let n := Z.of_nat (length l) in
  if (i <? 0)%Z then (if (i + n <? 0)%Z then None else nth_error l (Z.to_nat (i + n)))
  else nth_error l (Z.to_nat i).

(* x[mask] *)
Fixpoint mask {A} (m : list bool) (l : list A) : list A :=
  match m, l with
  | b :: m', x :: l' => if b then x :: mask m' l' else mask m' l'
  | _, _ => []
  end.

(* elementwise binary operation on arrays of equal length *)
Fixpoint map2 {A B C} (f : A -> B -> C) (l : list A) (l' : list B) : list C :=
  match l, l' with
  | x :: t, y :: t' => f x y :: map2 f t t'
  | _, _ => []
  end.
Fixpoint map3 {A B C D} (f : A -> B -> C -> D) (l : list A) (l' : list B) (l'' : list C) : list D :=
  match l, l', l'' with
  | x :: t, y :: t', z :: t'' => f x y z :: map3 f t t' t''
  | _, _, _ => []
  end.
