(* Num.v -- the number operations that calkulate's formulas are written with.
   The whole model is polymorphic in the number type, see XR.v (extended reals)
   and SFNum.v (IEEE-754 binary64). *)
From Verif Require Export Base.

Class Num (T : Type) := {
  nofQ  : Q -> T;                 (* numeric literals *)
  nnan  : T;
  ninf  : T;
  nadd  : T -> T -> T;
  nsub  : T -> T -> T;
  nmul  : T -> T -> T;
  ndiv  : T -> T -> T;            (* numpy semantics: never raises *)
  nopp  : T -> T;
  nexp  : T -> T;                 (* np.exp *)
  nln   : T -> T;                 (* np.log *)
  nlog10 : T -> T;                (* np.log10 *)
  npow10 : T -> T;                (* 10.0 ** x *)
  nsqrt : T -> T;                 (* np.sqrt *)
  npow15 : T -> T;                (* x ** 1.5 *)
  npow  : T -> nat -> T;          (* x ** n, n a small literal *)
  nltb  : T -> T -> bool;         (* x < y, False if either is nan *)
  nleb  : T -> T -> bool;         (* x <= y *)
  neqb  : T -> T -> bool;         (* x == y *)
  nisnan : T -> bool;
  nisfinite : T -> bool;
  nround : nat -> T -> Z          (* the integer nearest to x * 10**d, ties to even;
                                     used for "{:.df}" formatting of finite x *)
}.

Declare Scope num_scope.
Delimit Scope num_scope with num.
Infix "⊕" := nadd (at level 50, left associativity) : num_scope.
Infix "⊖" := nsub (at level 50, left associativity) : num_scope.
Infix "⊗" := nmul (at level 40, left associativity) : num_scope.
Infix "⊘" := ndiv (at level 40, left associativity) : num_scope.
Notation "⊖ x" := (nopp x) (at level 35, right associativity) : num_scope.
Open Scope num_scope.

Section NumDefs.
Context {T : Type} `{Num T}.

Definition nofZ (z : Z) : T := nofQ (inject_Z z).
Definition n0 : T := nofZ 0.
Definition n1 : T := nofZ 1.
Definition ngtb (x y : T) := nltb y x.
Definition ngeb (x y : T) := nleb y x.

(* np.sum over a 1-D array / np.sum([...], axis=0).  Simplification: numpy may
   associate the additions differently (pairwise summation). *)
Definition nsum (l : list T) : T := fold_left nadd l n0.

(* np.mean; nan for an empty array (0/0) *)
Definition nmean (l : list T) : T := nsum l ⊘ nofZ (Z.of_nat (length l)).

(* np.std with ddof = 0 *)
Definition nstd (l : list T) : T :=
  let mu := nmean l in
  nsqrt (nmean (map (fun x => npow (x ⊖ mu) 2) l)).

(* np.maximum: propagates nan *)
Definition nmax2 (x y : T) : T :=
  if nisnan x then x else if nisnan y then y else if nltb x y then y else x.

(* np.max: ValueError on an empty array *)
Definition nmax (l : list T) : res T :=
  match l with [] => Err ValueError | x :: l' => Ok (fold_left nmax2 l' x) end.

(* pd.isnull on a cell / kwarg value *)
Definition isnull (v : val T) : bool :=
  match v with VNone => true | VNum x => nisnan x | _ => false end.
Definition notnull (v : val T) : bool := negb (isnull v).

(* use of a dynamically typed value as a number *)
Definition as_num (v : val T) : res T :=
  match v with
  | VNum x => Ok x
  | VInt z => Ok (nofZ z)
  | VBool b => Ok (nofZ (if b then 1 else 0)%Z)
  | _ => Err TypeError
  end.

(* use of a dynamically typed value as a string (s.lower(), os.path.join, ...) *)
Definition as_str (v : val T) : res string :=
  match v with VStr s => Ok s | VNum _ | VInt _ | VBool _ | VNone => Err (AttributeError "lower")
  | _ => Err TypeError end.

(* bool(v) *)
Definition truthy (v : val T) : bool :=
  match v with
  | VNone => false
  | VBool b => b
  | VInt z => negb (Z.eqb z 0)
  | VNum x => negb (neqb x n0)       (* nan is truthy *)
  | VStr s => negb (String.eqb s "")
  | VTup l => match l with [] => false | _ => true end
  | VDict d => match d with [] => false | _ => true end
  end.

(* v == z for an integer literal z *)
Definition val_eq_int (v : val T) (z : Z) : bool :=
  match as_num v with Ok x => neqb x (nofZ z) | Err _ => false end.

(* v == s for a string literal *)
Definition val_eq_str (v : val T) (s : string) : bool :=
  match v with VStr s' => String.eqb s' s | _ => false end.

(* Python float division x / y for Python floats: raises on a zero divisor *)
Definition pydiv (x y : T) : res T :=
  if neqb y n0 then Err ZeroDivisionError else Ok (x ⊘ y).

End NumDefs.

(* ------------------------------------------------------------------ *)
(** * numpy values that are either 0-d (scalars) or 1-d arrays *)

Inductive nd (T : Type) : Type :=
| NdS (x : T)
| NdA (l : list T).
Arguments NdS {T} x.
Arguments NdA {T} l.

Section ND.
Context {T : Type} `{Num T}.

Definition nd_size (v : nd T) : nat := match v with NdS _ => 1 | NdA l => length l end.

(* may v be broadcast against arrays of length n? *)
Definition nd_fits (n : nat) (v : nd T) : bool :=
  match v with NdS _ => true | NdA l => Nat.eqb (length l) n || Nat.eqb (length l) 1 end.

(* the element of v that meets index i of an array of length n under
   broadcasting (the result for out-of-range indices is never used: see
   [nd_fits]) *)
Definition nd_at (v : nd T) (i : nat) : T :=
  match v with
  | NdS x => x
  | NdA [x] => x
  | NdA l => nth i l nnan
  end.

(* one "column" of a dict of arrays *)
Definition slice_at (d : dict (nd T)) (i : nat) : dict T := dmap (fun v => nd_at v i) d.

Definition all_fit (n : nat) (d : dict (nd T)) : bool := forallb (fun kv => nd_fits n (snd kv)) d.

(* broadcasting elementwise binary operation *)
Definition nd_map2 (f : T -> T -> T) (a b : nd T) : res (nd T) :=
  match a, b with
  | NdS x, NdS y => Ok (NdS (f x y))
  | NdS x, NdA l => Ok (NdA (map (f x) l))
  | NdA l, NdS y => Ok (NdA (map (fun x => f x y) l))
  | NdA l, NdA l' =>
      if Nat.eqb (length l) (length l') then Ok (NdA (map2 f l l'))
      else match l, l' with
           | [x], _ => Ok (NdA (map (f x) l'))
           | _, [y] => Ok (NdA (map (fun x => f x y) l))
           | _, _ => Err ValueError
           end
  end.

Definition nd_map (f : T -> T) (a : nd T) : nd T :=
  match a with NdS x => NdS (f x) | NdA l => NdA (map f l) end.

(* v += arr with arr a 1-d array: in place for arrays (the output shape may not
   grow), rebinding for scalars *)
Definition nd_iadd (v : nd T) (arr : list T) : res (nd T) :=
  match v with
  | NdS x => Ok (NdA (map (fun y => x ⊕ y) arr))
  | NdA l =>
      if Nat.eqb (length l) (length arr) then Ok (NdA (map2 nadd l arr))
      else match arr with
           | [y] => Ok (NdA (map (fun x => x ⊕ y) l))
           | _ => Err ValueError
           end
  end.

(* v[used] if np.size(v) > 1 else v *)
Definition nd_mask (used : list bool) (v : nd T) : nd T :=
  match v with
  | NdS x => NdS x
  | NdA l => if (1 <? length l)%nat then NdA (mask used l) else NdA l
  end.

End ND.
