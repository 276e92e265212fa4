(* Attributes.v -- model of attribute access on a calk.Titration (classes.py:97-310) and of copying one *)
From Verif Require Export Classes.
Open Scope string_scope.
Open Scope list_scope.

Section Attributes.
Context {T : Type} `{Num T}.

Inductive raised := RAttributeError (name : string) | RRecursionError | RTypeError.
(* what reading an attribute gives: the object's own attribute of that name, a cell of its row, or an exception *)
Inductive found := Own (name : string) | Cell (v : val T) | Raises (e : raised).

(* An instance of the class: the names in its __dict__ apart from row, and its row, if it has got one yet. *)
Record object := { ob_names : list string; ob_row : option (row T) }.

(* classes.py:171-310  the attributes of the class itself, and those every Python object has (object, 3.11).
   There is no __setstate__ among them. *)
Definition class_names : list string :=
  ["__init__"; "__getattr__"; "__getitem__"; "__str__"; "__repr__"; "get_alkalinity_from_acid"; "do_CO2SYS";
   "plot_alkalinity"; "plot_components"; "plot_emf"; "plot_alkalinity_gran"; "plot_emf0_gran"; "plot_pH";
   "__class__"; "__delattr__"; "__dict__"; "__dir__"; "__doc__"; "__eq__"; "__format__"; "__ge__"; "__getattribute__"; "__getstate__";
   "__gt__"; "__hash__"; "__init_subclass__"; "__le__"; "__lt__"; "__module__"; "__ne__"; "__new__"; "__reduce__";
   "__reduce_ex__"; "__setattr__"; "__sizeof__"; "__subclasshook__"; "__weakref__"].

(* object.__getattribute__ finds the name *)
Definition owns (o : object) (name : string) : bool :=
  (mem_str name class_names || mem_str name (ob_names o) ||
   (String.eqb name "row" && match ob_row o with Some _ => true | None => false end))%bool.

(* classes.py:206-214  o.name.  Python calls __getattr__ if the ordinary lookup fails; it tries the ordinary lookup again
   (line 209), then reads self.row (line 212), which is a lookup of the same kind.  limit is the number of nested lookups that
   Python still allows before it raises RecursionError. *)
Fixpoint lookup (limit : nat) (o : object) (name : string) : found :=
  match limit with
  | O => Raises RRecursionError
  | S k =>
      if owns o name then Own name
      else match lookup k o "row" with
           | Raises e => Raises e
           | Own _ =>
               match ob_row o with
               | Some r => match dget name r with Some v => Cell v | None => Raises (RAttributeError name) end
               | None => Raises RTypeError
               end
           | Cell _ => Raises RTypeError
           end
  end.

(* classes.py:171-205  the attributes that __init__ sets *)
Definition object_of (t : titration T) : object := {| ob_names := ["kwargs"; "sr"; "t"; "titration"]; ob_row := Some (ti_row t) |}.

(* copy.copy, copy.deepcopy and pickle.loads make an empty instance, without calling __init__, ask it for __setstate__, and only if
   it has none fill its __dict__ from that of the original.  Simplification: the contents of the copy are those of the original. *)
Definition copied (limit : nat) (o : object) : object + raised :=
  match lookup limit {| ob_names := []; ob_row := None |} "__setstate__" with
  | Raises (RAttributeError _) => inl o
  | Raises e => inr e
  | _ => inr RTypeError
  end.
End Attributes.
Arguments found : clear implicits.
Arguments object : clear implicits.
