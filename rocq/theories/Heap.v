(* Heap.v -- files.solve with Python's object identities.

   The other files treat dicts and arrays as values.  Here the dict of totals and the arrays in it are
   objects with addresses, so that "totals[total] += ..." (core.py:512) changes an array that others may hold. *)
From Verif Require Export Files.

Section Heap.
Context {T : Type} `{Num T}.

(* an array (or a number), or a dict of references to such objects *)
Inductive obj := OArr (v : nd T) | ODict (d : dict nat).
(* objects are never freed; the address of an object is its position *)
Definition heap := list obj.

Definition arr_at (h : heap) (a : nat) : nd T := match nth_error h a with Some (OArr v) => v | _ => NdS nnan end.
Definition dict_at (h : heap) (a : nat) : dict nat := match nth_error h a with Some (ODict d) => d | _ => [] end.
(* what is seen through a reference to a dict *)
Definition deref (h : heap) (a : nat) : dict (nd T) := map (fun kl => (fst kl, arr_at h (snd kl))) (dict_at h a).

Fixpoint write (h : heap) (a : nat) (o : obj) : heap :=
  match h, a with
  | [], _ => []
  | _ :: h', O => o :: h'
  | x :: h', S a' => x :: write h' a' o
  end.

(* convert.py:29-32  dilute_totals, called at core.py:426-430: every diluted total is a new array, and
   the dict that holds them is new *)
Fixpoint alloc_entries (d : dict (nd T)) (h : heap) : dict nat * heap :=
  match d with
  | [] => ([], h)
  | (k, v) :: d' => let (ls, h') := alloc_entries d' (h ++ [OArr v])%list in ((k, length h) :: ls, h')
  end.
Definition new_totals (d : dict (nd T)) (h : heap) : nat * heap :=
  let (ls, h') := alloc_entries d h in (length h', (h' ++ [ODict ls])%list).

(* core.py:509-517: one pass of the loop of add_titrant_totals.  An array is changed in place, for every holder;
   a number is replaced by a new object in this dict. *)
Definition iadd_entry (h : heap) (a : nat) (k : string) (x : list T) : heap * res unit :=
  match dget k (dict_at h a) with
  | None => (h, Err (KeyError k))
  | Some l =>
      match nd_iadd (arr_at h l) x with
      | Err e => (h, Err e)
      | Ok v' =>
          match arr_at h l with
          | NdA _ => (write h l (OArr v'), Ok tt)
          | NdS _ => (write (h ++ [OArr v'])%list a (ODict (dset k (length h) (dict_at h a))), Ok tt)
          end
      end
  end.

(* core.py:469-518  add_titrant_totals on the dict at address a *)
Fixpoint add_titrant_totals_at (h : heap) (a : nat) (titrant_mass : list T)
  (analyte_mass molinity molinity_prev : T) (titrant_totals : kwargs T) : heap * res unit :=
  match titrant_totals with
  | [] => (h, Ok tt)
  | (t_total, factor) :: rest =>
      if startswith t_total "titrant_total_" then
        match dget (sdrop 8 t_total) (dict_at h a), as_num factor with
        | None, _ => (h, Err (KeyError (sdrop 8 t_total)))
        | _, Err e => (h, Err e)
        | Some _, Ok f =>
            match iadd_entry h a (sdrop 8 t_total) (titrant_addition titrant_mass analyte_mass molinity molinity_prev f) with
            | (h', Ok _) => add_titrant_totals_at h' a titrant_mass analyte_mass molinity molinity_prev rest
            | (h', Err e) => (h', Err e)
            end
        end
      else (h, Err AssertionError)
  end.

(* files.py:179-289  solve, as [files_solve]; the result also has the address of the dict that is its
   attribute totals (core.py:691, 791, 861).  The solvers only read the totals. *)
Definition files_solve_at (e : env T) (file_name titrant_molinity salinity : val T) (kw0 : kwargs T) (h : heap)
  : heap * res (nat * solve_result T) :=
  let kw := without_mode kw0 in
  match load e file_name salinity kw with
  | Err x => (h, Err x)
  | Ok (cv, (totals, ks)) =>
      let (a, h1) := new_totals totals h in
      match as_num titrant_molinity with
      | Err x => (h1, Err x)
      | Ok c =>
          let (h2, r) := add_titrant_totals_at h1 a (cv_titrant_mass cv) (cv_analyte_mass cv) c n0
                           (get_kwargs_for keys_titrant_totals kw None) in
          (h2, _ <- r ;; sr <- dispatch_solve e (mode_of kw0) c cv (deref h2 a) ks kw ;; Ok (a, sr))
      end
  end.

End Heap.
Arguments obj : clear implicits.
Arguments heap : clear implicits.
