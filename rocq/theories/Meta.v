(* Meta.v -- model of calkulate/meta.py *)
From Verif Require Export Num.

Section Meta.
Context {T : Type} `{Num T}.

(* meta.py:38-46  _get_kwargs_for(keys, kwargs, row=None)
   [keys] is a Python set: iteration order is arbitrary, so it is a list here
   and C83 shows that the order does not matter. *)
Definition get_kwargs_for (keys : list string) (kw : kwargs T) (r : option (row T)) : kwargs T :=
  let kwargs_for := filter (fun kv => mem_str (fst kv) keys) kw in
  match r with
  | None => kwargs_for
  | Some r =>
      fold_left
        (fun acc k =>
           match dget k r with
           | Some v => if notnull v then dset k v acc else acc
           | None => acc
           end)
        keys kwargs_for
  end.

End Meta.
