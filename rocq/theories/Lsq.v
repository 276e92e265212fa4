(* Lsq.v -- the parts of scipy that calkulate calls:
   scipy.stats.linregress (its closed formulas) and
   scipy.optimize.least_squares (its interface, for an arbitrary optimiser). *)
From Verif Require Export Num.

Section LinRegress.
Context {T : Type} `{Num T}.

Record linreg := { lr_slope : T; lr_intercept : T; lr_rvalue : T }.

(* np.cov(x, y, bias=1) entries: mean((a - mean a) * (b - mean b)) *)
Definition cov (x y : list T) : T :=
  let mx := nmean x in
  let my := nmean y in
  nmean (map2 (fun a b => (a ⊖ mx) ⊗ (b ⊖ my)) x y).

(* np.amax(x) == np.amin(x) and len(x) > 1 *)
Definition all_same (x : list T) : bool :=
  match x with
  | [] | [_] => false
  | a :: x' => forallb (fun b => neqb a b) x'
  end.

(* scipy.stats.linregress(x, y): ValueError for empty input and for identical x
   values; slope = ssxy/ssx, intercept = mean y - slope * mean x. *)
Definition linregress (x y : list T) : res linreg :=
  match x with
  | [] => Err ValueError
  | _ =>
      if all_same x then Err ValueError
      else
        let ssxm := cov x x in
        let ssxym := cov x y in
        let ssym := cov y y in
        let r0 := if neqb ssxm n0 || neqb ssym n0 then n0
                  else ssxym ⊘ nsqrt (ssxm ⊗ ssym) in
        let r := if ngtb r0 n1 then n1 else if nltb r0 (nopp n1) then nopp n1 else r0 in
        let slope := ssxym ⊘ ssxm in
        Ok {| lr_slope := slope;
              lr_intercept := nmean y ⊖ slope ⊗ nmean x;
              lr_rvalue := r |}
  end.

End LinRegress.
Arguments linreg : clear implicits.

(* ------------------------------------------------------------------ *)

Section Strategy.
Context {T : Type} `{Num T}.

(* An optimiser seen from outside: it evaluates the residual function at a
   sequence of points, each chosen from what it has seen so far (including the
   points used for finite-difference Jacobians), and finally returns one of the
   evaluated points together with the residuals found there.  [s_max] is
   scipy's max_nfev. *)
Record strategy := {
  s_next : list (list T * list T) -> option (list T);
  s_pick : list (list T * list T) -> nat;
  s_max  : nat
}.

(* OptimizeResult: opt_result["x"], opt_result["fun"] *)
Record opt_result := { or_x : list T; or_fun : list T }.

Variable strat : strategy.
Variable S : Type.                               (* state mutated by the residual function *)
Variable f : S -> list T -> S * res (list T).    (* the residual function *)

Fixpoint lsq_loop (fuel : nat) (s : S) (hist : list (list T * list T))
  : S * res (list (list T * list T)) :=
  match fuel with
  | O => (s, Ok hist)
  | Datatypes.S k =>
      match s_next strat hist with
      | None => (s, Ok hist)
      | Some x =>
          let (s', r) := f s x in
          match r with
          | Err e => (s', Err e)
          | Ok y => lsq_loop k s' (hist ++ [(x, y)])
          end
      end
  end.

(* scipy.optimize.least_squares(f, x0): ValueError if x0 contains nan (outside
   its bounds) or if the residuals at x0 are not finite; exceptions of f
   propagate.  The first evaluation is always at x0. *)
Definition least_squares (s : S) (x0 : list T) : S * res opt_result :=
  if existsb nisnan x0 then (s, Err ValueError)
  else
    let (s1, r) := f s x0 in
    match r with
    | Err e => (s1, Err e)
    | Ok y0 =>
        if forallb nisfinite y0 then
          let (s2, rh) := lsq_loop (s_max strat) s1 [(x0, y0)] in
          match rh with
          | Err e => (s2, Err e)
          | Ok hist =>
              let xy := nth (s_pick strat hist) hist (x0, y0) in
              (s2, Ok {| or_x := fst xy; or_fun := snd xy |})
          end
        else (s1, Err ValueError)
    end.

End Strategy.
Arguments strategy : clear implicits.
Arguments opt_result : clear implicits.
Arguments lsq_loop {T} strat {S} f fuel s hist.
Arguments least_squares {T} {_} strat {S} f s x0.
