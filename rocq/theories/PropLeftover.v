(* PropLeftover.v -- C44: what a calibration that raises leaves in the caller's totals *)
From Coq Require Import Reals Qreals Lra Lia.
From Verif Require Import XR XRLemmas PropFindings PropCalibrate.
From Coq Require Import String List.
Import ListNotations.
Open Scope R_scope.
Open Scope list_scope.

(* totals' holds what totals holds and, in every named total, what titrant of molinity c brings *)
Definition titrant_left_in (c M : R) (tm : list R) (totals : dict (nd xr)) (tt : kwargs xr) (totals' : dict (nd xr)) : Prop :=
  dkeys totals' = dkeys totals /\
  (forall k, dget ("titrant_" ++ k) tt = None -> dget k totals' = dget k totals) /\
  (forall k f fr i m x, dget ("titrant_" ++ k) tt = Some f -> as_num f = Ok (Fin fr) ->
     nth_error tm i = Some m -> holds totals k i x -> holds totals' k i (x + m * c * fr / (m + M))).

(* a molinity that the optimiser tries: the starting one, or one that it asks for *)
Definition asked (st : strategy xr) (c0 c : R) : Prop := c = c0 \/ exists h, s_next st h = Some [Fin c].

Lemma added_left c M tm totals tt t' : masses_ok tm M -> NoDup (dkeys tt) -> named_arrays (length tm) totals tt ->
  add_titrant_totals totals (map Fin tm) (Fin M) (Fin c) (Fin 0) tt = (t', Ok Datatypes.tt) ->
  titrant_left_in c M tm totals tt t'.
Proof.
  intros Hok Hnd Hna E. destruct (C41_amounts_added _ _ _ _ _ _ _ _ Hok Hnd E) as (A & B & C).
  split; [exact C|]. split; [exact B|]. intros k f fr i m x Hk Hf Hm Hx. specialize (A k f fr i m x Hk Hf Hm Hx).
  rewrite Rminus_0_r in A. exact A.
Qed.

Section G.
Context (solve : xr -> dict (nd xr) -> res xr) (cert : xr) (tm : list R) (M : R) (tt : kwargs xr) (totals : dict (nd xr)).
Hypothesis Hok : masses_ok tm M.
Hypothesis Hnd : NoDup (dkeys tt).
Hypothesis Hw : NoDup (dkeys totals).
Hypothesis Hna : named_arrays (length tm) totals tt.
Let f := lsqfun_calibrate solve cert (map Fin tm) (Fin M) tt.

Lemma eval_left c : match snd (f totals [Fin c]) with
  | Ok _ => fst (f totals [Fin c]) = totals
  | Err _ => titrant_left_in c M tm totals tt (fst (f totals [Fin c])) end.
Proof.
  unfold f. cbn [lsqfun_calibrate].
  destruct (add_arrays tm M c 0 tt Hok Hnd totals Hna) as [t1 [E1 _]].
  pose proof (add_revert tm M c tt totals t1 Hok Hnd Hw Hna E1) as E2.
  rewrite fin_n0, E1. destruct (solve (Fin c) t1) as [a|e]; [rewrite E2; reflexivity|].
  cbn [fst snd]. apply added_left; assumption.
Qed.

Lemma loop_left st c0 : finite_points st -> forall k h t' e,
  lsq_loop st f k totals h = (t', Err e) -> t' = totals \/ exists c, asked st c0 c /\ titrant_left_in c M tm totals tt t'.
Proof.
  intros Hfp. induction k as [|k IH]; intros h t' e E; cbn [lsq_loop] in E; [discriminate|].
  destruct (s_next st h) as [x|] eqn:En; [|discriminate]. specialize (Hfp h x En).
  destruct x as [|v [|? x]].
  - left. cbn [f lsqfun_calibrate] in E. injection E as <- _. reflexivity.
  - inversion Hfp as [|? ? [c ->] _]; subst. pose proof (eval_left c) as L.
    destruct (f totals [Fin c]) as [s' [y|x]] eqn:Ef; cbn [fst snd] in L.
    + rewrite L in E. exact (IH _ _ _ E).
    + injection E as <- _. right. exists c. split; [right; eauto|exact L].
  - left. cbn [f lsqfun_calibrate] in E. injection E as <- _. reflexivity.
Qed.

Lemma fit_left st c0 t' e : finite_points st -> least_squares st f totals [Fin c0] = (t', Err e) ->
  t' = totals \/ exists c, asked st c0 c /\ titrant_left_in c M tm totals tt t'.
Proof.
  intros Hfp E. unfold least_squares in E. cbn [existsb] in E. change (nisnan (Fin c0)) with false in E. cbn [orb] in E.
  pose proof (eval_left c0) as L. destruct (f totals [Fin c0]) as [s1 [y0|x]]; cbn [fst snd] in L.
  - destruct (forallb nisfinite y0); [|injection E as <- _; auto]. rewrite L in E.
    destruct (lsq_loop st f (s_max st) totals [([Fin c0], y0)]) as [s2 rh] eqn:El.
    destruct rh as [h|e1]; [discriminate|]. injection E as <- _. exact (loop_left st c0 Hfp _ _ _ _ El).
  - injection E as <- _. right. exists c0. split; [now left|exact L].
Qed.

Lemma first_fails st c0 : (forall t, is_ok (solve (Fin c0) t) = false) ->
  exists t' e, least_squares st f totals [Fin c0] = (t', Err e) /\ titrant_left_in c0 M tm totals tt t'.
Proof.
  intros Hs. unfold least_squares. cbn [existsb]. change (nisnan (Fin c0)) with false. cbn [orb].
  destruct (add_arrays tm M c0 0 tt Hok Hnd totals Hna) as [t1 [E1 _]]. unfold f. cbn [lsqfun_calibrate].
  rewrite fin_n0, E1. specialize (Hs t1). destruct (solve (Fin c0) t1) as [a|e]; [discriminate|].
  exists t1, e. split; [reflexivity|]. apply added_left; assumption.
Qed.
End G.

(** After any calibration that raises, the totals are as before, or contain what titrant of a
    molinity that was tried brings: nothing else can be left behind. *)
Theorem C44_what_a_failure_leaves_partial : forall st cert tm ms temps M totals ks ai ei double pmin pmax c0 n tt t' e,
  finite_points st -> masses_ok tm M -> NoDup (dkeys tt) -> NoDup (dkeys totals) -> named_arrays (length tm) totals tt ->
  (calibrate_emf st cert (map Fin tm) ms temps (Fin M) totals ks ai ei double pmin pmax (Fin c0) n tt = (t', Err e) \/
   calibrate_pH st cert (map Fin tm) ms temps (Fin M) totals ks pmin pmax (Fin c0) n tt = (t', Err e) \/
   calibrate_pH_gran st cert (map Fin tm) ms temps (Fin M) totals ks pmin pmax (Fin c0) n tt = (t', Err e)) ->
  t' = totals \/ exists c, asked st c0 c /\ titrant_left_in c M tm totals tt t'.
Proof.
  intros st cert tm ms temps M totals ks ai ei double pmin pmax c0 n tt t' e Hfp Hok Hnd Hw Hna [E|[E|E]];
    unfold calibrate_emf, calibrate_pH, calibrate_pH_gran in E;
    exact (fit_left _ _ _ _ _ _ Hok Hnd Hw Hna _ _ _ _ Hfp E).
Qed.

(** With an empty pH window every calibration raises and leaves the starting molinity's titrant
    in the totals, whatever the data are. *)
Theorem C44_empty_window_leaves_titrant : forall st cert tm ms temps M totals ks ai ei double pmin pmax c0 n tt,
  masses_ok tm M -> NoDup (dkeys tt) -> NoDup (dkeys totals) -> named_arrays (length tm) totals tt -> pmax <= pmin ->
  (exists t' e, calibrate_emf st cert (map Fin tm) ms temps (Fin M) totals ks ai ei double (Fin pmin) (Fin pmax) (Fin c0) n tt = (t', Err e) /\
     titrant_left_in c0 M tm totals tt t') /\
  (exists t' e, calibrate_pH st cert (map Fin tm) ms temps (Fin M) totals ks (Fin pmin) (Fin pmax) (Fin c0) n tt = (t', Err e) /\
     titrant_left_in c0 M tm totals tt t') /\
  (exists t' e, calibrate_pH_gran st cert (map Fin tm) ms temps (Fin M) totals ks (Fin pmin) (Fin pmax) (Fin c0) n tt = (t', Err e) /\
     titrant_left_in c0 M tm totals tt t').
Proof.
  intros st cert tm ms temps M totals ks ai ei double pmin pmax c0 n tt Hok Hnd Hw Hna Hp.
  split; [|split]; unfold calibrate_emf, calibrate_pH, calibrate_pH_gran; apply first_fails; auto; intros t.
  - unfold solve_emf, solve_emf_once. destruct (gran_guesses _ _ _ _ _ _ _); [|reflexivity]. cbn [bind].
    rewrite x_ltb_fin_f by lra. reflexivity.
  - unfold solve_pH. destruct (negb _); [reflexivity|]. rewrite x_ltb_fin_f by lra. reflexivity.
  - unfold solve_pH_gran. destruct (negb _); [reflexivity|]. rewrite x_ltb_fin_f by lra. reflexivity.
Qed.

Example C44_empty_window_nonvacuous : masses_ok [0.001] 0.1 /\
  named_arrays 1 [("total_sulfate"%string, NdA (map Fin [0.028]))] [("titrant_total_sulfate"%string, VNum (Fin 1))] /\
  finite_points stop_now /\
  forall t', titrant_left_in 0.1 0.1 [0.001] [("total_sulfate"%string, NdA (map Fin [0.028]))] [("titrant_total_sulfate"%string, VNum (Fin 1))] t' ->
    t' <> [("total_sulfate"%string, NdA (map Fin [0.028]))].
Proof.
  split; [split; [lra|repeat constructor; lra]|]. split.
  { intros t f [E|[]]. injection E as <- <-. exists "sulfate"%string, [0.028], 1. auto. }
  split; [intros h x E; discriminate|].
  intros t' (_ & _ & L) ->. specialize (L "total_sulfate"%string (VNum (Fin 1)) 1 0%nat 0.001 0.028 eq_refl eq_refl eq_refl).
  assert (X : holds [("total_sulfate"%string, NdA (map Fin [0.028]))] "total_sulfate" 0 0.028).
  { eexists. split; [reflexivity|]. reflexivity. }
  specialize (L X). destruct X as (v & E & Hv). destruct L as (v' & E' & Hv').
  rewrite E in E'. injection E' as <-. rewrite Hv in Hv'. injection Hv' as Hv'. lra.
Qed.
