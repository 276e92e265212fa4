(* PropAttributes.v -- C144: reading the values of a Titration *)
From Coq Require Import Reals Lia.
From Verif Require Import Classes DictLemmas SettingsProofs DatasetProofs RowProofs CalProofs PropSettings SpecDataset PropDataset PropHistory PropTitration TableProofs.
From Verif Require Import SpecTitration PropTable PropTitrationWitness Witness XR.
From Verif Require Import Attributes.
Open Scope string_scope.
Open Scope list_scope.

Section P.
Context {T : Type} `{Num T}.

(* the names that are not columns for a Titration, whatever its row says *)
Definition taken (name : string) : Prop := In name (class_names ++ ["kwargs"; "sr"; "t"; "titration"; "row"]).

Lemma owns_taken (t : titration T) name : owns (object_of t) name = true <-> taken name.
Proof.
  unfold owns, taken, object_of. cbn [ob_names ob_row]. rewrite Bool.andb_true_r, !Bool.orb_true_iff, !mem_str_spec, String.eqb_eq, in_app_iff.
  cbn [In]. split; [intros [[I|I]|I]; [now left|right; tauto|right; subst; tauto]|].
  intros [I|[I|[I|[I|[I|[I|[]]]]]]]; [left; now left|left; right; tauto..|right; congruence].
Qed.

(* As an attribute and as an item a value reads the same, and it is what stands in the row; a name that is in neither is an
   AttributeError.  Missing: the names that the object takes for itself (C144_taken_names), and copies (C144_copies_fail). *)
Theorem C144_attributes_are_items_partial : forall (t : titration T) name limit, (2 <= limit)%nat -> ~ taken name ->
  lookup limit (object_of t) name =
  match getitem t name with Ok v => Cell v | Err _ => Raises (RAttributeError name) end.
Proof.
  intros t name [|[|k]] L N; [lia..|]. cbn [lookup].
  destruct (owns (object_of t) name) eqn:O; [exfalso; apply N; now apply owns_taken in O|].
  assert (R : owns (object_of t) "row" = true) by reflexivity. rewrite R. unfold getitem. cbn [object_of ob_row].
  destruct (dget name (ti_row t)); reflexivity.
Qed.

(* a column with the name of an attribute of the object is hidden: t.name is something else *)
Theorem C144_taken_names : forall (t : titration T) name limit v, taken name -> lookup (S limit) (object_of t) name <> Cell v.
Proof.
  intros t name limit v I. cbn [lookup]. apply (owns_taken t) in I. rewrite I. discriminate.
Qed.

(* a Titration cannot be copied or unpickled *)
Theorem C144_copies_fail : forall (t : titration T) limit, copied limit (object_of t) = inr RRecursionError.
Proof.
  intros t limit. unfold copied. set (o := {| ob_names := []; ob_row := None |}).
  assert (E : forall n name, owns o name = false -> lookup n o name = Raises RRecursionError).
  { induction n as [|n IH]; intros name O; [reflexivity|]. cbn [lookup]. rewrite O, (IH "row" eq_refl). reflexivity. }
  rewrite (E limit "__setstate__" eq_refl). reflexivity.
Qed.
End P.

(* what the user gave is there to be read, also after solving *)
Theorem C144_given_values_partial : forall (e : env xr) sys r t name v limit, Titration e sys r [] = Ok t ->
  without_old_names [] r -> ~ In name solved_columns -> ~ taken name -> dget name r = Some v -> (2 <= limit)%nat ->
  lookup limit (object_of t) name = Cell v /\ getitem t name = Ok v.
Proof.
  intros e sys r t name v limit E O N K G L. pose proof (getattr_row e sys r t name E O N) as A. rewrite G in A. cbn [of_opt] in A.
  assert (I : getitem t name = Ok v) by exact A. split; [|exact I]. rewrite C144_attributes_are_items_partial by assumption. now rewrite I.
Qed.

(* a row with a column "t" *)
Theorem C144_refuted : exists (t : titration xr), (exists e sys r, Titration e sys r [] = Ok t) /\
  (exists v, getitem t "t" = Ok v /\ forall limit, lookup (S limit) (object_of t) "t" = Own "t") /\
  forall limit, copied limit (object_of t) = inr RRecursionError.
Proof.
  set (r := (w_row by_mass 1 ++ w_totals) ++ [("t", VInt 7)]).
  assert (X : exists t s, Titration tiny_env tiny_sys r [] = Ok t /\ ti_sr t = SrPh s /\
    sp_titrant_mass s = [dec 0 0; dec 1 0] /\
    alkalinity_all tiny_pH [dec 0 0; dec 1 0] (Fin 1) (Fin 1) (Fin 1) (totM (Fin 1)) ks1 = Ok (sp_alkalinity_all s) /\
    (sp_used s = [true; true] /\ sp_alkalinity s = nmean (mask (sp_used s) (sp_alkalinity_all s)))).
  { apply (titration_K0 by_mass); try reflexivity.
    - apply K0_wfd. now left.
    - unfold wfd. repeat constructor; cbn; intuition discriminate.
    - repeat split; reflexivity.
    - intros k I. left. each_key I; reflexivity.
    - exists (VNum (Fin 1)), (Fin 1). split; reflexivity. }
  destruct X as (t & s & E & _). exists t. split; [now exists tiny_env, tiny_sys, r|]. split; [|apply C144_copies_fail].
  exists (VInt 7). split; [|reflexivity].
  assert (O : without_old_names [] r) by (repeat split; reflexivity).
  exact (getattr_row tiny_env tiny_sys r t "t" E O ltac:(apply mem_str_false; reflexivity)).
Qed.

Example C144_nonvacuous : exists t, Titration tiny_env tiny_sys (w_row by_mass 1 ++ w_totals) [] = Ok t /\
  without_old_names [] (w_row by_mass 1 ++ w_totals) /\ ~ In "salinity" solved_columns /\ ~ taken "salinity" /\
  (exists v, dget "salinity" (w_row by_mass 1 ++ w_totals) = Some v) /\ taken "t".
Proof.
  destruct (by_mass_titration 1) as (t & s & E & _). exists t. split; [exact E|]. split; [repeat split; reflexivity|].
  split; [apply mem_str_false; reflexivity|]. split; [apply mem_str_false; reflexivity|]. split; [eexists; reflexivity|]. apply mem_str_spec. reflexivity.
Qed.
