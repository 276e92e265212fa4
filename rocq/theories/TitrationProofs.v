(* TitrationProofs.v -- null settings that files.solve treats like missing ones *)
From Coq Require Import Permutation.
From Verif Require Import Classes DictLemmas SettingsProofs DatasetProofs PropSettings SpecTitration.
Open Scope list_scope.
Open Scope string_scope.

Section N.
Context {T : Type} `{Num T}.

Definition onull (o : option (val T)) : Prop := match o with None => True | Some v => isnull v = true end.

Definition nrel_on (keys : list string) (a b : kwargs T) : Prop :=
  forall k, In k keys -> dget k a = dget k b \/ (In k may_be_null /\ onull (dget k a) /\ onull (dget k b)).
Definition nrel (a b : kwargs T) : Prop :=
  forall k, dget k a = dget k b \/ (In k may_be_null /\ onull (dget k a) /\ onull (dget k b)).

Lemma nrel_filter (p : string -> bool) keys (a b : kwargs T) : nrel_on keys a b -> (forall k, p k = true -> In k keys) ->
  nrel (filter (fun kv => p (fst kv)) a) (filter (fun kv => p (fst kv)) b).
Proof.
  intros N P k. rewrite !(dget_filter p). destruct (p k) eqn:E; [|now left]. now apply N, P.
Qed.

Lemma nrel_all (a b : kwargs T) keys : nrel a b -> nrel_on keys a b.
Proof. intros N k _. apply N. Qed.

Lemma nrel_get (a b : kwargs T) k : nrel a b -> mem_str k may_be_null = false -> dget k a = dget k b.
Proof. intros N M. destruct (N k) as [E|[I _]]; [exact E|]. apply mem_str_spec in I. congruence. Qed.

Lemma nrel_kwarg (a b : kwargs T) k d : nrel a b -> mem_str k may_be_null = false -> kwarg k d a = kwarg k d b.
Proof. intros N M. unfold kwarg. now rewrite (nrel_get a b k N M). Qed.

Lemma nrel_null (a b : kwargs T) k : nrel a b ->
  kwarg k VNone a = kwarg k VNone b \/ (isnull (kwarg k VNone a) = true /\ isnull (kwarg k VNone b) = true).
Proof.
  intros N. unfold kwarg. destruct (N k) as [E|(_ & A & B)]; [left; now rewrite E|right].
  split; [destruct (dget k a)|destruct (dget k b)]; cbn in *; auto.
Qed.

Lemma nrel_deq (p : string -> bool) (a b : kwargs T) :
  nrel (filter (fun kv => p (fst kv)) a) (filter (fun kv => p (fst kv)) b) ->
  (forall k, In k may_be_null -> p k = false) ->
  deq (filter (fun kv => p (fst kv)) a) (filter (fun kv => p (fst kv)) b).
Proof.
  intros N M k. destruct (N k) as [E|(I & _)]; [exact E|]. rewrite !(dget_filter p), (M k I). reflexivity.
Qed.

Lemma check_filtered (ks ks' : list string) (a : kwargs T) : forallb (fun k => mem_str k ks') ks = true ->
  check_kwargs ks' (filter (fun kv => mem_str (fst kv) ks) a) = Ok tt.
Proof.
  intros S. unfold check_kwargs.
  assert (F : forallb (fun kv : string * val T => mem_str (fst kv) ks') (filter (fun kv => mem_str (fst kv) ks) a) = true).
  { apply forallb_forall. intros [k v] I. apply filter_In in I. destruct I as [_ I]. cbn [fst] in *.
    rewrite forallb_forall in S. apply S. now apply mem_str_spec. }
  now rewrite F.
Qed.

Lemma set_given_null scale (k k' : string) (a b : kwargs T) d : nrel a b ->
  set_given scale k (kwarg k' VNone a) d = set_given scale k (kwarg k' VNone b) d.
Proof.
  intros N. destruct (nrel_null a b k' N) as [->|[A B]]; [reflexivity|]. unfold set_given. now rewrite A, B.
Qed.

Lemma amount_units_null d s (a b : kwargs T) : nrel a b -> check_kwargs keys_cau a = Ok tt -> check_kwargs keys_cau b = Ok tt ->
  amount_units_dat d s a = amount_units_dat d s b.
Proof.
  intros N Ca Cb. destruct d as [d|]; [|reflexivity]. cbn [amount_units_dat]. unfold amount_units. rewrite Ca, Cb. cbn [bind].
  assert (X : forall t, cau_analyte_mass t s a = cau_analyte_mass t s b).
  { intros t. unfold cau_analyte_mass.
    destruct (nrel_null a b "analyte_mass" N) as [->|[-> ->]].
    - destruct (isnull _); [|reflexivity].
      destruct (nrel_null a b "analyte_volume" N) as [->|[A B]]; [reflexivity|]. unfold notnull. now rewrite A, B.
    - destruct (nrel_null a b "analyte_volume" N) as [->|[A B]]; [reflexivity|]. unfold notnull. now rewrite A, B. }
  unfold cau_titrant_mass.
  rewrite (nrel_kwarg a b "temperature_override"), (nrel_kwarg a b "titrant_amount_unit"), (nrel_kwarg a b "titrant_density"),
    (nrel_kwarg a b "titrant"), (nrel_kwarg a b "molinity_H2SO4"), (nrel_kwarg a b "molinity_HCl"), (nrel_kwarg a b "molinity_NaCl")
    by (exact N || reflexivity).
  match goal with |- bind ?x _ = _ => destruct x as [t|ex]; cbn [bind]; [|reflexivity] end.
  match goal with |- bind ?x _ = _ => destruct x as [m|ex]; cbn [bind]; [|reflexivity] end.
  now rewrite X.
Qed.

Lemma given_ks_null (a b : kwargs T) : nrel a b -> given_ks a = given_ks b.
Proof.
  intros N. unfold given_ks. generalize (Ok [("RGas", nofQ 30)] : res (dict T)).
  generalize calk_to_pyco2__k_constants. intros l. induction l as [|[x y] l IH]; intros acc; [reflexivity|].
  cbn [fold_left fst snd]. destruct acc as [d|]; cbn [bind]; [|apply IH].
  rewrite (set_given_null _ y x a b d N). apply IH.
Qed.

Lemma totals_ks_null (e : env T) cv (a b : kwargs T) : nrel a b -> totals_ks e cv a = totals_ks e cv b.
Proof.
  intros N. unfold totals_ks.
  pose proof (nrel_filter (fun k => mem_str k keys_kwargs_totals) keys_kwargs_totals a b (nrel_all _ _ _ N)
                (fun k => proj1 (mem_str_spec _ _))) as F.
  pose proof (nrel_filter (fun k => mem_str k keys_kwargs_k_constants) keys_kwargs_k_constants a b (nrel_all _ _ _ N)
                (fun k => proj1 (mem_str_spec _ _))) as G.
  assert (Ca := check_filtered keys_kwargs_totals keys_get_totals a eq_refl).
  assert (Cb := check_filtered keys_kwargs_totals keys_get_totals b eq_refl).
  assert (Da := check_filtered keys_kwargs_k_constants keys_get_k_constants a eq_refl).
  assert (Db := check_filtered keys_kwargs_k_constants keys_get_k_constants b eq_refl).
  rewrite (nrel_get a b "dilute_totals_for_ks" N eq_refl).
  set (fa := filter (fun kv : string * val T => mem_str (fst kv) keys_kwargs_totals) a) in *.
  set (fb := filter (fun kv : string * val T => mem_str (fst kv) keys_kwargs_totals) b) in *.
  set (ga := filter (fun kv : string * val T => mem_str (fst kv) keys_kwargs_k_constants) a) in *.
  set (gb := filter (fun kv : string * val T => mem_str (fst kv) keys_kwargs_k_constants) b) in *.
  assert (F' : get_totals e (cv_salinity cv) fa = get_totals e (cv_salinity cv) fb).
  { unfold get_totals. rewrite Ca, Cb. cbn [bind].
    rewrite (nrel_kwarg fa fb "total_alpha"), (nrel_kwarg fa fb "total_beta"), (nrel_kwarg fa fb "total_ammonia"),
      (nrel_kwarg fa fb "total_phosphate"), (nrel_kwarg fa fb "total_silicate"), (nrel_kwarg fa fb "total_sulfide"),
      (nrel_kwarg fa fb "dic"), (nrel_kwarg fa fb "opt_k_carbonic"), (nrel_kwarg fa fb "opt_total_borate")
      by (exact F || reflexivity).
    do 8 (match goal with |- bind ?x _ = _ => destruct x; cbn [bind]; [|reflexivity] end).
    rewrite (set_given_null _ "TB" "total_borate" fa fb _ F).
    destruct (set_given _ "TB" _ _); cbn [bind]; [|reflexivity].
    rewrite (set_given_null _ "TF" "total_fluoride" fa fb _ F).
    destruct (set_given _ "TF" _ _); cbn [bind]; [|reflexivity].
    rewrite (set_given_null _ "TSO4" "total_sulfate" fa fb _ F). reflexivity. }
  assert (G' : forall tp t, get_k_constants e tp t ga = get_k_constants e tp t gb).
  { intros tp t. unfold get_k_constants. rewrite Da, Db, (given_ks_null ga gb G). cbn [bind].
    rewrite (nrel_kwarg ga gb "opt_pH_scale"), (nrel_kwarg ga gb "opt_k_carbonic"), (nrel_kwarg ga gb "opt_k_bisulfate"),
      (nrel_kwarg ga gb "opt_k_fluoride") by (exact G || reflexivity). reflexivity. }
  rewrite F'. clear F'.
  destruct (get_totals _ _ _) as [[t0 tp0]|]; cbn [bind]; [|reflexivity].
  destruct (dilute_totals _ _ _); cbn [bind]; [|reflexivity].
  match goal with |- bind ?x _ = _ => destruct x as [t|ex]; cbn [bind]; [|reflexivity] end.
  now rewrite G'.
Qed.

Lemma gkf_wm keys (kw : kwargs T) :
  get_kwargs_for keys (without_mode kw) None = filter (fun kv => mem_str (fst kv) (filter (fun k => negb (String.eqb k "solve_mode")) keys)) kw.
Proof.
  unfold get_kwargs_for, without_mode. induction kw as [|[k v] kw IH]; [reflexivity|]. cbn [filter fst].
  assert (E : mem_str k (filter (fun k0 => negb (String.eqb k0 "solve_mode")) keys) = (negb (String.eqb k "solve_mode") && mem_str k keys)%bool).
  { clear.
    assert (MC : forall x l, mem_str k (x :: l) = (String.eqb k x || mem_str k l)%bool) by reflexivity.
    induction keys as [|x keys IH]; [now rewrite andb_false_r|]. cbn [filter]. rewrite MC.
    destruct (String.eqb_spec x "solve_mode") as [->|N]; cbn [negb].
    - rewrite IH. destruct (String.eqb_spec k "solve_mode"); reflexivity.
    - rewrite MC, IH. destruct (String.eqb_spec k x) as [->|M]; cbn [orb]; [|reflexivity].
      destruct (String.eqb_spec x "solve_mode"); [congruence|reflexivity]. }
  rewrite E. destruct (negb (String.eqb k "solve_mode")); cbn [filter fst andb]; [|exact IH].
  destruct (mem_str k keys); [f_equal|]; exact IH.
Qed.

(* get_kwargs_for depends only on the entries in keys *)
Lemma sub_nrel keys (kw kw' : kwargs T) : nrel_on keys_solve kw kw' -> forallb (fun k => mem_str k keys_solve) keys = true ->
  nrel (get_kwargs_for keys (without_mode kw) None) (get_kwargs_for keys (without_mode kw') None).
Proof.
  intros N S. rewrite !gkf_wm.
  apply (nrel_filter (fun k => mem_str k (filter (fun k => negb (String.eqb k "solve_mode")) keys)) keys_solve); [exact N|].
  intros k I. apply mem_str_spec, filter_In in I. rewrite forallb_forall in S. apply mem_str_spec. now apply S.
Qed.
Lemma sub_deq keys (kw kw' : kwargs T) : nrel_on keys_solve kw kw' -> forallb (fun k => mem_str k keys_solve && negb (mem_str k may_be_null))%bool keys = true ->
  deq (get_kwargs_for keys (without_mode kw) None) (get_kwargs_for keys (without_mode kw') None).
Proof.
  intros N S.
  assert (S1 : forallb (fun k => mem_str k keys_solve) keys = true).
  { apply forallb_forall. intros k I. rewrite forallb_forall in S. specialize (S k I). apply andb_true_iff in S. tauto. }
  pose proof (sub_nrel keys kw kw' N S1) as R. rewrite !gkf_wm in *.
  apply (nrel_deq (fun k => mem_str k (filter (fun k => negb (String.eqb k "solve_mode")) keys))); [exact R|].
  intros k I. apply not_true_is_false. intros M. apply mem_str_spec, filter_In in M. destruct M as [M _].
  rewrite forallb_forall in S. specialize (S k M). apply andb_true_iff in S. destruct S as [_ S].
  apply mem_str_spec in I. rewrite I in S. discriminate.
Qed.

Lemma files_solve_null (e : env T) f c s kw kw' : wfd kw -> wfd kw' -> nrel_on keys_solve kw kw' ->
  req (files_solve e f c s kw) (files_solve e f c s kw').
Proof.
  intros W W' N. unfold files_solve.
  assert (Em : mode_of kw = mode_of kw').
  { unfold mode_of, kwarg. destruct (N "solve_mode") as [->|[I _]]; [apply mem_str_spec; reflexivity|reflexivity|].
    apply mem_str_spec in I. discriminate. }
  assert (L : load e f s (without_mode kw) = load e f s (without_mode kw')).
  { unfold load, full_name.
    assert (P : dget "file_path" (without_mode kw) = dget "file_path" (without_mode kw')).
    { unfold without_mode. rewrite !(dget_filter (fun k => negb (String.eqb k "solve_mode"))). cbn [negb String.eqb Ascii.eqb Bool.eqb].
      destruct (N "file_path") as [E|[I _]]; [apply mem_str_spec; reflexivity|exact E|].
      apply mem_str_spec in I. discriminate. }
    rewrite P. match goal with |- bind ?x _ = _ => destruct x as [p|ex]; cbn [bind]; [|reflexivity] end.
    rewrite (read_dat_deq e p _ _ (sub_deq keys_read_dat kw kw' N eq_refl)).
    destruct (read_dat e p _) as [dd|]; cbn [bind]; [|reflexivity].
    rewrite (amount_units_null dd s _ _ (sub_nrel keys_cau kw kw' N eq_refl)) by (apply check_filtered; reflexivity).
    destruct (amount_units_dat dd s _) as [cv|]; cbn [bind]; [|reflexivity].
    now rewrite (totals_ks_null e cv _ _ (sub_nrel keys_totals_ks kw kw' N eq_refl)). }
  rewrite Em, L. clear Em L. destruct (load e f s _) as [[cv [totals ks]]|]; cbn [bind]; [|exact I].
  destruct (as_num c) as [c'|]; cbn [bind]; [|exact I].
  assert (P : Permutation (get_kwargs_for keys_titrant_totals (without_mode kw) None)
                          (get_kwargs_for keys_titrant_totals (without_mode kw') None)).
  { apply deq_perm; [now apply wfd_filter, wfd_filter..|]. now apply sub_deq. }
  assert (ND : NoDup (map fst (get_kwargs_for keys_titrant_totals (without_mode kw) None)))
    by (now apply (wfd_filter (A := val T)), wfd_filter).
  pose proof (add_perm (cv_titrant_mass cv) (cv_analyte_mass cv) c' n0 _ _ P ND totals) as A.
  destruct (add_titrant_totals _ _ _ _ _ (get_kwargs_for _ (without_mode kw) _)) as [t1 [u|x]];
  destruct (add_titrant_totals _ _ _ _ _ (get_kwargs_for _ (without_mode kw') _)) as [t2 [u'|x']]; try easy.
  destruct A as [-> _]. cbn [bind]. apply req_eq. unfold dispatch_solve. destruct (as_str _) as [m|]; cbn [bind]; [|reflexivity].
  pose proof (sub_deq keys_solve_emf kw kw' N eq_refl) as D1. pose proof (sub_deq keys_solve_pH kw kw' N eq_refl) as D2.
  pose proof (sub_deq keys_solve_pH_gran kw kw' N eq_refl) as D3.
  destruct (String.eqb (lower m) "emf"); [now rewrite (call_solve_emf_deq _ _ _ _ _ _ _ _ _ _ D1)|].
  destruct (String.eqb (lower m) "ph_adjust"); [now rewrite (call_solve_emf_deq _ _ _ _ _ _ _ _ _ _ (deq_dset _ _ _ _ D1))|].
  destruct (String.eqb (lower m) "ph"); [now rewrite (call_solve_pH_deq _ _ _ _ _ _ _ _ _ D2)|].
  destruct (String.eqb (lower m) "ph_gran"); [now rewrite (call_solve_pH_gran_deq _ _ _ _ _ _ _ _ _ D3)|].
  reflexivity.
Qed.

End N.
