(* SettingsProofs.v -- every function that takes keyword arguments depends on them only
   as a mapping: neither the order of the entries nor other names matter *)
From Coq Require Import Permutation.
From Verif Require Import Dataset DictLemmas.
Open Scope list_scope.

(* two dicts with the same lookups *)
Definition deq {A} (d d' : dict A) : Prop := forall k, dget k d = dget k d'.

(* the same value, or an exception in both cases *)
Definition req {A} (r r' : res A) : Prop :=
  match r, r' with
  | Ok a, Ok a' => a = a'
  | Err _, Err _ => True
  | _, _ => False
  end.

Lemma req_refl {A} (r : res A) : req r r.
Proof. now destruct r. Qed.

Lemma req_eq {A} (r r' : res A) : r = r' -> req r r'.
Proof. intros ->. apply req_refl. Qed.

Lemma req_bind {A B} (r r' : res A) (k k' : A -> res B) :
  req r r' -> (forall a, req (k a) (k' a)) -> req (bind r k) (bind r' k').
Proof. destruct r, r'; cbn; intros E K; try easy. now subst. Qed.

Lemma deq_refl {A} (d : dict A) : deq d d.
Proof. now intros k. Qed.

Lemma deq_sym {A} (d d' : dict A) : deq d d' -> deq d' d.
Proof. intros E k. symmetry. apply E. Qed.

Lemma deq_trans {A} (d1 d2 d3 : dict A) : deq d1 d2 -> deq d2 d3 -> deq d1 d3.
Proof. intros E F k. rewrite E. apply F. Qed.

Lemma deq_dmem {A} (d d' : dict A) k : deq d d' -> dmem k d = dmem k d'.
Proof. intros E. unfold dmem. now rewrite E. Qed.

Lemma deq_filter {A} (p : string -> bool) (d d' : dict A) :
  deq d d' -> deq (filter (fun kv => p (fst kv)) d) (filter (fun kv => p (fst kv)) d').
Proof. intros E k. rewrite !dget_filter. now rewrite E. Qed.

Lemma deq_dset {A} k (v : A) d d' : deq d d' -> deq (dset k v d) (dset k v d').
Proof. intros E k'. rewrite !dget_dset. now rewrite E. Qed.

Lemma wfd_filter {A} (p : string * A -> bool) (d : dict A) : wfd d -> wfd (filter p d).
Proof.
  unfold wfd, dkeys. induction d as [|kv d IH]; cbn; [easy|].
  intros N. inversion N; subst. destruct (p kv); cbn; [|now apply IH].
  constructor; [|now apply IH].
  intros I. apply H1. apply in_map_iff in I. destruct I as (kv' & E & I).
  apply filter_In in I. apply in_map_iff. now exists kv'.
Qed.

Lemma deq_perm {A} (d d' : dict A) : wfd d -> wfd d' -> deq d d' -> Permutation d d'.
Proof.
  intros W W' E.
  assert (ND : forall x : dict A, wfd x -> NoDup x) by (intros x; apply NoDup_map_inv).
  apply NoDup_Permutation; [now apply ND..|].
  intros [k v]. split; intros I.
  - apply dget_in. rewrite <- E. now apply in_dget.
  - apply dget_in. rewrite E. now apply in_dget.
Qed.

Lemma forallb_keys {A} (p : string -> bool) (d : dict A) :
  forallb (fun kv => p (fst kv)) d = true <-> forall k, dmem k d = true -> p k = true.
Proof.
  rewrite forallb_forall. split.
  - intros F k M. apply dmem_true_get in M. destruct M as [v G]. apply dget_in in G. apply (F (k, v) G).
  - intros F [k v] I. apply F. apply dget_in_keys. apply in_map_iff. now exists (k, v).
Qed.

Section Kwargs.
Context {T : Type} `{Num T}.

Lemma kwarg_deq k v (kw kw' : kwargs T) : deq kw kw' -> kwarg k v kw = kwarg k v kw'.
Proof. intros E. unfold kwarg. now rewrite E. Qed.

Lemma check_kwargs_deq ks (kw kw' : kwargs T) : deq kw kw' -> check_kwargs ks kw = check_kwargs ks kw'.
Proof.
  intros E. unfold check_kwargs.
  replace (forallb (fun kv => mem_str (fst kv) ks) kw')
    with (forallb (fun kv => mem_str (fst kv) ks) kw); [easy|].
  apply eq_true_iff_eq. rewrite !(forallb_keys (fun k => mem_str k ks)).
  split; intros F k M; apply F; [rewrite (deq_dmem _ _ _ E)|rewrite <- (deq_dmem _ _ _ E)]; exact M.
Qed.

Lemma gkf_deq ks (kw kw' : kwargs T) : deq kw kw' -> deq (get_kwargs_for ks kw None) (get_kwargs_for ks kw' None).
Proof. intros E. apply (deq_filter (fun k => mem_str k ks)). exact E. Qed.

Lemma without_mode_deq (kw kw' : kwargs T) : deq kw kw' -> deq (without_mode kw) (without_mode kw').
Proof. intros E. apply (deq_filter (fun k => negb (String.eqb k "solve_mode"))). exact E. Qed.

Ltac same := repeat match goal with
  | E : deq ?a ?b |- context [kwarg ?k ?v ?a] => rewrite (kwarg_deq k v a b E)
  | E : deq ?a ?b |- context [check_kwargs ?k ?a] => rewrite (check_kwargs_deq k a b E)
  end.

Lemma read_dat_deq (e : env T) f (kw kw' : kwargs T) : deq kw kw' -> read_dat e f kw = read_dat e f kw'.
Proof.
  intros E. unfold read_dat, read_dat_type. same.
  pose proof (deq_filter (fun k => negb (String.eqb k "file_type")) _ _ E) as F.
  set (a := filter (fun kv => negb (String.eqb (fst kv) "file_type")) kw) in *.
  set (b := filter (fun kv => negb (String.eqb (fst kv) "file_type")) kw') in *.
  clearbody a b. clear E.
  match goal with |- bind ?x _ = _ => destruct x as [t|ex]; cbn [bind]; [|reflexivity] end.
  generalize (fst t). intros s.
  unfold reader, read_dat_orgalk_excel, read_dat_pclims, read_tiamo_de, read_dat_genfromtxt.
  same. reflexivity.
Qed.

Lemma amount_units_deq d s (kw kw' : kwargs T) : deq kw kw' -> amount_units_dat d s kw = amount_units_dat d s kw'.
Proof.
  intros E. destruct d as [d|]; [|reflexivity]. cbn [amount_units_dat].
  unfold amount_units, cau_titrant_mass, cau_analyte_mass. same. reflexivity.
Qed.

Lemma given_ks_deq (kw kw' : kwargs T) : deq kw kw' -> given_ks kw = given_ks kw'.
Proof. intros E. unfold given_ks, calk_to_pyco2__k_constants. cbn [fold_left fst snd]. same. reflexivity. Qed.

Lemma totals_ks_deq (e : env T) cv (kw kw' : kwargs T) : deq kw kw' -> totals_ks e cv kw = totals_ks e cv kw'.
Proof.
  intros E. unfold totals_ks.
  pose proof (deq_filter (fun k => mem_str k keys_kwargs_totals) _ _ E) as F.
  pose proof (deq_filter (fun k => mem_str k keys_kwargs_k_constants) _ _ E) as G.
  assert (F' : get_totals e (cv_salinity cv) (filter (fun kv => mem_str (fst kv) keys_kwargs_totals) kw) =
               get_totals e (cv_salinity cv) (filter (fun kv => mem_str (fst kv) keys_kwargs_totals) kw')).
  { unfold get_totals. same. reflexivity. }
  assert (G' : forall tp t, get_k_constants e tp t (filter (fun kv => mem_str (fst kv) keys_kwargs_k_constants) kw) =
               get_k_constants e tp t (filter (fun kv => mem_str (fst kv) keys_kwargs_k_constants) kw')).
  { intros tp t. unfold get_k_constants. rewrite (given_ks_deq _ _ G). same. reflexivity. }
  rewrite F', (E "dilute_totals_for_ks"). clear F' F E.
  destruct (get_totals _ _ _) as [[t0 tp0]|]; cbn [bind]; [|reflexivity].
  destruct (dilute_totals _ _ _); cbn [bind]; [|reflexivity].
  match goal with |- bind ?x _ = _ => destruct x as [t|ex]; cbn [bind]; [|reflexivity] end.
  now rewrite G'.
Qed.

Lemma load_deq (e : env T) f s (kw kw' : kwargs T) : deq kw kw' -> load e f s kw = load e f s kw'.
Proof.
  intros E. unfold load, full_name. rewrite (E "file_path").
  match goal with |- bind ?x _ = _ => destruct x as [p|ex]; cbn [bind]; [|reflexivity] end.
  rewrite (read_dat_deq e p _ _ (gkf_deq keys_read_dat _ _ E)).
  destruct (read_dat e p _) as [dd|]; cbn [bind]; [|reflexivity].
  rewrite (amount_units_deq dd s _ _ (gkf_deq keys_cau _ _ E)).
  destruct (amount_units_dat dd s _) as [cv|]; cbn [bind]; [|reflexivity].
  rewrite (totals_ks_deq e cv _ _ (gkf_deq keys_totals_ks _ _ E)). reflexivity.
Qed.

Lemma call_solve_emf_deq (e : env T) c tm emf temps M totals ks kw kw' : deq kw kw' ->
  call_solve_emf e c tm emf temps M totals ks kw = call_solve_emf e c tm emf temps M totals ks kw'.
Proof. intros E. unfold call_solve_emf. same. reflexivity. Qed.
Lemma call_solve_pH_deq c tm pH temps M totals ks kw kw' : deq kw kw' ->
  call_solve_pH c tm pH temps M totals ks kw = call_solve_pH c tm pH temps M totals ks kw'.
Proof. intros E. unfold call_solve_pH. same. reflexivity. Qed.
Lemma call_solve_pH_gran_deq c tm pH temps M totals ks kw kw' : deq kw kw' ->
  call_solve_pH_gran c tm pH temps M totals ks kw = call_solve_pH_gran c tm pH temps M totals ks kw'.
Proof. intros E. unfold call_solve_pH_gran. same. reflexivity. Qed.

Lemma dispatch_solve_deq (e : env T) m c cv totals ks kw kw' : deq kw kw' ->
  dispatch_solve e m c cv totals ks kw = dispatch_solve e m c cv totals ks kw'.
Proof.
  intros E. unfold dispatch_solve. destruct (as_str m) as [s|]; cbn [bind]; [|reflexivity].
  destruct (String.eqb (lower s) "emf"); [now rewrite (call_solve_emf_deq _ _ _ _ _ _ _ _ _ _ (gkf_deq _ _ _ E))|].
  destruct (String.eqb (lower s) "ph_adjust");
    [now rewrite (call_solve_emf_deq _ _ _ _ _ _ _ _ _ _ (deq_dset _ _ _ _ (gkf_deq _ _ _ E)))|].
  destruct (String.eqb (lower s) "ph"); [now rewrite (call_solve_pH_deq _ _ _ _ _ _ _ _ _ (gkf_deq _ _ _ E))|].
  destruct (String.eqb (lower s) "ph_gran"); [now rewrite (call_solve_pH_gran_deq _ _ _ _ _ _ _ _ _ (gkf_deq _ _ _ E))|].
  reflexivity.
Qed.

(* ------------------------------------------------------------------ *)
(** * Titrant totals may be added in any order *)

Definition add_one (totals : dict (nd T)) (tm : list T) (M c c0 : T) (t : string) (f : val T) : res (nd T) :=
  _ <- assert_ (startswith t "titrant_total_") ;;
  v <- dgetE (sdrop 8 t) totals ;;
  f <- as_num f ;;
  nd_iadd v (titrant_addition tm M c c0 f).

Lemma add_cons totals tm M c c0 t f rest :
  add_titrant_totals totals tm M c c0 ((t, f) :: rest) =
  match add_one totals tm M c c0 t f with
  | Ok v' => add_titrant_totals (dset (sdrop 8 t) v' totals) tm M c c0 rest
  | Err e => (totals, Err e)
  end.
Proof. reflexivity. Qed.

Lemma prefix_split p s : String.prefix p s = true -> s = (p ++ sdrop (String.length p) s)%string.
Proof.
  revert s. induction p as [|a p IH]; intros s P; [reflexivity|].
  destruct s as [|b s]; cbn in P; [easy|]. destruct (ascii_dec a b) as [->|]; [|easy].
  cbn. f_equal. now apply IH.
Qed.

Lemma add_one_other totals tm M c c0 t f k v : sdrop 8 t <> k ->
  add_one (dset k v totals) tm M c c0 t f = add_one totals tm M c c0 t f.
Proof. intros N. unfold add_one, dgetE. now rewrite dget_dset_other. Qed.

Lemma add_one_ok totals tm M c c0 t f v : add_one totals tm M c c0 t f = Ok v ->
  startswith t "titrant_total_" = true /\ dmem (sdrop 8 t) totals = true.
Proof.
  unfold add_one, dgetE, dmem. destruct (startswith t _); cbn; [|easy]. now destruct (dget _ totals).
Qed.

Lemma total_name_inj t t' : startswith t "titrant_total_" = true -> startswith t' "titrant_total_" = true ->
  sdrop 8 t = sdrop 8 t' -> t = t'.
Proof.
  unfold startswith. intros P P' E. apply prefix_split in P. apply prefix_split in P'.
  set (u := sdrop _ t) in P. set (u' := sdrop _ t') in P'. clearbody u u'. subst. cbn in E. now injection E as ->.
Qed.

(* equal outcome, including the state left behind, or an exception in both cases *)
Definition same_out {S A} (a b : S * res A) : Prop :=
  match a, b with
  | (s, Ok x), (s', Ok x') => s = s' /\ x = x'
  | (_, Err _), (_, Err _) => True
  | _, _ => False
  end.

Lemma same_out_refl {S A} (a : S * res A) : same_out a a.
Proof. destruct a as [s [x|e]]; cbn; auto. Qed.
Lemma same_out_sym {S A} (a b : S * res A) : same_out a b -> same_out b a.
Proof. destruct a as [s [x|e]], b as [s' [x'|e']]; cbn; intuition congruence. Qed.
Lemma same_out_trans {S A} (a b c : S * res A) : same_out a b -> same_out b c -> same_out a c.
Proof. destruct a as [s [x|e]], b as [s' [x'|e']], c as [s'' [x''|e'']]; cbn; intuition congruence. Qed.
Lemma same_out_snd {S A} (a b : S * res A) : same_out a b -> req (snd a) (snd b).
Proof. destruct a as [s [x|e]], b as [s' [x'|e']]; cbn; intuition. Qed.

Lemma dset_comm {A} k1 k2 (v1 v2 : A) d : dmem k1 d = true -> dmem k2 d = true -> k1 <> k2 ->
  dset k1 v1 (dset k2 v2 d) = dset k2 v2 (dset k1 v1 d).
Proof.
  induction d as [|[k v] d IH]; [easy|].
  unfold dmem. cbn [dget dset]. intros M1 M2 N.
  destruct (String.eqb_spec k1 k) as [->|N1]; destruct (String.eqb_spec k2 k) as [->|N2]; try congruence; cbn [dset].
  - destruct (String.eqb_spec k2 k); [congruence|]. rewrite !String.eqb_refl. reflexivity.
  - rewrite !String.eqb_refl. destruct (String.eqb_spec k1 k); [congruence|]. reflexivity.
  - destruct (String.eqb_spec k1 k); [congruence|]. destruct (String.eqb_spec k2 k); [congruence|].
    rewrite IH; auto.
Qed.

Lemma add_perm tm M c c0 : forall l l', Permutation l l' -> NoDup (map fst l) -> forall totals,
  same_out (add_titrant_totals totals tm M c c0 l) (add_titrant_totals totals tm M c c0 l').
Proof.
  induction 1 as [|[t f] l l' P IH|[t f] [t' f'] l|l1 l2 l3 P1 IH1 P2 IH2]; intros N totals.
  - apply same_out_refl.
  - rewrite !add_cons. cbn in N. inversion N; subst. destruct (add_one _ _ _ _ _ _ _); [now apply IH|now cbn].
  - rewrite !add_cons.
    cbn in N. inversion N as [|? ? N1 N2]; subst.
    assert (NE : t' <> t) by (intros ->; apply N1; now left).
    destruct (add_one totals tm M c c0 t' f') as [v'|x'] eqn:E'; destruct (add_one totals tm M c c0 t f) as [v|x] eqn:E;
      rewrite ?add_cons.
    + destruct (add_one_ok _ _ _ _ _ _ _ _ E) as [S1 M1]. destruct (add_one_ok _ _ _ _ _ _ _ _ E') as [S2 M2].
      assert (D : sdrop 8 t <> sdrop 8 t') by (intros X; apply NE; symmetry; now apply total_name_inj).
      rewrite !add_one_other by congruence. rewrite E, E'. rewrite dset_comm by congruence. apply same_out_refl.
    + destruct (add_one_ok _ _ _ _ _ _ _ _ E') as [S2 M2].
      destruct (String.eqb_spec (sdrop 8 t) (sdrop 8 t')) as [D|D].
      * destruct (startswith t "titrant_total_") eqn:S1; [now apply total_name_inj in D; try congruence|].
        unfold add_one. rewrite S1. cbn. exact I.
      * rewrite add_one_other by congruence. rewrite E. exact I.
    + destruct (add_one_ok _ _ _ _ _ _ _ _ E) as [S2 M2].
      destruct (String.eqb_spec (sdrop 8 t) (sdrop 8 t')) as [D|D].
      * destruct (startswith t' "titrant_total_") eqn:S1; [now apply total_name_inj in D; try congruence|].
        unfold add_one. rewrite S1. cbn. exact I.
      * rewrite add_one_other by congruence. rewrite E'. exact I.
    + exact I.
  - eapply same_out_trans; [now apply IH1|]. apply IH2.
    eapply Permutation_NoDup; [|exact N]. now apply Permutation_map.
Qed.

Lemma files_solve_deq (e : env T) f c s kw kw' : wfd kw -> wfd kw' -> deq kw kw' ->
  req (files_solve e f c s kw) (files_solve e f c s kw').
Proof.
  intros W W' E. unfold files_solve.
  assert (Em : mode_of kw = mode_of kw') by (now apply kwarg_deq).
  pose proof (without_mode_deq _ _ E) as E1. rewrite Em, (load_deq e f s _ _ E1).
  destruct (load e f s _) as [[cv [totals ks]]|]; cbn [bind]; [|exact I].
  destruct (as_num c) as [c'|]; cbn [bind]; [|exact I].
  assert (P : Permutation (get_kwargs_for keys_titrant_totals (without_mode kw) None)
                          (get_kwargs_for keys_titrant_totals (without_mode kw') None)).
  { apply deq_perm; [now apply wfd_filter, wfd_filter..|]. now apply gkf_deq. }
  assert (N : NoDup (map fst (get_kwargs_for keys_titrant_totals (without_mode kw) None)))
    by (now apply (wfd_filter (A := val T)), wfd_filter).
  pose proof (add_perm (cv_titrant_mass cv) (cv_analyte_mass cv) c' n0 _ _ P N totals) as A.
  destruct (add_titrant_totals _ _ _ _ _ (get_kwargs_for _ (without_mode kw) _)) as [t1 [u|x]];
  destruct (add_titrant_totals _ _ _ _ _ (get_kwargs_for _ (without_mode kw') _)) as [t2 [u'|x']]; try easy.
  destruct A as [-> _]. cbn [bind]. apply req_eq. now apply dispatch_solve_deq.
Qed.

(* ------------------------------------------------------------------ *)
(** * Calibration *)

Lemma lsq_loop_same {S} (st : strategy T) (f g : S -> list T -> S * res (list T)) :
  (forall s x, same_out (f s x) (g s x)) ->
  forall n s h, same_out (lsq_loop st f n s h) (lsq_loop st g n s h).
Proof.
  intros F. induction n as [|n IH]; intros s h; cbn [lsq_loop]; [cbn; auto|].
  destruct (s_next st h) as [x|]; [|cbn; auto].
  specialize (F s x). destruct (f s x) as [s1 [y|er]], (g s x) as [s2 [y'|er']]; cbn in F; try easy.
  destruct F as [-> ->]. apply IH.
Qed.

Lemma least_squares_same {S} (st : strategy T) (f g : S -> list T -> S * res (list T)) s x0 :
  (forall s x, same_out (f s x) (g s x)) ->
  same_out (least_squares st f s x0) (least_squares st g s x0).
Proof.
  intros F. unfold least_squares. destruct (existsb nisnan x0); [exact I|].
  pose proof (F s x0) as F0. destruct (f s x0) as [s1 [y|er]], (g s x0) as [s2 [y'|er']]; cbn in F0; try easy.
  destruct F0 as [-> ->]. destruct (forallb nisfinite y'); [|exact I].
  pose proof (lsq_loop_same st f g F (s_max st) s2 [(x0, y')]) as L.
  destruct (lsq_loop st f _ _ _) as [s3 [h|er]], (lsq_loop st g _ _ _) as [s4 [h'|er']]; cbn in L; try easy.
  destruct L as [-> ->]. cbn. auto.
Qed.

Lemma lsqfun_calibrate_perm solve cert tm M l l' : Permutation l l' -> NoDup (map fst l) -> forall totals x,
  same_out (lsqfun_calibrate solve cert tm M l totals x) (lsqfun_calibrate solve cert tm M l' totals x).
Proof.
  intros P N totals x. unfold lsqfun_calibrate. destruct x as [|c [|? ?]]; [exact I| |exact I].
  pose proof (add_perm tm M c n0 _ _ P N totals) as A.
  destruct (add_titrant_totals _ _ _ _ _ l) as [t1 [u|x]];
  destruct (add_titrant_totals _ _ _ _ _ l') as [t2 [u'|x']]; try easy.
  destruct A as [-> _]. destruct (solve c t2) as [a|er]; [|exact I].
  pose proof (add_perm tm M n0 c _ _ P N t2) as A.
  destruct (add_titrant_totals _ _ _ _ _ l) as [t3 [v|x]];
  destruct (add_titrant_totals _ _ _ _ _ l') as [t4 [v'|x']]; try easy.
  destruct A as [-> _]. cbn. auto.
Qed.

Lemma titrant_totals_perm named (kw kw' : kwargs T) : wfd kw -> wfd kw' -> deq kw kw' ->
  Permutation (titrant_totals_of named kw) (titrant_totals_of named kw') /\
  NoDup (map fst (titrant_totals_of named kw)).
Proof.
  intros W W' E. split.
  - apply deq_perm; [now apply wfd_filter..|]. now apply (deq_filter (fun k => negb (mem_str k named))).
  - now apply (wfd_filter (A := val T)).
Qed.

Ltac calibrate_same :=
  same; repeat match goal with |- req (bind ?x _) _ => destruct x; cbn [bind]; [|exact I] end;
  apply same_out_snd, least_squares_same; intros; apply lsqfun_calibrate_perm;
  match goal with E : deq ?a ?b, W : wfd ?a, W' : wfd ?b |- _ =>
    first [exact (proj1 (titrant_totals_perm _ _ _ W W' E)) | exact (proj2 (titrant_totals_perm _ _ _ W W' E))] end.

Lemma call_calibrate_emf_deq (e : env T) c tm emf temps M totals ks kw kw' : wfd kw -> wfd kw' -> deq kw kw' ->
  req (call_calibrate_emf e c tm emf temps M totals ks kw) (call_calibrate_emf e c tm emf temps M totals ks kw').
Proof. intros W W' E. unfold call_calibrate_emf. calibrate_same. Qed.
Lemma call_calibrate_pH_deq (e : env T) c tm emf temps M totals ks kw kw' : wfd kw -> wfd kw' -> deq kw kw' ->
  req (call_calibrate_pH e c tm emf temps M totals ks kw) (call_calibrate_pH e c tm emf temps M totals ks kw').
Proof. intros W W' E. unfold call_calibrate_pH. calibrate_same. Qed.
Lemma call_calibrate_pH_gran_deq (e : env T) c tm emf temps M totals ks kw kw' : wfd kw -> wfd kw' -> deq kw kw' ->
  req (call_calibrate_pH_gran e c tm emf temps M totals ks kw) (call_calibrate_pH_gran e c tm emf temps M totals ks kw').
Proof. intros W W' E. unfold call_calibrate_pH_gran. calibrate_same. Qed.

Lemma dispatch_calibrate_deq (e : env T) m c cv totals ks kw kw' : wfd kw -> wfd kw' -> deq kw kw' ->
  req (dispatch_calibrate e m c cv totals ks kw) (dispatch_calibrate e m c cv totals ks kw').
Proof.
  intros W W' E. unfold dispatch_calibrate. destruct (as_str m) as [s|]; cbn [bind]; [|exact I].
  assert (G : forall ks, wfd (get_kwargs_for ks kw None)) by (intros; now apply wfd_filter).
  assert (G' : forall ks, wfd (get_kwargs_for ks kw' None)) by (intros; now apply wfd_filter).
  repeat match goal with |- context [if ?b then _ else _] => destruct b end; [..|exact I].
  - apply call_calibrate_emf_deq; auto. now apply gkf_deq.
  - apply call_calibrate_emf_deq; [now apply wfd_dset..|]. now apply deq_dset, gkf_deq.
  - apply call_calibrate_pH_deq; auto. now apply gkf_deq.
  - apply call_calibrate_pH_gran_deq; auto. now apply gkf_deq.
Qed.

Lemma files_calibrate_deq (e : env T) f c s kw kw' : wfd kw -> wfd kw' -> deq kw kw' ->
  req (files_calibrate e f c s kw) (files_calibrate e f c s kw').
Proof.
  intros W W' E. unfold files_calibrate.
  assert (Em : mode_of kw = mode_of kw') by (now apply kwarg_deq).
  pose proof (without_mode_deq _ _ E) as E1. rewrite Em, (load_deq e f s _ _ E1).
  destruct (load e f s _) as [[cv [totals ks]]|]; cbn [bind]; [|exact I].
  destruct (as_num c) as [c'|]; cbn [bind]; [|exact I].
  apply dispatch_calibrate_deq; [now apply wfd_filter..|exact E1].
Qed.

(* ------------------------------------------------------------------ *)
(** * Resolution of settings *)

Lemma resolve_fold (r : row T) : forall keys acc k,
  dget k (fold_left (fun acc k => match dget k r with
                                  | Some v => if notnull v then dset k v acc else acc
                                  | None => acc end) keys acc) =
  if mem_str k keys then match dget k r with
                         | Some v => if notnull v then Some v else dget k acc
                         | None => dget k acc end
  else dget k acc.
Proof.
  induction keys as [|k0 keys IH]; intros acc k; [reflexivity|].
  cbn [fold_left]. rewrite IH. cbn [mem_str existsb].
  destruct (String.eqb_spec k k0) as [->|N]; cbn [orb].
  - fold (mem_str k0 keys). destruct (dget k0 r) as [v|]; [|now destruct (mem_str k0 keys)].
    destruct (notnull v) eqn:V; [|now destruct (mem_str k0 keys)].
    rewrite dget_dset_same. now destruct (mem_str k0 keys).
  - fold (mem_str k keys).
    assert (Q : dget k (match dget k0 r with
                        | Some v => if notnull v then dset k0 v acc else acc
                        | None => acc end) = dget k acc).
    { destruct (dget k0 r) as [v|]; [|reflexivity]. destruct (notnull v); [|reflexivity]. now apply dget_dset_other. }
    now rewrite Q.
Qed.

Lemma resolve (keys : list string) (kw : kwargs T) (r : row T) k :
  dget k (get_kwargs_for keys kw (Some r)) =
  if mem_str k keys then match dget k r with
                         | Some v => if notnull v then Some v else dget k kw
                         | None => dget k kw end
  else None.
Proof.
  unfold get_kwargs_for. rewrite resolve_fold, (dget_filter (fun k => mem_str k keys)).
  now destruct (mem_str k keys).
Qed.

Lemma wfd_resolve keys (kw : kwargs T) r : wfd kw -> wfd (get_kwargs_for keys kw (Some r)).
Proof.
  intros W. unfold get_kwargs_for.
  assert (W' : wfd (filter (fun kv => mem_str (fst kv) keys) kw)) by (now apply wfd_filter).
  revert W'. generalize (filter (fun kv => mem_str (fst kv) keys) kw). generalize keys.
  intros l. induction l as [|k l IH]; intros acc W'; cbn [fold_left]; [exact W'|].
  apply IH. destruct (dget k r) as [v|]; [|exact W']. destruct (notnull v); [now apply wfd_dset|exact W'].
Qed.

End Kwargs.
