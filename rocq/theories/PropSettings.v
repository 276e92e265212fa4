(* PropSettings.v -- C46, C47, C48, C49, C50, C83: settings *)
From Coq Require Import Permutation.
From Verif Require Import Dataset DictLemmas SettingsProofs Witness.
From Verif Require Export SpecSettings.
Open Scope list_scope.
Open Scope string_scope.

Section Settings.
Context {T : Type} `{Num T}.

Lemma settings_solve k : In k solve_settings <-> In k keys_solve.
Proof.
  rewrite <- !mem_str_spec. split; intros M.
  - assert (F : forallb (fun k => mem_str k keys_solve) solve_settings = true) by reflexivity.
    rewrite forallb_forall in F. apply F. now apply mem_str_spec.
  - assert (F : forallb (fun k => mem_str k solve_settings) keys_solve = true) by reflexivity.
    rewrite forallb_forall in F. apply F. now apply mem_str_spec.
Qed.
Lemma settings_calibrate k : In k calibrate_settings <-> In k keys_calibrate.
Proof.
  rewrite <- !mem_str_spec. split; intros M.
  - assert (F : forallb (fun k => mem_str k keys_calibrate) calibrate_settings = true) by reflexivity.
    rewrite forallb_forall in F. apply F. now apply mem_str_spec.
  - assert (F : forallb (fun k => mem_str k calibrate_settings) keys_calibrate = true) by reflexivity.
    rewrite forallb_forall in F. apply F. now apply mem_str_spec.
Qed.

Lemma backcompat_id (kw : kwargs T) r : without_old_names kw r -> backcompat kw r = Ok kw.
Proof.
  intros [O R]. unfold backcompat, backcompat_dict. rewrite (O "read_dat_kwargs") by (cbn; auto). cbn [bind].
  unfold backcompat_range. rewrite (O "pH_range") by (cbn; auto). cbn [bind].
  rewrite (O "read_dat_method") by (cbn; auto). now rewrite R.
Qed.

Lemma wfd_dupdate {A} (d' d : dict A) : wfd d -> wfd (dupdate d d').
Proof.
  unfold dupdate. revert d. induction d' as [|[k v] d' IH]; intros d W; cbn; [exact W|]. apply IH. now apply wfd_dset.
Qed.

Lemma wfd_backcompat (kw : kwargs T) r kw1 : wfd kw -> backcompat kw r = Ok kw1 -> wfd kw1.
Proof.
  intros W B. unfold backcompat in B.
  destruct (backcompat_dict kw) as [kwa|] eqn:E1; cbn [bind] in B; [|discriminate].
  destruct (backcompat_range kwa) as [kwb|] eqn:E2; cbn [bind] in B; [|discriminate].
  assert (Wa : wfd kwa).
  { unfold backcompat_dict in E1. destruct (dget _ kw) as [[]|]; try discriminate; injection E1 as <-; [|assumption].
    now apply wfd_dupdate. }
  assert (Wb : wfd kwb).
  { unfold backcompat_range in E2. destruct (dget _ kwa) as [[]|]; try discriminate.
    - destruct l as [|a [|b [|? ?]]]; try discriminate. injection E2 as <-. now apply wfd_dset, wfd_dset.
    - now injection E2 as <-. }
  injection B as <-.
  destruct (dget _ kwb); destruct (dget _ r); repeat apply wfd_dset; assumption.
Qed.

(* the general dependency lemma *)
Definition resolves_like keys (kw kw' : kwargs T) (r r' : row T) : Prop :=
  forall k, In k keys -> chosen kw r k = chosen kw' r' k.

Lemma chosen_deq keys (kw kw' : kwargs T) r r' : resolves_like keys kw kw' r r' ->
  deq (get_kwargs_for keys kw (Some r)) (get_kwargs_for keys kw' (Some r')).
Proof.
  intros C k. rewrite !resolve. destruct (mem_str k keys) eqn:M; [|reflexivity].
  apply mem_str_spec in M. exact (C k M).
Qed.

Lemma handler_eq {A} (r r' : row T) (a : A) : dget "file_name" r = dget "file_name" r' ->
  handler r a = handler r' a.
Proof. intros E. unfold handler, attr. now rewrite E. Qed.

Definition solve_columns : list string :=
  ["file_name"; "titrant_molinity"; "salinity"; "file_good"; "analyte_mass"].
Definition calibrate_columns : list string :=
  ["file_name"; "alkalinity_certified"; "salinity"; "file_good"].

Lemma solve_row_depends (e : env T) kw kw' r r' kw1 kw1' : wfd kw -> wfd kw' ->
  backcompat kw r = Ok kw1 -> backcompat kw' r' = Ok kw1' ->
  resolves_like keys_solve kw1 kw1' r r' ->
  (forall c, In c solve_columns -> dget c r = dget c r') ->
  solve_row e kw r = solve_row e kw' r'.
Proof.
  intros W W' B B' R C. unfold solve_row, solve_row_try, attr.
  rewrite (C "file_name"), (C "titrant_molinity"), (C "salinity"), (C "file_good") by (cbn; tauto).
  assert (Bl : blank r = blank r') by (unfold blank, cell; now rewrite (C "analyte_mass") by (cbn; tauto)).
  rewrite Bl, B, B'. cbn [bind].
  destruct (dget "titrant_molinity" r') as [c|]; cbn [of_opt bind]; [|reflexivity].
  destruct (dget "file_good" r') as [g|]; cbn [of_opt bind]; [|reflexivity].
  destruct (notnull c && truthy g); [|reflexivity].
  rewrite (handler_eq r r') by (apply C; cbn; tauto).
  destruct (dget "file_name" r') as [f|]; cbn [of_opt bind]; [|reflexivity].
  destruct (dget "salinity" r') as [s|]; cbn [of_opt bind]; [|reflexivity].
  pose proof (files_solve_deq e f c s _ _ (wfd_resolve keys_solve kw1 r (wfd_backcompat _ _ _ W B))
                (wfd_resolve keys_solve kw1' r' (wfd_backcompat _ _ _ W' B')) (chosen_deq _ _ _ _ _ R)) as Q.
  destruct (files_solve e f c s _) as [a|x]; destruct (files_solve e f c s _) as [b|y]; cbn in Q; try contradiction; [|reflexivity].
  now subst.
Qed.

Lemma calibrate_row_depends (e : env T) kw kw' r r' kw1 kw1' : wfd kw -> wfd kw' ->
  backcompat kw r = Ok kw1 -> backcompat kw' r' = Ok kw1' ->
  resolves_like keys_calibrate kw1 kw1' r r' ->
  (forall c, In c calibrate_columns -> dget c r = dget c r') ->
  calibrate_row e kw r = calibrate_row e kw' r'.
Proof.
  intros W W' B B' R C. unfold calibrate_row, calibrate_row_try, attr.
  rewrite (C "file_name"), (C "alkalinity_certified"), (C "salinity"), (C "file_good") by (cbn; tauto).
  rewrite B, B'. cbn [bind].
  destruct (dget "alkalinity_certified" r') as [c|]; cbn [of_opt bind]; [|reflexivity].
  destruct (dget "file_good" r') as [g|]; cbn [of_opt bind]; [|reflexivity].
  destruct (notnull c && truthy g); [|reflexivity].
  rewrite (handler_eq r r') by (apply C; cbn; tauto).
  destruct (dget "file_name" r') as [f|]; cbn [of_opt bind]; [|reflexivity].
  destruct (dget "salinity" r') as [s|]; cbn [of_opt bind]; [|reflexivity].
  pose proof (files_calibrate_deq e f c s _ _ (wfd_resolve keys_calibrate kw1 r (wfd_backcompat _ _ _ W B))
                (wfd_resolve keys_calibrate kw1' r' (wfd_backcompat _ _ _ W' B')) (chosen_deq _ _ _ _ _ R)) as Q.
  destruct (files_calibrate e f c s _) as [a|x]; destruct (files_calibrate e f c s _) as [b|y]; cbn in Q; try contradiction; [|reflexivity].
  now subst.
Qed.

(* ------------------------------------------------------------------ *)
(** * C46 *)

(* The outcome for a row is determined by the chosen values of the documented settings
   and by the row's required columns. *)
Theorem C46_solve_uses_chosen_settings : forall (e : env T) kw kw' r r', wfd kw -> wfd kw' ->
  without_old_names kw r -> without_old_names kw' r' ->
  (forall k, In k solve_settings -> chosen kw r k = chosen kw' r' k) ->
  (forall c, In c solve_columns -> dget c r = dget c r') ->
  solve_row e kw r = solve_row e kw' r'.
Proof.
  intros e kw kw' r r' W W' O O' C K.
  apply (solve_row_depends e kw kw' r r' kw kw'); auto using backcompat_id.
  intros k I. apply C. now apply settings_solve.
Qed.

Theorem C46_calibrate_uses_chosen_settings : forall (e : env T) kw kw' r r', wfd kw -> wfd kw' ->
  without_old_names kw r -> without_old_names kw' r' ->
  (forall k, In k calibrate_settings -> chosen kw r k = chosen kw' r' k) ->
  (forall c, In c calibrate_columns -> dget c r = dget c r') ->
  calibrate_row e kw r = calibrate_row e kw' r'.
Proof.
  intros e kw kw' r r' W W' O O' C K.
  apply (calibrate_row_depends e kw kw' r r' kw kw'); auto using backcompat_id.
  intros k I. apply C. now apply settings_calibrate.
Qed.

Lemma old_dset k v (kw : kwargs T) r : ~ In k old_names -> without_old_names kw r -> without_old_names (dset k v kw) r.
Proof.
  intros N [O R]. split; [|exact R]. intros k' I. rewrite dget_dset_other; [now apply O|]. intros ->. contradiction.
Qed.
Lemma old_dset_row k v (kw : kwargs T) r : ~ In k old_names -> without_old_names kw r -> without_old_names kw (dset k v r).
Proof.
  intros N [O R]. split; [exact O|]. rewrite dget_dset_other; [exact R|]. intros <-. apply N. cbn; tauto.
Qed.

(* a non-null value in the row wins over any keyword argument *)
Theorem C46_row_value_wins : forall (e : env T) kw r k v w, wfd kw -> without_old_names kw r ->
  ~ In k old_names -> dget k r = Some v -> notnull v = true ->
  solve_row e (dset k w kw) r = solve_row e kw r /\
  calibrate_row e (dset k w kw) r = calibrate_row e kw r.
Proof.
  intros e kw r k v w W O N G V. split.
  - apply C46_solve_uses_chosen_settings; auto using wfd_dset, old_dset.
    intros k' I. unfold chosen. destruct (String.eqb_spec k' k) as [->|D]; [now rewrite G, V|].
    now rewrite dget_dset_other.
  - apply C46_calibrate_uses_chosen_settings; auto using wfd_dset, old_dset.
    intros k' I. unfold chosen. destruct (String.eqb_spec k' k) as [->|D]; [now rewrite G, V|].
    now rewrite dget_dset_other.
Qed.

(* where the row has no value, or null, the keyword argument acts as if it stood there *)
Theorem C46_kwarg_fills_null_cell : forall (e : env T) kw r k v, wfd kw -> without_old_names kw r ->
  ~ In k old_names -> notnull v = true ->
  (forall u, dget k r = Some u -> notnull u = false) ->
  (~ In k solve_columns -> solve_row e (dset k v kw) r = solve_row e kw (dset k v r)) /\
  (~ In k calibrate_columns -> calibrate_row e (dset k v kw) r = calibrate_row e kw (dset k v r)).
Proof.
  intros e kw r k v W O N V G.
  assert (C : forall k', chosen (dset k v kw) r k' = chosen kw (dset k v r) k').
  { intros k'. unfold chosen. destruct (String.eqb_spec k' k) as [->|D].
    - rewrite !dget_dset_same, V. destruct (dget k r) as [u|] eqn:U; [|reflexivity].
      now rewrite (G u eq_refl).
    - now rewrite !dget_dset_other. }
  split; intros NC.
  - apply C46_solve_uses_chosen_settings; auto using wfd_dset, old_dset, old_dset_row.
    intros c I. rewrite dget_dset_other; [reflexivity|]. now intros ->.
  - apply C46_calibrate_uses_chosen_settings; auto using wfd_dset, old_dset, old_dset_row.
    intros c I. rewrite dget_dset_other; [reflexivity|]. now intros ->.
Qed.

(* a null cell is the same as no such column *)
Theorem C46_null_cell_is_no_cell : forall (e : env T) kw r k u, wfd kw -> without_old_names kw r ->
  ~ In k old_names -> dget k r = None -> notnull u = false ->
  (~ In k solve_columns -> solve_row e kw (dset k u r) = solve_row e kw r) /\
  (~ In k calibrate_columns -> calibrate_row e kw (dset k u r) = calibrate_row e kw r).
Proof.
  intros e kw r k u W O N G U.
  assert (C : forall k', chosen kw (dset k u r) k' = chosen kw r k').
  { intros k'. unfold chosen. destruct (String.eqb_spec k' k) as [->|D].
    - now rewrite dget_dset_same, G, U.
    - now rewrite !dget_dset_other. }
  split; intros NC.
  - apply C46_solve_uses_chosen_settings; auto using wfd_dset, old_dset, old_dset_row.
    intros c I. rewrite dget_dset_other; [reflexivity|]. now intros ->.
  - apply C46_calibrate_uses_chosen_settings; auto using wfd_dset, old_dset, old_dset_row.
    intros c I. rewrite dget_dset_other; [reflexivity|]. now intros ->.
Qed.

(* an unrecognised keyword argument changes nothing *)
Theorem C46_unrecognised_kwarg_has_no_effect : forall (e : env T) kw r k w, wfd kw -> without_old_names kw r ->
  ~ In k old_names ->
  (~ In k solve_settings -> solve_row e (dset k w kw) r = solve_row e kw r) /\
  (~ In k calibrate_settings -> calibrate_row e (dset k w kw) r = calibrate_row e kw r).
Proof.
  intros e kw r k w W O N. split; intros NS.
  - apply C46_solve_uses_chosen_settings; auto using wfd_dset, old_dset.
    intros k' I. unfold chosen. rewrite dget_dset_other; [reflexivity|]. now intros ->.
  - apply C46_calibrate_uses_chosen_settings; auto using wfd_dset, old_dset.
    intros k' I. unfold chosen. rewrite dget_dset_other; [reflexivity|]. now intros ->.
Qed.

(* leaving a setting out is the same as giving its default value *)
Lemma filter_dset_new {A} (p : string -> bool) k (v : A) d : dget k d = None ->
  filter (fun kv => p (fst kv)) (dset k v d) =
  if p k then dset k v (filter (fun kv => p (fst kv)) d) else filter (fun kv => p (fst kv)) d.
Proof.
  induction d as [|[k0 v0] d IH]; cbn; [now destruct (p k)|].
  destruct (String.eqb_spec k k0) as [->|N]; [discriminate|]. intros G. cbn. rewrite (IH G).
  destruct (p k0); [|reflexivity]. destruct (p k); [|reflexivity]. cbn.
  destruct (String.eqb_spec k k0); [congruence|reflexivity].
Qed.

Lemma gkf_dset_new keys k (v : val T) kw : dget k kw = None ->
  get_kwargs_for keys (dset k v kw) None =
  if mem_str k keys then dset k v (get_kwargs_for keys kw None) else get_kwargs_for keys kw None.
Proof. intros G. apply (filter_dset_new (fun k => mem_str k keys)). exact G. Qed.

Lemma kwarg_same k (v : val T) kw : dget k kw = None -> kwarg k v (dset k v kw) = kwarg k v kw.
Proof. intros G. unfold kwarg. now rewrite dget_dset_same, G. Qed.
Lemma kwarg_other k k' (v d : val T) kw : k <> k' -> kwarg k d (dset k' v kw) = kwarg k d kw.
Proof. intros N. unfold kwarg. now rewrite dget_dset_other. Qed.
Lemma check_dset keys k (v : val T) kw : mem_str k keys = true -> check_kwargs keys (dset k v kw) = check_kwargs keys kw.
Proof.
  intros M. unfold check_kwargs.
  replace (forallb (fun kv => mem_str (fst kv) keys) (dset k v kw))
    with (forallb (fun kv => mem_str (fst kv) keys) kw); [easy|].
  apply eq_true_iff_eq. rewrite !(forallb_keys (fun k => mem_str k keys)).
  split; intros F k1 D.
  - rewrite dmem_dset in D. destruct (String.eqb_spec k1 k) as [E|N]; [rewrite E; exact M|]. now apply F.
  - apply F. rewrite dmem_dset, D. apply orb_true_r.
Qed.

(* the defaults that the code uses are the documented ones *)
Lemma kwarg_dflt k d k' (d' : val T) kw : In (k, d) default_settings -> dget k kw = None ->
  (forall d0, In (k', d0) default_settings -> d0 = d') ->
  kwarg k' d' (dset k d kw) = kwarg k' d' kw.
Proof.
  intros I G U. destruct (String.eqb_spec k' k) as [E|N].
  - rewrite E in *. rewrite <- (U d I). now apply kwarg_same.
  - now apply kwarg_other.
Qed.

Lemma bind_cong {A B} (x y : res A) (f g : A -> res B) : x = y -> (forall a, f a = g a) -> bind x f = bind y g.
Proof. intros -> E. destruct y; cbn; auto. Qed.

Ltac dflt I := repeat first
  [ rewrite (kwarg_dflt _ _ _ _ _ I) by
      first [ assumption
            | let J := fresh in intros ? J; cbn in J;
              repeat (destruct J as [J|J]; [first [discriminate J | injection J as <-; reflexivity]|]); destruct J ]
  | rewrite check_dset by assumption ].

Lemma gkf_none keys k (kw : kwargs T) : dget k kw = None -> dget k (get_kwargs_for keys kw None) = None.
Proof. intros G. unfold get_kwargs_for. rewrite (dget_filter (fun k => mem_str k keys)), G. now destruct (mem_str k keys). Qed.

Lemma load_default (e : env T) f s kw k d : In (k, d) default_settings -> dget k kw = None ->
  load e f s (dset k d kw) = load e f s kw.
Proof.
  intros I G. unfold load, full_name.
  assert (P : dget "file_path" (dset k d kw) = dget "file_path" kw).
  { apply dget_dset_other. intros <-. cbn in I. repeat (destruct I as [I|I]; [discriminate|]). exact I. }
  rewrite P. clear P. rewrite !(gkf_dset_new _ k d kw G).
  pose proof (gkf_none keys_read_dat k kw G) as G1. pose proof (gkf_none keys_cau k kw G) as G2.
  pose proof (gkf_none keys_totals_ks k kw G) as G3.
  set (k1 := get_kwargs_for keys_read_dat kw None) in *. set (k2 := get_kwargs_for keys_cau kw None) in *.
  set (k3 := get_kwargs_for keys_totals_ks kw None) in *. clearbody k1 k2 k3.
  match goal with |- bind ?x _ = _ => destruct x as [p|ex]; cbn [bind]; [|reflexivity] end.
  assert (R : read_dat e p (if mem_str k keys_read_dat then dset k d k1 else k1) = read_dat e p k1).
  { destruct (mem_str k keys_read_dat) eqn:M; [|reflexivity].
    unfold read_dat, read_dat_type. dflt I.
    cbn in I. repeat (destruct I as [I|I]; [injection I as <- <-; try discriminate M|]); [|destruct I].
    rewrite (filter_dset_new (fun k => negb (String.eqb k "file_type"))) by assumption. reflexivity. }
  rewrite R. destruct (read_dat e p k1) as [dd|]; cbn [bind]; [|reflexivity].
  assert (A : amount_units_dat dd s (if mem_str k keys_cau then dset k d k2 else k2) = amount_units_dat dd s k2).
  { destruct (mem_str k keys_cau) eqn:M; [|reflexivity]. destruct dd as [dd|]; [|reflexivity].
    cbn [amount_units_dat]; unfold amount_units, cau_titrant_mass, cau_analyte_mass; dflt I; reflexivity. }
  rewrite A. destruct (amount_units_dat dd s k2) as [cv|]; cbn [bind]; [|reflexivity].
  assert (TK : totals_ks e cv (if mem_str k keys_totals_ks then dset k d k3 else k3) = totals_ks e cv k3).
  { destruct (mem_str k keys_totals_ks) eqn:M; [|reflexivity].
    unfold totals_ks.
    rewrite (filter_dset_new (fun k => mem_str k keys_kwargs_totals) k d k3 G3).
    rewrite (filter_dset_new (fun k => mem_str k keys_kwargs_k_constants) k d k3 G3).
    cbv beta.
    pose proof (gkf_none keys_kwargs_totals k k3 G3) as G4. pose proof (gkf_none keys_kwargs_k_constants k k3 G3) as G5.
    unfold get_kwargs_for in G4, G5.
    assert (Q : (if match dget "dilute_totals_for_ks" (dset k d k3) with Some v => truthy v | None => false end then true else false) =
                (if match dget "dilute_totals_for_ks" k3 with Some v => truthy v | None => false end then true else false)).
    { destruct (String.eqb_spec "dilute_totals_for_ks" k) as [<-|N].
      - rewrite dget_dset_same, G3. cbn in I.
        repeat (destruct I as [I|I]; [try discriminate; injection I as <-; reflexivity|]). destruct I.
      - now rewrite dget_dset_other. }
    set (k4 := filter (fun kv => mem_str (fst kv) keys_kwargs_totals) k3) in *.
    set (k5 := filter (fun kv => mem_str (fst kv) keys_kwargs_k_constants) k3) in *.
    assert (E4 : get_totals e (cv_salinity cv) (if mem_str k keys_kwargs_totals then dset k d k4 else k4) =
                 get_totals e (cv_salinity cv) k4).
    { clearbody k4. destruct (mem_str k keys_kwargs_totals) eqn:M4; [|reflexivity].
      assert (M4' : mem_str k keys_get_totals = true) by exact M4.
      unfold get_totals; dflt I; reflexivity. }
    assert (E5 : forall tp t, get_k_constants e tp t (if mem_str k keys_kwargs_k_constants then dset k d k5 else k5) =
                 get_k_constants e tp t k5).
    { intros tp t. clearbody k5. destruct (mem_str k keys_kwargs_k_constants) eqn:M5; [|reflexivity].
      assert (M5' : mem_str k keys_get_k_constants = true) by exact M5.
      unfold get_k_constants, given_ks, calk_to_pyco2__k_constants; cbn [fold_left fst snd]; dflt I; reflexivity. }
    apply bind_cong; [exact E4|intros [t0 tp0]]. apply bind_cong; [reflexivity|intros td].
    apply bind_cong.
    - destruct (match dget "dilute_totals_for_ks" (dset k d k3) with Some v => truthy v | None => false end);
      destruct (match dget "dilute_totals_for_ks" k3 with Some v => truthy v | None => false end); try discriminate Q; reflexivity.
    - intros tp. apply bind_cong; [apply E5|reflexivity]. }
  now rewrite TK.
Qed.

Lemma dispatch_default (e : env T) m c cv totals ks kw k d : In (k, d) default_settings -> dget k kw = None ->
  dispatch_solve e m c cv totals ks (dset k d kw) = dispatch_solve e m c cv totals ks kw.
Proof.
  intros I G. unfold dispatch_solve. rewrite !(gkf_dset_new _ k d kw G).
  pose proof (gkf_none keys_solve_emf k kw G) as G1. pose proof (gkf_none keys_solve_pH k kw G) as G2.
  pose proof (gkf_none keys_solve_pH_gran k kw G) as G3.
  set (k1 := get_kwargs_for keys_solve_emf kw None) in *. set (k2 := get_kwargs_for keys_solve_pH kw None) in *.
  set (k3 := get_kwargs_for keys_solve_pH_gran kw None) in *. clearbody k1 k2 k3.
  destruct (as_str m) as [s|]; cbn [bind]; [|reflexivity].
  destruct (String.eqb (lower s) "emf").
  { destruct (mem_str k keys_solve_emf) eqn:M; [|reflexivity].
    unfold call_solve_emf; dflt I; reflexivity. }
  destruct (String.eqb (lower s) "ph_adjust").
  { destruct (mem_str k keys_solve_emf) eqn:M; [|reflexivity].
    assert (N : k <> "emf0_init") by (intros ->; cbn in I; repeat (destruct I as [I|I]; [discriminate|]); exact I).
    assert (G1' : dget k (dset "emf0_init" (VInt 0) k1) = None) by (now rewrite dget_dset_other).
    rewrite (call_solve_emf_deq _ _ _ _ _ _ _ _ _ (dset k d (dset "emf0_init" (VInt 0) k1))).
    2:{ intros k'. rewrite !dget_dset. destruct (String.eqb_spec k' "emf0_init"), (String.eqb_spec k' k); congruence. }
    set (k4 := dset "emf0_init" (VInt 0) k1) in *. clearbody k4.
    unfold call_solve_emf; dflt I; reflexivity. }
  destruct (String.eqb (lower s) "ph").
  { destruct (mem_str k keys_solve_pH) eqn:M; [|reflexivity].
    unfold call_solve_pH; dflt I; reflexivity. }
  destruct (String.eqb (lower s) "ph_gran"); [|reflexivity].
  destruct (mem_str k keys_solve_pH_gran) eqn:M; [|reflexivity].
  unfold call_solve_pH_gran; dflt I; reflexivity.
Qed.

Theorem C46_default_values : forall (e : env T) f c s kw k d, In (k, d) default_settings -> dget k kw = None ->
  files_solve e f c s (dset k d kw) = files_solve e f c s kw.
Proof.
  intros e f c s kw k d I G. unfold files_solve.
  assert (W : without_mode (dset k d kw) =
              if negb (String.eqb k "solve_mode") then dset k d (without_mode kw) else without_mode kw)
    by (now apply (filter_dset_new (fun k => negb (String.eqb k "solve_mode")))).
  rewrite W. clear W.
  destruct (String.eqb_spec k "solve_mode") as [->|N]; cbn [negb].
  - assert (D : d = VStr "emf").
    { cbn in I. repeat (destruct I as [I|I]; [try discriminate; now injection I as <-|]). destruct I. }
    subst d. unfold mode_of. now rewrite kwarg_same.
  - assert (M : mode_of (dset k d kw) = mode_of kw) by (apply kwarg_other; congruence).
    assert (G' : dget k (without_mode kw) = None).
    { unfold without_mode. rewrite (dget_filter (fun k => negb (String.eqb k "solve_mode"))), G. now destruct (negb _). }
    rewrite M, (load_default e f s _ k d I G').
    destruct (load e f s _) as [[cv [totals ks]]|]; cbn [bind]; [|reflexivity].
    destruct (as_num c) as [c'|]; cbn [bind]; [|reflexivity].
    rewrite (gkf_dset_new keys_titrant_totals k d _ G').
    assert (MT : mem_str k keys_titrant_totals = false).
    { cbn in I. repeat (destruct I as [I|I]; [injection I as <- <-; reflexivity|]). destruct I. }
    rewrite MT. destruct (add_titrant_totals _ _ _ _ _ _) as [t' [u|x]]; cbn [bind]; [|reflexivity].
    now apply dispatch_default.
Qed.

(* ------------------------------------------------------------------ *)
(** * C83 *)

(* keys and keys' are two orders (or listings) of the same set *)
Theorem C83_key_order_irrelevant : forall (e : env T) keys keys' kw r f c s, wfd kw ->
  (forall k, In k keys <-> In k keys') ->
  req (files_solve e f c s (get_kwargs_for keys kw (Some r)))
      (files_solve e f c s (get_kwargs_for keys' kw (Some r))) /\
  req (files_calibrate e f c s (get_kwargs_for keys kw (Some r)))
      (files_calibrate e f c s (get_kwargs_for keys' kw (Some r))).
Proof.
  intros e keys keys' kw r f c s W K.
  assert (D : deq (get_kwargs_for keys kw (Some r)) (get_kwargs_for keys' kw (Some r))).
  { intros k. rewrite !resolve. replace (mem_str k keys') with (mem_str k keys); [reflexivity|].
    apply eq_true_iff_eq. rewrite !mem_str_spec. apply K. }
  split; [apply files_solve_deq|apply files_calibrate_deq]; auto using wfd_resolve.
Qed.

(* the order of the user's own keyword arguments does not matter either *)
Theorem C83_kwarg_order_irrelevant : forall (e : env T) kw kw' f c s, wfd kw -> Permutation kw kw' ->
  req (files_solve e f c s kw) (files_solve e f c s kw') /\
  req (files_calibrate e f c s kw) (files_calibrate e f c s kw').
Proof.
  intros e kw kw' f c s W P.
  assert (W' : wfd kw') by (unfold wfd, dkeys; eapply Permutation_NoDup; [apply Permutation_map, P|exact W]).
  assert (D : deq kw kw').
  { intros k. destruct (dget k kw) as [v|] eqn:E.
    - symmetry. apply in_dget; [exact W'|]. apply (Permutation_in _ P). now apply dget_in.
    - destruct (dget k kw') as [v|] eqn:E'; [|reflexivity].
      apply dget_in in E'. apply (Permutation_in _ (Permutation_sym P)) in E'. apply (in_dget _ _ _ W) in E'. congruence. }
  split; [now apply files_solve_deq|now apply files_calibrate_deq].
Qed.

End Settings.
