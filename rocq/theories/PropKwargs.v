(* PropKwargs.v -- C47, C49, C50: old-style keyword arguments, ignored ones, solve_mode *)
From Coq Require Import Reals.
From Verif Require Import Dataset DictLemmas SettingsProofs Witness.
From Verif Require Export PropSettings.
Open Scope list_scope.
Open Scope string_scope.

Section Kwargs.
Context {T : Type} `{Num T}.

(* ------------------------------------------------------------------ *)
(** * C47 *)

Definition keeps (P : string -> Prop) (kw kw' : kwargs T) : Prop := forall k, P k -> dget k kw = dget k kw'.

Lemma rows_same (e : env T) kw kw' r kw1 kw1' : wfd kw -> wfd kw' ->
  backcompat kw r = Ok kw1 -> backcompat kw' r = Ok kw1' ->
  (forall k, In k solve_settings \/ In k calibrate_settings -> dget k kw1 = dget k kw1') ->
  solve_row e kw r = solve_row e kw' r /\ calibrate_row e kw r = calibrate_row e kw' r.
Proof.
  intros W W' B B' E. split.
  - apply (solve_row_depends e kw kw' r r kw1 kw1'); auto.
    intros k I. unfold chosen. rewrite (E k); [reflexivity|]. left. now apply settings_solve.
  - apply (calibrate_row_depends e kw kw' r r kw1 kw1'); auto.
    intros k I. unfold chosen. rewrite (E k); [reflexivity|]. right. now apply settings_calibrate.
Qed.

(* the last part of backcompat: read_dat_method *)
Definition bc_method (kw : kwargs T) (r : row T) : kwargs T :=
  let kw3 := match dget "read_dat_method" kw with Some v => dset "file_type" v kw | None => kw end in
  match dget "read_dat_method" r with Some v => dset "file_type" v kw3 | None => kw3 end.

Lemma backcompat_eq (kw : kwargs T) r :
  backcompat kw r = (kw1 <- backcompat_dict kw ;; kw2 <- backcompat_range kw1 ;; Ok (bc_method kw2 r)).
Proof. reflexivity. Qed.

Lemma bc_method_same (kw kw' : kwargs T) r (P : string -> Prop) : keeps P kw kw' -> P "read_dat_method" ->
  keeps P (bc_method kw r) (bc_method kw' r).
Proof.
  intros K R. unfold bc_method. rewrite (K _ R).
  intros k I. pose proof (K k I) as Kk.
  destruct (dget "read_dat_method" kw'); destruct (dget "read_dat_method" r);
    rewrite ?dget_dset; destruct (String.eqb k "file_type"); auto.
Qed.

Lemma not_setting k : mem_str k solve_settings = false -> mem_str k calibrate_settings = false ->
  forall k', In k' solve_settings \/ In k' calibrate_settings -> k' <> k.
Proof.
  intros A B k' I ->. apply mem_str_false in A. apply mem_str_false in B. tauto.
Qed.

(* pH_range=(a, b) acts as pH_min=a, pH_max=b *)
Theorem C47_pH_range : forall (e : env T) kw r a b, wfd kw ->
  dget "read_dat_kwargs" kw = None -> dget "pH_range" kw = None ->
  let old := dset "pH_range" (VTup [a; b]) kw in
  let new := dset "pH_max" b (dset "pH_min" a kw) in
  solve_row e old r = solve_row e new r /\ calibrate_row e old r = calibrate_row e new r.
Proof.
  intros e kw r a b W D R old new.
  eapply rows_same; try (unfold old, new; repeat apply wfd_dset; exact W).
  - unfold old. rewrite backcompat_eq. unfold backcompat_dict. rewrite dget_dset_other, D by discriminate. cbn [bind].
    unfold backcompat_range. rewrite dget_dset_same. cbn [bind]. reflexivity.
  - unfold new. rewrite backcompat_eq. unfold backcompat_dict. rewrite !dget_dset_other, D by discriminate. cbn [bind].
    unfold backcompat_range. rewrite !dget_dset_other, R by discriminate. cbn [bind]. reflexivity.
  - intros k I.
    apply (bc_method_same _ _ r (fun k => k <> "pH_range")); [|discriminate|].
    + intros k' N. rewrite !dget_dset. destruct (String.eqb k' "pH_max"); [reflexivity|].
      destruct (String.eqb k' "pH_min"); [reflexivity|]. destruct (String.eqb_spec k' "pH_range"); [congruence|reflexivity].
    + revert k I. now apply not_setting.
Qed.

Lemma dget_dupdate {A} k (d' d : dict A) : wfd d' ->
  dget k (dupdate d d') = match dget k d' with Some v => Some v | None => dget k d end.
Proof.
  unfold dupdate, wfd. revert d. induction d' as [|[k0 v0] d' IH]; intros d W; cbn [fold_left fst snd dget]; [reflexivity|].
  cbn in W. inversion W as [|? ? NI W2]; subst. rewrite (IH _ W2). rewrite dget_dset.
  destruct (String.eqb_spec k k0) as [->|N]; [|reflexivity].
  destruct (dget k0 d') as [v|] eqn:G; [|reflexivity].
  exfalso. apply NI. apply dget_in_keys. unfold dmem. now rewrite G.
Qed.

(* the entries of read_dat_kwargs act as direct keyword arguments *)
Theorem C47_read_dat_kwargs : forall (e : env T) kw r d, wfd kw -> wfd d ->
  dget "read_dat_kwargs" kw = None -> dget "read_dat_kwargs" d = None ->
  let old := dset "read_dat_kwargs" (VDict d) kw in
  let new := dupdate kw d in
  solve_row e old r = solve_row e new r /\ calibrate_row e old r = calibrate_row e new r.
Proof.
  intros e kw r d W Wd D Dd old new.
  assert (B1 : backcompat old r = (kw2 <- backcompat_range (dupdate old d) ;; Ok (bc_method kw2 r))).
  { rewrite backcompat_eq. unfold backcompat_dict at 1. unfold old at 1. rewrite dget_dset_same. reflexivity. }
  assert (B2 : backcompat new r = (kw2 <- backcompat_range new ;; Ok (bc_method kw2 r))).
  { rewrite backcompat_eq. unfold backcompat_dict at 1. unfold new at 1. rewrite (dget_dupdate _ d kw Wd), Dd, D. reflexivity. }
  assert (K : keeps (fun k => k <> "read_dat_kwargs") (dupdate old d) new).
  { intros k N. unfold old, new. rewrite !(dget_dupdate _ d _ Wd). now rewrite dget_dset_other. }
  assert (KR : match backcompat_range (dupdate old d), backcompat_range new with
               | Ok x, Ok y => keeps (fun k => k <> "read_dat_kwargs") x y
               | Err x, Err y => x = y
               | _, _ => False end).
  { unfold backcompat_range. rewrite (K "pH_range") by discriminate.
    destruct (dget "pH_range" new) as [[]|]; try reflexivity; [|exact K].
    destruct l as [|x [|y [|? ?]]]; try reflexivity.
    intros k N. rewrite !dget_dset. destruct (String.eqb k "pH_max"), (String.eqb k "pH_min"); auto. }
  destruct (backcompat_range (dupdate old d)) as [x|ex] eqn:Ex, (backcompat_range new) as [y|ey] eqn:Ey; try contradiction.
  - eapply rows_same; [unfold old; now apply wfd_dset|unfold new; now apply wfd_dupdate|rewrite B1; reflexivity|rewrite B2; reflexivity|].
    intros k I. apply (bc_method_same _ _ r _ KR); [discriminate|]. revert k I. now apply not_setting.
  - subst ey. cbn [bind] in B1, B2. split.
    + unfold solve_row, solve_row_try. rewrite B1, B2. reflexivity.
    + unfold calibrate_row, calibrate_row_try. rewrite B1, B2. reflexivity.
Qed.

(* read_dat_method acts as file_type *)
Theorem C47_read_dat_method : forall (e : env T) kw r v, wfd kw -> without_old_names kw r ->
  let old := dset "read_dat_method" v kw in
  let new := dset "file_type" v kw in
  solve_row e old r = solve_row e new r /\ calibrate_row e old r = calibrate_row e new r.
Proof.
  intros e kw r v W O old new. pose proof O as [K R].
  eapply rows_same; try (unfold old, new; repeat apply wfd_dset; exact W).
  - unfold old. rewrite backcompat_eq. unfold backcompat_dict.
    rewrite dget_dset_other, (K "read_dat_kwargs") by (cbn; auto; discriminate). cbn [bind].
    unfold backcompat_range. rewrite dget_dset_other, (K "pH_range") by (cbn; auto; discriminate). cbn [bind]. reflexivity.
  - apply backcompat_id. apply old_dset; [|exact O]. cbn. intuition discriminate.
  - intros k I. unfold bc_method, new. rewrite R, dget_dset_same.
    rewrite !dget_dset. destruct (String.eqb k "file_type"); [reflexivity|].
    destruct (String.eqb_spec k "read_dat_method") as [->|N]; [|reflexivity].
    exfalso. now apply (not_setting "read_dat_method" eq_refl eq_refl _ I).
Qed.

(* in a row the old name acts as a keyword argument file_type *)
Theorem C47_read_dat_method_in_row : forall (e : env T) kw r v, wfd kw ->
  without_old_names kw r ->
  let old := dset "read_dat_method" v r in
  solve_row e kw old = solve_row e (dset "file_type" v kw) r /\
  calibrate_row e kw old = calibrate_row e (dset "file_type" v kw) r.
Proof.
  intros e kw r v W O old. pose proof O as [K R].
  assert (B1 : backcompat kw old = Ok (dset "file_type" v kw)).
  { rewrite backcompat_eq. unfold backcompat_dict. rewrite (K "read_dat_kwargs") by (cbn; auto). cbn [bind].
    unfold backcompat_range. rewrite (K "pH_range") by (cbn; auto). cbn [bind]. unfold bc_method.
    unfold old. rewrite (K "read_dat_method"), dget_dset_same by (cbn; auto). reflexivity. }
  assert (B2 : backcompat (dset "file_type" v kw) r = Ok (dset "file_type" v kw)).
  { apply backcompat_id. apply old_dset; [|exact O]. cbn. intuition discriminate. }
  split.
  - eapply (solve_row_depends e kw _ old r); [exact W|now apply wfd_dset|exact B1|exact B2| |].
    + intros k I. unfold chosen, old. rewrite dget_dset_other; [reflexivity|]. intros ->. apply settings_solve in I. revert I.
      apply mem_str_false. reflexivity.
    + intros c I. unfold old. apply dget_dset_other. intros ->. revert I. apply mem_str_false. reflexivity.
  - eapply (calibrate_row_depends e kw _ old r); [exact W|now apply wfd_dset|exact B1|exact B2| |].
    + intros k I. unfold chosen, old. rewrite dget_dset_other; [reflexivity|]. intros ->. apply settings_calibrate in I. revert I.
      apply mem_str_false. reflexivity.
    + intros c I. unfold old. apply dget_dset_other. intros ->. revert I. apply mem_str_false. reflexivity.
Qed.

(* ------------------------------------------------------------------ *)
(** * C50 *)

Theorem C50_mode_is_case_insensitive : forall (e : env T) f c s kw m m', lower m = lower m' ->
  files_solve e f c s (dset "solve_mode" (VStr m) kw) = files_solve e f c s (dset "solve_mode" (VStr m') kw) /\
  files_calibrate e f c s (dset "solve_mode" (VStr m) kw) = files_calibrate e f c s (dset "solve_mode" (VStr m') kw).
Proof.
  intros e f c s kw m m' L.
  assert (Wm : forall v v', without_mode (dset "solve_mode" v kw) = without_mode (dset "solve_mode" v' kw)).
  { intros v v'. induction kw as [|[k0 v0] kw IH]; [reflexivity|].
    cbn [dset]. destruct (String.eqb_spec "solve_mode" k0) as [<-|N]; [reflexivity|].
    unfold without_mode in *. cbn [filter fst]. destruct (negb _); now rewrite IH. }
  assert (M : forall x, mode_of (dset "solve_mode" (VStr x) kw) = VStr x).
  { intros x. unfold mode_of, kwarg. now rewrite dget_dset_same. }
  unfold files_solve, files_calibrate. rewrite !M, (Wm (VStr m) (VStr m')).
  split.
  - destruct (load e f s _) as [[cv [totals ks]]|]; cbn [bind]; [|reflexivity].
    destruct (as_num c) as [c'|]; cbn [bind]; [|reflexivity].
    destruct (add_titrant_totals _ _ _ _ _ _) as [t' [u|x]]; cbn [bind]; [|reflexivity].
    unfold dispatch_solve. cbn [as_str bind]. now rewrite L.
  - destruct (load e f s _) as [[cv [totals ks]]|]; cbn [bind]; [|reflexivity].
    destruct (as_num c) as [c'|]; cbn [bind]; [|reflexivity].
    unfold dispatch_calibrate. cbn [as_str bind]. now rewrite L.
Qed.

(* every other mode raises *)
Theorem C50_other_modes_raise : forall (e : env T) f c s kw v,
  (forall m, v = VStr m -> ~ In (lower m) ["emf"; "ph_adjust"; "ph"; "ph_gran"]) ->
  is_ok (files_solve e f c s (dset "solve_mode" v kw)) = false /\
  is_ok (files_calibrate e f c s (dset "solve_mode" v kw)) = false.
Proof.
  intros e f c s kw v N.
  assert (M : mode_of (dset "solve_mode" v kw) = v) by (unfold mode_of, kwarg; now rewrite dget_dset_same).
  unfold files_solve, files_calibrate. rewrite M.
  set (kw1 := without_mode _). clearbody kw1.
  split.
  - destruct (load e f s _) as [[cv [totals ks]]|]; cbn [bind]; [|reflexivity].
    destruct (as_num c) as [c'|]; cbn [bind]; [|reflexivity].
    destruct (add_titrant_totals _ _ _ _ _ _) as [t' [u|x]]; cbn [bind]; [|reflexivity].
    unfold dispatch_solve. destruct v; try reflexivity. cbn [as_str bind].
    specialize (N s0 eq_refl). cbn in N.
    destruct (String.eqb_spec (lower s0) "emf") as [E|]; [rewrite E in N; tauto|].
    destruct (String.eqb_spec (lower s0) "ph_adjust") as [E|]; [rewrite E in N; tauto|].
    destruct (String.eqb_spec (lower s0) "ph") as [E|]; [rewrite E in N; tauto|].
    destruct (String.eqb_spec (lower s0) "ph_gran") as [E|]; [rewrite E in N; tauto|]. reflexivity.
  - destruct (load e f s _) as [[cv [totals ks]]|]; cbn [bind]; [|reflexivity].
    destruct (as_num c) as [c'|]; cbn [bind]; [|reflexivity].
    unfold dispatch_calibrate. destruct v; try reflexivity. cbn [as_str bind].
    specialize (N s0 eq_refl). cbn in N.
    destruct (String.eqb_spec (lower s0) "emf") as [E|]; [rewrite E in N; tauto|].
    destruct (String.eqb_spec (lower s0) "ph_adjust") as [E|]; [rewrite E in N; tauto|].
    destruct (String.eqb_spec (lower s0) "ph") as [E|]; [rewrite E in N; tauto|].
    destruct (String.eqb_spec (lower s0) "ph_gran") as [E|]; [rewrite E in N; tauto|]. reflexivity.
Qed.

(* pH_adjust ignores emf0_init *)
Theorem C50_pH_adjust_ignores_emf0_init : forall (e : env T) f c s kw m v, wfd kw -> lower m = "ph_adjust" ->
  dget "solve_mode" kw = Some (VStr m) ->
  req (files_solve e f c s (dset "emf0_init" v kw)) (files_solve e f c s kw) /\
  req (files_calibrate e f c s (dset "emf0_init" v kw)) (files_calibrate e f c s kw).
Proof.
  intros e f c s kw m v W L M.
  assert (Mo : mode_of (dset "emf0_init" v kw) = VStr m) by (unfold mode_of, kwarg; rewrite dget_dset_other by discriminate; now rewrite M).
  assert (Mo' : mode_of kw = VStr m) by (unfold mode_of, kwarg; now rewrite M).
  set (a := without_mode (dset "emf0_init" v kw)). set (b := without_mode kw).
  assert (K : forall k, k <> "emf0_init" -> dget k a = dget k b).
  { intros k N. unfold a, b, without_mode. rewrite !(dget_filter (fun k => negb (String.eqb k "solve_mode"))).
    now rewrite dget_dset_other. }
  assert (G : forall keys, mem_str "emf0_init" keys = false ->
              deq (get_kwargs_for keys a None) (get_kwargs_for keys b None)).
  { intros keys N k. unfold get_kwargs_for. rewrite !(dget_filter (fun k => mem_str k keys)).
    destruct (mem_str k keys) eqn:E; [|reflexivity]. apply K. intros ->. congruence. }
  assert (Gs : forall keys, deq (dset "emf0_init" (VInt 0) (get_kwargs_for keys a None)) (dset "emf0_init" (VInt 0) (get_kwargs_for keys b None))).
  { intros keys k. rewrite !dget_dset. destruct (String.eqb_spec k "emf0_init") as [E|N]; [reflexivity|].
    unfold get_kwargs_for. rewrite !(dget_filter (fun k => mem_str k keys)). now rewrite (K k N). }
  assert (Wa : wfd a) by (now apply wfd_filter, wfd_dset). assert (Wb : wfd b) by (now apply wfd_filter).
  assert (Ld : load e f s a = load e f s b).
  { unfold load, full_name. rewrite (K "file_path") by discriminate.
    match goal with |- bind ?x _ = _ => destruct x as [p|ex]; cbn [bind]; [|reflexivity] end.
    rewrite (read_dat_deq e p _ _ (G keys_read_dat eq_refl)).
    destruct (read_dat e p _) as [dd|]; cbn [bind]; [|reflexivity].
    rewrite (amount_units_deq dd s _ _ (G keys_cau eq_refl)).
    destruct (amount_units_dat dd s _) as [cv|]; cbn [bind]; [|reflexivity].
    rewrite (totals_ks_deq e cv _ _ (G keys_totals_ks eq_refl)). reflexivity. }
  unfold files_solve, files_calibrate. fold a b. rewrite Mo, Mo', Ld.
  split; (destruct (load e f s b) as [[cv [totals ks]]|]; cbn [bind]; [|exact I]);
         (destruct (as_num c) as [c'|]; cbn [bind]; [|exact I]).
  - assert (P : Permutation.Permutation (get_kwargs_for keys_titrant_totals a None) (get_kwargs_for keys_titrant_totals b None))
      by (apply deq_perm; [now apply wfd_filter..|]; now apply G).
    assert (N : NoDup (map fst (get_kwargs_for keys_titrant_totals a None))) by (now apply (wfd_filter (A := val T))).
    pose proof (add_perm (cv_titrant_mass cv) (cv_analyte_mass cv) c' n0 _ _ P N totals) as A.
    destruct (add_titrant_totals _ _ _ _ _ (get_kwargs_for _ a _)) as [t1 [u|x]];
    destruct (add_titrant_totals _ _ _ _ _ (get_kwargs_for _ b _)) as [t2 [u'|x']]; try easy.
    destruct A as [-> _]. cbn [bind]. apply req_eq. unfold dispatch_solve. cbn [as_str bind]. rewrite L.
    cbn [String.eqb Ascii.eqb Bool.eqb]. now rewrite (call_solve_emf_deq _ _ _ _ _ _ _ _ _ _ (Gs keys_solve_emf)).
  - unfold dispatch_calibrate. cbn [as_str bind]. rewrite L. cbn [String.eqb Ascii.eqb Bool.eqb].
    apply call_calibrate_emf_deq; [now apply wfd_dset, wfd_filter..|]. apply Gs.
Qed.

End Kwargs.

Section KwargsXR.
Open Scope R_scope.

Definition lims_row : row xr := tiny_row "lims.txt".

Lemma lims_row_pclims kw : backcompat kw lims_row = Ok [("file_type", VStr "pclims")] ->
  npts (solve_row tiny_env kw lims_row) = Some (VInt 2).
Proof.
  intros B. eapply row_solved; [exact B|reflexivity..|].
  apply (tiny_solved "lims.txt" _ "pH"); try reflexivity.
  apply tiny_totals. intros k I. cbn in I. repeat (destruct I as [<-|I]; [reflexivity|]). destruct I.
Qed.

Theorem C47_null_read_dat_method_refuted : exists (e : env xr) kw r u, wfd kw /\ without_old_names kw r /\
  notnull u = false /\ solve_row e kw (dset "read_dat_method" u r) <> solve_row e kw r.
Proof.
  exists tiny_env, [("file_type", VStr "pclims")], lims_row, (VNum NaN).
  assert (O : without_old_names [("file_type", VStr "pclims" : val xr)] lims_row).
  { split; [|reflexivity]. intros k I. cbn in I. repeat (destruct I as [<-|I]; [reflexivity|]). destruct I. }
  split; [repeat constructor; cbn; tauto|]. split; [exact O|]. split; [reflexivity|].
  intros E. apply (f_equal npts) in E. rewrite lims_row_pclims in E by (now apply backcompat_id).
  assert (F : npts (solve_row tiny_env [("file_type", VStr "pclims")] (dset "read_dat_method" (VNum NaN) lims_row)) = Some (VInt 0)).
  { eapply row_failed; [reflexivity..|]. reflexivity. }
  rewrite F in E. discriminate.
Qed.

Example C47_nonvacuous : solve_row tiny_env [("read_dat_method", VStr "pclims")] lims_row =
  solve_row tiny_env [("file_type", VStr "pclims")] lims_row /\
  npts (solve_row tiny_env [("file_type", VStr "pclims")] lims_row) = Some (VInt 2).
Proof.
  split; [|now apply lims_row_pclims].
  refine (proj1 (C47_read_dat_method tiny_env [] lims_row (VStr "pclims") _ _)); [constructor|].
  split; [reflexivity|reflexivity].
Qed.

End KwargsXR.
