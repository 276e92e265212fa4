(* PropDefaults.v -- C139: what a setting that is not given is taken to be *)
From Coq Require Import Reals Qreals Lra.
From Verif Require Import Dataset DictLemmas SettingsProofs XR XRLemmas Witness PropSettings.
Import ListNotations.
Open Scope string_scope.
Open Scope list_scope.

Section Documented.
Context {T : Type} `{Num T}.

(* the default values that the user guide names (docs/metadata.md:45, 53-58, 71, 76, 86, 95,
   112-118, 124, 128, 133, 139, 153, 162, 165), in its order *)
Definition documented_defaults : list (string * val T) :=
  [("dic", VInt 0); ("total_ammonia", VInt 0); ("total_phosphate", VInt 0); ("total_silicate", VInt 0);
   ("total_sulfide", VInt 0); ("dilute_totals_for_ks", VBool false); ("double", VBool true);
   ("file_type", VStr "genfromtxt"); ("gran_logic", VStr "v23.7+");
   ("molinity_HCl", VNum (nofQ 0.1)); ("molinity_NaCl", VNum (nofQ 0.6)); ("molinity_H2SO4", VNum (nofQ 0.1));
   ("opt_k_bisulfate", VInt 1); ("opt_k_carbonic", VInt 16); ("opt_k_fluoride", VInt 1);
   ("opt_total_borate", VInt 1); ("solve_mode", VStr "emf"); ("titrant", VStr "HCl");
   ("titrant_amount_unit", VStr "ml")].

Lemma documented_cases k (d : val T) : In (k, d) documented_defaults -> k <> "opt_k_carbonic" ->
  In (k, d) default_settings \/ (k = "gran_logic" /\ d = VStr "v23.7+").
Proof.
  intros I N. unfold documented_defaults in I.
  repeat (destruct I as [I|I];
    [apply pair_equal_spec in I; destruct I as [<- <-];
     first [exfalso; apply N; reflexivity
           |right; split; reflexivity
           |left; unfold default_settings; repeat (first [left; reflexivity|right])]|]).
  destruct I.
Qed.

(* every documented setting is read by the solvers; gran_logic plays no part in a calibration *)
Lemma documented_solve k (d : val T) : In (k, d) documented_defaults -> mem_str k keys_solve = true.
Proof.
  intros I. unfold documented_defaults in I.
  repeat (destruct I as [I|I]; [apply pair_equal_spec in I; destruct I as [<- <-]; reflexivity|]). destruct I.
Qed.
Lemma documented_columns k (d : val T) : In (k, d) documented_defaults ->
  ~ In k old_names /\ ~ In k solve_columns /\ ~ In k calibrate_columns.
Proof.
  intros I. rewrite <- !mem_str_spec. unfold documented_defaults in I.
  repeat (destruct I as [I|I]; [apply pair_equal_spec in I; destruct I as [<- <-]; split; [|split]; intros X; discriminate X|]).
  destruct I.
Qed.

(* gran_logic *)
Lemma load_gran (e : env T) f s kw v : dget "gran_logic" kw = None ->
  load e f s (dset "gran_logic" v kw) = load e f s kw.
Proof.
  intros G. unfold load, full_name. rewrite (dget_dset_other "file_path") by (intros X; discriminate X).
  rewrite !(gkf_dset_new _ _ v kw G). reflexivity.
Qed.

Lemma kwarg_at k (d : val T) kw kw' : dget k kw = dget k kw' -> kwarg k d kw = kwarg k d kw'.
Proof. intros E. unfold kwarg. now rewrite E. Qed.

Lemma call_emf_gran (e : env T) c tm emf temps M totals ks kw :
  dget "gran_logic" kw = None ->
  call_solve_emf e c tm emf temps M totals ks (dset "gran_logic" (VStr "v23.7+") kw) =
  call_solve_emf e c tm emf temps M totals ks kw.
Proof.
  intros G. unfold call_solve_emf. rewrite check_dset by reflexivity.
  rewrite (kwarg_same "gran_logic") by exact G.
  rewrite !(kwarg_other _ "gran_logic") by (intros X; discriminate X). reflexivity.
Qed.

Lemma dispatch_gran (e : env T) m c cv totals ks kw : dget "gran_logic" kw = None ->
  dispatch_solve e m c cv totals ks (dset "gran_logic" (VStr "v23.7+") kw) = dispatch_solve e m c cv totals ks kw.
Proof.
  intros G. unfold dispatch_solve. rewrite !(gkf_dset_new _ _ _ kw G).
  pose proof (gkf_none keys_solve_emf _ kw G) as G1.
  change (mem_str "gran_logic" keys_solve_emf) with true.
  change (mem_str "gran_logic" keys_solve_pH) with false.
  change (mem_str "gran_logic" keys_solve_pH_gran) with false. cbv iota.
  set (k1 := get_kwargs_for keys_solve_emf kw None) in *. clearbody k1.
  rewrite (call_emf_gran _ _ _ _ _ _ _ _ _ G1).
  rewrite (call_solve_emf_deq _ _ _ (pH_to_emf_arr _ _ _) _ _ _ _ (dset "emf0_init" (VInt 0) (dset "gran_logic" (VStr "v23.7+") k1))
             (dset "gran_logic" (VStr "v23.7+") (dset "emf0_init" (VInt 0) k1))).
  2:{ intros k'. rewrite !dget_dset. destruct (String.eqb_spec k' "emf0_init") as [->|N]; [reflexivity|].
      destruct (String.eqb k' "gran_logic"); reflexivity. }
  rewrite call_emf_gran; [reflexivity|]. rewrite dget_dset_other; [exact G1|intros X; discriminate X].
Qed.

Lemma without_mode_dset k (v : val T) kw : dget k kw = None -> k <> "solve_mode" ->
  without_mode (dset k v kw) = dset k v (without_mode kw) /\ dget k (without_mode kw) = None /\
  mode_of (dset k v kw) = mode_of kw.
Proof.
  intros G N. repeat split.
  - assert (W : without_mode (dset k v kw) =
              if negb (String.eqb k "solve_mode") then dset k v (without_mode kw) else without_mode kw)
      by (now apply (filter_dset_new (fun k => negb (String.eqb k "solve_mode")))).
    rewrite W. destruct (String.eqb_spec k "solve_mode"); [contradiction|reflexivity].
  - unfold without_mode. rewrite (dget_filter (fun k => negb (String.eqb k "solve_mode"))), G. now destruct (negb _).
  - unfold mode_of. apply kwarg_other. intros <-. now apply N.
Qed.

Lemma solve_gran (e : env T) f c s kw : dget "gran_logic" kw = None ->
  files_solve e f c s (dset "gran_logic" (VStr "v23.7+") kw) = files_solve e f c s kw.
Proof.
  intros G. destruct (without_mode_dset "gran_logic" (VStr "v23.7+") kw G) as (W & G' & M); [intros X; discriminate X|].
  unfold files_solve. rewrite W, M, (load_gran _ _ _ _ _ G').
  destruct (load e f s _) as [[cv [totals ks]]|]; cbn [bind]; [|reflexivity].
  destruct (as_num c) as [c'|]; cbn [bind]; [|reflexivity].
  rewrite (gkf_dset_new keys_titrant_totals _ _ _ G').
  change (mem_str "gran_logic" keys_titrant_totals) with false. cbv iota.
  destruct (add_titrant_totals _ _ _ _ _ _) as [t' [u|x]]; cbn [bind]; [|reflexivity].
  now apply dispatch_gran.
Qed.

(* calibration *)
Lemma filter_drop {A} (p : string -> bool) k (v : A) d : p k = false ->
  filter (fun kv => p (fst kv)) (dset k v d) = filter (fun kv => p (fst kv)) d.
Proof.
  intros P. induction d as [|[k0 v0] d IH]; cbn; [now rewrite P|].
  destruct (String.eqb_spec k k0) as [->|N]; cbn.
  - now rewrite P.
  - destruct (p k0); now rewrite IH.
Qed.

Lemma call_cal_double (e : env T) cert tm emf temps M totals ks kw : dget "double" kw = None ->
  call_calibrate_emf e cert tm emf temps M totals ks (dset "double" (VBool true) kw) =
  call_calibrate_emf e cert tm emf temps M totals ks kw /\
  call_calibrate_emf e cert tm emf temps M totals ks (dset "emf0_init" (VInt 0) (dset "double" (VBool true) kw)) =
  call_calibrate_emf e cert tm emf temps M totals ks (dset "emf0_init" (VInt 0) kw).
Proof.
  intros G. unfold call_calibrate_emf, titrant_totals_of, kwarg. rewrite !dget_dset.
  cbn [String.eqb Ascii.eqb Bool.eqb]. rewrite G.
  set (named := ["alkalinity_init"; "emf0_init"; "double"; "pH_min"; "pH_max"; "titrant_molinity_init"; "titrant_normality"]).
  assert (F : forall k v d, mem_str k named = true ->
    filter (fun kv : string * val T => negb (mem_str (fst kv) named)) (dset k v d) =
    filter (fun kv => negb (mem_str (fst kv) named)) d).
  { intros k v d Mk. apply (filter_drop (fun k => negb (mem_str k named))). now rewrite Mk. }
  rewrite !(F "emf0_init"), !(F "double") by reflexivity.
  split; reflexivity.
Qed.

Lemma dispatch_calibrate_default (e : env T) m c cv totals ks kw k d :
  In (k, d) documented_defaults -> k <> "opt_k_carbonic" -> dget k kw = None ->
  dispatch_calibrate e m c cv totals ks (dset k d kw) = dispatch_calibrate e m c cv totals ks kw.
Proof.
  intros I N G. unfold dispatch_calibrate. rewrite !(gkf_dset_new _ k d kw G).
  destruct (String.eqb_spec k "double") as [->|ND].
  - assert (D : d = VBool true).
    { unfold documented_defaults in I.
      repeat (destruct I as [I|I]; [apply pair_equal_spec in I; destruct I as [K <-]; first [discriminate K|reflexivity]|]).
      destruct I. }
    subst d. pose proof (gkf_none keys_calibrate_emf _ kw G) as G1.
    change (mem_str "double" keys_calibrate_emf) with true.
    change (mem_str "double" keys_calibrate_pH) with false.
    change (mem_str "double" keys_calibrate_pH_gran) with false. cbv iota.
    set (k1 := get_kwargs_for keys_calibrate_emf kw None) in *. clearbody k1.
    destruct (as_str m) as [s|]; cbn [bind]; [|reflexivity].
    destruct (String.eqb (lower s) "emf"); [apply call_cal_double; exact G1|].
    destruct (String.eqb (lower s) "ph_adjust"); [apply call_cal_double; exact G1|reflexivity].
  - assert (X : mem_str k keys_calibrate_emf = false /\ mem_str k keys_calibrate_pH = false /\
                mem_str k keys_calibrate_pH_gran = false).
    { unfold documented_defaults in I.
      repeat (destruct I as [I|I]; [apply pair_equal_spec in I; destruct I as [<- <-];
        first [exfalso; apply ND; reflexivity|split; [|split]; reflexivity]|]). destruct I. }
    destruct X as (X1 & X2 & X3). rewrite X1, X2, X3. reflexivity.
Qed.

(* ------------------------------------------------------------------ *)
(** * C139 *)

(* Leaving out a setting is the same as giving the value that the guide names as its default.
   Missing: opt_k_carbonic, for which the guide names 16 (see C139_carbonic_default_is_10
   and C139_refuted below). *)
Theorem C139_documented_defaults_partial : forall (e : env T) f c s kw k d,
  In (k, d) documented_defaults -> k <> "opt_k_carbonic" -> dget k kw = None ->
  files_solve e f c s (dset k d kw) = files_solve e f c s kw /\
  files_calibrate e f c s (dset k d kw) = files_calibrate e f c s kw.
Proof.
  intros e f c s kw k d I N G. destruct (documented_cases k d I N) as [J|[-> ->]].
  - split; [now apply C46_default_values|].
    destruct (String.eqb_spec k "solve_mode") as [->|NM].
    + assert (D : d = VStr "emf").
      { unfold documented_defaults in I.
        repeat (destruct I as [I|I]; [apply pair_equal_spec in I; destruct I as [K <-]; first [discriminate K|reflexivity]|]).
        destruct I. }
      subst d. unfold files_calibrate.
      replace (without_mode (dset "solve_mode" (VStr "emf") kw)) with (without_mode kw)
        by (symmetry; apply (filter_drop (fun k => negb (String.eqb k "solve_mode"))); reflexivity).
      replace (mode_of (dset "solve_mode" (VStr "emf") kw)) with (mode_of kw)
        by (symmetry; apply kwarg_same; exact G). reflexivity.
    + destruct (without_mode_dset k d kw G NM) as (W & G' & M).
      unfold files_calibrate. rewrite W, M, (load_default e f s _ k d J G').
      destruct (load e f s _) as [[cv [totals ks]]|]; cbn [bind]; [|reflexivity].
      destruct (as_num c) as [c'|]; cbn [bind]; [|reflexivity].
      now apply dispatch_calibrate_default.
  - split; [now apply solve_gran|].
    destruct (without_mode_dset "gran_logic" (VStr "v23.7+") kw G) as (W & G' & M); [intros X; discriminate X|].
    unfold files_calibrate. rewrite W, M, (load_gran _ _ _ _ _ G').
    destruct (load e f s _) as [[cv [totals ks]]|]; cbn [bind]; [|reflexivity].
    destruct (as_num c) as [c'|]; cbn [bind]; [|reflexivity].
    now apply dispatch_calibrate_default.
Qed.

(* the same for the rows of a table: it makes no difference whether the documented default is
   given for the whole table, or in the row, or not at all *)
Theorem C139_rows_partial : forall (e : env T) kw r k d,
  wfd kw -> without_old_names kw r ->
  In (k, d) documented_defaults -> k <> "opt_k_carbonic" -> chosen kw r k = None ->
  solve_row e (dset k d kw) r = solve_row e kw r /\ calibrate_row e (dset k d kw) r = calibrate_row e kw r /\
  (notnull d = true ->
   solve_row e kw (dset k d r) = solve_row e kw r /\ calibrate_row e kw (dset k d r) = calibrate_row e kw r).
Proof.
  intros e kw r k d W O I N C.
  destruct (documented_columns k d I) as (NO & NS & NC).
  assert (Gr : forall u, dget k r = Some u -> notnull u = false).
  { intros u U. unfold chosen in C. rewrite U in C. destruct (notnull u); [discriminate C|reflexivity]. }
  assert (Gk : dget k kw = None).
  { unfold chosen in C. destruct (dget k r) as [u|]; [|exact C]. destruct (notnull u); [discriminate C|exact C]. }
  assert (D : forall keys, deq (get_kwargs_for keys (dset k d kw) (Some r))
                (if mem_str k keys then dset k d (get_kwargs_for keys kw (Some r)) else get_kwargs_for keys kw (Some r))).
  { intros keys k'. rewrite resolve. destruct (mem_str k keys) eqn:M.
    - rewrite !dget_dset, resolve. destruct (String.eqb_spec k' k) as [->|NE].
      + rewrite M. destruct (dget k r) as [u|]; [|reflexivity]. now rewrite (Gr u eq_refl).
      + reflexivity.
    - rewrite resolve, dget_dset. destruct (String.eqb_spec k' k) as [->|NE]; [now rewrite M|reflexivity]. }
  assert (GN : forall keys, dget k (get_kwargs_for keys kw (Some r)) = None).
  { intros keys. rewrite resolve. destruct (mem_str k keys); [|reflexivity].
    destruct (dget k r) as [u|]; [|exact Gk]. now rewrite (Gr u eq_refl). }
  assert (O' : without_old_names (dset k d kw) r) by (now apply old_dset).
  assert (S1 : solve_row e (dset k d kw) r = solve_row e kw r).
  { unfold solve_row, solve_row_try. rewrite (backcompat_id _ _ O), (backcompat_id _ _ O'). cbn [bind].
    destruct (attr "titrant_molinity" r) as [c|]; cbn [bind]; [|reflexivity].
    destruct (attr "file_good" r) as [g|]; cbn [bind]; [|reflexivity].
    destruct (notnull c && truthy g); [|reflexivity].
    destruct (attr "file_name" r) as [f|] eqn:EF; cbn [bind]; [|reflexivity].
    destruct (attr "salinity" r) as [s|]; cbn [bind]; [|reflexivity].
    assert (Wr : wfd (if mem_str k keys_solve then dset k d (get_kwargs_for keys_solve kw (Some r))
                      else get_kwargs_for keys_solve kw (Some r))).
    { destruct (mem_str k keys_solve); [apply wfd_dset|]; now apply wfd_resolve. }
    pose proof (files_solve_deq e f c s _ _ (wfd_resolve keys_solve _ r (wfd_dset k d kw W)) Wr (D keys_solve)) as Q.
    assert (E : files_solve e f c s (if mem_str k keys_solve then dset k d (get_kwargs_for keys_solve kw (Some r))
                      else get_kwargs_for keys_solve kw (Some r)) = files_solve e f c s (get_kwargs_for keys_solve kw (Some r))).
    { destruct (mem_str k keys_solve); [|reflexivity].
      exact (proj1 (C139_documented_defaults_partial e f c s _ k d I N (GN keys_solve))). }
    match type of Q with req _ ?z => change z with (files_solve e f c s (if mem_str k keys_solve then dset k d (get_kwargs_for keys_solve kw (Some r)) else get_kwargs_for keys_solve kw (Some r))) in Q end.
    rewrite E in Q. clear E.
    set (x := files_solve e f c s (get_kwargs_for keys_solve (dset k d kw) (Some r))) in *.
    set (y := files_solve e f c s (get_kwargs_for keys_solve kw (Some r))) in *. clearbody x y.
    destruct x, y; cbn in Q; first [destruct Q; fail|subst; reflexivity|reflexivity]. }
  assert (S2 : calibrate_row e (dset k d kw) r = calibrate_row e kw r).
  { unfold calibrate_row, calibrate_row_try. rewrite (backcompat_id _ _ O), (backcompat_id _ _ O'). cbn [bind].
    destruct (attr "alkalinity_certified" r) as [c|]; cbn [bind]; [|reflexivity].
    destruct (attr "file_good" r) as [g|]; cbn [bind]; [|reflexivity].
    destruct (notnull c && truthy g); [|reflexivity].
    destruct (attr "file_name" r) as [f|] eqn:EF; cbn [bind]; [|reflexivity].
    destruct (attr "salinity" r) as [s|]; cbn [bind]; [|reflexivity].
    assert (Wr : wfd (if mem_str k keys_calibrate then dset k d (get_kwargs_for keys_calibrate kw (Some r))
                      else get_kwargs_for keys_calibrate kw (Some r))).
    { destruct (mem_str k keys_calibrate); [apply wfd_dset|]; now apply wfd_resolve. }
    pose proof (files_calibrate_deq e f c s _ _ (wfd_resolve keys_calibrate _ r (wfd_dset k d kw W)) Wr (D keys_calibrate)) as Q.
    assert (E : files_calibrate e f c s (if mem_str k keys_calibrate then dset k d (get_kwargs_for keys_calibrate kw (Some r))
                      else get_kwargs_for keys_calibrate kw (Some r)) = files_calibrate e f c s (get_kwargs_for keys_calibrate kw (Some r))).
    { destruct (mem_str k keys_calibrate); [|reflexivity].
      exact (proj2 (C139_documented_defaults_partial e f c s _ k d I N (GN keys_calibrate))). }
    match type of Q with req _ ?z => change z with (files_calibrate e f c s (if mem_str k keys_calibrate then dset k d (get_kwargs_for keys_calibrate kw (Some r)) else get_kwargs_for keys_calibrate kw (Some r))) in Q end.
    rewrite E in Q. clear E.
    set (x := files_calibrate e f c s (get_kwargs_for keys_calibrate (dset k d kw) (Some r))) in *.
    set (y := files_calibrate e f c s (get_kwargs_for keys_calibrate kw (Some r))) in *. clearbody x y.
    destruct x, y; cbn in Q; first [destruct Q; fail|subst; reflexivity|reflexivity]. }
  split; [exact S1|]. split; [exact S2|]. intros V.
  destruct (C46_kwarg_fills_null_cell e kw r k d W O NO V Gr) as [F1 F2].
  split; [rewrite <- (F1 NS)|rewrite <- (F2 NC)]; assumption.
Qed.

End Documented.

(* ------------------------------------------------------------------ *)
(* The default for opt_k_carbonic is not the documented one: leaving it out is the same as
   giving 10 *)
Theorem C139_carbonic_default_is_10 : forall {T} `{Num T} (e : env T) f c s kw,
  dget "opt_k_carbonic" kw = None ->
  files_solve e f c s (dset "opt_k_carbonic" (VInt 10) kw) = files_solve e f c s kw /\
  files_calibrate e f c s (dset "opt_k_carbonic" (VInt 10) kw) = files_calibrate e f c s kw.
Proof.
  intros T N e f c s kw G.
  assert (J : In ("opt_k_carbonic", VInt 10) (@default_settings T N))
    by (unfold default_settings; repeat (first [left; reflexivity|right])).
  split; [now apply C46_default_values|].
  destruct (without_mode_dset "opt_k_carbonic" (VInt 10) kw G) as (W & G' & M); [intros X; discriminate X|].
  unfold files_calibrate. rewrite W, M, (load_default e f s _ _ _ J G').
  destruct (load e f s _) as [[cv [totals ks]]|]; cbn [bind]; [|reflexivity].
  destruct (as_num c) as [c'|]; cbn [bind]; [|reflexivity].
  unfold dispatch_calibrate. rewrite !(gkf_dset_new _ _ _ _ G'). reflexivity.
Qed.

(* a service whose carbonic acid constants depend on the option *)
Definition by_option (v : val xr) : R := match v with VInt 16 => 2 | _ => 1 end.
Definition opt_env : env xr := {|
  e_file := e_file tiny_env; e_excel := e_excel tiny_env; e_salts := e_salts tiny_env;
  e_equil := fun _ _ _ opt _ _ _ =>
    Ok [("K1", NdS (Fin (by_option opt))); ("K2", NdS (Fin 1)); ("KB", NdS (Fin 1));
        ("KF", NdS (Fin 1)); ("KSO4", NdS (Fin 1)); ("KW", NdS (Fin 1))];
  e_sys_salt := e_sys_salt tiny_env; e_strat := e_strat tiny_env |}.
Definition opt_kw : kwargs xr :=
  [("analyte_mass", VNum (Fin 1)); ("titrant_amount_unit", VStr "kg"); ("solve_mode", VStr "pH")].

Lemma opt_solved kw K :
  (kw = opt_kw /\ K = 1%R) \/ (kw = dset "opt_k_carbonic" (VInt 16) opt_kw /\ K = 2%R) ->
  exists s, files_solve opt_env (VStr "gen.dat") (VNum (Fin 1)) (VInt 35) kw = Ok (SrPh s) /\
            dget "k_carbonic_1" (sp_k_constants s) = Some (NdS (Fin K)).
Proof.
  assert (LT : nltb (nofZ 3 : xr) (nofZ 4) = true).
  { cbn. unfold rltb. destruct (Rlt_dec _ _) as [|N]; [reflexivity|]. exfalso; apply N. unfold Q2R; cbn. lra. }
  intros [[-> ->]|[-> ->]]; unfold files_solve, load.
  all: match goal with |- context [full_name ?a ?b] => change (full_name a b) with (Ok "gen.dat") end; cbn [bind].
  all: match goal with |- context [read_dat ?a ?b ?c] => change (read_dat a b c) with (Ok (Dat tiny_dd)) end; cbn [bind].
  all: match goal with |- context [amount_units_dat ?a ?b ?c] => change (amount_units_dat a b c) with (Ok tiny_cv) end; cbn [bind].
  all: match goal with |- context [totals_ks ?a ?b ?c] =>
    assert (TK : exists tk, totals_ks a b c = Ok tk /\
      (forall pH, length pH = 2%nat -> exists l, alkalinity_arr pH (fst tk) (snd tk) 3 = Ok l /\ length l = 2%nat) /\
      dget "k_carbonic_1" (snd tk) = Some (NdS (Fin (by_option (kwarg "opt_k_carbonic" (VInt 10) c)))))
  end.
  1,3: eexists; split;
    [match goal with |- totals_ks _ _ ?c = _ => let c' := eval cbv in c in change c with c' end;
     unfold totals_ks, get_totals, get_k_constants, copy_if_pos;
     cbn [filter fst mem_str existsb keys_kwargs_totals keys_kwargs_k_constants String.eqb Ascii.eqb Bool.eqb orb];
     cbn [check_kwargs forallb fst mem_str existsb keys_get_totals keys_get_k_constants andb bind kwarg dget String.eqb Ascii.eqb Bool.eqb as_num orb];
     rewrite gt00, ne31; reflexivity
    |split; [intros [|p [|q [|? ?]]]; try discriminate; intros _; eexists; split; reflexivity|reflexivity]].
  all: destruct TK as ([totals ks] & Et & Al & EK); rewrite Et; cbn [bind as_num].
  all: match goal with |- context [get_kwargs_for keys_titrant_totals ?a None] =>
         change (get_kwargs_for keys_titrant_totals a None) with (@nil (string * val xr)) end.
  all: cbn [add_titrant_totals bind]; unfold dispatch_solve.
  all: match goal with |- context [mode_of ?a] => change (mode_of a) with (VStr "pH" : val xr) end.
  all: cbn [as_str bind]; change (lower "pH") with "ph"; cbn [String.eqb Ascii.eqb Bool.eqb].
  all: match goal with |- context [get_kwargs_for keys_solve_pH ?a None] =>
         change (get_kwargs_for keys_solve_pH a None) with (@nil (string * val xr)) end.
  all: unfold call_solve_pH; cbn [check_kwargs forallb bind kwarg dget as_num]; unfold solve_pH;
       cbn [tiny_cv cv_titrant_mass cv_measurement cv_temperature cv_analyte_mass length Nat.eqb negb];
       rewrite LT; cbn [assert_ bind]; unfold alkalinity_all.
  all: destruct (Al [dec 35 (-1); dec 36 (-1)] eq_refl) as (l & El & _); cbn [fst snd] in El, EK;
       unfold default_opt_pH_scale; rewrite El; cbn [bind]; eexists; split; [reflexivity|].
  all: cbn [sp_k_constants]; rewrite EK; reflexivity.
Qed.

(* The guide's default for opt_k_carbonic, 16, is not what is used when it is left out: with a
   service whose constants depend on the option, giving 16 and leaving it out report different
   constants *)
Theorem C139_refuted : exists (e : env xr) f c s kw k d,
  In (k, d) documented_defaults /\ dget k kw = None /\
  exists a b, files_solve e f c s (dset k d kw) = Ok (SrPh a) /\ files_solve e f c s kw = Ok (SrPh b) /\
    dget "k_carbonic_1" (sp_k_constants a) <> dget "k_carbonic_1" (sp_k_constants b).
Proof.
  exists opt_env, (VStr "gen.dat"), (VNum (Fin 1)), (VInt 35), opt_kw, "opt_k_carbonic", (VInt 16).
  split; [unfold documented_defaults; repeat (first [left; reflexivity|right])|]. split; [reflexivity|].
  destruct (opt_solved _ 2 (or_intror (conj eq_refl eq_refl))) as (a & Ea & Ka).
  destruct (opt_solved _ 1 (or_introl (conj eq_refl eq_refl))) as (b & Eb & Kb).
  exists a, b. split; [exact Ea|]. split; [exact Eb|]. rewrite Ka, Kb. intros X.
  apply (f_equal (fun o => match o with Some (NdS (Fin x)) => x | _ => 0%R end)) in X. lra.
Qed.

(* a titration that solves, with no documented setting but solve_mode and the unit given *)
Example C139_nonvacuous :
  (forall k d, In (k, d) (@documented_defaults xr _) -> k <> "solve_mode" -> k <> "titrant_amount_unit" ->
     dget k opt_kw = None) /\
  exists s, files_solve opt_env (VStr "gen.dat") (VNum (Fin 1)) (VInt 35)
              (dset "gran_logic" (VStr "v23.7+") (dset "double" (VBool true) opt_kw)) = Ok (SrPh s).
Proof.
  split.
  - intros k d I N1 N2. unfold documented_defaults in I.
    repeat (destruct I as [I|I]; [apply pair_equal_spec in I; destruct I as [<- <-];
      first [reflexivity|exfalso; apply N1; reflexivity|exfalso; apply N2; reflexivity]|]). destruct I.
  - destruct (opt_solved _ 1 (or_introl (conj eq_refl eq_refl))) as (b & Eb & _). exists b.
    rewrite (proj1 (C139_documented_defaults_partial opt_env _ _ _ (dset "double" (VBool true) opt_kw) "gran_logic" (VStr "v23.7+")
      ltac:(unfold documented_defaults; repeat (first [left; reflexivity|right])) ltac:(intros X; discriminate X) eq_refl)).
    rewrite (proj1 (C139_documented_defaults_partial opt_env _ _ _ opt_kw "double" (VBool true)
      ltac:(unfold documented_defaults; repeat (first [left; reflexivity|right])) ltac:(intros X; discriminate X) eq_refl)).
    exact Eb.
Qed.
