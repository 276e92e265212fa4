(* PropReference.v -- C60: a batch with a single good reference reproduces its certified alkalinity *)
From Coq Require Import Reals Qreals Lra.
From Verif Require Import Dataset SpecDataset SpecCore Classes DictLemmas SettingsProofs PropSettings DatasetProofs RowProofs CalProofs
  PropDataset PropTables PropBatch TableProofs LsqProofs PropCalibrate PropHistory Witness.
From Verif Require Import XR XRLemmas.
Open Scope string_scope.
Open Scope list_scope.

Definition sr_alkalinity {T} (sr : solve_result T) : T :=
  match sr with SrEmf s => se_alkalinity s | SrPh s => sp_alkalinity s | SrPhGran s => sg_alkalinity s end.

(* the setting gran_logic, which calibrate does not use, is left alone or at its default *)
Definition default_logic {T} (kw : kwargs T) : Prop := dget "gran_logic" kw = None \/ dget "gran_logic" kw = Some (VStr "v23.7+").

(* Either the titrant adds nothing to the totals, or the data are ordinary: finite masses and totals, a
   finite starting value, and an optimiser that tries finite molinities *)
Definition no_titrant_totals {T} (kw : kwargs T) : Prop := forall k, In k keys_titrant_totals -> dget k kw = None.
Definition ordinary (e : env xr) (f s : val xr) (kw : kwargs xr) : Prop :=
  finite_points (e_strat e) /\ NoDup (dkeys kw) /\
  (exists c0, as_num (kwarg "titrant_molinity_init" (VNum (nofQ 0.1)) kw) = Ok (Fin c0)) /\
  forall cv totals ks, load e f s (without_mode kw) = Ok (cv, (totals, ks)) ->
    exists tm M, cv_titrant_mass cv = map Fin tm /\ cv_analyte_mass cv = Fin M /\ masses_ok tm M /\
      named_arrays (length tm) totals (get_kwargs_for keys_titrant_totals kw None).

(* ------------------------------------------------------------------ *)
(** * Files *)

Section Gen.
Context {T : Type} `{Num T}.
Lemma filter_filter {A} (p q : A -> bool) l : filter p (filter q l) = filter (fun x => q x && p x)%bool l.
Proof. induction l as [|x l IH]; [reflexivity|]. cbn [filter]. destruct (q x); cbn [filter andb]; [|exact IH]. destruct (p x); now rewrite IH. Qed.
Lemma filter_ext {A} (p q : A -> bool) l : (forall x, p x = q x) -> filter p l = filter q l.
Proof. intros E. induction l as [|x l IH]; [reflexivity|]. cbn [filter]. now rewrite E, IH. Qed.
Lemma mem_app k a b : mem_str k (a ++ b) = (mem_str k a || mem_str k b)%bool.
Proof. unfold mem_str. apply existsb_app. Qed.

(* what calibrate passes on as titrant totals is what solve adds *)
Lemma titrant_named named (kw : kwargs T) : (forall k, In k keys_titrant_totals -> ~ In k named) ->
  titrant_totals_of named (get_kwargs_for (named ++ keys_titrant_totals) kw None) = get_kwargs_for keys_titrant_totals kw None.
Proof.
  intros D. unfold titrant_totals_of, get_kwargs_for. rewrite filter_filter. apply filter_ext. intros [k v]. cbn [fst].
  rewrite mem_app. destruct (mem_str k keys_titrant_totals) eqn:M; [|rewrite Bool.orb_false_r; now destruct (mem_str k named)].
  apply mem_str_spec in M. apply D, mem_str_false in M. now rewrite M.
Qed.
Lemma filter_dset (p : string -> bool) k (v : val T) d : p k = false -> filter (fun kv => p (fst kv)) (dset k v d) = filter (fun kv => p (fst kv)) d.
Proof.
  intros P. induction d as [|[a b] d IH]; cbn [dset filter fst]; [now rewrite P|].
  destruct (String.eqb_spec k a) as [->|N]; cbn [filter fst]; [now rewrite P|now rewrite IH].
Qed.
Lemma titrant_dset named k (v : val T) kw : In k named -> titrant_totals_of named (dset k v kw) = titrant_totals_of named kw.
Proof. intros I. unfold titrant_totals_of. apply (filter_dset (fun k => negb (mem_str k named))). apply mem_str_spec in I. now rewrite I. Qed.
Lemma check_gkf keys (kw : kwargs T) : check_kwargs keys (get_kwargs_for keys kw None) = Ok tt.
Proof.
  unfold check_kwargs, get_kwargs_for. replace (forallb _ _) with true; [reflexivity|]. symmetry. apply forallb_forall.
  intros x I. apply filter_In in I. apply I.
Qed.
End Gen.

(* the residual was evaluated at the returned molinity, with the caller's totals *)
Lemma calibrated_at st solve cert tm M tt totals init t' (o : opt_result xr) :
  least_squares st (lsqfun_calibrate solve cert tm M tt) totals [init] = (t', Ok o) ->
  tt = [] \/ (finite_points st /\ (exists c0, init = Fin c0) /\ NoDup (dkeys tt) /\ NoDup (dkeys totals) /\
     exists tmr Mr, tm = map Fin tmr /\ M = Fin Mr /\ masses_ok tmr Mr /\ named_arrays (length tmr) totals tt) ->
  exists c t1 a, or_x o = [c] /\ add_titrant_totals totals tm M c n0 tt = (t1, Ok Datatypes.tt) /\ solve c t1 = Ok a /\ or_fun o = [a ⊖ cert].
Proof.
  intros E [->|(FP & (c0 & ->) & N1 & N2 & tmr & Mr & -> & -> & Ok_ & Na)].
  - apply (least_squares_inv st _ _ (fun t => t = totals)
      (fun x y => exists c t1 a, x = [c] /\ add_titrant_totals totals tm M c n0 [] = (t1, Ok Datatypes.tt) /\ solve c t1 = Ok a /\ y = [a ⊖ cert]))
      in E as [_ E]; [exact E| |reflexivity].
    clear. intros s x s' r -> F y ->. destruct x as [|c [|? x]]; [discriminate| |discriminate].
    cbn [lsqfun_calibrate] in F. rewrite add_nothing in F.
    destruct (solve c totals) as [a|] eqn:Es; [|discriminate]. rewrite add_nothing in F. injection F as <- <-. split; [reflexivity|].
    exists c, totals, a. repeat split. exact Es.
  - pose proof (C42_any_solver st solve cert tmr Mr tt totals c0 FP Ok_ N1 N2 Na) as [Q _]. cbv zeta in Q. rewrite E in Q. cbn [snd] in Q.
    destruct (least_squares st _ Datatypes.tt [Fin c0]) as [u r] eqn:L in Q. cbn [snd] in Q. subst r.
    apply (least_squares_inv st _ _ (fun _ => True)
      (fun x y => exists c t1 a, x = [c] /\ add_titrant_totals totals (map Fin tmr) (Fin Mr) c n0 tt = (t1, Ok Datatypes.tt) /\ solve c t1 = Ok a /\ y = [a ⊖ cert]))
      in L as [_ L]; [exact L| |exact I].
    clear. intros s x s' r _ F y ->. split; [exact I|]. injection F as _ F. unfold fresh_residual in F.
    destruct x as [|c [|? x]]; [discriminate| |discriminate].
    destruct (add_titrant_totals totals _ _ c n0 tt) as [t1 [[]|]] eqn:Ea; cbn [bind] in F; [|discriminate].
    destruct (solve c t1) as [a|] eqn:Es; cbn [bind] in F; [|discriminate]. injection F as <-. exists c, t1, a. split; [reflexivity|]. split; [exact Ea|]. split; [exact Es|reflexivity].
Qed.

Lemma logic_default (kw : kwargs xr) : default_logic kw -> logic_of (kwarg "gran_logic" (VStr "v23.7+") kw) = "v23.7+".
Proof. unfold kwarg. intros [-> | ->]; reflexivity. Qed.

Definition data_fit (e : env xr) (cv : Converted xr) (totals : dict (nd xr)) (kw : kwargs xr) : Prop :=
  let tt := get_kwargs_for keys_titrant_totals kw None in
  tt = [] \/ (finite_points (e_strat e) /\ (exists c0, as_num (kwarg "titrant_molinity_init" (VNum (nofQ 0.1)) kw) = Ok (Fin c0)) /\
     NoDup (dkeys tt) /\ NoDup (dkeys totals) /\
     exists tmr Mr, cv_titrant_mass cv = map Fin tmr /\ cv_analyte_mass cv = Fin Mr /\ masses_ok tmr Mr /\ named_arrays (length tmr) totals tt).

Lemma data_case e cv totals (kw : kwargs xr) init : data_fit e cv totals kw ->
  as_num (kwarg "titrant_molinity_init" (VNum (nofQ 0.1)) kw) = Ok init ->
  get_kwargs_for keys_titrant_totals kw None = [] \/ (finite_points (e_strat e) /\ (exists c0, init = Fin c0) /\ NoDup (dkeys (get_kwargs_for keys_titrant_totals kw None)) /\ NoDup (dkeys totals) /\
     exists tmr Mr, cv_titrant_mass cv = map Fin tmr /\ cv_analyte_mass cv = Fin Mr /\ masses_ok tmr Mr /\ named_arrays (length tmr) totals (get_kwargs_for keys_titrant_totals kw None)).
Proof.
  intros [E|(FP & (c0 & E) & R)] A; [now left|right]. rewrite E in A. injection A as <-. split; [exact FP|]. split; [eauto|exact R].
Qed.

Lemma dispatch_root (e : env xr) m cert cv totals ks kw o :
  default_logic kw -> data_fit e cv totals kw ->
  dispatch_calibrate e m cert cv totals ks kw = Ok o ->
  exists c t1 sr, or_x o = [c] /\
    add_titrant_totals totals (cv_titrant_mass cv) (cv_analyte_mass cv) c n0 (get_kwargs_for keys_titrant_totals kw None) = (t1, Ok tt) /\
    dispatch_solve e m c cv t1 ks kw = Ok sr /\ or_fun o = [sr_alkalinity sr ⊖ cert].
Proof.
  intros DL DF E. unfold dispatch_calibrate in E. unfold dispatch_solve.
  destruct (as_str m) as [m'|]; cbn [bind] in E |- *; [|discriminate].
  assert (DL1 : default_logic (get_kwargs_for keys_solve_emf kw None)).
  { unfold default_logic. unfold get_kwargs_for. rewrite (dget_filter (fun k => mem_str k keys_solve_emf)). exact DL. }
  destruct (String.eqb (lower m') "emf"); [|destruct (String.eqb (lower m') "ph_adjust"); [|destruct (String.eqb (lower m') "ph"); [|destruct (String.eqb (lower m') "ph_gran"); [|discriminate]]]].
  - unfold call_calibrate_emf in E. rewrite !kwarg_gkf in E by (cbn; tauto).
    change keys_calibrate_emf with (["alkalinity_init"; "emf0_init"; "double"; "pH_min"; "pH_max"; "titrant_molinity_init"; "titrant_normality"] ++ keys_titrant_totals) in E.
    rewrite titrant_named in E by (intros k I; cbn in I; destruct I as [<-|[<-|[<-|[]]]]; cbn; intuition discriminate).
    unfold call_solve_emf. rewrite check_gkf. cbn [bind]. rewrite (logic_default _ DL1). rewrite !kwarg_gkf by (cbn; tauto).
    inv_binds E. rewrite ?A, ?A0, ?A1, ?A2, ?A4. cbn [bind].
    unfold calibrate_emf in E. destruct (least_squares _ _ _ _) as [t' r] eqn:L in E. cbn [snd] in E. subst r.
    destruct (calibrated_at _ _ _ _ _ _ _ _ _ _ L (data_case _ _ _ _ _ DF A3)) as (c & t1 & al & X & AT & S & F).
    destruct (solve_emf _ c _ _ _ _ t1 _ _ _ _ _ _ _ _) as [sr|] eqn:SE in S; cbn [bind] in S; [|discriminate]. injection S as <-.
    exists c, t1, (SrEmf sr). rewrite SE. auto.
  - assert (KW : forall k d, In k keys_calibrate_emf -> k <> "emf0_init" -> kwarg k d (dset "emf0_init" (VInt 0) (get_kwargs_for keys_calibrate_emf kw None)) = kwarg k d kw).
    { intros k d I N. unfold kwarg. rewrite dget_dset_other by exact N. exact (kwarg_gkf keys_calibrate_emf k d kw I). }
    assert (KS : forall k d, In k keys_solve_emf -> k <> "emf0_init" -> kwarg k d (dset "emf0_init" (VInt 0) (get_kwargs_for keys_solve_emf kw None)) = kwarg k d kw).
    { intros k d I N. unfold kwarg. rewrite dget_dset_other by exact N. exact (kwarg_gkf keys_solve_emf k d kw I). }
    unfold call_calibrate_emf in E. rewrite !(KW "alkalinity_init"), !(KW "pH_min"), !(KW "pH_max"), !(KW "titrant_molinity_init"), !(KW "titrant_normality"), !(KW "double") in E by (discriminate || (cbn; tauto)).
    rewrite titrant_dset in E by (cbn; tauto).
    assert (Tn : titrant_totals_of ["alkalinity_init"; "emf0_init"; "double"; "pH_min"; "pH_max"; "titrant_molinity_init"; "titrant_normality"] (get_kwargs_for keys_calibrate_emf kw None)
       = get_kwargs_for keys_titrant_totals kw None).
    { exact (titrant_named ["alkalinity_init"; "emf0_init"; "double"; "pH_min"; "pH_max"; "titrant_molinity_init"; "titrant_normality"] kw
        ltac:(intros k I; cbn in I; destruct I as [<-|[<-|[<-|[]]]]; cbn; intuition discriminate)). }
    rewrite Tn in E. clear Tn.
    unfold call_solve_emf. rewrite check_dset by reflexivity. rewrite check_gkf. cbn [bind].
    rewrite !(KS "alkalinity_init"), !(KS "pH_min"), !(KS "pH_max"), !(KS "titrant_normality"), !(KS "double"), !(KS "gran_logic") by (discriminate || (cbn; tauto)).
    rewrite (logic_default _ DL).
    inv_binds E. 
    assert (EI : kwarg "emf0_init" VNone (dset "emf0_init" (VInt 0) (get_kwargs_for keys_calibrate_emf kw None)) = VInt 0) by (unfold kwarg; now rewrite dget_dset_same).
    assert (ES : kwarg "emf0_init" VNone (dset "emf0_init" (VInt 0) (get_kwargs_for keys_solve_emf kw None)) = VInt 0) by (unfold kwarg; now rewrite dget_dset_same).
    rewrite EI in *. rewrite ES.
    rewrite ?A, ?A0, ?A1, ?A2, ?A4. cbn [bind].
    unfold calibrate_emf in E. destruct (least_squares _ _ _ _) as [t' r] eqn:L in E. cbn [snd] in E. subst r.
    destruct (calibrated_at _ _ _ _ _ _ _ _ _ _ L (data_case _ _ _ _ _ DF A3)) as (c & t1 & al & X & AT & S & F).
    destruct (solve_emf _ c _ _ _ _ t1 _ _ _ _ _ _ _ _) as [sr|] eqn:SE in S; cbn [bind] in S; [|discriminate]. injection S as <-.
    exists c, t1, (SrEmf sr). rewrite SE. auto.
  - unfold call_calibrate_pH in E. rewrite !kwarg_gkf in E by (cbn; tauto).
    change keys_calibrate_pH with (["pH_min"; "pH_max"; "titrant_molinity_init"; "titrant_normality"] ++ keys_titrant_totals) in E.
    rewrite titrant_named in E by (intros k I; cbn in I; destruct I as [<-|[<-|[<-|[]]]]; cbn; intuition discriminate).
    unfold call_solve_pH. rewrite check_gkf. cbn [bind]. rewrite !kwarg_gkf by (cbn; tauto).
    inv_binds E. rewrite ?A, ?A0, ?A2. cbn [bind].
    unfold calibrate_pH in E. destruct (least_squares _ _ _ _) as [t' r] eqn:L in E. cbn [snd] in E. subst r.
    destruct (calibrated_at _ _ _ _ _ _ _ _ _ _ L (data_case _ _ _ _ _ DF A1)) as (c & t1 & al & X & AT & S & F).
    destruct (solve_pH c _ _ _ _ t1 _ _ _ _) as [sr|] eqn:SE in S; cbn [bind] in S; [|discriminate]. injection S as <-.
    exists c, t1, (SrPh sr). rewrite SE. auto.
  - unfold call_calibrate_pH_gran in E. rewrite !kwarg_gkf in E by (cbn; tauto).
    change keys_calibrate_pH_gran with (["pH_min"; "pH_max"; "titrant_molinity_init"; "titrant_normality"] ++ keys_titrant_totals) in E.
    rewrite titrant_named in E by (intros k I; cbn in I; destruct I as [<-|[<-|[<-|[]]]]; cbn; intuition discriminate).
    unfold call_solve_pH_gran. rewrite check_gkf. cbn [bind]. rewrite !kwarg_gkf by (cbn; tauto).
    inv_binds E. rewrite ?A, ?A0, ?A2. cbn [bind].
    unfold calibrate_pH_gran in E. destruct (least_squares _ _ _ _) as [t' r] eqn:L in E. cbn [snd] in E. subst r.
    destruct (calibrated_at _ _ _ _ _ _ _ _ _ _ L (data_case _ _ _ _ _ DF A1)) as (c & t1 & al & X & AT & S & F).
    destruct (solve_pH_gran c _ _ _ _ t1 _ _ _ _) as [sr|] eqn:SE in S; cbn [bind] in S; [|discriminate]. injection S as <-.
    exists c, t1, (SrPhGran sr). rewrite SE. auto.
Qed.

Lemma gkf_wm keys (kw : kwargs xr) : ~ In "solve_mode" keys -> get_kwargs_for keys (without_mode kw) None = get_kwargs_for keys kw None.
Proof.
  intros N. unfold get_kwargs_for, without_mode. rewrite filter_filter. apply filter_ext. intros [k v]. cbn [fst].
  destruct (String.eqb_spec k "solve_mode") as [->|]; [|reflexivity]. apply mem_str_false in N. now rewrite N.
Qed.
Lemma kwarg_no_mode k d (kw : kwargs xr) : k <> "solve_mode" -> kwarg k d (without_mode kw) = kwarg k d kw.
Proof. apply kwarg_wm. Qed.
Lemma NoDup_gkf keys (kw : kwargs xr) : NoDup (dkeys kw) -> NoDup (dkeys (get_kwargs_for keys kw None)).
Proof. exact (wfd_filter _ kw). Qed.

(* calibrating a file and solving it with the molinity found: the certified alkalinity comes back *)
Theorem C60_file_solved_at_certified (e : env xr) f cert s kw o :
  files_calibrate e f cert s kw = Ok o -> or_fun o = [Fin 0] ->
  default_logic kw -> no_titrant_totals kw \/ ordinary e f s kw ->
  exists m sr x, or_x o = [m] /\ as_num cert = Ok (Fin x) /\
    files_solve e f (VNum m) s kw = Ok sr /\ sr_alkalinity sr = Fin x.
Proof.
  intros E R DL D. unfold files_calibrate in E. unfold files_solve.
  destruct (load e f s (without_mode kw)) as [[cv [totals ks]]|] eqn:Ld; cbn [bind] in E |- *; [|discriminate].
  destruct (as_num cert) as [ce|]; cbn [bind] in E; [|discriminate].
  assert (Tt : get_kwargs_for keys_titrant_totals (without_mode kw) None = get_kwargs_for keys_titrant_totals kw None)
    by (apply gkf_wm; cbn; intuition discriminate).
  assert (DF : data_fit e cv totals (without_mode kw)).
  { unfold data_fit. rewrite Tt, kwarg_no_mode by discriminate. destruct D as [D|(FP & Nd & I & D)].
    - left. destruct (get_kwargs_for keys_titrant_totals kw None) as [|[k v] l] eqn:G; [reflexivity|exfalso].
      assert (I : In (k, v) (get_kwargs_for keys_titrant_totals kw None)) by (rewrite G; now left).
      unfold get_kwargs_for in I. apply filter_In in I. destruct I as [I M]. cbn [fst] in M. apply mem_str_spec in M.
      apply D in M. assert (Dm : dmem k kw = true) by (apply dget_in_keys; apply in_map_iff; exists (k, v); auto). unfold dmem in Dm. now rewrite M in Dm.
    - right. split; [exact FP|]. split; [exact I|]. split; [now apply NoDup_gkf|]. split; [|exact (D _ _ _ Ld)].
      unfold load in Ld. inv_binds Ld. destruct a2 as [t0 k0]. injection Ld as -> -> ->. apply (totals_ks_named _ _ _ _ _ A2). }
  assert (DL' : default_logic (without_mode kw)).
  { unfold default_logic, without_mode. rewrite (dget_filter (fun k => negb (String.eqb k "solve_mode"))). exact DL. }
  destruct (dispatch_root e _ _ _ _ _ _ _ DL' DF E) as (c & t1 & sr & X & AT & S & F). 
  rewrite R in F. injection F as F. symmetry in F.
  destruct (sr_alkalinity sr) as [al| | |] eqn:Al, ce as [x| | |]; try discriminate F. rewrite fin_sub in F. injection F as F.
  exists c, sr, x. split; [exact X|]. split; [reflexivity|]. cbn [as_num bind]. rewrite AT. cbn [bind]. split; [exact S|]. rewrite Al. f_equal. lra.
Qed.

(* ------------------------------------------------------------------ *)
(** * Datasets *)

Section Sub.
Context {T : Type} `{Num T}.
Definition only (keys : list string) (kw : kwargs T) : kwargs T := filter (fun kv => mem_str (fst kv) keys) kw.
Lemma gkf_only X keys (kw : kwargs T) : incl X keys -> get_kwargs_for X (only keys kw) None = get_kwargs_for X kw None.
Proof.
  intros I. unfold get_kwargs_for, only. rewrite filter_filter. apply filter_ext. intros [k v]. cbn [fst].
  destruct (mem_str k X) eqn:M; [|now rewrite Bool.andb_false_r]. apply mem_str_spec, I, mem_str_spec in M. now rewrite M.
Qed.
Lemma wm_only keys (kw : kwargs T) : without_mode (only keys kw) = only keys (without_mode kw).
Proof. unfold without_mode, only. rewrite !filter_filter. apply filter_ext. intros x. apply Bool.andb_comm. Qed.
Lemma dget_only k keys (kw : kwargs T) : In k keys -> dget k (only keys kw) = dget k kw.
Proof. intros I. unfold only. rewrite (dget_filter (fun k => mem_str k keys)). apply mem_str_spec in I. now rewrite I. Qed.

Lemma load_only e f s keys (kw : kwargs T) : incl (keys_read_dat ++ keys_cau ++ keys_totals_ks ++ ["file_path"]) keys ->
  load e f s (only keys kw) = load e f s kw.
Proof.
  intros I. unfold load, full_name. rewrite dget_only by (apply I; rewrite !in_app_iff; cbn; tauto).
  rewrite !gkf_only by (intros x X; apply I; rewrite !in_app_iff; tauto). reflexivity.
Qed.
Lemma files_solve_only e f c s (kw : kwargs T) : files_solve e f c s (only keys_solve kw) = files_solve e f c s kw.
Proof.
  unfold files_solve. rewrite wm_only. rewrite load_only by (intros x X; unfold keys_solve; rewrite !in_app_iff in X |- *; cbn in X |- *; tauto).
  rewrite gkf_only by (intros x X; unfold keys_solve; rewrite !in_app_iff; tauto).
  unfold mode_of, kwarg. rewrite dget_only by (unfold keys_solve; rewrite !in_app_iff; cbn; tauto).
  unfold dispatch_solve. rewrite !gkf_only by (intros x X; unfold keys_solve; rewrite !in_app_iff; tauto). reflexivity.
Qed.
Lemma files_calibrate_only e f c s (kw : kwargs T) : files_calibrate e f c s (only keys_calibrate kw) = files_calibrate e f c s kw.
Proof.
  unfold files_calibrate. rewrite wm_only. rewrite load_only by (intros x X; unfold keys_calibrate; rewrite !in_app_iff in X |- *; cbn in X |- *; tauto).
  unfold mode_of, kwarg. rewrite dget_only by (unfold keys_calibrate; rewrite !in_app_iff; cbn; tauto).
  unfold dispatch_calibrate. rewrite !gkf_only by (intros x X; unfold keys_calibrate; rewrite !in_app_iff; tauto). reflexivity.
Qed.

(* all the settings of a row *)
Definition row_settings (kw : kwargs T) (r : row T) : kwargs T := get_kwargs_for (keys_calibrate ++ keys_solve) kw (Some r).
Lemma settings_deq keys (kw : kwargs T) r : incl keys (keys_calibrate ++ keys_solve) ->
  deq (get_kwargs_for keys kw (Some r)) (only keys (row_settings kw r)).
Proof.
  intros I k. unfold only. rewrite (dget_filter (fun k => mem_str k keys)). unfold row_settings. rewrite !resolve.
  destruct (mem_str k keys) eqn:M; [|reflexivity]. apply mem_str_spec, I, mem_str_spec in M. now rewrite M.
Qed.
Lemma row_solve_settings e f c s (kw : kwargs T) r : wfd kw ->
  req (files_solve e f c s (get_kwargs_for keys_solve kw (Some r))) (files_solve e f c s (row_settings kw r)).
Proof.
  intros W. rewrite <- (files_solve_only e f c s (row_settings kw r)).
  apply files_solve_deq; [now apply wfd_resolve|apply wfd_filter; now apply wfd_resolve|]. apply settings_deq. intros x X. apply in_or_app. auto.
Qed.
Lemma row_calibrate_settings e f c s (kw : kwargs T) r : wfd kw ->
  req (files_calibrate e f c s (get_kwargs_for keys_calibrate kw (Some r))) (files_calibrate e f c s (row_settings kw r)).
Proof.
  intros W. rewrite <- (files_calibrate_only e f c s (row_settings kw r)).
  apply files_calibrate_deq; [now apply wfd_resolve|apply wfd_filter; now apply wfd_resolve|]. apply settings_deq. intros x X. apply in_or_app. auto.
Qed.

Lemma asr_alk (d : row T) sr : cell "alkalinity" (add_solve_results d sr) = VNum (sr_alkalinity sr).
Proof.
  assert (I : forall p t (d : row T), cell "alkalinity" (set_inits p t d) = cell "alkalinity" d).
  { intros p t d0. unfold set_inits. destruct (nth_error p 0); [|reflexivity]. destruct (nth_error t 0); rewrite !cell_dset_other by discriminate; reflexivity. }
  destruct sr as [s|s|s]; cbn [add_solve_results sr_alkalinity]; cbv zeta; rewrite I; repeat (rewrite cell_dset_other by discriminate); apply cell_dset_same.
Qed.
End Sub.

(* the optimiser ends at an exact root when it calibrates this row *)
Definition exact_root (e : env xr) (kw : kwargs xr) (r : row xr) : Prop :=
  forall kw1 f c s o, backcompat kw r = Ok kw1 ->
    dget "file_name" r = Some f -> dget "alkalinity_certified" r = Some c -> dget "salinity" r = Some s ->
    files_calibrate e f c s (row_settings kw1 r) = Ok o -> or_fun o = [Fin 0].
(* gran_logic is at its default, and there are no titrant totals or the data are ordinary *)
Definition usual_settings (e : env xr) (kw : kwargs xr) (r : row xr) : Prop :=
  forall kw1 f s, backcompat kw r = Ok kw1 -> dget "file_name" r = Some f -> dget "salinity" r = Some s ->
    default_logic (row_settings kw1 r) /\ (no_titrant_totals (row_settings kw1 r) \/ ordinary e f s (row_settings kw1 r)).

Lemma bind_inv {A B} (x : res A) (f : A -> res B) b : bind x f = Ok b -> exists a, x = Ok a /\ f a = Ok b.
Proof. destruct x as [a|]; [|discriminate]. intros E. exists a. auto. Qed.
Lemma attr_inv {T} k (r : row T) v : attr k r = Ok v -> dget k r = Some v.
Proof. unfold attr. destruct (dget k r); [|discriminate]. now intros [= ->]. Qed.
Lemma calibrate_try_inv {T} `{Num T} e (kw : kwargs T) r x : calibrate_row_try e kw r = Ok x ->
  exists kw1 f c s o, backcompat kw r = Ok kw1 /\ dget "file_name" r = Some f /\ dget "alkalinity_certified" r = Some c /\ dget "salinity" r = Some s /\
    files_calibrate e f c s (get_kwargs_for keys_calibrate kw1 (Some r)) = Ok o /\ nth_error (or_x o) 0 = Some x.
Proof.
  unfold calibrate_row_try. intros E.
  apply bind_inv in E. destruct E as (kw1 & B & E). apply bind_inv in E. destruct E as (f & Gf & E).
  apply bind_inv in E. destruct E as (c & Gc & E). apply bind_inv in E. destruct E as (s & Gs & E).
  apply bind_inv in E. destruct E as (o & Co & E). apply attr_inv in Gf, Gc, Gs.
  exists kw1, f, c, s, o. repeat (split; [assumption|]).
  destruct (nth_error (or_x o) 0); [|discriminate]. now injection E as ->.
Qed.
Lemma calibrated_row e (kw : kwargs xr) r m : calibrate_row e kw r = Ok (Fin m) ->
  exists c g kw1 f s o, dget "alkalinity_certified" r = Some c /\ dget "file_good" r = Some g /\ truthy g = true /\
    backcompat kw r = Ok kw1 /\ dget "file_name" r = Some f /\ dget "salinity" r = Some s /\
    files_calibrate e f c s (get_kwargs_for keys_calibrate kw1 (Some r)) = Ok o /\ nth_error (or_x o) 0 = Some (Fin m).
Proof.
  unfold calibrate_row. intros E. apply bind_inv in E. destruct E as (c & _ & E). apply bind_inv in E. destruct E as (g & Gg & E).
  apply attr_inv in Gg. destruct (notnull c && truthy g)%bool eqn:B; [|discriminate]. apply andb_prop in B. destruct B as [_ B].
  destruct (calibrate_row_try e kw r) as [x|] eqn:C.
  - injection E as ->. destruct (calibrate_try_inv e kw r _ C) as (kw1 & f & c' & s & o & H1 & H2 & H3 & H4 & H5 & H6).
    exists c', g, kw1, f, s, o. repeat (split; [assumption|]). assumption.
  - unfold handler in E. apply bind_inv in E. destruct E as (? & _ & E). discriminate E.
Qed.

(* Row i is the only good reference of its batch, with a finite molinity of its own. *)
Theorem C60_single_reference_exact (e : env xr) kw ds ds' i r b m :
  is_table ds -> NoDup (dkeys kw) ->
  all_cells ds "reference_good" (fun v => is_null v \/ exists b, v = VBool b) ->
  calibrate e kw ds = Ok ds' ->
  nth_error (f_rows ds') i = Some r ->
  dget "analysis_batch" r = Some b ->
  dget "titrant_molinity_here" r = Some (VNum (Fin m)) ->
  batch_references ds' b = [Fin m] ->
  exact_root e kw r -> usual_settings e kw r ->
  exists c x, dget "alkalinity_certified" r = Some c /\ as_num c = Ok (Fin x) /\
    dget "titrant_molinity" r = Some (VNum (Fin m)) /\
    dget "alkalinity" r = Some (VNum (Fin x)).
Proof.
  intros W Wk F E Ni Gb Gh B ER US.
  assert (Gm : dget "titrant_molinity" r = Some (VNum (Fin m))).
  { pose proof (C53_batch_mean_real e kw ds ds' i b [m] W F E) as V. rewrite !(value_nth _ _ _ _ Ni) in V. rewrite (V Gb B). cbn [fold_right length INR].
    do 3 f_equal. field. }
  assert (E' := E). apply calibrate_inv in E'. destruct E' as (ds1 & E1 & E2).
  assert (W1 := wff_calibrate_only e kw ds ds1 W E1).
  assert (W2 := wff_solve e kw ds1 ds' W1 E2).
  (* the row is calibrated *)
  assert (CR : calibrate_row e kw r = Ok (Fin m)).
  { apply calibrate_only_inv in E1. destruct E1 as (_ & C1 & rows & ms & Er & Em & R1).
    apply solve_inv in E2. destruct E2 as (_ & C2 & M2). rewrite C1, R1 in M2. apply mapM_Forall2 in M2.
    assert (L := mapM_ok _ _ _ Em). destruct L as [L _]. apply mapM_Forall2 in Er, Em.
    assert (G := Forall2_map2 (fun r m => dset "titrant_molinity" (VNum m) r) rows ms (eq_sym L)).
    pose proof (Forall2_comp _ _ _ _ _ G M2) as G2. clear G M2.
    destruct (Forall2_in_r _ _ _ _ G2 (nth_error_In _ _ Ni)) as (rr & I & rt & (m' & Im & ->) & S).
    destruct (Forall2_in_r _ _ _ _ Er I) as (r0 & I0 & R0).
    destruct (cal_row e kw _ r0 rr r m' (proj2 W r0 I0) R0 S) as (r1 & x & _ & Cx & Gx & _ & _ & A).
    rewrite Gh in Gx. injection Gx as <-. rewrite <- Cx. apply calibrate_row_agree; [exact Wk|exact A]. }
  destruct (calibrated_row e kw r m CR) as (c & g & kw1 & f & s & o & Gc & Gg & Tg & Bc & Gf & Gs & Co & Xo).
  assert (Wk1 := wfd_backcompat _ _ _ Wk Bc).
  pose proof (row_calibrate_settings e f c s kw1 r Wk1) as Q. rewrite Co in Q.
  destruct (files_calibrate e f c s (row_settings kw1 r)) as [o'|] eqn:Co'; cbn in Q; [|contradiction]. subst o'.
  destruct (US kw1 f s Bc Gf Gs) as [DL D].
  destruct (C60_file_solved_at_certified e f c s _ o Co' (ER kw1 f c s o Bc Gf Gc Gs Co') DL D) as (m' & sr & x & Xo' & Nc & S & Al).
  rewrite Xo' in Xo. injection Xo as ->.
  pose proof (row_solve_settings e f (VNum (Fin m)) s kw1 r Wk1) as Q2. rewrite S in Q2.
  destruct (files_solve e f (VNum (Fin m)) s (get_kwargs_for keys_solve kw1 (Some r))) as [sr'|] eqn:S'; cbn in Q2; [|contradiction]. subst sr'.
  (* and solved *)
  assert (SR : solve_row e kw r = Ok (add_solve_results (blank r) sr)).
  { unfold solve_row, solve_row_try, attr. rewrite Gm, Gg, Bc, Gf, Gs. cbn [of_opt bind]. rewrite Tg. cbn [notnull isnull nisnan negb andb].
    rewrite S'. reflexivity. }
  exists c, x. split; [exact Gc|]. split; [exact Nc|]. split; [exact Gm|].
  pose proof (solve_again e kw ds1 ds' W1 Wk E2) as SA.
  assert (E2' := E2). apply solve_inv in E2'. destruct E2' as (_ & C2 & M2). apply mapM_Forall2 in M2.
  destruct (Forall2_in_r _ _ _ _ M2 (nth_error_In _ _ Ni)) as (rp & Ip & Sp).
  assert (Pr := prepared_solved e kw (f_cols ds1) rp r (proj2 W1 rp Ip) Sp).
  apply solve_inv in SA. destruct SA as (_ & _ & MA). apply mapM_Forall2 in MA.
  destruct (Forall2_nth _ _ _ _ _ MA Ni) as (r' & Ni' & So). rewrite Ni in Ni'. injection Ni' as <-.
  destruct (solve_one_inv _ _ _ _ _ So) as (r1 & d & P1 & S1 & F1).
  rewrite C2 in P1. rewrite (prepared_prep _ _ _ Pr) in P1. injection P1 as <-. rewrite SR in S1.
  apply (f_equal (fun z => match z with Ok y => y | Err _ => d end)) in S1. cbv beta iota in S1. subst d.
  rewrite (finish_get _ _ _ "alkalinity" F1) by discriminate. rewrite dget_put.
  replace (mem_str "alkalinity" output_cols) with true by reflexivity. rewrite asr_alk, Al. reflexivity.
Qed.

(* ------------------------------------------------------------------ *)
(** * A table that meets the hypotheses *)

Open Scope R_scope.

Lemma tiny_df : dilution_factors (cv_titrant_mass tiny_cv) (cv_analyte_mass tiny_cv) = [Fin 1; Fin (1/2)].
Proof.
  unfold dilution_factors, get_dilution_factor. cbn [map tiny_cv cv_titrant_mass cv_analyte_mass].
  replace (dec 0 0 : xr) with (Fin 0) by (cbn; f_equal; unfold Q2R; cbn; lra).
  replace (dec 1 0 : xr) with (Fin 1) by (cbn; f_equal; unfold Q2R; cbn; lra).
  cbn. rewrite !reqb_false by lra. repeat f_equal; lra.
Qed.

(* the reference titration: the totals and constants of the small titration are finite and its alkalinity too *)
Lemma tk35 : exists t k, totals_ks tiny_env tiny_cv (filled_totals 35 35 35) = Ok (t, k) /\ sane_points [3.5; 3.6] t k.
Proof.
  do 2 eexists. split.
  - unfold totals_ks, get_totals, get_k_constants, copy_if_pos, filled_totals.
    cbn [filter fst mem_str existsb keys_kwargs_totals keys_kwargs_k_constants String.eqb Ascii.eqb Bool.eqb orb].
    cbn [check_kwargs forallb fst mem_str existsb keys_get_totals keys_get_k_constants andb bind kwarg dget String.eqb Ascii.eqb Bool.eqb as_num orb].
    rewrite gt00, ne31. unfold dilute_totals, dilute_totals_pyco2. rewrite tiny_df.
    change (nofZ 0 : xr) with (Fin (Q2R 0)). cbn -[Q2R]. reflexivity.
  - intros [|[|i]] p E; [| |destruct i; discriminate]; clear E; split; intros k x E; apply dget_in in E; cbn in E;
      repeat (destruct E as [E|E]; [injection E as <- <-; eexists; (split; [reflexivity|unfold Q2R; cbn; lra])|]); destruct E.
Qed.

Lemma pH_dec : [dec 35 (-1); dec 36 (-1)] = map Fin [3.5; 3.6].
Proof. cbn. repeat f_equal; unfold Q2R; cbn; lra. Qed.
Lemma mass_dec : [dec 0 0; dec 1 0] = map Fin [0; 1].
Proof. cbn. repeat f_equal; unfold Q2R; cbn; lra. Qed.

(* the alkalinity of the small titration, as a function of the titrant molinity *)
Lemma tiny_alk : exists alk : R -> R, forall t k c, totals_ks tiny_env tiny_cv (filled_totals 35 35 35) = Ok (t, k) ->
  exists s, solve_pH (Fin c) (cv_titrant_mass tiny_cv) (cv_measurement tiny_cv) (cv_temperature tiny_cv) (cv_analyte_mass tiny_cv) t k (nofZ 3) (nofZ 4) (nofZ 1) = Ok s /\
    sp_alkalinity s = Fin (alk c).
Proof.
  destruct tk35 as (t & k & E & Sn).
  assert (X : exists s, solve_pH (Fin 1) (map Fin [0; 1]) (map Fin [3.5; 3.6]) (cv_temperature tiny_cv) (Fin 1) t k (Fin 3) (Fin 4) (Fin 1) = Ok s).
  { unfold solve_pH. cbn [length map Nat.eqb negb]. rewrite x_ltb_fin_t by lra. cbn [assert_ bind]. unfold alkalinity_all.
    destruct (tiny_totals_filled (filled_totals 35 35 35) 35 35 35) as (tk & Et & Al).
    { intros q. unfold get_kwargs_for. rewrite (dget_filter (fun k => mem_str k keys_totals_ks)). destruct (mem_str q keys_totals_ks) eqn:M; [reflexivity|].
      symmetry. apply dget_notin. intros I. apply mem_str_false in M. apply M. cbn in I. cbn. tauto. }
    replace (get_kwargs_for keys_totals_ks (filled_totals 35 35 35) None) with (filled_totals 35 35 35) in Et by reflexivity.
    rewrite E in Et. injection Et as <-. cbn [fst snd] in Al. destruct (Al (map Fin [3.5; 3.6]) eq_refl) as (l & El & _).
    unfold default_opt_pH_scale. cbn [map] in El. rewrite El. cbn [bind]. eauto. }
  destruct X as (s & X).
  destruct (proj1 (C33_one_molinity_fits 1 [0; 1] [3.5; 3.6] _ 1 t k 3 4 1 s ltac:(split; [lra|repeat constructor; lra]) ltac:(lra) Sn X
    ltac:(exists 1%nat, 3.6, 1; repeat split; (reflexivity || lra)))) as (a & b & _ & Al).
  exists (fun c => a * c + b). intros t' k' c E'. rewrite E in E'. injection E' as <- <-. destruct (Al c) as (r & Er & Ar). exists r. split; [|exact Ar].
  cbn [tiny_cv cv_titrant_mass cv_measurement cv_analyte_mass]. rewrite mass_dec, pH_dec, !fin_Z'. exact Er.
Qed.

Definition cert_row (cert : R) : row xr := tiny_row "gen.dat" ++ [("alkalinity_certified", VNum (Fin cert)); ("analysis_batch", VInt 1)].
Definition cert_table (cert : R) : frame xr := {| f_cols := dkeys (cert_row cert); f_rows := [cert_row cert] |}.
Definition cert_prepped (cert : R) : row xr :=
  cert_row cert ++ [("opt_total_borate", VInt 1); ("total_sulfate", VNum (nofZ 35)); ("total_borate", VNum (nofZ 35)); ("total_fluoride", VNum (nofZ 35))].
Lemma cert_prep cert : prep_row tiny_env (f_cols (cert_table cert)) (cert_row cert) = Ok (cert_prepped cert).
Proof. unfold prep_row. rewrite salt_row_spec. rewrite !(tiny_salt _ (cert_row cert) 35) by reflexivity. cbn [bind]. reflexivity. Qed.

Definition cert_kw : kwargs xr := [("analyte_mass", VNum (Fin 1)); ("titrant_amount_unit", VStr "kg"); ("opt_total_borate", VInt 1);
   ("total_borate", VNum (nofZ 35)); ("total_fluoride", VNum (nofZ 35)); ("total_sulfate", VNum (nofZ 35)); ("solve_mode", VStr "pH")].
Lemma cert_settings cert : get_kwargs_for keys_calibrate [] (Some (cert_prepped cert)) = cert_kw.
Proof. reflexivity. Qed.

(* calibrating it ends at the starting value 0.1, with the residual there *)
Lemma cert_calibrated : exists alk, forall cert, files_calibrate tiny_env (VStr "gen.dat") (VNum (Fin cert)) (VInt 35) cert_kw =
  Ok {| or_x := [Fin 0.1]; or_fun := [Fin (alk - cert)] |}.
Proof.
  destruct tiny_alk as (alk & A). exists (alk 0.1). intros cert.
  destruct tk35 as (t & k & E & _). destruct (A t k 0.1 E) as (s & S & As). clear A.
  unfold files_calibrate. replace (load _ _ _ _) with (Ok (tiny_cv, (t, k))).
  2:{ unfold load, full_name. cbn [cert_kw without_mode filter fst String.eqb Ascii.eqb Bool.eqb negb dget bind].
      replace (get_kwargs_for keys_read_dat _ None) with ([] : kwargs xr) by reflexivity.
      rewrite gen_read. cbn [bind]. 
      replace (amount_units_dat _ _ _) with (Ok tiny_cv) by reflexivity. cbn [bind].
      replace (get_kwargs_for keys_totals_ks _ None) with
        [("opt_total_borate", VInt 1); ("total_borate", VNum (nofZ 35)); ("total_fluoride", VNum (nofZ 35)); ("total_sulfate", VNum (nofZ 35 : xr))] by reflexivity.
      rewrite (totals_ks_deq _ _ _ (filled_totals 35 35 35)); [now rewrite E|].
      unfold filled_totals. rewrite !(fin_Z' 35). intros q. cbn [dget].
      destruct (String.eqb q "opt_total_borate"); [reflexivity|].
      destruct (String.eqb_spec q "total_borate") as [Ek|_]; [rewrite Ek; reflexivity|].
      destruct (String.eqb_spec q "total_fluoride") as [Ek|_]; [rewrite Ek; reflexivity|]. reflexivity. }
  cbn [bind as_num]. unfold dispatch_calibrate, mode_of, kwarg. cbn [cert_kw dget String.eqb Ascii.eqb Bool.eqb as_str bind lower].
  replace (lower "pH") with "ph" by reflexivity. cbn [String.eqb Ascii.eqb Bool.eqb].
  replace (get_kwargs_for keys_calibrate_pH _ None) with ([] : kwargs xr) by reflexivity.
  unfold call_calibrate_pH. cbn [kwarg dget as_num bind titrant_totals_of filter].
  replace (nofQ 0.1 : xr) with (Fin 0.1) by (cbn; f_equal; unfold Q2R; cbn; lra).
  unfold calibrate_pH, least_squares. cbn [existsb nisnan NumXR x_isnan orb lsqfun_calibrate]. rewrite add_nothing, S. cbn [bind]. rewrite add_nothing, As.
  cbn. repeat f_equal.
Qed.

Example C60_nonvacuous : exists cert ds' r,
  is_table (cert_table cert) /\
  all_cells (cert_table cert) "reference_good" (fun v => is_null v \/ exists b, v = VBool b) /\
  calibrate tiny_env [] (cert_table cert) = Ok ds' /\
  nth_error (f_rows ds') 0 = Some r /\
  dget "analysis_batch" r = Some (VInt 1) /\
  dget "titrant_molinity_here" r = Some (VNum (Fin 0.1)) /\
  batch_references ds' (VInt 1) = [Fin 0.1] /\
  exact_root tiny_env [] r /\ usual_settings tiny_env [] r /\
  dget "alkalinity" r = Some (VNum (Fin cert)).
Proof.
  destruct cert_calibrated as (alk & A). specialize (A alk). exists alk. set (cert := alk) in *.
  assert (W : is_table (cert_table cert)).
  { split; [repeat constructor; cbn; intuition discriminate|]. intros r [<-|[]]. reflexivity. }
  assert (RG : all_cells (cert_table cert) "reference_good" (fun v => is_null v \/ exists b, v = VBool b)).
  { intros r v [<-|[]] G. discriminate. }
  destruct (C54_calibrate_completes_partial tiny_env [] (cert_table cert)) as (ds' & E).
  { exact W. } { split; reflexivity. }
  { intros c I. cbn in I. destruct I as [<-|[<-|[<-|[]]]]; cbn; tauto. }
  { left. cbn. tauto. }
  { intros c I r v [<-|[]] G. cbn in I. destruct I as [<-|[<-|[<-|[]]]]; cbn in G; [|discriminate|]; injection G as <-; right; eexists; reflexivity. }
  { intros r v [<-|[]] G. cbn in G. injection G as <-. split; [discriminate|right; eexists; reflexivity]. }
  { exact RG. }
  exists ds'.
  assert (E' := E). apply calibrate_inv in E'. destruct E' as (ds1 & E1 & E2).
  assert (W1 := wff_calibrate_only tiny_env [] _ ds1 W E1). assert (W2 := wff_solve tiny_env [] ds1 ds' W1 E2).
  apply calibrate_only_inv in E1. destruct E1 as (_ & C1 & rows & ms & Er & Em & R1).
  apply solve_inv in E2. destruct E2 as (_ & C2 & M2). 
  apply mapM_Forall2 in Er, Em, M2. change (f_rows (cert_table cert)) with [cert_row cert] in Er.
  inversion Er as [|? rr ? l Er1 Er2 Ea Eb]. inversion Er2. subst. clear Er Er2.
  inversion Em as [|? m ? l Em1 Em2 Ea Eb]. inversion Em2. subst. clear Em Em2.
  rewrite R1 in M2. cbn [map2] in M2. inversion M2 as [|? r ? l M21 M22 Ea Eb]. inversion M22. subst. clear M2 M22. 
  rename Eb into Rs. symmetry in Rs. rewrite C1 in M21.
  destruct (cal_row tiny_env [] _ (cert_row cert) rr r m eq_refl Er1 M21) as (r1 & x & P & Cx & Gx & Gm & Gr & Ag).
  assert (P' := eq_trans (eq_sym P) (cert_prep cert)). assert (Pe : r1 = cert_prepped cert) by exact (f_equal (fun z => match z with Ok y => y | Err _ => r1 end) P'). subst r1. clear P P'.
  assert (Cc : calibrate_row tiny_env [] (cert_prepped cert) = Ok (Fin 0.1)).
  { unfold calibrate_row, calibrate_row_try. replace (backcompat [] (cert_prepped cert)) with (Ok [] : res (kwargs xr)) by reflexivity.
    cbn [bind]. rewrite cert_settings. unfold attr. cbn [dget cert_prepped cert_row tiny_row app String.eqb Ascii.eqb Bool.eqb of_opt bind notnull isnull nisnan NumXR x_isnan negb truthy andb].
    rewrite A. reflexivity. }
  rewrite Cc in Cx. injection Cx as <-.
  assert (Er0 : rr = flag_row (dkeys (cert_row cert)) (dset "titrant_molinity_here" (VNum (Fin 0.1)) (cert_prepped cert))).
  { destruct (ref_one_inv _ _ _ _ _ Er1) as (r1 & x & P & Cx & ->). assert (P' := eq_trans (eq_sym P) (cert_prep cert)).
    assert (Pe : r1 = cert_prepped cert) by exact (f_equal (fun z => match z with Ok y => y | Err _ => r1 end) P'). subst r1. rewrite Cc in Cx. injection Cx as <-. reflexivity. }
  assert (Gc : forall k, ~ In k (f_cols ds') -> dget k r = None).
  { intros k N. apply dget_notin. rewrite (proj2 W2 r) by (rewrite Rs; now left). exact N. }
  assert (Cols : f_cols ds' = solve_cols (addc "titrant_molinity" (ref_cols (f_cols (cert_table cert))))) by (now rewrite C2, C1).
  assert (Gl : dget "gran_logic" r = None) by (apply Gc; rewrite Cols; apply mem_str_false; lazy; reflexivity).
  assert (Gt : forall k, In k keys_titrant_totals -> dget k r = None).
  { intros k I. apply Gc. rewrite Cols. cbn in I. destruct I as [<-|[<-|[<-|[]]]]; apply mem_str_false; lazy; reflexivity. }
  assert (Bk : forall kw1, backcompat [] r = Ok kw1 -> kw1 = []).
  { intros kw1 B. unfold backcompat in B. rewrite (Ag "read_dat_method") in B by (cbn; tauto). cbn in B. now injection B as <-. }
  assert (ER : exact_root tiny_env [] r).
  { intros kw1 f c s o B Gf Gce Gs Co. apply Bk in B. subst kw1.
    rewrite (Ag "file_name") in Gf by (cbn; tauto). rewrite (Ag "alkalinity_certified") in Gce by (cbn; tauto). rewrite (Ag "salinity") in Gs by (cbn; tauto).
    cbn in Gf, Gce, Gs. injection Gf as <-. injection Gce as <-. injection Gs as <-.
    pose proof (row_calibrate_settings tiny_env (VStr "gen.dat") (VNum (Fin cert)) (VInt 35) [] r ltac:(constructor)) as Q. rewrite Co in Q.
    assert (D : req (files_calibrate tiny_env (VStr "gen.dat") (VNum (Fin cert)) (VInt 35) (get_kwargs_for keys_calibrate [] (Some r)))
       (files_calibrate tiny_env (VStr "gen.dat") (VNum (Fin cert)) (VInt 35) cert_kw)).
    { apply files_calibrate_deq; [apply wfd_resolve; constructor|repeat constructor; cbn; intuition discriminate|].
      intros k. rewrite <- (cert_settings cert). rewrite !resolve. destruct (mem_str k keys_calibrate) eqn:M; [|reflexivity].
      apply mem_str_spec in M. rewrite (Ag k) by (cbn [In]; tauto). reflexivity. }
    rewrite A in D. destruct (files_calibrate tiny_env _ _ _ (get_kwargs_for _ _ _)) as [o'|]; cbn in D, Q; [|contradiction].
    subst. cbn [or_fun]. unfold cert. do 2 f_equal. lra. }
  assert (US : usual_settings tiny_env [] r).
  { intros kw1 f s B _ _. apply Bk in B. subst kw1. split.
    - left. unfold row_settings. rewrite resolve, Gl. now destruct (mem_str _ _).
    - left. intros k I. unfold row_settings. rewrite resolve, (Gt k I). now destruct (mem_str _ _). }
  assert (Gb : dget "analysis_batch" r = Some (VInt 1)).
  { rewrite (Gr "analysis_batch") by (cbn [In]; tauto). rewrite Er0. lazy -[nofZ]. reflexivity. }
  assert (Gg : dget "reference_good" r = Some (VBool true)).
  { rewrite (Gr "reference_good") by (cbn [In]; tauto). rewrite Er0. lazy -[nofZ]. reflexivity. }
  assert (Br : batch_references ds' (VInt 1) = [Fin 0.1]).
  { unfold batch_references. rewrite Rs. cbn [flat_map]. unfold good_reference. rewrite Gb, Gg, Gx.
    replace (key_eqb (VInt 1 : val xr) (VInt 1)) with true; [reflexivity|]. cbn. unfold reqb. now destruct (Req_EM_T _ _). }
  assert (N0 : nth_error (f_rows ds') 0 = Some r) by (rewrite Rs; reflexivity).
  exists r. split; [exact W|]. split; [exact RG|]. split; [exact E|]. split; [reflexivity|]. split; [exact Gb|]. split; [exact Gx|]. split; [exact Br|]. split; [exact ER|]. split; [exact US|].
  destruct (C60_single_reference_exact tiny_env [] _ ds' 0 r (VInt 1) 0.1 W ltac:(constructor) RG E N0 Gb Gx Br ER US) as (c & y & Gce & Ny & _ & Ga).
  rewrite (Ag "alkalinity_certified") in Gce by (cbn; tauto). cbn in Gce. injection Gce as <-. injection Ny as <-. exact Ga.
Qed.

Print Assumptions C60_file_solved_at_certified.
Print Assumptions C60_single_reference_exact.
