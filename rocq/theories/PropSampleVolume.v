(* PropSampleVolume.v -- C124: a sample measured by volume counts as the mass it has *)
From Coq Require Import Reals Lra List.
From Verif Require Import Files Classes DictLemmas SettingsProofs DatasetProofs RowProofs CalProofs PropSettings SpecDataset PropDataset PropHistory PropTitration TableProofs PropReadSettings PropWhichFile PropTitrantDensity ConvertProofs Density PropTable PropModes PropTitrationWitness TitrationProofs.
From Verif Require Import XR XRLemmas PropReference Witness.
Import ListNotations.
Open Scope string_scope.
Open Scope list_scope.

(* ------------------------------------------------------------------ *)
(** * Vocabulary *)

Section V.
Context {T : Type} `{Num T}.

(* the temperature at which the titration starts: the override if there is one, else the first in the file *)
Definition starts_at (kw : kwargs T) (temps : list T) (t0 : T) : Prop :=
  match dget "temperature_override" kw with
  | None | Some VNone => nth_error temps 0 = Some t0
  | Some v => as_num v = Ok t0 /\ temps <> []
  end.
(* neither absent nor empty *)
Definition given (k : string) (kw : kwargs T) : Prop := exists v, dget k kw = Some v /\ isnull v = false.
(* millilitres of seawater to kilograms *)
Definition kilograms (volume temperature salinity : T) : T :=
  (volume ⊗ fst (seawater_1atm_MP81 temperature salinity) ⊗ nofQ 0.001)%num.

(* ------------------------------------------------------------------ *)
(** * Proofs *)

Definition sample_settings : list string := ["analyte_mass"; "analyte_volume"].

Lemma sample_out keys k (v : val T) kw : In k sample_settings -> forallb (fun x => negb (mem_str x keys)) sample_settings = true ->
  get_kwargs_for keys (dset k v kw) None = get_kwargs_for keys kw None.
Proof.
  intros I F. rewrite forallb_forall in F. specialize (F k I). apply gkf_out. now apply Bool.negb_true_iff.
Qed.
Lemma sample_mode k : In k sample_settings -> k <> "solve_mode".
Proof. intros I ->. revert I. apply mem_str_false. reflexivity. Qed.

Lemma sample_load (e : env T) f c s k v kw : In k sample_settings ->
  (forall n dd, full_name f kw = Ok n -> read_dat e n (get_kwargs_for keys_read_dat kw None) = Ok (Dat dd) ->
    cau_analyte_mass
      match kwarg "temperature_override" VNone kw with VNone => dd_temperature dd | w => map (fun _ => match as_num w with Ok t => t | Err _ => nofQ 0 end) (dd_temperature dd) end s
      (dset k v (get_kwargs_for keys_cau (without_mode kw) None)) =
    cau_analyte_mass
      match kwarg "temperature_override" VNone kw with VNone => dd_temperature dd | w => map (fun _ => match as_num w with Ok t => t | Err _ => nofQ 0 end) (dd_temperature dd) end s
      (get_kwargs_for keys_cau (without_mode kw) None)) ->
  files_solve e f c s (dset k v kw) = files_solve e f c s kw /\ files_calibrate e f c s (dset k v kw) = files_calibrate e f c s kw.
Proof.
  intros I A. pose proof (sample_mode k I) as NM.
  assert (L : load e f s (without_mode (dset k v kw)) = load e f s (without_mode kw)).
  { rewrite wm_dset by exact NM. unfold load.
    assert (F0 : full_name f (without_mode kw) = full_name f kw) by (unfold full_name; now rewrite dget_wm).
    assert (F : full_name f (dset k v (without_mode kw)) = full_name f kw).
    { rewrite <- F0. unfold full_name. rewrite dget_dset_other; [reflexivity|]. intros <-. revert I. apply mem_str_false. reflexivity. }
    rewrite F, F0. destruct (full_name f kw) as [n|] eqn:En; cbn [bind]; [|reflexivity].
    rewrite (sample_out keys_read_dat), (sample_out keys_totals_ks) by (exact I || reflexivity).
    rewrite (gkf_in keys_cau) by (destruct I as [<-|[<-|[]]]; reflexivity).
    rewrite !(TitrationProofs.gkf_wm keys_read_dat) by (reflexivity || (apply mem_str_false; reflexivity)).
    destruct (read_dat e n _) as [d|] eqn:Ed; cbn [bind]; [|reflexivity].
    destruct d as [dd|]; [|reflexivity]. specialize (A n dd eq_refl Ed).
    match goal with |- bind ?x _ = bind ?y _ => assert (E : x = y); [|now rewrite E] end.
    unfold amount_units_dat, amount_units.
    rewrite check_kwargs_dset by (destruct I as [<-|[<-|[]]]; cbn; tauto).
    rewrite (kwarg_dset_other "temperature_override") by (intros <-; revert I; apply mem_str_false; reflexivity).
    rewrite (kwarg_cau "temperature_override") by (cbn; tauto).
    assert (TM : forall a K, cau_titrant_mass a (dset k v K) = cau_titrant_mass a K).
    { intros a K. unfold cau_titrant_mass.
      rewrite !(kwarg_dset_other "titrant_amount_unit"), !(kwarg_dset_other "titrant_density"), !(kwarg_dset_other "titrant"),
        !(kwarg_dset_other "molinity_HCl"), !(kwarg_dset_other "molinity_NaCl"), !(kwarg_dset_other "molinity_H2SO4")
        by (intros <-; revert I; apply mem_str_false; reflexivity). reflexivity. }
    rewrite TM. destruct (check_kwargs keys_cau _); cbn [bind]; [|reflexivity].
    destruct (kwarg "temperature_override" VNone kw) as [| | | | | |]; cbn [bind as_num] in *; try reflexivity; now rewrite A. }
  unfold files_solve, files_calibrate. rewrite L, !wm_dset by exact NM.
  assert (M : mode_of (dset k v kw) = mode_of kw) by (unfold mode_of, kwarg; rewrite dget_dset_other; congruence). rewrite M.
  rewrite (sample_out keys_titrant_totals) by (exact I || reflexivity).
  split.
  - destruct (load e f s (without_mode kw)) as [[cv [t ks]]|]; cbn [bind]; [|reflexivity].
    destruct (as_num c); cbn [bind]; [|reflexivity]. destruct (add_titrant_totals _ _ _ _ _ _) as [t' []]; cbn [bind]; [|reflexivity].
    unfold dispatch_solve. rewrite !sample_out by (exact I || reflexivity). reflexivity.
  - destruct (load e f s (without_mode kw)) as [[cv [t ks]]|]; cbn [bind]; [|reflexivity].
    destruct (as_num c); cbn [bind]; [|reflexivity].
    unfold dispatch_calibrate. rewrite !sample_out by (exact I || reflexivity). reflexivity.
Qed.

(* a sample of V ml at t0 degrees and salinity S, or a sample of the mass that has: the same result, or the same error *)
Theorem C124_volume_counts_as_mass_partial : forall (e : env T) name path c s S kw v V dd t0,
  located kw name path ->
  read_dat e path (get_kwargs_for keys_read_dat kw None) = Ok (Dat dd) -> starts_at kw (dd_temperature dd) t0 ->
  ~ given "analyte_mass" kw -> dget "analyte_volume" kw = Some v -> isnull v = false -> as_num v = Ok V ->
  as_num s = Ok S ->
  files_solve e (VStr name) c s kw = files_solve e (VStr name) c s (dset "analyte_mass" (VNum (kilograms V t0 S)) kw) /\
  files_calibrate e (VStr name) c s kw = files_calibrate e (VStr name) c s (dset "analyte_mass" (VNum (kilograms V t0 S)) kw).
Proof.
  intros e name path c s S kw v V dd t0 L R St NG Gv Nv Vv Sv.
  assert (X : files_solve e (VStr name) c s (dset "analyte_mass" (VNum (kilograms V t0 S)) kw) = files_solve e (VStr name) c s kw /\
              files_calibrate e (VStr name) c s (dset "analyte_mass" (VNum (kilograms V t0 S)) kw) = files_calibrate e (VStr name) c s kw).
  2:{ destruct X as [-> ->]. now split. }
  apply sample_load; [cbn; tauto|]. intros n dd' En Ed.
  rewrite (located_join _ _ _ L) in En. injection En as <-. rewrite R in Ed. injection Ed as <-.
  match goal with |- cau_analyte_mass ?l _ _ = _ => assert (N0 : nth_error l 0 = Some t0) end.
  { unfold starts_at in St. unfold kwarg. destruct (dget "temperature_override" kw) as [w|]; [|exact St].
    destruct w; try exact St; destruct St as [-> St]; (destruct (dd_temperature dd); [now destruct St|reflexivity]). }
  unfold cau_analyte_mass. kwsimp.
  rewrite (kwarg_cau "analyte_mass"), (kwarg_cau "analyte_volume") by (cbn; tauto).
  assert (Nm : isnull (kwarg "analyte_mass" VNone kw) = true).
  { unfold kwarg. destruct (dget "analyte_mass" kw) as [m|] eqn:G; [|reflexivity].
    destruct (isnull m) eqn:Z; [reflexivity|]. destruct NG. exists m. now split. }
  rewrite Nm. replace (kwarg "analyte_volume" VNone kw) with v by (unfold kwarg; now rewrite Gv).
  unfold notnull. rewrite Nv, Vv, N0, Sv. cbn [negb assert_ bind of_opt as_num].
  destruct (isnull (VNum (kilograms V t0 S))); reflexivity.
Qed.

(* the volume of a sample of known mass plays no part *)
Theorem C124_volume_of_a_weighed_sample : forall (e : env T) f c s kw v, given "analyte_mass" kw ->
  files_solve e f c s (dset "analyte_volume" v kw) = files_solve e f c s kw /\
  files_calibrate e f c s (dset "analyte_volume" v kw) = files_calibrate e f c s kw.
Proof.
  intros e f c s kw v (m & G & Nm). apply sample_load; [cbn; tauto|]. intros n dd _ _.
  unfold cau_analyte_mass. kwsimp. rewrite (kwarg_cau "analyte_mass") by (cbn; tauto).
  replace (kwarg "analyte_mass" VNone kw) with m by (unfold kwarg; now rewrite G). now rewrite Nm.
Qed.
End V.

(* what is missing: the column of masses is never filled from the volumes *)
Theorem C124_column_is_not_filled : forall (e : env xr) kw ds ds' i,
  is_table ds -> solve e kw ds = Ok ds' -> (i < length (f_rows ds))%nat ->
  value ds' i "analyte_mass" = Some match value ds i "analyte_mass" with Some m => m | None => VNum NaN end.
Proof.
  intros e kw ds ds' i Tb E Li.
  assert (I1 := E). apply solve_inv in I1. destruct I1 as (_ & C & M).
  destruct (mapM_ok _ _ _ M) as [L X].
  destruct (nth_error (f_rows ds) i) as [r0|] eqn:N0; [|apply nth_error_None in N0; exfalso; apply (Nat.lt_irrefl i); eapply Nat.lt_le_trans; eauto].
  destruct (X i r0 N0) as (r' & Nr & S0).
  assert (K0 : dkeys r0 = f_cols ds) by (apply Tb; eapply nth_error_In; exact N0).
  destruct (solve_one_inv _ _ _ _ _ S0) as (p & d & P & Sr & F).
  unfold value. rewrite Nr, N0.
  rewrite (finish_get _ _ _ _ F), dget_put by discriminate. cbn [mem_str existsb output_cols String.eqb Ascii.eqb Bool.eqb orb].
  rewrite (solve_row_mass e kw p d Sr). destruct (prep_dget e _ r0 p K0 P) as (_ & _ & Z0 & _). unfold cell. rewrite Z0. reflexivity.
Qed.

(* ------------------------------------------------------------------ *)
(** * Examples *)

(* 1 ml of sample; the documentation promises that the table says what its mass was *)
Theorem C124_refuted : exists (e : env xr) ds ds', is_table ds /\
  value ds 0 "analyte_volume" = Some (VNum (Fin 1)) /\ ~ In "analyte_mass" (f_cols ds) /\
  solve e [] ds = Ok ds' /\ value ds' 0 "alkalinity_npts" = Some (VInt 2) /\
  value ds' 0 "analyte_mass" = Some (VNum NaN).
Proof.
  set (w := w_row by_volume 1).
  assert (Ww : wfd w) by (unfold wfd; repeat constructor; cbn; intuition discriminate).
  assert (Wp : wfd v_prep) by (unfold wfd; repeat constructor; cbn; intuition discriminate).
  destruct (single_solves w Ww) as (ds' & E).
  { intros c I. cbn in *. intuition. } { right. cbn. tauto. } { exists 35%Z. reflexivity. } { reflexivity. } { reflexivity. }
  destruct (single_solved w v_prep ds' Ww prep_v E) as (r' & Er & Wr & Gk & GM & Np).
  destruct (volume_mass 1) as (M & AU).
  assert (T1 : npts (solve_row tiny_env [] v_prep) = Some (VInt 2)).
  { apply (K0_npts by_volume 1 M); try reflexivity; try exact Wp.
    - exact AU.
    - apply K0_wfd. now right.
    - repeat split; reflexivity.
    - intros k I. left. each_key I; reflexivity. }
  assert (Tb : is_table (single w)) by (split; [exact Ww|intros r [<-|[]]; reflexivity]).
  exists tiny_env, (single w), ds'. split; [exact Tb|]. split; [reflexivity|]. split; [cbn; intuition discriminate|].
  split; [exact E|]. split; [now apply Np|].
  rewrite (C124_column_is_not_filled tiny_env [] (single w) ds' 0 Tb E); [reflexivity|cbn; apply Nat.lt_0_succ].
Qed.

Definition volume_sample : kwargs xr := [("analyte_volume", VInt 100); ("analyte_mass", VNum NaN); ("solve_mode", VStr "pH")].
Example C124_nonvacuous :
  located volume_sample "gen.dat" "gen.dat" /\ ~ given "analyte_mass" volume_sample /\
  read_dat tiny_env "gen.dat" (get_kwargs_for keys_read_dat volume_sample None) = Ok (Dat tiny_dd) /\
  starts_at volume_sample (dd_temperature tiny_dd) (dec 25 0) /\
  starts_at (("temperature_override", VInt 20) :: volume_sample) (dd_temperature tiny_dd) (nofZ 20) /\
  given "analyte_mass" (dset "analyte_mass" (VNum (Fin 1)) volume_sample).
Proof.
  repeat split; try (left; now repeat split); try exact gen_read.
  - intros (v & G & Z). cbn in G. apply (f_equal (fun o => match o with Some x => isnull x | None => true end)) in G. cbn in G. rewrite <- G in Z. discriminate.
  - intros X. apply (f_equal (@length _)) in X. discriminate.
  - exists (VNum (Fin 1)). split; reflexivity.
Qed.

Print Assumptions C124_volume_counts_as_mass_partial.
Print Assumptions C124_volume_of_a_weighed_sample.
Print Assumptions C124_column_is_not_filled.
Print Assumptions C124_refuted.
