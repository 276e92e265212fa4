(* PropTitrantDensity.v -- C121: how titrant volumes become masses *)
From Coq Require Import Reals Lra List.
From Verif Require Import Files DictLemmas SettingsProofs TableProofs PropReadSettings PropWhichFile PropReference ConvertProofs PropModes.
From Verif Require Import XR XRLemmas SpecConvert Density PropDensity Witness.
Import ListNotations.
Open Scope R_scope.
Open Scope string_scope.
Open Scope list_scope.

(* ------------------------------------------------------------------ *)
(** * Vocabulary: which density (g/ml) the documentation promises *)

Definition no_density {T} (kw : kwargs T) : Prop := dget "titrant_density" kw = None \/ dget "titrant_density" kw = Some VNone.

Inductive density_is (kw : kwargs xr) : R -> Prop :=
| AsGiven rho : dget "titrant_density" kw = Some (VNum (Fin rho)) -> density_is kw rho
| Hydrochloric t a b :
    no_density kw -> setting kw "titrant" (VStr "HCl") (VStr t) -> upper t = "HCL" ->
    setting kw "molinity_HCl" (VNum (Fin 0.1)) (VNum (Fin a)) -> setting kw "molinity_NaCl" (VNum (Fin 0.6)) (VNum (Fin b)) ->
    0 <= a -> 0 <= b -> 0 < a + b <= 100 ->
    density_is kw (DSC07 a b)
| Sulfuric t m :
    no_density kw -> setting kw "titrant" (VStr "HCl") (VStr t) -> upper t = "H2SO4" ->
    setting kw "molinity_H2SO4" (VNum (Fin 0.1)) (VNum (Fin m)) ->
    density_is kw (0.99750018 + 0.06181819 * m - 0.00285491 * m ^ 2).

(* settings that a titrant of this kind has no use for *)
Inductive unused {T} `{Num T} (kw : kwargs T) : string -> Prop :=
| Weighed k u : dget "titrant_amount_unit" kw = Some (VStr u) -> In (lower u) ["g"; "kg"] ->
    In k ["titrant_density"; "titrant"; "molinity_HCl"; "molinity_NaCl"; "molinity_H2SO4"] -> unused kw k
| Measured k v : dget "titrant_density" kw = Some v -> v <> VNone ->
    In k ["titrant"; "molinity_HCl"; "molinity_NaCl"; "molinity_H2SO4"] -> unused kw k
| NotSulfuric t : setting kw "titrant" (VStr "HCl") (VStr t) -> upper t = "HCL" -> unused kw "molinity_H2SO4"
| NotHydrochloric k t : dget "titrant" kw = Some (VStr t) -> upper t = "H2SO4" ->
    In k ["molinity_HCl"; "molinity_NaCl"] -> unused kw k.

(* ------------------------------------------------------------------ *)
(** * Proofs *)

Section P.
Context {T : Type} `{Num T}.

Definition titrant_settings : list string :=
  ["titrant_amount_unit"; "titrant_density"; "titrant"; "molinity_HCl"; "molinity_NaCl"; "molinity_H2SO4"].

Lemma filter_dset_in {A} (p : string -> bool) k (v : A) d : p k = true ->
  filter (fun kv => p (fst kv)) (dset k v d) = dset k v (filter (fun kv => p (fst kv)) d).
Proof.
  intros P. induction d as [|[a w] d IH]; cbn; [now rewrite P|].
  destruct (String.eqb_spec k a) as [<-|N]; cbn.
  - rewrite P. cbn. now rewrite String.eqb_refl.
  - destruct (p a); cbn; [|exact IH]. destruct (String.eqb_spec k a); [contradiction|]. now rewrite IH.
Qed.
Lemma wm_dset k (v : val T) kw : k <> "solve_mode" -> without_mode (dset k v kw) = dset k v (without_mode kw).
Proof. intros N. apply (filter_dset_in (fun k => negb (String.eqb k "solve_mode"))). now destruct (String.eqb_spec k "solve_mode"). Qed.
Lemma gkf_out keys k (v : val T) kw : mem_str k keys = false -> get_kwargs_for keys (dset k v kw) None = get_kwargs_for keys kw None.
Proof. intros M. now apply (filter_dset (fun k => mem_str k keys)). Qed.
Lemma gkf_in keys k (v : val T) kw : mem_str k keys = true -> get_kwargs_for keys (dset k v kw) None = dset k v (get_kwargs_for keys kw None).
Proof. intros M. now apply (filter_dset_in (fun k => mem_str k keys)). Qed.

Lemma not_mode k : In k titrant_settings -> k <> "solve_mode".
Proof. intros I ->. revert I. apply mem_str_false. reflexivity. Qed.

Lemma load_dset (e : env T) f s k v kw : In k titrant_settings ->
  load e f s (dset k v kw) =
  bind (full_name f kw) (fun f =>
  bind (read_dat e f (get_kwargs_for keys_read_dat kw None)) (fun dd =>
  bind (amount_units_dat dd s (dset k v (get_kwargs_for keys_cau kw None))) (fun cv =>
  bind (totals_ks e cv (get_kwargs_for keys_totals_ks kw None)) (fun tk => Ok (cv, tk))))).
Proof.
  intros I. unfold load.
  assert (F : full_name f (dset k v kw) = full_name f kw).
  { unfold full_name. rewrite dget_dset_other; [reflexivity|]. intros <-. revert I. apply mem_str_false. reflexivity. }
  rewrite F. rewrite (gkf_in keys_cau), (gkf_out keys_read_dat), (gkf_out keys_totals_ks); [reflexivity|..];
    repeat (destruct I as [<-|I]; [reflexivity|]); destruct I.
Qed.

Lemma rest_solve (e : env T) m c cv t ks k v kw : In k titrant_settings ->
  dispatch_solve e m c cv t ks (dset k v kw) = dispatch_solve e m c cv t ks kw.
Proof.
  intros I. unfold dispatch_solve. rewrite !gkf_out; [reflexivity|..]; repeat (destruct I as [<-|I]; [reflexivity|]); destruct I.
Qed.
Lemma rest_calibrate (e : env T) m c cv t ks k v kw : In k titrant_settings ->
  dispatch_calibrate e m c cv t ks (dset k v kw) = dispatch_calibrate e m c cv t ks kw.
Proof.
  intros I. unfold dispatch_calibrate. rewrite !gkf_out; [reflexivity|..]; repeat (destruct I as [<-|I]; [reflexivity|]); destruct I.
Qed.
Lemma mode_dset k (v : val T) kw : In k titrant_settings -> mode_of (dset k v kw) = mode_of kw.
Proof. intros I. apply not_mode in I. unfold mode_of, kwarg. rewrite dget_dset_other; congruence. Qed.
Lemma titr_dset k (v : val T) kw : In k titrant_settings ->
  get_kwargs_for keys_titrant_totals (dset k v kw) None = get_kwargs_for keys_titrant_totals kw None.
Proof. intros I. apply gkf_out. repeat (destruct I as [<-|I]; [reflexivity|]); destruct I. Qed.

Lemma same_load (e : env T) f c s k v kw : In k titrant_settings ->
  load e f s (without_mode (dset k v kw)) = load e f s (without_mode kw) ->
  files_solve e f c s (dset k v kw) = files_solve e f c s kw /\ files_calibrate e f c s (dset k v kw) = files_calibrate e f c s kw.
Proof.
  intros I L. unfold files_solve, files_calibrate. rewrite L, mode_dset, !wm_dset, titr_dset by (assumption || now apply not_mode).
  split.
  - destruct (load e f s (without_mode kw)) as [[cv [t ks]]|]; cbn [bind]; [|reflexivity].
    destruct (as_num c); cbn [bind]; [|reflexivity]. destruct (add_titrant_totals _ _ _ _ _ _) as [t' []]; cbn [bind]; [|reflexivity].
    now apply rest_solve.
  - destruct (load e f s (without_mode kw)) as [[cv [t ks]]|]; cbn [bind]; [|reflexivity].
    destruct (as_num c); cbn [bind]; [|reflexivity]. now apply rest_calibrate.
Qed.

Lemma setting_kwarg kw k (d v : val T) : setting kw k d v -> kwarg k d kw = v.
Proof. intros [G|[G ->]]; unfold kwarg; now rewrite G. Qed.
Lemma kwarg_cau k d (kw : kwargs T) : In k keys_cau -> kwarg k d (get_kwargs_for keys_cau (without_mode kw) None) = kwarg k d kw.
Proof.
  intros I. rewrite kwarg_gkf, kwarg_wm; [reflexivity| |exact I]. intros ->. revert I. apply mem_str_false. reflexivity.
Qed.

Lemma unused_mass k v (kw : kwargs T) a : unused kw k ->
  let K := get_kwargs_for keys_cau (without_mode kw) None in
  cau_titrant_mass a (dset k v K) = cau_titrant_mass a K.
Proof.
  intros U K. unfold cau_titrant_mass.
  assert (E : forall k0 d, k0 <> k -> kwarg k0 d (dset k v K) = kwarg k0 d K).
  { intros k0 d N. unfold kwarg. now rewrite dget_dset_other. }
  inversion U as [k0 u Hu Iu Ik|k0 w Hw Nw Ik|t Ht Hc|k0 t Ht Hc Ik]; subst.
  - rewrite E by (intros <-; revert Ik; apply mem_str_false; reflexivity).
    unfold K. rewrite (kwarg_cau "titrant_amount_unit") by (cbn; tauto).
    replace (kwarg "titrant_amount_unit" (VStr "ml") kw) with (VStr u : val T) by (unfold kwarg; now rewrite Hu). cbn [as_str bind].
    destruct Iu as [<-|[<-|[]]]; reflexivity.
  - rewrite !E by (intros <-; revert Ik; apply mem_str_false; reflexivity).
    unfold K. rewrite !(kwarg_cau "titrant_density") by (cbn; tauto).
    replace (kwarg "titrant_density" VNone kw) with w by (unfold kwarg; now rewrite Hw).
    destruct w; try contradiction; reflexivity.
  - rewrite !(E "titrant_amount_unit"), !(E "titrant_density"), !(E "titrant"), !(E "molinity_HCl"), !(E "molinity_NaCl") by discriminate.
    unfold K. rewrite (kwarg_cau "titrant") by (cbn; tauto). rewrite (setting_kwarg _ _ _ _ Ht). cbn [as_str bind]. rewrite Hc. reflexivity.
  - rewrite !(E "titrant_amount_unit"), !(E "titrant_density"), !(E "titrant"), !(E "molinity_H2SO4")
      by (intros <-; revert Ik; apply mem_str_false; reflexivity).
    unfold K. rewrite (kwarg_cau "titrant") by (cbn; tauto).
    replace (kwarg "titrant" (VStr "HCl") kw) with (VStr t : val T) by (unfold kwarg; now rewrite Ht). cbn [as_str bind]. rewrite Hc. reflexivity.
Qed.

Lemma unused_in k (kw : kwargs T) : unused kw k -> In k titrant_settings.
Proof. intros U. inversion U as [k0 u Hu Iu Ik|k0 w Hw Nw Ik|t Ht Hc|k0 t Ht Hc Ik]; subst; cbn in *; tauto. Qed.

Lemma cau_keys k : In k titrant_settings -> In k keys_cau.
Proof. cbn. tauto. Qed.

Theorem C121_unused_settings : forall (e : env T) f c s kw k v, unused kw k ->
  files_solve e f c s (dset k v kw) = files_solve e f c s kw /\
  files_calibrate e f c s (dset k v kw) = files_calibrate e f c s kw.
Proof.
  intros e f c s kw k v U. pose proof (unused_in k kw U) as I. apply same_load; [exact I|].
  rewrite wm_dset by now apply not_mode. rewrite load_dset by exact I. unfold load.
  destruct (full_name f (without_mode kw)) as [n|]; cbn [bind]; [|reflexivity].
  destruct (read_dat e n _) as [dd|]; cbn [bind]; [|reflexivity].
  match goal with |- bind ?x _ = bind ?y _ => assert (E : x = y); [|now rewrite E] end.
  unfold amount_units_dat. destruct dd as [dd|]; [|reflexivity].
  unfold amount_units. rewrite check_kwargs_dset by now apply cau_keys. rewrite unused_mass by exact U.
  unfold cau_analyte_mass.
  rewrite !(kwarg_dset_other "temperature_override") by (intros <-; revert I; apply mem_str_false; reflexivity).
  rewrite !(kwarg_dset_other "analyte_mass") by (intros <-; revert I; apply mem_str_false; reflexivity).
  rewrite !(kwarg_dset_other "analyte_volume") by (intros <-; revert I; apply mem_str_false; reflexivity).
  reflexivity.
Qed.
End P.

Lemma chosen_density kw rho : density_is kw rho ->
  forall u a, setting kw "titrant_amount_unit" (VStr "ml") (VStr u) -> lower u = "ml" ->
  cau_titrant_mass (map Fin a) (get_kwargs_for keys_cau (without_mode kw) None) = Ok (map (fun x => Fin (x * rho * 0.001)) a).
Proof.
  intros D u a Su Lu. unfold cau_titrant_mass.
  rewrite (kwarg_cau "titrant_amount_unit"), (kwarg_cau "titrant_density"), (kwarg_cau "titrant"), (kwarg_cau "molinity_HCl"),
    (kwarg_cau "molinity_NaCl"), (kwarg_cau "molinity_H2SO4") by (cbn; tauto).
  rewrite (setting_kwarg _ _ _ _ Su). cbn [as_str bind]. rewrite Lu.
  change (mem_str "ml" ["ml"; "g"; "kg"]) with true. change (String.eqb "ml" "ml") with true. cbn [assert_ bind].
  assert (M : forall r, map (fun x => (x ⊗ Fin r ⊗ nofQ 0.001)%num) (map Fin a) = map (fun x => Fin (x * r * 0.001)) a).
  { intros r. rewrite map_map. apply map_ext. intros x. now rewrite fin_q. }
  destruct D as [rho G|t x y N St Ut Sa Sb Pa Pb Pab|t m N St Ut Sm].
  - unfold kwarg at 1. rewrite G. cbn [as_num bind]. now rewrite M.
  - replace (kwarg "titrant_density" VNone kw) with (VNone : val xr) by (unfold kwarg; destruct N as [N|N]; now rewrite N).
    rewrite (setting_kwarg _ _ _ _ St). cbn [as_str bind]. rewrite Ut.
    change (mem_str "HCL" ["H2SO4"; "HCL"]) with true. change (String.eqb "HCL" "H2SO4") with false. cbn [assert_ bind].
    replace (nofQ 0.1 : xr) with (Fin 0.1) by (rewrite fin_q; f_equal; try (q2r; lra)).
    replace (nofQ 0.6 : xr) with (Fin 0.6) by (rewrite fin_q; f_equal; try (q2r; lra)).
    rewrite (setting_kwarg _ _ _ _ Sa), (setting_kwarg _ _ _ _ Sb). cbn [opt_num as_num bind].
    destruct (C12_HCl_NaCl_density x y Pa Pb Pab) as [-> _]. cbn [bind]. now rewrite M.
  - replace (kwarg "titrant_density" VNone kw) with (VNone : val xr) by (unfold kwarg; destruct N as [N|N]; now rewrite N).
    rewrite (setting_kwarg _ _ _ _ St). cbn [as_str bind]. rewrite Ut.
    change (mem_str "H2SO4" ["H2SO4"; "HCL"]) with true. change (String.eqb "H2SO4" "H2SO4") with true. cbn [assert_ bind].
    replace (nofQ 0.1 : xr) with (Fin 0.1) by (rewrite fin_q; f_equal; try (q2r; lra)).
    rewrite (setting_kwarg _ _ _ _ Sm). cbn [as_num bind].
    replace (fst (H2SO4_25C_EAIM (Fin m))) with (Fin (0.99750018 + 0.06181819 * m - 0.00285491 * m ^ 2)); [now rewrite M|].
    unfold H2SO4_25C_EAIM. cbn [fst]. rewrite !fin_q. cbn. f_equal; try (q2r; lra).
Qed.

(* volumes with the promised density, or the masses that follow from it: the same result *)
Theorem C121_volume_to_mass : forall (e e' : env xr) name path c s kw u u' rho amounts meas temps,
  same_services e e' -> located kw name path ->
  (* both files read the same way; one has volumes in ml, the other the corresponding masses in kg *)
  read_dat e path (get_kwargs_for keys_read_dat kw None) =
    Ok (Dat {| dd_titrant_amount := map Fin amounts; dd_measurement := meas; dd_temperature := temps |}) ->
  read_dat e' path (get_kwargs_for keys_read_dat kw None) =
    Ok (Dat {| dd_titrant_amount := map (fun v => Fin (v * rho * 0.001)) amounts; dd_measurement := meas; dd_temperature := temps |}) ->
  setting kw "titrant_amount_unit" (VStr "ml") (VStr u) -> lower u = "ml" -> lower u' = "kg" ->
  density_is kw rho ->
  files_solve e (VStr name) c s kw = files_solve e' (VStr name) c s (dset "titrant_amount_unit" (VStr u') kw) /\
  files_calibrate e (VStr name) c s kw = files_calibrate e' (VStr name) c s (dset "titrant_amount_unit" (VStr u') kw).
Proof.
  intros e e' name path c s kw u u' rho amounts meas temps S L R R' Su Lu Lu' D.
  assert (I : In "titrant_amount_unit" titrant_settings) by (cbn; tauto).
  assert (LL : load e (VStr name) s (without_mode kw) = load e' (VStr name) s (without_mode (dset "titrant_amount_unit" (VStr u') kw))).
  { rewrite wm_dset by discriminate. rewrite load_dset by exact I. unfold load.
    assert (F : full_name (VStr name) (without_mode kw) = Ok path).
    { transitivity (full_name (VStr name) kw); [|now apply located_join]. unfold full_name. now rewrite dget_wm. }
    rewrite F. cbn [bind]. rewrite !(gkf_wm keys_read_dat) by (apply mem_str_false; reflexivity). rewrite R, R'. cbn [bind].
    match goal with |- bind ?x _ = bind ?y _ => assert (E : x = y) end.
    { unfold amount_units_dat, amount_units. cbn [dd_titrant_amount dd_measurement dd_temperature].
      rewrite check_kwargs_dset by (cbn; tauto). rewrite (chosen_density kw rho D u amounts Su Lu).
      unfold cau_titrant_mass, cau_analyte_mass. kwsimp. cbn [as_str bind]. rewrite Lu'.
      change (mem_str "kg" ["ml"; "g"; "kg"]) with true. change (String.eqb "kg" "ml") with false. change (String.eqb "kg" "g") with false.
      reflexivity. }
    rewrite E. destruct S as (S1 & S2 & S3 & S4). clear - S1 S2 S3 S4.
    match goal with |- bind ?x _ = _ => destruct x as [cv|]; cbn [bind]; [|reflexivity] end.
    destruct e, e'; cbn in S1, S2, S3, S4; subst. reflexivity. }
  unfold files_solve, files_calibrate. rewrite <- LL, mode_dset, !wm_dset, titr_dset by (exact I || discriminate).
  split.
  - destruct (load e (VStr name) s (without_mode kw)) as [[cv [t ks]]|]; cbn [bind]; [|reflexivity].
    destruct (as_num c); cbn [bind]; [|reflexivity]. destruct (add_titrant_totals _ _ _ _ _ _) as [t' []]; cbn [bind]; [|reflexivity].
    rewrite rest_solve by exact I. destruct S as (S1 & S2 & S3 & S4). clear - S4.
    unfold dispatch_solve, call_solve_emf. now rewrite S4.
  - destruct (load e (VStr name) s (without_mode kw)) as [[cv [t ks]]|]; cbn [bind]; [|reflexivity].
    destruct (as_num c); cbn [bind]; [|reflexivity].
    rewrite rest_calibrate by exact I. destruct S as (S1 & S2 & S3 & S4). clear - S4.
    unfold dispatch_calibrate, call_calibrate_emf, call_calibrate_pH, call_calibrate_pH_gran. now rewrite S4.
Qed.

(* ------------------------------------------------------------------ *)
(** * Examples *)

(* every case of the densities occurs: nothing said, sulfuric acid, other molinities, a density given *)
Example C121_densities :
  density_is [] (DSC07 0.1 0.6) /\ density_is [("titrant", VStr "hcl"); ("molinity_HCl", VNum (Fin 0.2))] (DSC07 0.2 0.6) /\
  density_is [("titrant", VStr "H2SO4"); ("titrant_density", VNone)] (0.99750018 + 0.06181819 * 0.1 - 0.00285491 * 0.1 ^ 2) /\
  density_is [("titrant", VStr "H2SO4"); ("titrant_density", VNum (Fin 1.02))] 1.02.
Proof.
  repeat split.
  - apply (Hydrochloric _ "HCl"); try reflexivity; try lra; [left|right|right|right]; now repeat split.
  - apply (Hydrochloric _ "hcl"); try reflexivity; try lra; [left|left|left|right]; now repeat split.
  - apply (Sulfuric _ "H2SO4"); try reflexivity; [right|left|right]; now repeat split.
  - now apply AsGiven.
Qed.

Definition weighed_text : string :=
  (line ["header"] ++ line ["header"] ++ line ["0"; "3.5"; "25"] ++ line ["0.00102"; "3.6"; "25"])%string.
Definition weighed_env : env xr :=
  {| e_file := fun _ => Some weighed_text; e_excel := fun _ => None; e_salts := e_salts tiny_env; e_equil := e_equil tiny_env;
     e_sys_salt := e_sys_salt tiny_env; e_strat := e_strat tiny_env |}.
Definition volume_kw : kwargs xr := [("analyte_mass", VNum (Fin 1)); ("solve_mode", VStr "pH"); ("titrant_density", VNum (Fin 1.02))].

(* one file says 0 and 1 ml, the other 0 and 0.00102 kg; the density is 1.02 g/ml *)
Example C121_nonvacuous : exists meas temps,
  same_services tiny_env weighed_env /\ located volume_kw "gen.dat" "gen.dat" /\ density_is volume_kw 1.02 /\
  setting volume_kw "titrant_amount_unit" (VStr "ml") (VStr "ml") /\
  read_dat tiny_env "gen.dat" (get_kwargs_for keys_read_dat volume_kw None) =
    Ok (Dat {| dd_titrant_amount := map Fin [0; 1]; dd_measurement := meas; dd_temperature := temps |}) /\
  read_dat weighed_env "gen.dat" (get_kwargs_for keys_read_dat volume_kw None) =
    Ok (Dat {| dd_titrant_amount := map (fun v => Fin (v * 1.02 * 0.001)) [0; 1]; dd_measurement := meas; dd_temperature := temps |}).
Proof.
  exists [dec 35 (-1); dec 36 (-1)], [dec 25 0; dec 25 0].
  repeat split; try (left; now repeat split); try (right; now repeat split); try (now apply AsGiven).
  - transitivity (Ok (Dat tiny_dd)); [exact gen_read|]. unfold tiny_dd. do 3 f_equal. cbn [map].
    assert (Z : dec 0 0 = Fin 0) by (cbn; f_equal; unfold Q2R; cbn; lra).
    assert (O : dec 1 0 = Fin 1) by (cbn; f_equal; unfold Q2R; cbn; lra).
    now rewrite Z, O.
  - transitivity (Ok (Dat {| dd_titrant_amount := [dec 0 0; dec 102 (-5)]; dd_measurement := [dec 35 (-1); dec 36 (-1)]; dd_temperature := [dec 25 0; dec 25 0] |}));
      [reflexivity|]. do 3 f_equal. cbn [map].
    assert (Z : dec 0 0 = Fin (0 * 1.02 * 0.001)) by (cbn; f_equal; unfold Q2R; cbn; lra).
    assert (O : dec 102 (-5) = Fin (1 * 1.02 * 0.001)) by (cbn; f_equal; unfold Q2R; cbn; lra).
    now rewrite Z, O.
Qed.
Example C121_unused_nonvacuous : unused volume_kw "molinity_HCl" /\ unused ([] : kwargs xr) "molinity_H2SO4".
Proof.
  split; [eapply Measured; [reflexivity|discriminate|cbn; tauto]|]. apply (NotSulfuric _ "HCl"); [right; now split|reflexivity].
Qed.
Print Assumptions C121_volume_to_mass.
Print Assumptions C121_unused_settings.
