(* PropWorkflow.v -- C128: calibrated against references, ideal titrations give the true titrant molinity and the true alkalinities *)
From Coq Require Import Reals Qreals Lra Lia List.
From Verif Require Import Files Dataset DictLemmas SpecDataset SpecSettings SettingsProofs TableProofs CalProofs PropBatch PropSupplied PropReference PropModes PropCalibrate PropCases PropReport RowProofs DatasetProofs PropHistory.
From Verif Require Import XR XRLemmas SpecConvert SpecCore SpecSimulate SimProofs SolveProofs PropSolve PropMonotone Witness PropSulfuric PropTransfer.
Import ListNotations.
Open Scope R_scope.
Open Scope string_scope.
Open Scope list_scope.

(* ------------------------------------------------------------------ *)
(** * Specification *)

(* Read with these settings, file f is an ideal titration in pH of a sample of alkalinity A (mol/kg) with acid of
   molinity c: at every point used the solution is the sample diluted with that much acid, and some acid was added. *)
Definition ideal_pH (e : env xr) (f s : val xr) (kw : kwargs xr) (c A : R) : Prop :=
  mode_is kw "ph" /\
  exists r tm pH M pmin pmax n,
    files_solve e f (VNum (Fin c)) s kw = Ok (SrPh r) /\ sound_run r tm pH M /\ window kw (Fin pmin) (Fin pmax) (Fin n) /\ n <> 0 /\
    (exists i p m, nth_error pH i = Some p /\ nth_error tm i = Some m /\ pmin <= p <= pmax /\ 0 < m) /\
    (forall i p m, nth_error pH i = Some p -> nth_error tm i = Some m -> pmin <= p <= pmax ->
       alkalinity (Fin p) (slice_at (sp_totals r) i) (slice_at (sp_k_constants r) i) 3 = Ok (Fin ((M * A - m * c * n) / (M + m)))).

(* The same for a Gran plot in pH: at the points used the Gran function is a straight line that reaches zero at the
   equivalence point. *)
Definition ideal_gran (e : env xr) (f s : val xr) (kw : kwargs xr) (c A : R) : Prop :=
  mode_is kw "ph_gran" /\ A <> 0 /\
  exists r cv t ks tm pH M pmin pmax n k,
    files_solve e f (VNum (Fin c)) s kw = Ok (SrPhGran r) /\ load e f s (without_mode kw) = Ok (cv, (t, ks)) /\
    cv_titrant_mass cv = map Fin tm /\ cv_measurement cv = map Fin pH /\ cv_analyte_mass cv = Fin M /\ length pH = length tm /\
    window kw (Fin pmin) (Fin pmax) (Fin n) /\ pmin < pmax /\ M <> 0 /\ c * n <> 0 /\ k <> 0 /\ two_used_masses pmin pmax pH tm /\
    (forall i p m, nth_error pH i = Some p -> nth_error tm i = Some m -> pmin <= p <= pmax ->
       gran_value m M p = k * (m * c * n - M * A)).

(* what the settings of the row make of its file *)
Definition ideal_row (e : env xr) (kw : kwargs xr) (r : row xr) (c A : R) : Prop :=
  without_old_names kw r /\
  exists f s kwr, dget "file_name" r = Some f /\ dget "salinity" r = Some s /\
    settings_of (calibrate_settings ++ solve_settings) kw r kwr /\ default_logic kwr /\ no_titrant_totals kwr /\
    (ideal_pH e f s kwr c A \/ ideal_gran e f s kwr c A) /\
    (* if it is calibrated, the least-squares search ends at a number with residual zero *)
    (forall cert o, dget "alkalinity_certified" r = Some cert -> ~ is_null cert -> files_calibrate e f cert s kwr = Ok o ->
       (exists m, or_x o = [Fin m]) /\ or_fun o = [Fin 0]).

(* ------------------------------------------------------------------ *)
(** * One file *)

Lemma same_mode (e : env xr) h m0 s kw sr0 : files_solve e h m0 s kw = Ok sr0 ->
  (mode_is kw "ph" -> exists q, sr0 = SrPh q) /\ (mode_is kw "ph_gran" -> exists q, sr0 = SrPhGran q).
Proof.
  intros E. split; intros Hm.
  - destruct (C50_mode_selects_solver e h _ s kw "ph" _ Hm E) as (? & ? & ? & ? & ? & _ & _ & _ & S). unfold solved_as in S. cbv zeta in S.
    destruct S as (? & ? & ? & _ & r0 & -> & _). eauto.
  - destruct (C50_mode_selects_solver e h _ s kw "ph_gran" _ Hm E) as (? & ? & ? & ? & ? & _ & _ & _ & S). unfold solved_as in S. cbv zeta in S.
    destruct S as (? & ? & ? & _ & r0 & -> & _). eauto.
Qed.

Lemma ratio_pos u tm M : 0 < M -> Forall (fun m => 0 <= m) tm -> (exists i m, nth_error u i = Some true /\ nth_error tm i = Some m /\ 0 < m) ->
  (0 < n_used u)%nat -> 0 < acid_ratio u tm M.
Proof.
  intros HM Hm (i & m & Hu & Ht & Pm) Hn. unfold acid_ratio.
  assert (Nn : forall u tm, Forall (fun m => 0 <= m) tm -> 0 <= fold_right Rplus 0 (mask u tm)).
  { clear. induction u as [|b u IH]; intros [|x tm] F; cbn; try lra. inversion F; subst. specialize (IH tm H2). destruct b; cbn; lra. }
  assert (0 < fold_right Rplus 0 (mask u tm)).
  { clear Hn. revert u tm Hm Hu Ht. induction i as [|i IH]; intros [|b u] [|x tm] F Hu Ht; try discriminate; inversion F; subst.
    - cbn in Hu, Ht. injection Hu as ->. injection Ht as ->. cbn. specialize (Nn u tm H2). lra.
    - cbn in Hu, Ht. specialize (IH u tm H2 Hu Ht). destruct b; cbn; lra. }
  apply Rdiv_lt_0_compat; [|exact HM]. apply Rdiv_lt_0_compat; [assumption|]. now apply lt_0_INR.
Qed.

Lemma pinned (e : env xr) f s kw c A : no_titrant_totals kw -> ideal_pH e f s kw c A \/ ideal_gran e f s kw c A ->
  exists sr, files_solve e f (VNum (Fin c)) s kw = Ok sr /\ sr_alkalinity sr = Fin (1000000 * A) /\
    forall m sr', files_solve e f (VNum (Fin m)) s kw = Ok sr' -> sr_alkalinity sr' = Fin (1000000 * A) -> m = c.
Proof.
  intros Nt [(Hm & r & tm & pH & M & pmin & pmax & n & E & S & W & Nn & (i & p & m & Ip & Im & Wp & Pm) & P)|
             (Hm & NA & r & cv & t & ks & tm & pH & M & pmin & pmax & n & k & E & L & C1 & C2 & C3 & Ll & W & Lt & NM & Nc & Nk & Tw & P)].
  - assert (Al : sp_alkalinity r = Fin (1000000 * A) /\ nth_error (sp_used r) i = Some true).
    { destruct (ph_inv e f (VNum (Fin c)) s kw r (Fin c) _ _ _ Hm Nt eq_refl W E) as (cv & t & ks & L & Q).
      destruct S as (H1 & H2 & H3 & H4 & _). destruct (fields _ _ _ _ _ _ _ _ _ _ _ Q) as (F1 & F2 & F3 & F4 & F5).
      rewrite F1 in H1. rewrite F2 in H2. rewrite F3 in H3. rewrite F4, F5 in P. rewrite H1, H2, H3 in Q.
      split; [eapply C30_solve_pH_exact; [exact H4|exact Q|exists i, p; auto|exact P]|].
      destruct (C31_used_is_closed_window (Fin c) (map Fin tm) (map Fin pH) (cv_temperature cv) (Fin M) t ks pmin pmax (Fin n)) as [U _].
      apply (U r Q i (Fin p)). { rewrite nth_error_map, Ip. reflexivity. } exists p. auto. }
    destruct Al as [Al Us]. exists (SrPh r). split; [exact E|]. split; [exact Al|].
    intros m' sr' E' A'. destruct (proj1 (same_mode _ _ _ _ _ _ E') Hm) as (r' & ->). cbn [sr_alkalinity] in A'.
    destruct (C127_molinity_error e f s kw c m' r r' tm pH M pmin pmax n Hm Nt W E E' S) as (a & a' & B & B' & D).
    rewrite Al in B. rewrite A' in B'. apply fin_inj in B. apply fin_inj in B'. subst a a'.
    destruct S as (_ & _ & _ & [HM Fm] & _ & Hn).
    assert (0 < acid_ratio (sp_used r) tm M) by (apply ratio_pos; [exact HM|exact Fm|exists i, m; auto|exact Hn]).
    assert (Z : n * (m' - c) * acid_ratio (sp_used r) tm M = 0) by lra.
    apply Rmult_integral in Z. destruct Z as [Z|Z]; [|lra]. apply Rmult_integral in Z. destruct Z as [Z|Z]; [contradiction|lra].
  - assert (Al : sg_alkalinity r = Fin (1000000 * A)).
    { destruct (phgran_inv e f (VNum (Fin c)) s kw r (Fin c) Hm Nt eq_refl E) as (cv' & t' & ks' & p1 & p2 & n' & L' & (W1' & W2' & W3') & Q).
      rewrite L in L'. apply ok_inj in L'. apply pair_inj in L'. destruct L' as [<- L']. apply pair_inj in L'. destruct L' as [<- <-].
      destruct W as (W1 & W2 & W3).
      rewrite <- (number_unique _ _ _ _ _ W1 W1'), <- (number_unique _ _ _ _ _ W2 W2'), <- (number_unique _ _ _ _ _ W3 W3'), C1, C2, C3 in Q.
      destruct (C34_pH_gran_exact c tm pH (cv_temperature cv) M t ks pmin pmax n A k Ll NM Nc Nk Lt Tw P) as (r0 & Q0 & A0).
      rewrite Q0 in Q. apply ok_inj in Q. now subst r0. }
    exists (SrPhGran r). split; [exact E|]. split; [exact Al|].
    intros m' sr' E' A'. destruct (proj2 (same_mode _ _ _ _ _ _ E') Hm) as (r' & ->). cbn [sr_alkalinity] in A'.
    destruct (gran_ratio e f s kw c m' r r' _ _ Hm Nt E E' Al A') as (q & D & D').
    assert (Z : q * (m' - c) = 0) by lra. apply Rmult_integral in Z. destruct Z as [Z|Z]; [|lra].
    exfalso. subst q. apply NA. lra.
Qed.

Lemma settings_sub names names' (kw : kwargs xr) r kwr : (forall k, In k names' -> In k names) -> settings_of names kw r kwr -> settings_of names' kw r kwr.
Proof. intros I [W G]. split; [exact W|]. intros k K. apply G, I, K. Qed.

Lemma calibrated_finite (e : env xr) kw r x : calibrate_row e kw r = Ok x -> nisnan x = false ->
  exists c g, dget "alkalinity_certified" r = Some c /\ isnull c = false /\ dget "file_good" r = Some g /\ truthy g = true.
Proof.
  unfold calibrate_row. intros E N. apply bind_inv in E. destruct E as (c & Gc & E). apply bind_inv in E. destruct E as (g & Gg & E).
  apply attr_inv in Gc. apply attr_inv in Gg.
  destruct (notnull c && truthy g)%bool eqn:B; [|apply ok_inj in E; now subst x]. apply andb_prop in B. destruct B as [B1 B2].
  exists c, g. unfold notnull in B1. apply Bool.negb_true_iff in B1. auto.
Qed.

Lemma all_same (l : list xr) c : (forall x, In x l -> x = Fin c) -> l = map Fin (repeat c (length l)).
Proof.
  induction l as [|x l IH]; intros P; [reflexivity|]. cbn. rewrite <- IH; [now rewrite (P x (or_introl eq_refl))|]. intros y I. apply P. now right.
Qed.

Lemma mean_repeat c n : (0 < n)%nat -> fold_right Rplus 0 (repeat c n) / INR (length (repeat c n)) = c.
Proof.
  intros P. rewrite repeat_length. assert (S : fold_right Rplus 0 (repeat c n) = INR n * c).
  { clear. induction n as [|n IH]; [cbn; lra|]. cbn [repeat fold_right]. rewrite IH, S_INR. lra. }
  rewrite S. apply lt_0_INR in P. field. lra.
Qed.

(* ------------------------------------------------------------------ *)
(** * The whole table *)

Lemma file_true (e : env xr) f s kw c a y o : default_logic kw -> no_titrant_totals kw -> ideal_pH e f s kw c a \/ ideal_gran e f s kw c a ->
  files_calibrate e f (VNum (Fin y)) s kw = Ok o -> y = 1000000 * a -> (exists m, or_x o = [Fin m]) /\ or_fun o = [Fin 0] -> or_x o = [Fin c].
Proof.
  intros Dl Nt Id Eo Ya [(m & Xo) Fo].
  destruct (C60_file_solved_at_certified e f _ s kw o Eo Fo Dl (or_introl Nt)) as (m' & sr & y' & Xo' & Cy & Es & Ay).
  apply ok_inj in Cy. apply fin_inj in Cy. subst y'. rewrite Xo in Xo'. apply (f_equal (fun l => nth 0 l m')) in Xo'. cbn [nth] in Xo'. subst m'.
  destruct (pinned e f s kw c a Nt Id) as (_ & _ & _ & U). rewrite <- Ya in U. rewrite Xo. now rewrite (U m sr Es Ay).
Qed.

Lemma row_true (e : env xr) kw r c a x cert g : NoDup (dkeys kw) -> calibrate_row e kw r = Ok x -> nisnan x = false -> ideal_row e kw r c a ->
  dget "alkalinity_certified" r = Some cert -> cert = VNum (Fin (1000000 * a)) -> dget "file_good" r = Some g -> truthy g = true -> x = Fin c.
Proof.
  intros Wk Cx Nx (O & f & s & kwr & Gf & Gs & St & Dl & Nt & Id & Ex) Gc Ec Gg Tg.
  pose proof (settings_like_cal e f cert s kw r kwr Wk (settings_sub _ _ _ _ _ (fun k K => in_or_app _ _ _ (or_introl K)) St)) as Q.
  rewrite (calibrate_row_eq e kw r kw f cert s g (backcompat_id _ _ O) Gf Gc Gs Gg), Tg in Cx.
  revert Q Cx. generalize (files_calibrate e f cert s (get_kwargs_for keys_calibrate kw (Some r))) as X. intros X Q Cx.
  destruct (notnull cert && true)%bool; [|apply ok_inj in Cx; subst x; discriminate].
  destruct X as [o|]; [|apply ok_inj in Cx; subst x; discriminate].
  destruct (files_calibrate e f cert s kwr) as [o'|] eqn:Eo; [|destruct Q]. unfold req in Q. subst o'.
  assert (Nn : ~ is_null cert) by (subst cert; discriminate). pose proof (Ex _ _ Gc Nn Eo) as Z. rewrite Ec in Eo. pose proof (file_true e f s kwr c a _ o Dl Nt Id Eo eq_refl Z) as Y.
  rewrite Y in Cx. now apply ok_inj in Cx.
Qed.

Lemma all_true (e : env xr) kw ds ds' b c (A : nat -> R) :
  is_table ds -> NoDup (dkeys kw) ->
  all_cells ds "reference_good" (fun v => is_null v \/ exists g : bool, v = VBool g) ->
  calibrate e kw ds = Ok ds' ->
  (forall i r b' g, nth_error (f_rows ds') i = Some r -> dget "analysis_batch" r = Some b' -> key_eqb b' b = true ->
     dget "file_good" r = Some g -> truthy g = true ->
     ideal_row e kw r c (A i) /\
     (dget "reference_good" r = Some (VBool true) -> dget "alkalinity_certified" r = Some (VNum (Fin (1000000 * A i))))) ->
  batch_references ds' b = map Fin (repeat c (length (batch_references ds' b))).
Proof.
  intros W Wk F E P. apply all_same. intros x I. unfold batch_references in I. apply in_flat_map in I. destruct I as (r0 & I0 & Ix).
  apply In_nth_error in I0. destruct I0 as (j & Nj). unfold good_reference in Ix.
  destruct (dget "analysis_batch" r0) as [b'|] eqn:Gb'; [|destruct Ix].
  destruct (dget "reference_good" r0) as [vr|] eqn:Gr; [|destruct Ix]. destruct vr as [|[|]| | | | |]; try destruct Ix.
  destruct (dget "titrant_molinity_here" r0) as [vh|] eqn:Gh; [|destruct Ix]. destruct vh as [| | |y| | |]; try destruct Ix.
  destruct (key_eqb b' b) eqn:Kb'; [|destruct Ix]. destruct (nisnan y) eqn:Ny; cbn [andb negb] in Ix; [destruct Ix|].
  destruct Ix as [->|[]].
  destruct (here_fixed e kw ds ds' j r0 W Wk E Nj) as (x' & Cx & Gx). rewrite Gh in Gx. apply some_inj in Gx. injection Gx as <-.
  destruct (calibrated_finite e kw r0 x Cx Ny) as (cert & g0 & Gc & Nc & Gg0 & Tg0).
  destruct (P j r0 b' g0 Nj Gb' Kb' Gg0 Tg0) as [Id Ce]. specialize (Ce Gr). rewrite Gc in Ce. apply some_inj in Ce.
  exact (row_true e kw r0 c (A j) x cert g0 Wk Cx Ny Id Gc Ce Gg0 Tg0).
Qed.

(* Every file in the batch that is not marked bad holds an ideal titration of a sample of alkalinity A i with the same
   acid, of molinity c; the certified values of the references are their true alkalinities; at least one reference was
   calibrated.  Then calibrate finds the molinity c and, for every file not marked bad, the alkalinity A i. *)
Theorem C128_true_values : forall (e : env xr) kw ds ds' b c (A : nat -> R),
  is_table ds -> NoDup (dkeys kw) ->
  all_cells ds "reference_good" (fun v => is_null v \/ exists g : bool, v = VBool g) ->
  calibrate e kw ds = Ok ds' ->
  (forall i r b' g, nth_error (f_rows ds') i = Some r -> dget "analysis_batch" r = Some b' -> key_eqb b' b = true ->
     dget "file_good" r = Some g -> truthy g = true ->
     ideal_row e kw r c (A i) /\
     (dget "reference_good" r = Some (VBool true) -> dget "alkalinity_certified" r = Some (VNum (Fin (1000000 * A i))))) ->
  batch_references ds' b <> [] ->
  forall i r g, nth_error (f_rows ds') i = Some r -> dget "analysis_batch" r = Some b -> key_eqb b b = true ->
    dget "file_good" r = Some g -> truthy g = true ->
    value ds' i "titrant_molinity" = Some (VNum (Fin c)) /\ value ds' i "alkalinity" = Some (VNum (Fin (1000000 * A i))).
Proof.
  intros e kw ds ds' b c A W Wk F E P Ne i r g Ni Gb Kb Gg Tg.
  assert (B := all_true e kw ds ds' b c A W Wk F E P).
  assert (Gm : value ds' i "titrant_molinity" = Some (VNum (Fin c))).
  { assert (Vb : value ds' i "analysis_batch" = Some b) by (unfold value; now rewrite Ni, Gb).
    rewrite (C53_batch_mean_real e kw ds ds' i b _ W F E Vb B).
    destruct (batch_references ds' b) as [|y l]; [now destruct Ne|]. cbn [length repeat].
    do 3 f_equal. exact (mean_repeat c (S (length l)) ltac:(lia)). }
  split; [exact Gm|].
  destruct (P i r b g Ni Gb Kb Gg Tg) as [(O & f & s & kwr & Gf & Gs & St & Dl & Nt & Id & Ex) _].
  destruct (pinned e f s kwr c (A i) Nt Id) as (sr & Es & As & _).
  apply calibrate_inv in E. destruct E as (ds1 & E1 & E2).
  assert (W1 := wff_calibrate_only e kw _ ds1 W E1).
  assert (Gm' : dget "titrant_molinity" r = Some (VNum (Fin c))) by (unfold value in Gm; now rewrite Ni in Gm).
  destruct (C111_rows_report_solutions e kw ds1 ds' i r kwr f (VNum (Fin c)) s g W1 Wk E2 Ni O
    (settings_sub _ _ _ _ _ (fun k K => in_or_app _ _ _ (or_intror K)) St) Gf Gm' Gs Gg) as [R _].
  rewrite <- As. apply (R ltac:(discriminate) Tg sr Es).
  destruct sr; cbn [reported In sr_alkalinity]; left; reflexivity.
Qed.

(* ------------------------------------------------------------------ *)
(** * A reference and a sample *)

Definition wf_kw (M : R) : kwargs xr := [("analyte_mass", VNum (Fin M)); ("titrant_amount_unit", VStr "kg"); ("opt_total_borate", VInt 1);
   ("total_borate", VNum (nofZ 35)); ("total_fluoride", VNum (nofZ 35)); ("total_sulfate", VNum (nofZ 35)); ("pH_min", VNum (Fin 3.55)); ("solve_mode", VStr "pH")].

Lemma wf_load M : 0 < M -> exists t ks, load sec_env (VStr "gen.dat") (VInt 35) (without_mode (wf_kw M)) = Ok (sec_cv M, (t, ks)) /\
  sane 2 t ks /\ exists l, alkalinity_arr (map Fin [3.5; 3.6]) t ks 3 = Ok l.
Proof.
  intros HM. unfold load. change (full_name _ _) with (Ok "gen.dat" : res string). cbn [bind].
  change (get_kwargs_for keys_read_dat (without_mode (wf_kw M)) None) with ([] : kwargs xr).
  change (read_dat sec_env "gen.dat" []) with (read_dat tiny_env "gen.dat" []). rewrite gen_read. cbn [bind].
  assert (Ec : amount_units_dat (Dat tiny_dd) (VInt 35) (get_kwargs_for keys_cau (without_mode (wf_kw M)) None) = Ok (sec_cv M)).
  { transitivity (Ok {| cv_titrant_mass := cv_titrant_mass tiny_cv; cv_measurement := cv_measurement tiny_cv; cv_temperature := cv_temperature tiny_cv;
      cv_analyte_mass := Fin M; cv_salinity := VInt 35 |}); [reflexivity|]. unfold sec_cv. cbn [tiny_cv cv_titrant_mass cv_measurement]. now rewrite mass_dec, pH_dec. }
  rewrite Ec. cbn [bind].
  change (get_kwargs_for keys_totals_ks (without_mode (wf_kw M)) None) with
    [("opt_total_borate", VInt 1); ("total_borate", VNum (nofZ 35)); ("total_fluoride", VNum (nofZ 35)); ("total_sulfate", VNum (nofZ 35 : xr))].
  unfold totals_ks, get_totals, get_k_constants, copy_if_pos.
  cbn [filter fst mem_str existsb keys_kwargs_totals keys_kwargs_k_constants String.eqb Ascii.eqb Bool.eqb orb].
  cbn [check_kwargs forallb fst mem_str existsb keys_get_totals keys_get_k_constants andb bind kwarg dget String.eqb Ascii.eqb Bool.eqb as_num orb set_given sec_env e_salts e_equil e_sys_salt tiny_env].
  rewrite gt00, ne31. eexists. eexists. split; [reflexivity|]. split; [|eexists; reflexivity].
  assert (D : dilution_factors (cv_titrant_mass (sec_cv M)) (cv_analyte_mass (sec_cv M)) = map Fin [M / (0 + M); M / (1 + M)]).
  { cbn [sec_cv cv_titrant_mass cv_analyte_mass]. rewrite ConvertProofs.df_list; [reflexivity|exact HM|repeat constructor; lra]. }
  rewrite D. cbn [fst snd]. rewrite ?fin_Z, ?fin_q, ?fin_mul.
  assert (0 < M / (0 + M)) by (apply Rdiv_lt_0_compat; lra). assert (0 < M / (1 + M)) by (apply Rdiv_lt_0_compat; lra).
  intros i Li. split.
  - intros k v G. unfold slice_at in G. rewrite dget_dmap in G. cbn [dget map] in G.
    repeat (destruct (String.eqb k _); [apply some_inj in G; destruct i as [|[|i]]; [| |lia]; cbn in G; subst v; eexists; (split; [reflexivity|nra])|]).
    discriminate.
  - intros k v G. unfold slice_at in G. rewrite dget_dmap in G. cbn in G.
    repeat (destruct (String.eqb k _); [apply some_inj in G; cbn in G; subst v; eexists; (split; [reflexivity|lra])|]).
    discriminate.
Qed.

Lemma wf_used : in_window (Fin 3.55) (nofZ 4) (map Fin [3.5; 3.6]) = [false; true].
Proof.
  rewrite fin_Z. unfold in_window. cbn. unfold x_leb, x_ltb, x_eqb, rltb, reqb.
  repeat match goal with |- context [Rlt_dec ?a ?b] => destruct (Rlt_dec a b); try (exfalso; lra) | |- context [Req_EM_T ?a ?b] => destruct (Req_EM_T a b); try (exfalso; lra) end; reflexivity.
Qed.

Lemma wf_solved M c : 0 < M -> exists r, files_solve sec_env (VStr "gen.dat") (VNum (Fin c)) (VInt 35) (wf_kw M) = Ok (SrPh r) /\
  sound_run r [0; 1] [3.5; 3.6] M /\ sp_used r = [false; true] /\
  exists S, alkalinity (Fin 3.6) (slice_at (sp_totals r) 1) (slice_at (sp_k_constants r) 1) 3 = Ok (Fin S).
Proof.
  intros HM. destruct (wf_load M HM) as (t & ks & L & S & l & Al).
  assert (LT : nltb (Fin 3.55) (nofZ 4) = true).
  { rewrite !fin_Z. cbn. unfold rltb. destruct (Rlt_dec _ _) as [|N]; [reflexivity|]. exfalso; apply N. lra. }
  unfold files_solve. rewrite L. cbn [bind as_num].
  change (get_kwargs_for keys_titrant_totals (without_mode (wf_kw M)) None) with ([] : kwargs xr). cbn [add_titrant_totals bind].
  unfold dispatch_solve. change (as_str (mode_of (wf_kw M))) with (Ok "pH" : res string). cbn [bind]. change (lower "pH") with "ph". cbn [String.eqb Ascii.eqb Bool.eqb].
  change (get_kwargs_for keys_solve_pH (without_mode (wf_kw M)) None) with ([("pH_min", VNum (Fin 3.55))] : kwargs xr).
  unfold call_solve_pH, kwarg. cbn [check_kwargs forallb fst mem_str existsb keys_solve_pH orb andb bind dget as_num String.eqb Ascii.eqb Bool.eqb].
  unfold solve_pH. cbn [sec_cv cv_titrant_mass cv_measurement cv_temperature cv_analyte_mass].
  rewrite !map_length. cbn [length Nat.eqb negb]. rewrite LT. cbn [assert_ bind]. unfold alkalinity_all, default_opt_pH_scale. rewrite Al. cbn [bind].
  eexists. split; [reflexivity|]. unfold sound_run. cbn [sp_titrant_mass sp_pH sp_analyte_mass sp_totals sp_k_constants sp_used]. rewrite wf_used.
  split; [|split; [reflexivity|]].
  - split; [reflexivity|]. split; [reflexivity|]. split; [reflexivity|]. split; [split; [exact HM|repeat constructor; lra]|].
    split; [exact S|]. cbn. lia.
  - assert (Aa : exists l', alkalinity_all (map Fin [3.5; 3.6]) (map Fin [0; 1]) (Fin M) (Fin c) (Fin 1) t ks = Ok l').
    { unfold alkalinity_all, default_opt_pH_scale. rewrite Al. cbn [bind]. eauto. }
    destruct Aa as (l' & Aa).
    destruct (all_finite c [0; 1] [3.5; 3.6] M 1 t ks l') as (lr & _ & _ & P).
    + split; [exact HM|repeat constructor; lra].
    + reflexivity.
    + intros i p Hp. apply S. destruct i as [|[|i]]; [lia|lia|]. destruct i; discriminate.
    + exact Aa.
    + destruct (P 1%nat 3.6 1 eq_refl eq_refl) as (S0 & Es & _). now exists S0.
Qed.

Lemma wf_facts M : mode_is (wf_kw M) "ph" /\ no_titrant_totals (wf_kw M) /\ default_logic (wf_kw M) /\ window (wf_kw M) (Fin 3.55) (Fin 4) (Fin 1).
Proof.
  split; [reflexivity|]. split; [|split; [left; reflexivity|]].
  - intros k I. cbn in I. destruct I as [<-|[<-|[<-|[]]]]; reflexivity.
  - repeat split; unfold number; cbn [wf_kw dget String.eqb Ascii.eqb Bool.eqb as_num]; try reflexivity; symmetry; apply fin_Z.
Qed.

(* the reference holds 2 kg: its search ends after one secant step *)
Lemma wf_calibrated y : exists m, files_calibrate sec_env (VStr "gen.dat") (VNum (Fin y)) (VInt 35) (wf_kw 2) = Ok {| or_x := [Fin m]; or_fun := [Fin 0] |}.
Proof.
  destruct (wf_facts 2) as (Mi & Nt & Dl & Wi). assert (P2 : 0 < 2) by lra.
  assert (Al : exists b, forall t ks, load sec_env (VStr "gen.dat") (VInt 35) (without_mode (wf_kw 2)) = Ok (sec_cv 2, (t, ks)) -> forall c, exists r,
    solve_pH (Fin c) (map Fin [0; 1]) (map Fin [3.5; 3.6]) (cv_temperature tiny_cv) (Fin 2) t ks (Fin 3.55) (nofZ 4) (nofZ 1) = Ok r /\ sp_alkalinity r = Fin (500000 * c + b)).
  { destruct (wf_solved 2 0 P2) as (r0 & E0 & S0 & U0 & _).
    destruct (C127_molinity_error sec_env _ _ (wf_kw 2) 0 0 r0 r0 _ _ _ _ _ _ Mi Nt Wi E0 E0 S0) as (b & _ & B & _).
    exists b. intros t ks L c. destruct (wf_solved 2 c P2) as (r & E & S & U & _).
    destruct (C127_molinity_error sec_env _ _ (wf_kw 2) 0 c r0 r _ _ _ _ _ _ Mi Nt Wi E0 E S0) as (b1 & b' & B1 & B' & D).
    rewrite B in B1. apply fin_inj in B1. subst b1.
    destruct (ph_inv sec_env _ (VNum (Fin c)) _ (wf_kw 2) r (Fin c) _ _ _ Mi Nt eq_refl Wi E) as (cv & t' & ks' & L' & Q).
    rewrite L in L'. apply ok_inj in L'. apply pair_inj in L'. destruct L' as [<- L']. apply pair_inj in L'. destruct L' as [<- <-].
    rewrite !fin_Z. exists r. split; [exact Q|]. rewrite B'. f_equal. rewrite U0 in D. unfold acid_ratio, n_used in D. cbn in D. lra. }
  destruct Al as (b & Al). exists (0.1 - (500000 * 0.1 + b - y) / 500000).
  destruct (wf_load 2 P2) as (t & ks & L & _). specialize (Al t ks L).
  unfold files_calibrate. rewrite L. cbn [bind as_num]. unfold dispatch_calibrate. change (as_str (mode_of (wf_kw 2))) with (Ok "pH" : res string). cbn [bind].
  change (lower "pH") with "ph". cbn [String.eqb Ascii.eqb Bool.eqb].
  replace (get_kwargs_for keys_calibrate_pH _ None) with ([("pH_min", VNum (Fin 3.55))] : kwargs xr) by reflexivity.
  unfold call_calibrate_pH. cbn [check_kwargs forallb fst mem_str existsb keys_calibrate_pH orb andb negb kwarg dget as_num bind titrant_totals_of filter String.eqb Ascii.eqb Bool.eqb].
  replace (nofQ 0.1 : xr) with (Fin 0.1) by (cbn; f_equal; unfold Q2R; cbn; lra).
  destruct (Al 0.1) as (r & Er & Ar). destruct (Al (0.1 - (500000 * 0.1 + b - y) / 500000)) as (r2 & Er2 & Ar2).
  unfold calibrate_pH, least_squares. cbn [existsb nisnan NumXR x_isnan orb lsqfun_calibrate sec_cv cv_titrant_mass cv_measurement cv_temperature cv_analyte_mass].
  cbn [sec_env e_strat]. rewrite add_nothing. cbn [tiny_cv cv_temperature] in Er, Er2 |- *. rewrite Er. cbn [bind]. rewrite add_nothing, Ar.
  rewrite fin_sub. cbn [forallb nisfinite NumXR x_isfinite andb secant s_max s_next lsq_loop].
  cbn [lsqfun_calibrate]. rewrite add_nothing, Er2. cbn [bind]. rewrite add_nothing, Ar2, fin_sub.
  cbn [app secant s_next lsq_loop s_pick nth fst snd].
  replace (500000 * (0.1 - (500000 * 0.1 + b - y) / 500000) + b - y) with 0 by field. reflexivity.
Qed.

(* titrated with acid of molinity c, the sample of M kg has this alkalinity *)
Lemma wf_ideal M c : 0 < M -> exists A, ideal_pH sec_env (VStr "gen.dat") (VInt 35) (wf_kw M) c A.
Proof.
  intros HM. destruct (wf_solved M c HM) as (r & E & S & U & S1 & Al). destruct (wf_facts M) as (Mi & Nt & Dl & Wi).
  exists ((S1 * (M + 1) + c) / M). split; [exact Mi|]. exists r, [0; 1], [3.5; 3.6], M, 3.55, 4, 1.
  split; [exact E|]. split; [exact S|]. split; [exact Wi|]. split; [lra|]. split.
  - exists 1%nat, 3.6, 1. repeat split; try reflexivity; lra.
  - intros [|[|i]] p m Hp Hm Wp; cbn in Hp, Hm; [| |destruct i; discriminate]; injection Hp as <-; injection Hm as <-; [lra|].
    rewrite Al. do 2 f_equal. field. lra.
Qed.

Definition wf_row (M : R) (cert : xr) : row xr :=
  [("file_name", VStr "gen.dat"); ("salinity", VInt 35); ("file_good", VBool true); ("analyte_mass", VNum (Fin M)); ("titrant_amount_unit", VStr "kg");
   ("solve_mode", VStr "pH"); ("pH_min", VNum (Fin 3.55)); ("alkalinity_certified", VNum cert); ("analysis_batch", VInt 1)].
(* a reference of 2 kg and a sample of 1 kg *)
Definition wf_table (cert : R) : frame xr := {| f_cols := dkeys (wf_row 2 (Fin cert)); f_rows := [wf_row 2 (Fin cert); wf_row 1 NaN] |}.
Definition wf_prepped (M : R) (cert : xr) : row xr :=
  wf_row M cert ++ [("opt_total_borate", VInt 1); ("total_sulfate", VNum (nofZ 35)); ("total_borate", VNum (nofZ 35)); ("total_fluoride", VNum (nofZ 35))].

Lemma wf_salt k (r : row xr) z : dget k r = None -> dget "salinity" r = Some (VInt z) -> dget "opt_total_borate" r = None ->
  salt_val sec_env k r = Ok (VNum (nofZ z)).
Proof. exact (tiny_salt k r z). Qed.

Lemma wf_prep M cert : prep_row sec_env (f_cols (wf_table 0)) (wf_row M cert) = Ok (wf_prepped M cert).
Proof. unfold prep_row. rewrite salt_row_spec. rewrite !(wf_salt _ (wf_row M cert) 35) by reflexivity. cbn [bind]. reflexivity. Qed.

Lemma wf_settings M cert : get_kwargs_for keys_calibrate [] (Some (wf_prepped M cert)) = wf_kw M.
Proof. reflexivity. Qed.

(* a row of the finished table that started as this one *)
Lemma wf_finished M cert cols rr r m : cols = f_cols (wf_table 0) -> ref_one sec_env [] cols (wf_row M cert) = Ok rr ->
  solve_one sec_env [] (addc "titrant_molinity" (ref_cols cols)) (dset "titrant_molinity" (VNum m) rr) = Ok r -> dget "gran_logic" r = None ->
  (forall k, In k (calibrate_settings ++ solve_settings) -> dget k r = dget k (wf_prepped M cert)) /\
  (forall k, In k ["file_name"; "alkalinity_certified"; "salinity"; "file_good"; "read_dat_method"] -> dget k r = dget k (wf_prepped M cert)) /\
  dget "analysis_batch" r = Some (VInt 1) /\
  exists x, calibrate_row sec_env [] (wf_prepped M cert) = Ok x /\ dget "titrant_molinity_here" r = Some (VNum x) /\
    (nisnan x = false -> dget "reference_good" r = Some (VBool true)) /\ (nisnan x = true -> dget "reference_good" r = Some (VBool false)).
Proof.
  intros -> E1 E2 Gl.
  destruct (cal_row sec_env [] _ (wf_row M cert) rr r m eq_refl E1 E2) as (r1 & x & P & Cx & Gx & Gm & Gr & Ag).
  assert (P' := eq_trans (eq_sym P) (wf_prep M cert)). assert (Pe : r1 = wf_prepped M cert) by exact (f_equal (fun z => match z with Ok y => y | Err _ => r1 end) P'). subst r1. clear P P'.
  assert (Er0 : rr = flag_row (dkeys (wf_row M cert)) (dset "titrant_molinity_here" (VNum x) (wf_prepped M cert))).
  { destruct (ref_one_inv _ _ _ _ _ E1) as (r1 & x1 & P & Cx1 & ->). assert (P' := eq_trans (eq_sym P) (wf_prep M cert)).
    assert (Pe : r1 = wf_prepped M cert) by exact (f_equal (fun z => match z with Ok y => y | Err _ => r1 end) P'). subst r1. rewrite Cx in Cx1. apply ok_inj in Cx1. now subst x1. }
  split; [|split; [|split]].
  - intros k I. destruct (String.eqb_spec k "gran_logic") as [->|Nk]; [exact Gl|].
    apply Ag. right. right. right. right. right. apply mem_str_spec.
    assert (Y : forallb (fun c => mem_str c keys_calibrate || String.eqb c "gran_logic") (calibrate_settings ++ solve_settings) = true) by reflexivity.
    rewrite forallb_forall in Y. specialize (Y k I). apply Bool.orb_true_iff in Y. destruct Y as [Y|Y]; [exact Y|]. apply String.eqb_eq in Y. contradiction.
  - intros k I. apply Ag. cbn [In] in I |- *. tauto.
  - rewrite (Gr "analysis_batch") by (cbn [In]; tauto). rewrite Er0. lazy -[nofZ]. reflexivity.
  - exists x. split; [exact Cx|]. split; [exact Gx|].
    assert (G : dget "reference_good" r = Some (VBool (notnull (VNum x)))) by (rewrite (Gr "reference_good") by (cbn [In]; tauto); rewrite Er0; reflexivity).
    rewrite G. change (notnull (VNum x)) with (negb (nisnan x)). split; intros Nx; rewrite Nx; reflexivity.
Qed.

Lemma wf_ideal_row M cert c A r :
  (forall k, In k (calibrate_settings ++ solve_settings) -> dget k r = dget k (wf_prepped M cert)) ->
  (forall k, In k ["file_name"; "alkalinity_certified"; "salinity"; "file_good"; "read_dat_method"] -> dget k r = dget k (wf_prepped M cert)) ->
  ideal_pH sec_env (VStr "gen.dat") (VInt 35) (wf_kw M) c A -> cert = NaN \/ M = 2 /\ (exists y, cert = Fin y) -> ideal_row sec_env [] r c A.
Proof.
  intros Ag Ah Id Hc. destruct (wf_facts M) as (Mi & Nt & Dl & Wi).
  split; [split; [reflexivity|]; now rewrite (Ah "read_dat_method") by (cbn [In]; tauto)|].
  exists (VStr "gen.dat"), (VInt 35), (wf_kw M).
  split; [now rewrite (Ah "file_name") by (cbn [In]; tauto)|]. split; [now rewrite (Ah "salinity") by (cbn [In]; tauto)|].
  split; [|split; [exact Dl|split; [exact Nt|split; [left; exact Id|]]]].
  - split; [repeat constructor; cbn; intuition discriminate|]. intros k I. unfold chosen. rewrite (Ag k I).
    cbn in I. repeat (destruct I as [<-|I]; [reflexivity|]). destruct I.
  - intros cv o Gc Nn Eo. rewrite (Ah "alkalinity_certified") in Gc by (cbn [In]; tauto). cbn in Gc. apply some_inj in Gc. subst cv.
    destruct Hc as [->|(-> & y & ->)]; [exfalso; apply Nn; reflexivity|].
    destruct (wf_calibrated y) as (m & Ca). rewrite Ca in Eo. apply ok_inj in Eo. subst o. cbn [or_x or_fun]. eauto.
Qed.

Example C128_nonvacuous c : exists A0 A1 ds',
  let A := fun i : nat => match i with O => A0 | _ => A1 end in
  is_table (wf_table (1000000 * A0)) /\
  all_cells (wf_table (1000000 * A0)) "reference_good" (fun v => is_null v \/ exists g : bool, v = VBool g) /\
  calibrate sec_env [] (wf_table (1000000 * A0)) = Ok ds' /\
  (forall i r b' g, nth_error (f_rows ds') i = Some r -> dget "analysis_batch" r = Some b' -> key_eqb b' (VInt 1) = true ->
     dget "file_good" r = Some g -> truthy g = true ->
     ideal_row sec_env [] r c (A i) /\
     (dget "reference_good" r = Some (VBool true) -> dget "alkalinity_certified" r = Some (VNum (Fin (1000000 * A i))))) /\
  batch_references ds' (VInt 1) <> [] /\
  value ds' 1 "reference_good" = Some (VBool false) /\
  value ds' 1 "titrant_molinity" = Some (VNum (Fin c)) /\ value ds' 1 "alkalinity" = Some (VNum (Fin (1000000 * A1))).
Proof.
  destruct (wf_ideal 2 c ltac:(lra)) as (A0 & I0). destruct (wf_ideal 1 c ltac:(lra)) as (A1 & I1). exists A0, A1.
  set (cert := 1000000 * A0) in *.
  assert (W : is_table (wf_table cert)).
  { split; [repeat constructor; cbn; intuition discriminate|]. intros r [<-|[<-|[]]]; reflexivity. }
  assert (RG : all_cells (wf_table cert) "reference_good" (fun v => is_null v \/ exists b, v = VBool b)).
  { intros r v [<-|[<-|[]]] G; discriminate. }
  destruct (C54_calibrate_completes_partial sec_env [] (wf_table cert)) as (ds' & E).
  { exact W. } { split; reflexivity. }
  { intros k I. cbn in I. destruct I as [<-|[<-|[<-|[]]]]; cbn; tauto. }
  { left. cbn. tauto. }
  { intros k I r v [<-|[<-|[]]] G; cbn in I; destruct I as [<-|[<-|[<-|[]]]]; cbn in G; try discriminate; apply some_inj in G; subst v;
      first [left; reflexivity|right; eexists; reflexivity]. }
  { intros r v [<-|[<-|[]]] G; cbn in G; apply some_inj in G; subst v; (split; [discriminate|right; eexists; reflexivity]). }
  { exact RG. }
  exists ds'. intros A. split; [exact W|]. split; [exact RG|]. split; [exact E|].
  assert (E' := E). apply calibrate_inv in E'. destruct E' as (ds1 & E1 & E2).
  assert (W1 := wff_calibrate_only sec_env [] _ ds1 W E1). assert (W2 := wff_solve sec_env [] ds1 ds' W1 E2).
  apply calibrate_only_inv in E1. destruct E1 as (_ & C1 & rows & ms & Er & Em & R1).
  apply solve_inv in E2. destruct E2 as (_ & C2 & M2).
  apply mapM_Forall2 in Er, Em, M2. change (f_rows (wf_table cert)) with [wf_row 2 (Fin cert); wf_row 1 NaN] in Er.
  inversion Er as [|? rr0 ? l0 Er1 Er2 Ea Eb]. subst. inversion Er2 as [|? rr1 ? l1 Er3 Er4 Ea Eb]. subst. inversion Er4. subst. clear Er Er2 Er4.
  inversion Em as [|? m0 ? l0 Em1 Em2 Ea Eb]. subst. inversion Em2 as [|? m1 ? l1 Em3 Em4 Ea Eb]. subst. inversion Em4. subst. clear Em Em2 Em4.
  rewrite R1 in M2. cbn [map2] in M2. inversion M2 as [|? r0 ? l0 S0 M3 Ea Eb]. subst. inversion M3 as [|? r1 ? l1 S1 M4 Ea Eb']. subst. inversion M4. subst. clear M2 M3 M4.
  rename Eb into Rs. symmetry in Rs. rewrite C1 in S0, S1.
  assert (Cols : f_cols ds' = solve_cols (addc "titrant_molinity" (ref_cols (f_cols (wf_table cert))))) by (now rewrite C2, C1).
  assert (Gl : forall r, In r (f_rows ds') -> dget "gran_logic" r = None).
  { intros r I. apply dget_notin. rewrite (proj2 W2 r I), Cols. apply mem_str_false. lazy. reflexivity. }
  assert (Gl0 : dget "gran_logic" r0 = None) by (apply Gl; rewrite Rs; left; reflexivity).
  assert (Gl1 : dget "gran_logic" r1 = None) by (apply Gl; rewrite Rs; right; left; reflexivity).
  destruct (wf_finished 2 (Fin cert) _ rr0 r0 m0 eq_refl Er1 S0 Gl0) as (Ag0 & Ah0 & B0 & x0 & Cx0 & Gx0 & Gt0 & Gf0).
  destruct (wf_finished 1 NaN _ rr1 r1 m1 eq_refl Er3 S1 Gl1) as (Ag1 & Ah1 & B1 & x1 & Cx1 & Gx1 & Gt1 & Gf1).
  assert (X1 : x1 = NaN). { cbn in Cx1. apply ok_inj in Cx1. now subst x1. }
  assert (X0 : exists m, x0 = Fin m).
  { destruct (wf_calibrated cert) as (m & Ca). exists m. unfold calibrate_row, calibrate_row_try in Cx0.
    replace (backcompat [] (wf_prepped 2 (Fin cert))) with (Ok [] : res (kwargs xr)) in Cx0 by reflexivity.
    cbn [bind] in Cx0. rewrite wf_settings in Cx0. unfold attr in Cx0.
    cbn [dget wf_prepped wf_row app String.eqb Ascii.eqb Bool.eqb of_opt bind notnull isnull nisnan NumXR x_isnan negb truthy andb] in Cx0.
    rewrite Ca in Cx0. cbn [bind or_x nth_error of_opt] in Cx0. now apply ok_inj in Cx0. }
  destruct X0 as (mm & ->). specialize (Gt0 eq_refl). subst x1. specialize (Gf1 eq_refl).
  assert (K1 : key_eqb (VInt 1 : val xr) (VInt 1) = true). { cbn. unfold reqb. now destruct (Req_EM_T _ _). }
  assert (Br : batch_references ds' (VInt 1) <> []).
  { unfold batch_references. rewrite Rs. cbn [flat_map]. unfold good_reference. rewrite B0, Gt0, Gx0, K1. cbn. discriminate. }
  assert (P : forall i r b' g, nth_error (f_rows ds') i = Some r -> dget "analysis_batch" r = Some b' -> key_eqb b' (VInt 1) = true ->
     dget "file_good" r = Some g -> truthy g = true ->
     ideal_row sec_env [] r c (A i) /\
     (dget "reference_good" r = Some (VBool true) -> dget "alkalinity_certified" r = Some (VNum (Fin (1000000 * A i))))).
  { intros i r b' g N _ _ _ _. rewrite Rs in N. destruct i as [|[|i]]; [| |destruct i; discriminate]; cbn in N; apply some_inj in N; subst r.
    - split; [apply (wf_ideal_row 2 (Fin cert)); eauto|]. intros _. rewrite (Ah0 "alkalinity_certified") by (cbn [In]; tauto). reflexivity.
    - split; [apply (wf_ideal_row 1 NaN); eauto|]. intros G. rewrite Gf1 in G. discriminate. }
  split; [rewrite Rs in P; exact P|]. split; [exact Br|].
  assert (N1 : nth_error (f_rows ds') 1 = Some r1) by (rewrite Rs; reflexivity).
  split; [unfold value; rewrite N1; exact Gf1|].
  refine (C128_true_values sec_env [] (wf_table cert) ds' (VInt 1) c A W ltac:(constructor) RG E P Br 1%nat r1 (VBool true) N1 B1 K1 _ eq_refl).
  rewrite (Ah1 "file_good") by (cbn [In]; tauto). reflexivity.
Qed.

(* and the file is an ideal Gran titration, with any acid *)
Example C128_gran_nonvacuous c : c <> 0 -> ideal_gran gsec_env (VStr "gen.dat") (VInt 35) (gsec_kw 1) c (- g35 / gslope 1 * c).
Proof.
  intros C. pose proof (gslope_pos 1 ltac:(lra)) as Sp. assert (P : 0 < g35) by (unfold g35, Rpower; apply exp_pos).
  split; [reflexivity|]. split.
  { apply Rmult_integral_contrapositive_currified; [|exact C]. unfold Rdiv. apply Rmult_integral_contrapositive_currified; [lra|]. apply Rinv_neq_0_compat. lra. }
  destruct (gsec_load 1 Rlt_0_1) as (t & ks & L). destruct (gsec_run 1 c t ks ltac:(lra) C) as (r & Er & Ar).
  exists r, (sec_cv 1), t, ks, [0; 1], [3.5; 3.6], 1, 3, 4, 1, (gslope 1 / c).
  split; [|split; [exact L|]].
  { unfold files_solve. rewrite L. cbn [bind as_num].
    change (get_kwargs_for keys_titrant_totals (without_mode (gsec_kw 1)) None) with ([] : kwargs xr). cbn [add_titrant_totals bind].
    unfold dispatch_solve. change (as_str (mode_of (gsec_kw 1))) with (Ok "pH_gran" : res string). cbn [bind]. change (lower "pH_gran") with "ph_gran". cbn [String.eqb Ascii.eqb Bool.eqb].
    replace (get_kwargs_for keys_solve_pH_gran _ None) with ([] : kwargs xr) by reflexivity.
    unfold call_solve_pH_gran, kwarg. cbn [check_kwargs forallb bind dget as_num sec_cv cv_titrant_mass cv_measurement cv_temperature cv_analyte_mass].
    cbn [tiny_cv cv_temperature] in Er |- *. rewrite Er. reflexivity. }
  split; [reflexivity|]. split; [reflexivity|]. split; [reflexivity|]. split; [reflexivity|].
  split; [repeat split; unfold number; cbn [gsec_kw dget String.eqb Ascii.eqb Bool.eqb]; symmetry; apply fin_Z|].
  split; [lra|]. split; [lra|]. split; [lra|].
  split; [unfold Rdiv; apply Rmult_integral_contrapositive_currified; [lra|now apply Rinv_neq_0_compat]|].
  split; [exists 0%nat, 1%nat, 3.5, 3.6, 0, 1; repeat split; try reflexivity; lra|].
  intros [|[|i]] p m Hp Hm _; [| |destruct i; discriminate]; cbn [nth_error] in Hp, Hm; apply some_inj in Hp; apply some_inj in Hm; subst p m; unfold gran_value.
  - change (Rpower 10 (- (3.5))) with g35. field. lra.
  - change (Rpower 10 (- (3.6))) with g36. replace ((1 + 1) * g36) with (gslope 1 + 1 * g35) by (unfold gslope; ring). field. lra.
Qed.
