(* PropTable.v -- C62, C63, C64: the table and the name of a Titration object *)
From Coq Require Import Reals Lra.
From Verif Require Import Classes DictLemmas SettingsProofs DatasetProofs RowProofs CalProofs PropSettings SpecDataset PropDataset PropHistory PropTitration TableProofs.
From Verif Require Import XR XRLemmas.
From Verif Require Export SpecTitration.
Open Scope list_scope.
Open Scope string_scope.

Section P.
Context {T : Type} `{Num T}.

(* how a Titration comes about *)
Lemma titration_facts (e : env T) sys r kw t : Titration e sys r kw = Ok t ->
  exists R st st1 f c s,
    (forall k, ~ In k solved_columns -> dget k (ti_row t) = dget k R) /\
    dget "file_name" R = Some f /\ dget "titrant_molinity" R = Some c /\ dget "salinity" R = Some s /\
    files_solve e f c s (filter (fun kv => negb (mem_str (fst kv) ["file_name"; "titrant_molinity"; "salinity"])) R) = Ok (ti_sr t) /\
    data_frame (length (sr_titrant_mass (ti_sr t))) (table_dict (ti_sr t)) = Ok st /\
    get_alkalinity_from_acid (ti_row t) st = Ok st1 /\ do_CO2SYS sys (ti_row t) st1 = Ok (ti_table t).
Proof.
  intros E. destruct (titration_inv e sys r kw t E) as (kw1 & st & st1 & B & SN & ER & F & A & C).
  destruct (solve_named_inv e _ _ SN) as (f & c & s & Gf & Gc & Gs & FS).
  exists (dupdate r kw1), st, st1, f, c, s.
  split; [intros k N; rewrite ER; now apply asr_other|]. repeat split; assumption.
Qed.

Lemma from_acid_inv (r : row T) (st st1 : ttable T) : get_alkalinity_from_acid r st = Ok st1 ->
  exists a M c tm,
    match dget "alkalinity" r with Some v => as_num v = Ok a | None => False end /\
    match dget "analyte_mass" r with Some v => as_num v = Ok M | None => False end /\
    match dget "titrant_molinity" r with Some v => as_num v = Ok c | None => False end /\
    dget "titrant_mass" st = Some tm /\
    st1 = dset "alkalinity_from_acid" (map (fun m => (nofQ 0.000001 ⊗ a ⊗ M ⊖ m ⊗ c) ⊘ (M ⊕ m)) tm) st.
Proof.
  unfold get_alkalinity_from_acid, attr, col. intros E.
  destruct (dget "alkalinity" r) as [va|]; cbn [of_opt bind] in E; [|discriminate].
  destruct (as_num va) as [a|] eqn:Ea; cbn [bind] in E; [|discriminate].
  destruct (dget "analyte_mass" r) as [vM|]; cbn [of_opt bind] in E; [|discriminate].
  destruct (as_num vM) as [M|] eqn:EM; cbn [bind] in E; [|discriminate].
  destruct (dget "titrant_molinity" r) as [vc|]; cbn [of_opt bind] in E; [|discriminate].
  destruct (as_num vc) as [c|] eqn:Ec; cbn [bind] in E; [|discriminate].
  destruct (dget "titrant_mass" st) as [tm|]; cbn [of_opt bind] in E; [|discriminate].
  injection E as <-. exists a, M, c, tm. repeat split.
Qed.

Definition pos_filter (R : row T) : kwargs T :=
  filter (fun kv => negb (mem_str (fst kv) ["file_name"; "titrant_molinity"; "salinity"])) R.
Lemma pos_get k (R : row T) : ~ In k ["file_name"; "titrant_molinity"; "salinity"] -> dget k (pos_filter R) = dget k R.
Proof.
  intros N. unfold pos_filter. rewrite (dget_filter (fun k => negb (mem_str k ["file_name"; "titrant_molinity"; "salinity"]))).
  apply mem_str_false in N. now rewrite N.
Qed.

(* ------------------------------------------------------------------ *)
(** * C64 *)

(* a Titration with a file_path can be printed ... *)
Theorem C64_with_file_path_partial : forall (e : env T) sys r kw t p,
  Titration e sys r kw = Ok t -> getattr t "file_path" = Ok p ->
  exists d f, p = VStr d /\ getattr t "file_name" = Ok (VStr f) /\
    str_titration t = Ok ("calkulate.Titration for file """ ++ path_join d f ++ """")%string.
Proof.
  intros e sys r kw t p E G.
  destruct (titration_facts e sys r kw t E) as (R & st & st1 & f & c & s & K & Gf & _ & _ & FS & _).
  unfold getattr in *. unfold str_titration, attr. rewrite !K in * by (cbn; intuition discriminate).
  destruct (dget "file_path" R) as [p'|] eqn:P; cbn [of_opt] in G; [|discriminate]. injection G as ->.
  apply files_inv in FS. destruct FS as (fn & _ & _ & _ & _ & _ & _ & _ & F & _).
  fold (pos_filter R) in F. unfold full_name in F.
  assert (Q : dget "file_path" (without_mode (pos_filter R)) = Some p).
  { unfold without_mode. rewrite (dget_filter (fun k => negb (String.eqb k "solve_mode"))). cbn [negb String.eqb Ascii.eqb Bool.eqb].
    rewrite pos_get by (cbn; intuition discriminate). exact P. }
  rewrite Q in F. rewrite Gf. destruct p; try discriminate. destruct f; try discriminate.
  eexists _, _. repeat split.
Qed.

(* ... one without raises, unless its row happens to have an entry called "ro" *)
Theorem C64_without_file_path_raises : forall (e : env T) sys r kw t,
  Titration e sys r kw = Ok t -> getattr t "file_path" = Err (AttributeError "file_path") ->
  exists k, str_titration t = Err (AttributeError k).
Proof.
  intros e sys r kw t E G. unfold getattr in G. unfold str_titration.
  destruct (dget "file_path" (ti_row t)); cbn [of_opt] in G; [discriminate|].
  unfold getattr. destruct (dget "ro" (ti_row t)); cbn [of_opt bind]; eauto.
Qed.

End P.

Section XR.
Open Scope R_scope.
Open Scope list_scope.

Lemma inf_pos b : 0 < b -> inf_times b = PInf.
Proof. intros B. unfold inf_times. now rewrite rltb_true. Qed.
Lemma inf_neg b : b < 0 -> inf_times b = NInf.
Proof. intros B. unfold inf_times. rewrite rltb_false by lra. now rewrite rltb_true. Qed.

(* infinities under multiplication and division by something positive *)
Lemma pinf_mul b : 0 < b -> nmul PInf (Fin b) = PInf. Proof. exact (inf_pos b). Qed.
Lemma ninf_mul b : 0 < b -> nmul NInf (Fin b) = NInf. Proof. intros B. apply inf_neg. lra. Qed.
Lemma mul_pinf b : 0 < b -> nmul (Fin b) PInf = PInf. Proof. exact (inf_pos b). Qed.
Lemma mul_ninf b : 0 < b -> nmul (Fin b) NInf = NInf. Proof. intros B. apply inf_neg. lra. Qed.
Lemma pinf_div b : 0 < b -> ndiv PInf (Fin b) = PInf. Proof. intros B. cbn. now rewrite rltb_false by lra. Qed.
Lemma ninf_div b : 0 < b -> ndiv NInf (Fin b) = NInf. Proof. intros B. cbn. now rewrite rltb_false by lra. Qed.

Lemma umol_mol (x : xr) : (x ⊗ nofQ 1000000 ⊗ nofQ 0.000001)%num = x.
Proof.
  assert (P : 0 < Q2R 1000000) by (q2r; lra). assert (P' : 0 < Q2R 0.000001) by (q2r; lra).
  rewrite !fin_q. destruct x as [x| | |].
  - xsimp. apply (f_equal Fin). q2r. field.
  - now rewrite !pinf_mul.
  - now rewrite !ninf_mul.
  - reflexivity.
Qed.

(* one entry of alkalinity_estimate, compared with the solver's value at the same point *)
Lemma estimate_solver (s : xr) m c nu M : 0 <= m -> 0 < M ->
  (estimate (Fin M) (Fin c) (from_umol (s ⊗ nofQ 1000000)) (Fin m) (get_dilution_factor (Fin m) (Fin M)) ⊗ nofQ 1000000)%num =
  ((nofQ 1000000 ⊗ (s ⊕ (Fin m ⊗ Fin c ⊗ Fin nu) ⊘ (Fin m ⊕ Fin M)) ⊘ get_dilution_factor (Fin m) (Fin M))
    ⊖ Fin (1000000 * (nu - 1) * c * m / M))%num.
Proof.
  intros Hm HM. unfold from_umol. rewrite umol_mol. unfold estimate, get_dilution_factor.
  assert (P : 0 < Q2R 1000000) by (q2r; lra).
  assert (Pd : 0 < M / (m + M)) by (apply Rdiv_lt_0_compat; lra).
  rewrite !fin_q. xsimp. rewrite !fin_div by lra.
  destruct s as [s| | |].
  - xsimp. rewrite !fin_div by lra. xsimp. apply (f_equal Fin). q2r. field. lra.
  - change (nadd PInf ?x) with (x_add PInf x). cbn [x_add]. rewrite pinf_div, pinf_mul, mul_pinf, pinf_div by assumption. reflexivity.
  - change (nadd NInf ?x) with (x_add NInf x). cbn [x_add]. rewrite ninf_div, ninf_mul, mul_ninf, ninf_div by assumption. reflexivity.
  - reflexivity.
Qed.

(* the arguments of the call of PyCO2SYS, at one titration point *)
Lemma asked_constants_get (pre : dict (nd xr)) (st : ttable xr) k :
  (forall x, In x (dkeys pre) -> startswith x "k_" = false) -> In k (@ks_names) ->
  dget k (asked_constants (pre ++ ks_for_sys st)) = match dget k st with Some l => Some (NdA l) | None => None end.
Proof.
  intros P I. unfold asked_constants. rewrite (dget_filter (fun k => startswith k "k_")).
  assert (S : startswith k "k_" = true).
  { assert (F : forallb (fun k => startswith k "k_") ks_names = true) by reflexivity. rewrite forallb_forall in F. now apply F. }
  rewrite S. assert (N : dget k pre = None).
  { destruct (dget k pre) eqn:G; [|reflexivity]. rewrite P in S; [discriminate|]. apply dget_in_keys. unfold dmem. now rewrite G. }
  assert (A : forall d d' : dict (nd xr), dget k d = None -> dget k (d ++ d') = dget k d').
  { clear. induction d as [|[x v] d IH]; intros d' G; [reflexivity|]. cbn [app dget] in *. destruct (String.eqb k x); [discriminate|auto]. }
  rewrite A by exact N. unfold ks_for_sys.
  assert (B : forall d : ttable xr, dget k (map (fun kv => (fst kv, NdA (snd kv))) (filter (fun kv => startswith (fst kv) "k_") d)) = match dget k d with Some l => Some (NdA l) | None => None end).
  { clear -S. induction d as [|[x v] d IH]; [reflexivity|]. cbn [filter fst dget]. destruct (startswith x "k_") eqn:X; cbn [map fst snd dget].
    - destruct (String.eqb k x); [reflexivity|exact IH].
    - rewrite IH. destruct (String.eqb_spec k x) as [->|]; [congruence|reflexivity]. }
  apply B.
Qed.

Lemma asked_total_get dic (args : dict (nd xr)) k :
  dget k (asked_totals dic args) =
  if String.eqb k "dic" then Some (NdA (map (fun x => (x ⊗ nofQ 0.000001)%num) dic)) else
  if mem_str k co2sys_totals then match dget k args with Some (NdA l) => Some (NdA (map (fun x => (x ⊗ nofQ 0.000001)%num) l)) | _ => None end else None.
Proof.
  unfold asked_totals. cbn [dget]. destruct (String.eqb k "dic"); [reflexivity|].
  change ["total_sulfate"; "total_fluoride"; "total_borate"; "total_phosphate"; "total_silicate"; "total_ammonia";
     "total_sulfide"; "total_alpha"; "total_beta"] with co2sys_totals.
  assert (D : forall l, NoDup l -> dget k (flat_map (fun k => match dget k args with Some (NdA l) => [(k, NdA (map (fun x => (x ⊗ nofQ 0.000001)%num) l))] | _ => [] end) l) =
     if mem_str k l then match dget k args with Some (NdA l) => Some (NdA (map (fun x => (x ⊗ nofQ 0.000001)%num) l)) | _ => None end else None).
  { induction l as [|x l IH]; intros ND; [reflexivity|]. inversion ND as [|? ? NI ND']; subst. cbn [flat_map].
    change (mem_str k (x :: l)) with (String.eqb k x || mem_str k l)%bool.
    destruct (String.eqb_spec k x) as [->|NE]; cbn [orb].
    - apply mem_str_false in NI. rewrite NI in IH. destruct (dget x args) as [[y|y]|]; cbn [app dget]; [rewrite IH; auto|now rewrite String.eqb_refl|rewrite IH; auto].
    - destruct (dget x args) as [[y|y]|]; cbn [app dget]; rewrite ?(proj2 (String.eqb_neq k x) NE); now rewrite IH by assumption. }
  apply D. repeat constructor; cbn; intuition discriminate.
Qed.

Lemma nd_at_list (l : list xr) i x : nth_error l i = Some x -> nd_at (NdA l) i = x.
Proof. apply nd_at_nth. Qed.

(* PyCO2SYS is asked about the totals and constants that the solver used *)
Lemma asked_ext (sr : solve_result xr) st st2 dic s temperature :
  named totals_names (sr_totals sr) -> dmem "dic" (sr_totals sr) = true -> named ks_names (sr_k_constants sr) ->
  data_frame (length (sr_titrant_mass sr)) (table_dict sr) = Ok st -> dget "dic" st = Some dic -> same_names st st2 ->
  let args := sys_args dic (sr_pH sr) s temperature st2 in
  (forall i x, (i < length (sr_titrant_mass sr))%nat -> In x totals_names ->
     dget x (slice_at (asked_totals (map (fun x => x ⊗ nofQ 1000000)%num dic) args) i) = dget x (slice_at (sr_totals sr) i)) /\
  (forall i x, (i < length (sr_titrant_mass sr))%nat -> In x ks_names ->
     dget x (slice_at (asked_constants args) i) = dget x (slice_at (sr_k_constants sr) i)).
Proof.
  intros Nt Dm Nk DF T3 Gst2 args. pose proof (frame_get _ _ _ DF) as TG. set (tm := sr_titrant_mass sr) in *.
  split.
  - intros j x Lj I. rewrite !dget_slice, asked_total_get.
    pose proof (TG x) as X. destruct (table_get sr x Nt Nk) as (_ & Y & _). rewrite (Y I) in X.
    destruct (String.eqb_spec x "dic") as [->|ND].
    + destruct (dget "dic" (sr_totals sr)) as [v|] eqn:Gd; [|unfold dmem in Dm; rewrite Gd in Dm; discriminate].
      destruct X as (w & Gw & Cw). rewrite T3 in Gw. injection Gw as <-. destruct (column_at _ _ _ Cw) as [Lw At].
      f_equal. rewrite map_map. apply nd_at_list. rewrite nth_error_map, At by assumption. cbn [option_map]. f_equal. apply umol_mol.
    + assert (M2 : mem_str x co2sys_totals = true) by (destruct I as [<-|I]; [contradiction|now apply mem_str_spec]).
      rewrite M2.
      assert (Gp : dget x args = Some (match dget x st2 with Some l => NdA (map (fun x => (x ⊗ nofQ 1000000)%num) l) | None => NdS (nofZ 0) end)).
      { apply mem_str_spec in M2. clear -M2. cbn in M2.
        destruct M2 as [<-|[<-|[<-|[<-|[<-|[<-|[<-|[<-|[<-|[]]]]]]]]]]; reflexivity. }
      rewrite Gp, Gst2 by (apply in_or_app; now left). clear Gp.
      destruct (dget x (sr_totals sr)) as [v|].
      * destruct X as (w & Gw & Cw). rewrite Gw. destruct (column_at _ _ _ Cw) as [Lw At].
        f_equal. rewrite map_map. apply nd_at_list. rewrite nth_error_map, At by assumption. cbn [option_map]. f_equal. apply umol_mol.
      * rewrite X. reflexivity.
  - intros j x Lj I. unfold args, sys_args. rewrite !dget_slice, app_assoc, asked_constants_get; [|intros y Y; cbn in Y; intuition (subst; reflexivity)|exact I].
    rewrite Gst2 by (apply in_or_app; now right).
    pose proof (TG x) as X. destruct (table_get sr x Nt Nk) as (Y & _). rewrite (Y I) in X.
    assert (Nx : dget x (sr_totals sr) = None).
    { destruct (dget x (sr_totals sr)) eqn:G; [|reflexivity]. exfalso. destruct Nt as [_ Nt].
      assert (J : In x totals_names) by (apply Nt, dget_in_keys; unfold dmem; now rewrite G).
      assert (P : forallb (fun x => negb (mem_str x ks_names)) totals_names = true) by reflexivity.
      rewrite forallb_forall in P. specialize (P x J). apply Bool.negb_true_iff, mem_str_false in P. contradiction. }
    rewrite Nx in X. destruct (dget x (sr_k_constants sr)) as [v|].
    + destruct X as (w & -> & Cw). destruct (column_at _ _ _ Cw) as [Lw At]. f_equal. apply nd_at_list. now apply At.
    + now rewrite X.
Qed.

Theorem C63_estimate_vs_solver : forall (e : env xr) (sys : co2sys_t xr) r kw t all est M c nu i a b m,
  agrees sys -> Titration e sys r kw = Ok t ->
  sr_all (ti_sr t) = Some all -> dget "alkalinity_estimate" (ti_table t) = Some est ->
  getattr t "analyte_mass" = Ok (VNum (Fin M)) -> 0 < M ->
  getattr t "titrant_molinity" = Ok (VNum (Fin c)) ->
  as_num (kwarg "titrant_normality" (VInt 1) (ti_row t)) = Ok (Fin nu) ->
  nth_error (sr_titrant_mass (ti_sr t)) i = Some (Fin m) -> 0 <= m ->
  nth_error all i = Some a -> nth_error est i = Some b ->
  (b ⊗ Fin 1000000 = a ⊖ Fin (1000000 * (nu - 1) * c * m / M))%num.
Proof.
  intros e sys r kw t all est M c nu i a b m Ag E Ea Ee GM HM Gc Gn Gm Hm Na Nb.
  destruct (titration_facts e sys r kw t E) as (R & st & st1 & f & vc & vs & K & Gf & Gcc & Gs & FS & DF & AA & CO).
  unfold getattr in GM, Gc. rewrite K in GM, Gc by (cbn; intuition discriminate). unfold kwarg in Gn. rewrite K in Gn by (cbn; intuition discriminate).
  pose proof (sr_named _ _ _ _ _ _ FS) as (Nt & Dm & Nk).
  apply files_inv in FS. destruct FS as (fn & dd & cv & t0 & ks & c' & tt & n & _ & _ & AU & _ & Ec' & _ & En & (Htm & Htemp & Htot & Hks & HMs & Hall)).
  rewrite Ea in Hall. fold (pos_filter R) in AU, En.
  set (sr := ti_sr t) in *.
  (* the mass and the molinity *)
  assert (cM : cv_analyte_mass cv = Fin M).
  { assert (X : kwarg "analyte_mass" VNone (get_kwargs_for keys_cau (without_mode (pos_filter R)) None) = VNum (Fin M)).
    { rewrite kwarg_gkf by (cbn; tauto). rewrite kwarg_wm by discriminate. unfold kwarg. rewrite pos_get by (cbn; intuition discriminate).
      destruct (dget "analyte_mass" R); cbn [of_opt] in GM; [congruence|discriminate]. }
    destruct dd as [dd|]; cbn [amount_units_dat] in AU; [|discriminate]. unfold amount_units in AU. inv_binds AU. injection AU as <-. cbn [cv_analyte_mass].
    match goal with Z : cau_analyte_mass _ _ _ = Ok _ |- _ => unfold cau_analyte_mass in Z; rewrite X in Z; cbn [isnull nisnan NumXR x_isnan as_num] in Z; congruence end. }
  assert (Gc0 : dget "titrant_molinity" R = Some (VNum (Fin c))) by (destruct (dget "titrant_molinity" R); cbn [of_opt] in Gc; congruence).
  assert (GM0 : dget "analyte_mass" R = Some (VNum (Fin M))) by (destruct (dget "analyte_mass" R); cbn [of_opt] in GM; congruence).
  assert (cc : c' = Fin c) by (rewrite Gc0 in Gcc; injection Gcc as <-; cbn [as_num] in Ec'; congruence).
  assert (nn : n = Fin nu).
  { rewrite kwarg_wm in En by discriminate. unfold kwarg in En. rewrite pos_get in En by (cbn; intuition discriminate). congruence. }
  (* the table *)
  pose proof (frame_get _ _ _ DF) as TG.
  destruct (from_acid_inv _ _ _ AA) as (a0 & M0 & c0 & tm0 & _ & _ & _ & _ & ->).
  destruct (co2sys_inv _ _ _ _ CO) as (tm & M1 & dic & pH & s1 & temps & results & alk & afp & c1 & T1 & T2 & T3 & T4 & _ & T6 & S1 & S2 & S3 & S4 & _ & _ & S5).
  rewrite dget_dset_other in T1, T3, T4, T6 by discriminate.
  rewrite K, GM0 in T2 by (cbn; intuition discriminate). cbn [as_num] in T2. injection T2 as <-.
  rewrite K, Gc0 in S4 by (cbn; intuition discriminate). cbn [as_num] in S4. injection S4 as <-.
  assert (Etm : tm = sr_titrant_mass sr /\ length tm = length (sr_titrant_mass sr)).
  { pose proof (TG "titrant_mass") as X. destruct (table_get sr "titrant_mass" Nt Nk) as (_ & _ & Y & _). rewrite Y in X by reflexivity.
    destruct X as (l & Gl & Cl). rewrite T1 in Gl. injection Gl as <-. cbn [column] in Cl. rewrite Nat.eqb_refl in Cl. injection Cl as <-. auto. }
  destruct Etm as [-> _]. set (tm := sr_titrant_mass sr) in *.
  assert (EpH : pH = sr_pH sr /\ length pH = length tm).
  { pose proof (TG "pH") as X. destruct (table_get sr "pH" Nt Nk) as (_ & _ & _ & _ & Y). rewrite Y in X by reflexivity.
    destruct X as (l & Gl & Cl). rewrite T4 in Gl. injection Gl as <-. cbn [column] in Cl.
    destruct (Nat.eqb_spec (length (sr_pH sr)) (length tm)) as [L|]; [|discriminate]. injection Cl as <-. auto. }
  destruct EpH as [-> LpH].
  (* the solver *)
  unfold alkalinity_all in Hall. destruct (alkalinity_arr (sr_pH sr) tt ks default_opt_pH_scale) as [sim|] eqn:Es; cbn [bind] in Hall; [|discriminate].
  apply (f_equal (fun z => match z with Ok y => y | Err _ => all end)) in Hall. cbv beta iota in Hall.
  (* PyCO2SYS *)
  set (st2 := dset "dilution_factor" _ _) in S1.
  assert (Gst2 : same_names st st2).
  { intros k I. unfold st2. assert (P : forallb (fun x => negb (mem_str x ["dilution_factor"; "alkalinity_from_acid"])) (totals_names ++ ks_names) = true) by reflexivity.
    rewrite forallb_forall in P. specialize (P k I). apply Bool.negb_true_iff, mem_str_false in P.
    rewrite !dget_dset_other; auto; intros ->; apply P; cbn; tauto. }
  assert (Lim : (i < length tm)%nat) by (apply nth_error_Some; congruence).
  destruct (Ag (sys_args dic (sr_pH sr) s1 temps st2) _ (sr_pH sr) results eq_refl eq_refl eq_refl eq_refl eq_refl S1) as (l & Al & Gl).
  rewrite S2 in Gl. injection Gl as ->.
  assert (Fits : forallb (fun kv => nd_fits (length (sr_pH sr)) (snd kv)) tt = true /\ forallb (fun kv => nd_fits (length (sr_pH sr)) (snd kv)) ks = true).
  { unfold alkalinity_arr in Es. fold (all_fit (length (sr_pH sr)) tt). fold (all_fit (length (sr_pH sr)) ks).
    destruct (all_fit (length (sr_pH sr)) tt); [|discriminate]. destruct (all_fit (length (sr_pH sr)) ks); [auto|discriminate]. }
  assert (El : l = sim).
  { assert (X : alkalinity_arr (sr_pH sr) tt ks 3 = Ok l); [|unfold default_opt_pH_scale in Es; congruence].
    eapply arr_ext; [|exact Al|exact (proj1 Fits)|exact (proj2 Fits)| |].
    - rewrite LpH. eapply Nat.le_lt_trans; [apply Nat.le_0_l|exact Lim].
    - intros j x Lj I. rewrite LpH in Lj. rewrite <- Htot. exact (proj1 (asked_ext sr st st2 dic s1 temps Nt Dm Nk DF T3 Gst2) j x Lj I).
    - intros j x Lj I. rewrite LpH in Lj. rewrite <- Hks. exact (proj2 (asked_ext sr st st2 dic s1 temps Nt Dm Nk DF T3 Gst2) j x Lj I). }
  subst l.
  (* the estimates *)
  cbn [nd_map column] in S3. rewrite map_map in S3. 
  match type of S3 with (if ?b then _ else _) = _ => destruct b eqn:Ls; [|discriminate S3] end. apply Nat.eqb_eq in Ls.
  injection S3 as <-. rewrite S5 in Ee. injection Ee as <-.
  rewrite map_length in Ls.
  destruct (nth_error sim i) as [si|] eqn:Esi.
  2:{ apply nth_error_None in Esi. exfalso. apply (Nat.lt_irrefl i). eapply Nat.lt_le_trans; [exact Lim|]. now rewrite <- Ls. }
  rewrite (nth_error_map3 _ _ _ _ i (from_umol (si ⊗ nofQ 1000000)%num) (Fin m) (get_dilution_factor (Fin m) (Fin M))) in Nb;
    [|rewrite nth_error_map, Esi; reflexivity|exact Gm|rewrite nth_error_map, Gm; reflexivity].
  apply (f_equal (fun z => match z with Some y => y | None => b end)) in Nb. cbv beta iota in Nb. rewrite <- Nb.
  rewrite <- Hall, <- Htm in Na. rewrite (nth_error_map2 _ _ _ i si (Fin m)) in Na by assumption.
  apply (f_equal (fun z => match z with Some y => y | None => a end)) in Na. cbv beta iota in Na. rewrite <- Na.
  rewrite cM, cc, nn.
  rewrite <- (estimate_solver si m c nu M Hm HM).
  do 2 f_equal. rewrite fin_q. apply (f_equal Fin). q2r. field.
Qed.

(* ------------------------------------------------------------------ *)
(** * C62 *)

Lemma x_mul_nan (x : xr) : (x ⊗ NaN)%num = NaN. Proof. now destruct x. Qed.
Lemma x_sub_nan (x : xr) : (NaN ⊖ x)%num = NaN. Proof. now destruct x. Qed.
Lemma x_div_nan (x : xr) : (NaN ⊘ x)%num = NaN. Proof. now destruct x. Qed.
Lemma x_add_nan (x : xr) : (x ⊕ NaN)%num = NaN. Proof. now destruct x. Qed.
Lemma x_div_by_nan (x : xr) : (x ⊘ NaN)%num = NaN. Proof. now destruct x. Qed.

(* the three columns that need the mass of the analyte *)
Lemma mass_columns (e : env xr) sys r kw t v M : Titration e sys r kw = Ok t -> getattr t "analyte_mass" = Ok v -> as_num v = Ok M ->
  exists a c afp,
    as_num (cell "alkalinity" (ti_row t)) = Ok a /\ as_num (cell "titrant_molinity" (ti_row t)) = Ok c /\
    length afp = length (sr_titrant_mass (ti_sr t)) /\
    dget "alkalinity_from_acid" (ti_table t) = Some (map (fun m => (nofQ 0.000001 ⊗ a ⊗ M ⊖ m ⊗ c) ⊘ (M ⊕ m))%num (sr_titrant_mass (ti_sr t))) /\
    dget "dilution_factor" (ti_table t) = Some (map (fun m => get_dilution_factor m M) (sr_titrant_mass (ti_sr t))) /\
    dget "alkalinity_estimate" (ti_table t) =
      Some (map3 (fun a m d => estimate M c a m d) afp (sr_titrant_mass (ti_sr t)) (map (fun m => get_dilution_factor m M) (sr_titrant_mass (ti_sr t)))).
Proof.
  intros E GM EM.
  destruct (titration_facts e sys r kw t E) as (R & st & st1 & f & vc & vs & K & Gf & Gcc & Gs & FS & DF & AA & CO).
  pose proof (sr_named _ _ _ _ _ _ FS) as (Nt & Dm & Nk). set (sr := ti_sr t) in *.
  assert (GM0 : dget "analyte_mass" (ti_row t) = Some v) by (unfold getattr in GM; destruct (dget "analyte_mass" (ti_row t)); cbn [of_opt] in GM; congruence).
  destruct (from_acid_inv _ _ _ AA) as (a0 & M0 & c0 & tm0 & B1 & B2 & B3 & B4 & ->).
  rewrite GM0, EM in B2. injection B2 as <-.
  destruct (co2sys_inv _ _ _ _ CO) as (tm & M1 & dic & pH & s1 & temps & results & alk & afp & c1 & T1 & T2 & T3 & T4 & _ & T6 & S1 & S2 & S3 & S4 & F & D & S5).
  rewrite GM0, EM in T2. injection T2 as <-. rewrite dget_dset_other in T1 by discriminate. rewrite T1 in B4. injection B4 as <-.
  assert (Etm : tm = sr_titrant_mass sr).
  { pose proof (frame_get _ _ _ DF "titrant_mass") as X. destruct (table_get sr "titrant_mass" Nt Nk) as (_ & _ & Y & _). rewrite Y in X by reflexivity.
    destruct X as (l & Gl & Cl). rewrite T1 in Gl. injection Gl as <-. cbn [column] in Cl. rewrite Nat.eqb_refl in Cl. now injection Cl as <-. }
  subst tm. exists a0, c0, afp. unfold cell.
  destruct (dget "alkalinity" (ti_row t)); [|contradiction]. destruct (dget "titrant_molinity" (ti_row t)); [|contradiction].
  rewrite S4 in B3. injection B3 as ->.
  split; [exact B1|]. split; [exact S4|]. split; [now apply column_at in S3|]. split; [now rewrite D, dget_dset_same|]. split; assumption.
Qed.

Lemma map3_in {A B C D} (f : A -> B -> C -> D) l1 l2 l3 x : In x (map3 f l1 l2 l3) -> exists a b c, x = f a b c /\ In b l2 /\ In c l3.
Proof.
  revert l2 l3. induction l1 as [|a l1 IH]; intros [|b l2] [|c l3] I; cbn in I; try contradiction.
  destruct I as [<-|I]; [exists a, b, c; cbn; auto|]. destruct (IH _ _ I) as (a' & b' & c' & X & Y & Z). exists a', b', c'. cbn; auto.
Qed.
Lemma map3_length {A B C D} (f : A -> B -> C -> D) l1 l2 l3 : length l1 = length l2 -> length l2 = length l3 -> length (map3 f l1 l2 l3) = length l2.
Proof.
  revert l2 l3. induction l1 as [|a l1 IH]; intros [|b l2] [|c l3] L1 L2; cbn in *; try discriminate; [reflexivity|]. rewrite IH; auto.
Qed.

Lemma backcompat_other (kw : kwargs xr) r kw1 k : dget "read_dat_kwargs" kw = None -> backcompat kw r = Ok kw1 ->
  k <> "file_type" -> k <> "pH_min" -> k <> "pH_max" -> dget k kw1 = dget k kw.
Proof.
  unfold backcompat, backcompat_range, backcompat_dict. intros D E N1 N2 N3. rewrite D in E. cbn [bind] in E.
  destruct (match dget "pH_range" kw with None => _ | _ => _ end) as [kw2|] eqn:E2; cbn [bind] in E; [|discriminate].
  assert (G : dget k kw2 = dget k kw).
  { destruct (dget "pH_range" kw) as [v|]; [|now injection E2 as <-].
    destruct v as [| | | | |[|x [|y [|? ?]]]|]; try discriminate. injection E2 as <-. now rewrite !dget_dset_other by assumption. }
  destruct (dget "read_dat_method" kw2); destruct (dget "read_dat_method" r); injection E as <-;
    now rewrite ?dget_dset_other by assumption.
Qed.

Lemma nan_mass_columns (e : env xr) sys r kw t : Titration e sys r kw = Ok t ->
  getattr t "analyte_mass" = Ok (VNum NaN) ->
  forall k, In k ["alkalinity_from_acid"; "dilution_factor"; "alkalinity_estimate"] ->
  exists l, dget k (ti_table t) = Some l /\ length l = length (sr_titrant_mass (ti_sr t)) /\ forall x, In x l -> x = NaN.
Proof.
  intros E GM k Ik.
  destruct (mass_columns e sys r kw t (VNum NaN) NaN E GM eq_refl) as (a & c & afp & _ & _ & La & C1 & C2 & C3).
  set (tm := sr_titrant_mass (ti_sr t)) in *.
  cbn in Ik. destruct Ik as [<-|[<-|[<-|[]]]]; eexists; (split; [eassumption|]).
  - split; [now rewrite map_length|]. intros x I. apply in_map_iff in I. destruct I as (m & <- & _).
    now rewrite x_mul_nan, x_sub_nan, x_div_nan.
  - split; [now rewrite map_length|]. intros x I. apply in_map_iff in I. destruct I as (m & <- & _).
    unfold get_dilution_factor. now rewrite x_div_nan.
  - split; [rewrite map3_length; rewrite ?map_length; auto|].
    intros x I. apply map3_in in I. destruct I as (a1 & m & d & -> & _ & _). unfold estimate.
    now rewrite x_add_nan, x_div_by_nan, x_add_nan, x_div_nan.
Qed.

(* a row of a solved dataset that is given by the volume has NaN as its mass ... *)
Theorem C62_solved_volume_row_is_nan : forall (e : env xr) sys kw ds ds' i kw' t,
  is_table ds -> solve e kw ds = Ok ds' -> ~ In "analyte_mass" (f_cols ds) ->
  to_Titration e sys ds' i kw' = Ok t -> wfd kw' -> dget "analyte_mass" kw' = None -> dget "read_dat_kwargs" kw' = None ->
  forall k, In k ["alkalinity_from_acid"; "dilution_factor"; "alkalinity_estimate"] ->
  exists l, dget k (ti_table t) = Some l /\ length l = length (sr_titrant_mass (ti_sr t)) /\ forall x, In x l -> x = NaN.
Proof.
  intros e sys kw ds ds' i kw' t Tb E NM ET Wk NK NR.
  unfold to_Titration in ET. destruct (nth_error (f_rows ds') i) as [r'|] eqn:Nr; cbn [of_opt bind] in ET; [|discriminate].
  apply (nan_mass_columns e sys r' kw' t ET).
  assert (I1 := E). apply solve_inv in I1. destruct I1 as (_ & C & M).
  destruct (mapM_ok _ _ _ M) as [L X].
  assert (exists r0, nth_error (f_rows ds) i = Some r0) as (r0 & N0).
  { destruct (nth_error (f_rows ds) i) eqn:Z; [eauto|]. apply nth_error_None in Z.
    assert (i < length (f_rows ds'))%nat by (apply nth_error_Some; congruence). rewrite L in *. exfalso. apply (Nat.lt_irrefl i). eapply Nat.lt_le_trans; eauto. }
  destruct (X i r0 N0) as (r1 & N1 & S0). rewrite Nr in N1. injection N1 as <-.
  assert (K0 : dkeys r0 = f_cols ds) by (apply Tb; eapply nth_error_In; exact N0).
  destruct (solve_one_inv _ _ _ _ _ S0) as (p & d & P & Sr & F).
  assert (G : dget "analyte_mass" r' = Some (VNum NaN)).
  { rewrite (finish_get _ _ _ _ F), dget_put by discriminate. cbn [mem_str existsb output_cols String.eqb Ascii.eqb Bool.eqb orb].
    rewrite (solve_row_mass e kw p d Sr). destruct (prep_dget e _ r0 p K0 P) as (_ & _ & Z0 & _). unfold cell. rewrite Z0. f_equal. unfold mass_of.
    destruct (dget "analyte_mass" r0) eqn:Z; [|reflexivity]. exfalso. apply NM. rewrite <- K0. apply dget_in_keys. unfold dmem. now rewrite Z. }
  destruct (titration_inv e sys r' kw' t ET) as (kw1 & st & st1 & B & _ & ER & _).
  unfold getattr. rewrite ER, asr_other by (cbn; intuition discriminate).
  rewrite dget_dupdate by exact (wfd_backcompat kw' r' kw1 Wk B).
  rewrite (backcompat_other kw' r' kw1 "analyte_mass" NR B) by discriminate. rewrite NK, G. reflexivity.
Qed.

(* ... and one that has no mass at all cannot be made into a Titration *)
Theorem C62_unsolved_volume_row_raises : forall (e : env xr) sys r kw t,
  dget "analyte_mass" r = None -> wfd kw -> dget "analyte_mass" kw = None -> dget "read_dat_kwargs" kw = None -> Titration e sys r kw <> Ok t.
Proof.
  intros e sys r kw t Gr Wk Gk NR E.
  destruct (titration_inv e sys r kw t E) as (kw1 & st & st1 & B & _ & ER & _ & A & _).
  destruct (from_acid_inv _ _ _ A) as (a0 & M0 & c0 & tm0 & _ & B2 & _).
  rewrite ER, asr_other in B2 by (cbn; intuition discriminate).
  rewrite dget_dupdate in B2 by exact (wfd_backcompat kw r kw1 Wk B).
  rewrite (backcompat_other kw r kw1 "analyte_mass" NR B), Gk, Gr in B2 by discriminate. exact B2.
Qed.

Definition finite (x : xr) : Prop := exists y, x = Fin y.

(* with a mass the columns are finite (the estimates where PyCO2SYS finds a finite alkalinity) *)
Theorem C62_with_mass_partial : forall (e : env xr) sys r kw t M a c,
  Titration e sys r kw = Ok t ->
  getattr t "analyte_mass" = Ok (VNum (Fin M)) -> 0 < M ->
  getattr t "alkalinity" = Ok (VNum (Fin a)) -> getattr t "titrant_molinity" = Ok (VNum (Fin c)) ->
  (forall x, In x (sr_titrant_mass (ti_sr t)) -> exists m, x = Fin m /\ 0 <= m) ->
  forall k, In k ["alkalinity_from_acid"; "dilution_factor"] ->
  exists l, dget k (ti_table t) = Some l /\ length l = length (sr_titrant_mass (ti_sr t)) /\ forall x, In x l -> finite x.
Proof.
  intros e sys r kw t M a c E GM HM Ga Gc Pos k Ik.
  destruct (mass_columns e sys r kw t _ _ E GM eq_refl) as (a' & c' & afp & Ea & Ec & La & C1 & C2 & C3).
  unfold getattr in Ga, Gc. unfold cell in Ea, Ec.
  destruct (dget "alkalinity" (ti_row t)); cbn [of_opt] in Ga; [|discriminate]. injection Ga as ->. cbn [as_num] in Ea. injection Ea as <-.
  destruct (dget "titrant_molinity" (ti_row t)); cbn [of_opt] in Gc; [|discriminate]. injection Gc as ->. cbn [as_num] in Ec. injection Ec as <-.
  cbn in Ik. destruct Ik as [<-|[<-|[]]]; eexists; (split; [eassumption|]); (split; [now rewrite map_length|]);
    intros x I; apply in_map_iff in I; destruct I as (m' & <- & Im); destruct (Pos _ Im) as (m & -> & Hm).
  - rewrite fin_q. xsimp. rewrite fin_div by lra. eexists. reflexivity.
  - unfold get_dilution_factor. xsimp. rewrite fin_div by lra. eexists. reflexivity.
Qed.

End XR.
