(* PropTitrationWitness.v -- C61, C62, C63, C64 on a small titration: witnesses and refutations *)
From Coq Require Import Reals Lra.
From Verif Require Import Classes DictLemmas SettingsProofs DatasetProofs RowProofs CalProofs PropSettings SpecDataset PropDataset SimProofs SolveProofs PropHistory PropIgnored PropTitration TitrationProofs TableProofs PropTable.
From Verif Require Import Witness.
From Verif Require Export SpecTitration.
Open Scope string_scope.
Open Scope list_scope.

(* PyCO2SYS answers every question that simulate.alkalinity answers *)
Definition answers (sys : co2sys_t xr) : Prop := forall args dic pH l,
  dget "par1" args = Some (NdA dic) -> dget "par2" args = Some (NdA pH) ->
  alkalinity_arr pH (asked_totals dic args) (asked_constants args) 3 = Ok l ->
  exists results, sys args = Ok results /\ good_results (length pH) results.

Lemma columns_fit n (st : ttable xr) k l : columns_of n st -> dget k st = Some l -> length l = n.
Proof. intros C G. apply dget_in in G. apply (proj1 (Forall_forall _ _) C) in G. exact G. Qed.

Lemma asked_fits n dic pH s temps (st : ttable xr) : columns_of n st -> length dic = n ->
  all_fit n (asked_totals (map (fun x => x ⊗ nofQ 1000000)%num dic) (sys_args dic pH s temps st)) = true /\
  all_fit n (asked_constants (sys_args dic pH s temps st)) = true.
Proof.
  intros C L. split; unfold all_fit; apply forallb_forall; intros [k v] I; cbn [snd].
  - unfold asked_totals in I. destruct I as [I|I].
    + injection I as <- <-. cbn [nd_fits]. now rewrite !map_length, L, Nat.eqb_refl.
    + apply in_flat_map in I. destruct I as (x & Ix & I).
      assert (Gp : dget x (sys_args dic pH s temps st) = Some (match dget x st with Some l => NdA (map (fun x => (x ⊗ nofQ 1000000)%num) l) | None => NdS (nofZ 0) end)).
      { clear -Ix. cbn in Ix. destruct Ix as [<-|[<-|[<-|[<-|[<-|[<-|[<-|[<-|[<-|[]]]]]]]]]]; reflexivity. }
      rewrite Gp in I. destruct (dget x st) as [l|] eqn:G; [|destruct I].
      destruct I as [I|[]]. injection I as <- <-. cbn [nd_fits]. now rewrite !map_length, (columns_fit n st x l C G), Nat.eqb_refl.
  - unfold asked_constants in I. apply filter_In in I. destruct I as [I S]. cbn [fst] in S.
    unfold sys_args in I. apply in_app_or in I. destruct I as [I|I].
    + exfalso. cbn in I. repeat (destruct I as [I|I]; [injection I as <- <-; discriminate S|]). exact I.
    + apply in_app_or in I. destruct I as [I|I].
      * exfalso. unfold totals_for_sys in I. apply in_map_iff in I. destruct I as (x & X & Ix). injection X as <- <-.
        clear -Ix S. cbn in Ix. repeat (destruct Ix as [<-|Ix]; [discriminate S|]). exact Ix.
      * unfold ks_for_sys in I. apply in_map_iff in I. destruct I as ([x w] & X & Ix). apply filter_In in Ix. destruct Ix as [Ix _].
        cbn [fst snd] in X. injection X as <- <-. cbn [nd_fits]. apply (proj1 (Forall_forall _ _) C) in Ix. cbn [snd] in Ix. now rewrite Ix, Nat.eqb_refl.
Qed.

(* A Titration can be made from every row that is solved *)
Lemma titration_exists (e : env xr) sys r kw kw1 sr l :
  answers sys -> backcompat kw r = Ok kw1 -> solve_named e (dupdate r kw1) = Ok sr -> shaped_result sr ->
  alkalinity_arr (sr_pH sr) (sr_totals sr) (sr_k_constants sr) 3 = Ok l ->
  numeric_at "analyte_mass" (dupdate r kw1) -> numeric_at "salinity" (dupdate r kw1) ->
  exists t, Titration e sys r kw = Ok t /\ ti_sr t = sr.
Proof.
  intros An B SN Sh Al NM NS. apply (titration_total e sys r kw kw1 sr); auto.
  intros st st2 dic s temps DF Gd SM C2.
  destruct Sh as (Ln & LpH & _). set (n := length (sr_titrant_mass sr)) in *.
  destruct (solve_named_inv e _ _ SN) as (f & c & s' & _ & _ & _ & FS).
  destruct (sr_named _ _ _ _ _ _ FS) as (Nt & Dm & Nk).
  pose proof (frame_columns _ _ _ DF) as C1.
  assert (Ld : length dic = n) by (eapply columns_fit; [exact C1|exact Gd]).
  destruct (asked_ext sr st st2 dic s temps Nt Dm Nk DF Gd SM) as [A1 A2].
  destruct (asked_fits n dic (sr_pH sr) s temps st2 C2 Ld) as [F1 F2].
  rewrite <- LpH. eapply An; [reflexivity|reflexivity|].
  eapply arr_ext; [rewrite LpH; exact Ln|exact Al| | | |].
  - rewrite LpH. exact F1.
  - rewrite LpH. exact F2.
  - intros i x Li I. rewrite LpH in Li. symmetry. now apply A1.
  - intros i x Li I. rewrite LpH in Li. symmetry. now apply A2.
Qed.

(* a PyCO2SYS that finds what simulate.alkalinity finds *)
Definition tiny_sys : co2sys_t xr := fun args =>
  match dget "par1" args, dget "par2" args with
  | Some (NdA dic), Some (NdA pH) =>
      l <- alkalinity_arr pH (asked_totals dic args) (asked_constants args) 3 ;;
      Ok (("alkalinity", NdA (map (fun a => a ⊗ nofQ 1000000)%num l)) ::
          map (fun k => (k, NdS (Fin 0))) (["k_CO2"; "alkalinity_alpha"; "alkalinity_beta"] ++ species))
  | _, _ => Err ValueError
  end.

Lemma arr_length (pH : list xr) t k sc l : alkalinity_arr pH t k sc = Ok l -> length l = length pH.
Proof.
  unfold alkalinity_arr. destruct (_ && _)%bool; [|discriminate]. intros E.
  match type of E with bind ?x _ = _ => destruct x; cbn [bind] in E; [|discriminate] end.
  apply mapM_ok in E. destruct E as [-> _]. rewrite combine_length, seq_length. apply Nat.min_id.
Qed.

Lemma tiny_agrees : agrees tiny_sys.
Proof.
  intros args dic pH results G1 _ G2 _ _ E. unfold tiny_sys in E. rewrite G1, G2 in E.
  destruct (alkalinity_arr _ _ _ _) as [l|]; cbn [bind] in E; [|discriminate].
  apply (f_equal (fun z => match z with Ok y => y | Err _ => results end)) in E. cbv beta iota in E. subst results.
  exists l. split; reflexivity.
Qed.
Lemma tiny_answers : answers tiny_sys.
Proof.
  intros args dic pH l G1 G2 E. unfold tiny_sys. rewrite G1, G2, E. cbn [bind]. eexists. split; [reflexivity|].
  pose proof (arr_length _ _ _ _ _ E) as L. clear -L.
  intros k I. cbn in I. repeat (destruct I as [<-|I]; [eexists; split; [reflexivity|cbn; rewrite ?map_length; auto]|]). destruct I.
Qed.

(* ------------------------------------------------------------------ *)
(** * The small titration *)

Definition cvM (M : xr) : Converted xr :=
  {| cv_titrant_mass := [dec 0 0; dec 1 0]; cv_measurement := [dec 35 (-1); dec 36 (-1)];
     cv_temperature := [dec 25 0; dec 25 0]; cv_analyte_mass := M; cv_salinity := VInt 35 |}.

Definition totM (M : xr) : dict (nd xr) :=
  let d0 := get_dilution_factor (dec 0 0) M in let d1 := get_dilution_factor (dec 1 0) M in
  [("dic", NdA [(nofZ 0 ⊗ nofQ 0.000001 ⊗ d0)%num; (nofZ 0 ⊗ nofQ 0.000001 ⊗ d1)%num]);
   ("total_borate", NdA [(Fin 0 ⊗ d0)%num; (Fin 0 ⊗ d1)%num]);
   ("total_fluoride", NdA [(Fin 0 ⊗ d0)%num; (Fin 0 ⊗ d1)%num]);
   ("total_sulfate", NdA [(Fin 0 ⊗ d0)%num; (Fin 0 ⊗ d1)%num])].
Definition ks1 : dict (nd xr) :=
  map (fun k => (k, NdS (Fin 1))) ["k_bisulfate"; "k_borate"; "k_carbonic_1"; "k_carbonic_2"; "k_fluoride"; "k_water"].

Lemma totals_M M a b c kw : deq (get_kwargs_for keys_totals_ks kw None) (filled_totals a b c) ->
  totals_ks tiny_env (cvM M) (get_kwargs_for keys_totals_ks kw None) = Ok (totM M, ks1).
Proof.
  intros K. rewrite (totals_ks_deq _ _ _ _ K). clear K.
  unfold totals_ks, get_totals, get_k_constants, copy_if_pos, filled_totals.
  cbn [filter fst mem_str existsb keys_kwargs_totals keys_kwargs_k_constants String.eqb Ascii.eqb Bool.eqb orb].
  cbn [check_kwargs forallb fst mem_str existsb keys_get_totals keys_get_k_constants andb bind kwarg dget String.eqb Ascii.eqb Bool.eqb as_num orb].
  rewrite gt00, ne31. reflexivity.
Qed.

Definition tiny_pH : list xr := [dec 35 (-1); dec 36 (-1)].

(* the settings of the small titration, with the totals that dataset.solve fills in *)
Definition K0 (am : string * val xr) (nu : R) : kwargs xr :=
  [am; ("titrant_amount_unit", VStr "kg"); ("solve_mode", VStr "pH"); ("titrant_normality", VNum (Fin nu));
   ("opt_total_borate", VInt 1); ("total_sulfate", VNum (nofZ 35)); ("total_borate", VNum (nofZ 35));
   ("total_fluoride", VNum (nofZ 35))].

Lemma K0_solved am nu M :
  read_dat tiny_env "gen.dat" (get_kwargs_for keys_read_dat (without_mode (K0 am nu)) None) = Ok (Dat tiny_dd) ->
  amount_units_dat (Dat tiny_dd) (VInt 35) (get_kwargs_for keys_cau (without_mode (K0 am nu)) None) = Ok (cvM M) ->
  get_kwargs_for keys_totals_ks (without_mode (K0 am nu)) None =
    [("opt_total_borate", VInt 1); ("total_sulfate", VNum (nofZ 35)); ("total_borate", VNum (nofZ 35)); ("total_fluoride", VNum (nofZ 35))] ->
  get_kwargs_for keys_titrant_totals (without_mode (K0 am nu)) None = [] ->
  get_kwargs_for keys_solve_pH (without_mode (K0 am nu)) None = [("titrant_normality", VNum (Fin nu))] ->
  dget "file_path" (without_mode (K0 am nu)) = None -> mode_of (K0 am nu) = VStr "pH" ->
  exists s l, files_solve tiny_env (VStr "gen.dat") (VNum (Fin 1)) (VInt 35) (K0 am nu) = Ok (SrPh s) /\
    (sp_used s = [true; true] /\ sp_alkalinity s = nmean (mask (sp_used s) (sp_alkalinity_all s))) /\ sp_titrant_mass s = [dec 0 0; dec 1 0] /\ sp_pH s = tiny_pH /\
    sp_temperature s = [dec 25 0; dec 25 0] /\ sp_totals s = totM M /\ sp_k_constants s = ks1 /\
    alkalinity_arr tiny_pH (totM M) ks1 3 = Ok l /\
    alkalinity_all tiny_pH [dec 0 0; dec 1 0] M (Fin 1) (Fin nu) (totM M) ks1 = Ok (sp_alkalinity_all s).
Proof.
  intros R A K TT S P MD.
  assert (Al : exists l, alkalinity_arr tiny_pH (totM M) ks1 3 = Ok l) by (eexists; reflexivity). destruct Al as (l & El).
  assert (TK := totals_M M 35 35 35 (without_mode (K0 am nu))). rewrite K in TK.
  assert (D : deq [("opt_total_borate", VInt 1); ("total_sulfate", VNum (nofZ 35)); ("total_borate", VNum (nofZ 35)); ("total_fluoride", VNum (nofZ 35))] (filled_totals 35 35 35))
    by (unfold filled_totals; rewrite <- !(fin_Z' 35); intros k; reflexivity).
  specialize (TK D). clear D.
  unfold files_solve, load, full_name. rewrite P. cbn [bind]. rewrite R. cbn [bind]. rewrite A. cbn [bind]. rewrite K, TK. cbn [bind as_num].
  rewrite TT, MD. cbn [add_titrant_totals bind]. unfold dispatch_solve. cbn [as_str bind].
  change (lower "pH") with "ph". cbn [String.eqb Ascii.eqb Bool.eqb]. rewrite S. unfold call_solve_pH.
  cbn [check_kwargs forallb bind kwarg dget as_num fst mem_str existsb String.eqb Ascii.eqb Bool.eqb orb andb keys_solve_pH].
  unfold solve_pH. cbn [cvM cv_titrant_mass cv_measurement cv_temperature cv_analyte_mass length Nat.eqb negb].
  assert (LT : nltb (nofZ 3 : xr) (nofZ 4) = true).
  { cbn. unfold rltb. destruct (Rlt_dec _ _) as [|N]; [reflexivity|]. exfalso; apply N. unfold Q2R; cbn. lra. }
  rewrite LT. cbn [assert_ bind]. fold tiny_pH.
  assert (AA : exists all, alkalinity_all tiny_pH [dec 0 0; dec 1 0] M (Fin 1) (Fin nu) (totM M) ks1 = Ok all).
  { unfold alkalinity_all, default_opt_pH_scale. rewrite El. cbn [bind]. eauto. }
  destruct AA as (all & AA). rewrite AA. cbn [bind].
  eexists _, l. split; [reflexivity|]. cbn [sp_used sp_titrant_mass sp_pH sp_temperature sp_totals sp_k_constants sp_alkalinity_all].
  split; [split; [|reflexivity]|repeat split; assumption].
  change (nofZ 3 : xr) with (Fin (Q2R 3)). change (nofZ 4 : xr) with (Fin (Q2R 4)). unfold tiny_pH.
  rewrite tiny_window; [reflexivity|unfold Q2R; cbn; lra..].
Qed.

(* the analyte is given by its mass or by its volume *)
Definition by_mass : string * val xr := ("analyte_mass", VNum (Fin 1)).
Definition by_volume : string * val xr := ("analyte_volume", VNum (Fin 1)).

Lemma volume_mass nu : exists M, amount_units_dat (Dat tiny_dd) (VInt 35) (get_kwargs_for keys_cau (without_mode (K0 by_volume nu)) None) = Ok (cvM M).
Proof. eexists. reflexivity. Qed.

(* a Titration from a row with these settings *)
Lemma titration_K0 am nu M (r : row xr) :
  read_dat tiny_env "gen.dat" (get_kwargs_for keys_read_dat (without_mode (K0 am nu)) None) = Ok (Dat tiny_dd) ->
  amount_units_dat (Dat tiny_dd) (VInt 35) (get_kwargs_for keys_cau (without_mode (K0 am nu)) None) = Ok (cvM M) ->
  get_kwargs_for keys_totals_ks (without_mode (K0 am nu)) None =
    [("opt_total_borate", VInt 1); ("total_sulfate", VNum (nofZ 35)); ("total_borate", VNum (nofZ 35)); ("total_fluoride", VNum (nofZ 35))] ->
  get_kwargs_for keys_titrant_totals (without_mode (K0 am nu)) None = [] ->
  get_kwargs_for keys_solve_pH (without_mode (K0 am nu)) None = [("titrant_normality", VNum (Fin nu))] ->
  dget "file_path" (without_mode (K0 am nu)) = None -> mode_of (K0 am nu) = VStr "pH" ->
  wfd (K0 am nu) -> wfd r -> without_old_names [] r ->
  dget "file_name" r = Some (VStr "gen.dat") -> dget "titrant_molinity" r = Some (VNum (Fin 1)) -> dget "salinity" r = Some (VInt 35) ->
  nrel_on keys_solve (pos_filter r) (K0 am nu) -> numeric_at "analyte_mass" r ->
  exists t s, Titration tiny_env tiny_sys r [] = Ok t /\ ti_sr t = SrPh s /\
    sp_titrant_mass s = [dec 0 0; dec 1 0] /\
    alkalinity_all tiny_pH [dec 0 0; dec 1 0] M (Fin 1) (Fin nu) (totM M) ks1 = Ok (sp_alkalinity_all s) /\
    (sp_used s = [true; true] /\ sp_alkalinity s = nmean (mask (sp_used s) (sp_alkalinity_all s))).
Proof.
  intros R A K TT S P MD WK Wr O Gf Gc Gs N NM.
  destruct (K0_solved am nu M R A K TT S P MD) as (s & l & FS & Ct & E1 & E2 & E3 & E4 & E5 & Al & AA).
  assert (X := files_solve_null tiny_env (VStr "gen.dat") (VNum (Fin 1)) (VInt 35) (pos_filter r) (K0 am nu) (wfd_filter _ r Wr) WK N).
  assert (SN : solve_named tiny_env r = Ok (SrPh s)).
  { unfold solve_named. rewrite Gf, Gc, Gs. cbn [of_opt bind]. fold (pos_filter r). rewrite FS in X.
    destruct (files_solve tiny_env _ _ _ (pos_filter r)) as [y|]; cbn in X; [now rewrite X|destruct X]. }
  destruct (titration_exists tiny_env tiny_sys r [] [] (SrPh s) l) as (t & ET & Es).
  - apply tiny_answers.
  - now apply backcompat_id.
  - exact SN.
  - unfold shaped_result. cbn [sr_titrant_mass sr_pH sr_temperature sr_totals sr_k_constants]. rewrite E1, E2, E3, E4, E5.
    cbn [length]. repeat split; try reflexivity; repeat constructor.
  - cbn [sr_pH sr_totals sr_k_constants]. now rewrite E2, E4, E5.
  - exact NM.
  - exists (VInt 35), (nofZ 35). split; [exact Gs|reflexivity].
  - exists t, s. auto.
Qed.

(* ------------------------------------------------------------------ *)
(** * Rows with these settings *)

Definition w_row (am : string * val xr) (nu : R) : row xr :=
  [("file_name", VStr "gen.dat"); ("salinity", VInt 35); ("titrant_molinity", VNum (Fin 1)); ("file_good", VBool true); am;
   ("titrant_amount_unit", VStr "kg"); ("solve_mode", VStr "pH"); ("titrant_normality", VNum (Fin nu))].
Definition w_totals : row xr :=
  [("opt_total_borate", VInt 1); ("total_sulfate", VNum (nofZ 35)); ("total_borate", VNum (nofZ 35)); ("total_fluoride", VNum (nofZ 35))].
Definition single (r : row xr) : frame xr := {| f_cols := dkeys r; f_rows := [r] |}.

Lemma K0_wfd am nu : fst am = "analyte_mass" \/ fst am = "analyte_volume" -> wfd (K0 am nu).
Proof. intros I. unfold wfd, K0. destruct am as [k v]. cbn [fst map] in *. destruct I; subst k; repeat constructor; cbn; intuition discriminate. Qed.

Ltac each_key I := cbn in I; repeat (destruct I as [<-|I]; [|]); [..|destruct I].

Lemma by_mass_titration nu : exists t s, Titration tiny_env tiny_sys (w_row by_mass nu ++ w_totals) [] = Ok t /\ ti_sr t = SrPh s /\
    sp_titrant_mass s = [dec 0 0; dec 1 0] /\
    alkalinity_all tiny_pH [dec 0 0; dec 1 0] (Fin 1) (Fin 1) (Fin nu) (totM (Fin 1)) ks1 = Ok (sp_alkalinity_all s) /\
    (sp_used s = [true; true] /\ sp_alkalinity s = nmean (mask (sp_used s) (sp_alkalinity_all s))).
Proof.
  apply (titration_K0 by_mass); try reflexivity.
  - apply K0_wfd. now left.
  - unfold wfd. repeat constructor; cbn; intuition discriminate.
  - repeat split; reflexivity.
  - intros k I. left. each_key I; reflexivity.
  - exists (VNum (Fin 1)), (Fin 1). split; reflexivity.
Qed.

(* the row of a solved one-row dataset *)
Lemma single_solved (w p : row xr) ds' : wfd w -> prep_row tiny_env (dkeys w) w = Ok p -> solve tiny_env [] (single w) = Ok ds' ->
  exists r', f_rows ds' = [r'] /\ wfd r' /\
    (forall k, ~ In k output_cols -> k <> "alkalinity_offset" -> dget k r' = dget k p) /\
    dget "analyte_mass" r' = Some (cell "analyte_mass" p) /\
    (forall n, npts (solve_row tiny_env [] p) = Some n -> value ds' 0 "alkalinity_npts" = Some n).
Proof.
  intros Ww P E.
  assert (Tb : is_table (single w)) by (split; [exact Ww|intros r [<-|[]]; reflexivity]).
  assert (Tb' : is_table ds') by (now apply (wff_solve tiny_env [] (single w))).
  apply solve_inv in E. destruct E as (_ & _ & M). cbn [single f_rows mapM] in M.
  destruct (solve_one _ _ _ w) as [r'|] eqn:S1; cbn [bind] in M; [|discriminate]. injection M as M. exists r'.
  assert (Ir : In r' (f_rows ds')) by (rewrite <- M; now left).
  destruct (solve_one_inv _ _ _ _ _ S1) as (p' & d & P' & Sr & F). cbn [single f_cols] in P'. rewrite P in P'. injection P' as <-.
  split; [symmetry; exact M|]. split.
  { unfold wfd. change (map fst r') with (dkeys r'). rewrite (proj2 Tb' r' Ir). apply Tb'. }
  split; [|split].
  - intros k N1 N2. rewrite (finish_get _ _ _ _ F N2), dget_put. apply mem_str_false in N1. now rewrite N1.
  - rewrite (finish_get _ _ _ _ F), dget_put by discriminate. cbn [mem_str existsb output_cols String.eqb Ascii.eqb Bool.eqb orb].
    now rewrite (solve_row_mass _ _ _ _ Sr).
  - intros n N. rewrite Sr in N. cbn [npts] in N. unfold value. rewrite <- M. cbn [nth_error].
    rewrite (finish_get _ _ _ _ F), dget_put by discriminate. cbn [mem_str existsb output_cols String.eqb Ascii.eqb Bool.eqb orb].
    unfold cell. now rewrite N.
Qed.

Lemma single_solves (w : row xr) : wfd w ->
  (forall c, In c ["file_name"; "salinity"; "titrant_molinity"] -> In c (dkeys w)) ->
  (In "analyte_mass" (dkeys w) \/ In "analyte_volume" (dkeys w)) ->
  (exists z, dget "salinity" w = Some (VInt z)) -> dget "opt_total_borate" w = None -> dget "alkalinity_certified" w = None ->
  exists ds', solve tiny_env [] (single w) = Ok ds'.
Proof.
  intros Ww C1 C2 (z & G1) G2 G3. apply C51_solve_never_raises; auto.
  - split; [exact Ww|intros r [<-|[]]; reflexivity].
  - split; reflexivity.
  - intros c I r v [<-|[]] G. cbn in I. destruct I as [<-|[<-|[<-|[]]]]; [|congruence..].
    rewrite G1 in G. injection G as <-. right. eexists. reflexivity.
Qed.

(* ------------------------------------------------------------------ *)
(** * C64 *)

Lemma getattr_row (e : env xr) sys r t k : Titration e sys r [] = Ok t -> without_old_names [] r -> ~ In k solved_columns ->
  getattr t k = of_opt (dget k r) (AttributeError k).
Proof.
  intros E O N. destruct (titration_inv e sys r [] t E) as (kw1 & st & st1 & B & _ & ER & _).
  rewrite (backcompat_id [] r O) in B. injection B as <-. unfold getattr. now rewrite ER, asr_other.
Qed.

(* a Titration without file_path cannot be printed *)
Theorem C64_refuted : exists (e : env xr) sys r t,
  Titration e sys r [] = Ok t /\ str_titration t = Err (AttributeError "ro").
Proof.
  destruct (by_mass_titration 1) as (t & s & E & _). exists tiny_env, tiny_sys, (w_row by_mass 1 ++ w_totals), t. split; [exact E|].
  assert (O : without_old_names [] (w_row by_mass 1 ++ w_totals)) by (repeat split; reflexivity).
  pose proof (getattr_row _ _ _ _ "file_path" E O ltac:(cbn; intuition discriminate)) as G1.
  pose proof (getattr_row _ _ _ _ "ro" E O ltac:(cbn; intuition discriminate)) as G2.
  unfold str_titration. rewrite G2. unfold getattr in G1. destruct (dget "file_path" (ti_row t)); [discriminate|reflexivity].
Qed.

(* ------------------------------------------------------------------ *)
(** * C63 *)

(* with a titrant of normality 1 the estimates are the solver's *)
Corollary C63_normality_one_partial : forall (e : env xr) (sys : co2sys_t xr) r kw t all est M c i a b m,
  agrees sys -> Titration e sys r kw = Ok t ->
  sr_all (ti_sr t) = Some all -> dget "alkalinity_estimate" (ti_table t) = Some est ->
  getattr t "analyte_mass" = Ok (VNum (Fin M)) -> (0 < M)%R ->
  getattr t "titrant_molinity" = Ok (VNum (Fin c)) ->
  as_num (kwarg "titrant_normality" (VInt 1) (ti_row t)) = Ok (Fin 1) ->
  nth_error (sr_titrant_mass (ti_sr t)) i = Some (Fin m) -> (0 <= m)%R ->
  nth_error all i = Some a -> nth_error est i = Some b ->
  (b ⊗ Fin 1000000 = a)%num.
Proof.
  intros e sys r kw t all est M c i a b m Ag E Ea Ee GM HM Gc Gn Gm Hm Na Nb.
  rewrite (C63_estimate_vs_solver e sys r kw t all est M c 1 i a b m) by assumption.
  replace (1000000 * (1 - 1) * c * m / M)%R with 0%R by (field; lra).
  destruct a as [a| | |]; xsimp; try reflexivity. apply (f_equal Fin). lra.
Qed.

Lemma dec_fin a b : exists x, (dec a b : xr) = Fin x. Proof. unfold dec. destruct (0 <=? b)%Z; eexists; reflexivity. Qed.

Lemma tiny_sim_finite : exists s0 s1, alkalinity_arr tiny_pH (totM (Fin 1)) ks1 3 = Ok [Fin s0; Fin s1].
Proof.
  assert (Z : (dec 0 0 : xr) = Fin 0) by (cbn; f_equal; unfold Q2R; cbn; lra).
  assert (O : (dec 1 0 : xr) = Fin 1) by (cbn; f_equal; unfold Q2R; cbn; lra).
  assert (Tot : forall i, (i < 2)%nat -> nonneg_totals (slice_at (totM (Fin 1)) i)).
  { intros i Li k v G. unfold totM in G. rewrite Z, O in G. unfold get_dilution_factor in G. revert G. xsimp. rewrite !fin_div by lra.
    xsimp. intros G. apply dget_in in G.
    destruct i as [|[|i]]; [| |lia]; cbn in G; repeat (destruct G as [G|G]; [injection G as <- <-; eexists; split; [reflexivity|q2r; lra]|]); destruct G. }
  assert (Ks : forall i, pos_constants (slice_at ks1 i)).
  { intros i k v G. apply dget_in in G. cbn in G. repeat (destruct G as [G|G]; [injection G as <- <-; eexists; split; [reflexivity|lra]|]); destruct G. }
  destruct (dec_fin 35 (-1)) as (p0 & P0). destruct (dec_fin 36 (-1)) as (p1 & P1).
  assert (A : exists l, alkalinity_arr tiny_pH (totM (Fin 1)) ks1 3 = Ok l) by (eexists; reflexivity).
  destruct A as (l & A). rewrite A. unfold alkalinity_arr in A.
  change (all_fit (length tiny_pH) (totM (Fin 1)) && all_fit (length tiny_pH) ks1)%bool with true in A. cbv iota in A.
  unfold tiny_pH in A. cbn [bind length seq combine mapM fst snd] in A. rewrite P0, P1 in A.
  destruct (alkalinity (Fin p0) _ _ 3) as [a0|] eqn:E0; cbn [bind] in A; [|discriminate].
  destruct (alkalinity (Fin p1) _ _ 3) as [a1|] eqn:E1; cbn [bind] in A; [|discriminate].
  apply alkalinity_finite in E0; [|apply Tot; lia|apply Ks]. apply alkalinity_finite in E1; [|apply Tot; lia|apply Ks].
  destruct E0 as (s0 & ->). destruct E1 as (s1 & ->). exists s0, s1. symmetry. exact A.
Qed.

(* with a titrant of normality 2 they are not *)
Theorem C63_normality_refuted : exists (e : env xr) (sys : co2sys_t xr) r t all est i a b,
  agrees sys /\ Titration e sys r [] = Ok t /\ dget "titrant_normality" r = Some (VNum (Fin 2)) /\
  sr_all (ti_sr t) = Some all /\ dget "alkalinity_estimate" (ti_table t) = Some est /\
  nth_error all i = Some a /\ nth_error est i = Some b /\ (b ⊗ Fin 1000000)%num <> a.
Proof.
  destruct (by_mass_titration 2) as (t & s & E & Es & Etm & Eall & _).
  set (r := w_row by_mass 2 ++ w_totals) in *.
  assert (O : without_old_names [] r) by (repeat split; reflexivity).
  assert (Att : forall k, ~ In k solved_columns -> getattr t k = of_opt (dget k r) (AttributeError k)) by (intros k N; exact (getattr_row _ _ _ _ k E O N)).
  assert (GM : getattr t "analyte_mass" = Ok (VNum (Fin 1))) by (rewrite Att by (cbn; intuition discriminate); reflexivity).
  destruct (mass_columns _ _ _ _ _ _ _ E GM eq_refl) as (a' & c' & afp & _ & _ & La & _ & _ & C3).
  rewrite Es in La, C3. cbn [sr_titrant_mass] in La, C3. rewrite Etm in La, C3.
  destruct afp as [|f0 [|f1 [|? ?]]]; cbn in La; try discriminate. cbn [map map3] in C3.
  match type of C3 with _ = Some [?x0; ?x1] => set (b0 := x0) in C3; set (b := x1) in C3 end.
  destruct tiny_sim_finite as (s0 & s1 & Sim).
  unfold alkalinity_all, default_opt_pH_scale in Eall. rewrite Sim in Eall. cbn [bind map2] in Eall.
  assert (O1 : (dec 1 0 : xr) = Fin 1) by (cbn; f_equal; unfold Q2R; cbn; lra).
  match type of Eall with Ok [?x0; ?x1] = _ => set (a0 := x0) in Eall; assert (Fa : exists a, x1 = Fin a) end.
  { rewrite O1. unfold get_dilution_factor. xsimp. rewrite !fin_div by lra. xsimp. rewrite fin_div by lra. eexists. reflexivity. }
  destruct Fa as (a & Fa). rewrite Fa in Eall.
  assert (Ea : sp_alkalinity_all s = [a0; Fin a]) by congruence. clear Eall.
  exists tiny_env, tiny_sys, r, t, [a0; Fin a], [b0; b], 1%nat, (Fin a), b.
  split; [apply tiny_agrees|]. split; [exact E|]. split; [reflexivity|]. split; [rewrite Es; cbn [sr_all]; now rewrite Ea|].
  split; [exact C3|]. split; [reflexivity|]. split; [reflexivity|].
  rewrite (C63_estimate_vs_solver tiny_env tiny_sys r [] t [a0; Fin a] [b0; b] 1 1 2 1 (Fin a) b 1).
  - xsimp. intros X. injection X as X. lra.
  - apply tiny_agrees.
  - exact E.
  - rewrite Es. cbn [sr_all]. now rewrite Ea.
  - exact C3.
  - exact GM.
  - lra.
  - rewrite Att by (cbn; intuition discriminate). reflexivity.
  - unfold kwarg. pose proof (Att "titrant_normality" ltac:(cbn; intuition discriminate)) as X. unfold getattr in X.
    destruct (dget "titrant_normality" (ti_row t)); cbn in X; [|discriminate]. injection X as ->. reflexivity.
  - rewrite Es. cbn [sr_titrant_mass]. rewrite Etm. cbn [nth_error]. now rewrite O1.
  - lra.
  - reflexivity.
  - reflexivity.
Qed.

(* ------------------------------------------------------------------ *)
(** * C62 *)

(* a prepared row that solves *)
Lemma K0_npts am nu M (p : row xr) :
  read_dat tiny_env "gen.dat" (get_kwargs_for keys_read_dat (without_mode (K0 am nu)) None) = Ok (Dat tiny_dd) ->
  amount_units_dat (Dat tiny_dd) (VInt 35) (get_kwargs_for keys_cau (without_mode (K0 am nu)) None) = Ok (cvM M) ->
  get_kwargs_for keys_totals_ks (without_mode (K0 am nu)) None = w_totals ->
  get_kwargs_for keys_titrant_totals (without_mode (K0 am nu)) None = [] ->
  get_kwargs_for keys_solve_pH (without_mode (K0 am nu)) None = [("titrant_normality", VNum (Fin nu))] ->
  dget "file_path" (without_mode (K0 am nu)) = None -> mode_of (K0 am nu) = VStr "pH" ->
  wfd (K0 am nu) -> wfd p -> without_old_names [] p ->
  dget "file_name" p = Some (VStr "gen.dat") -> dget "titrant_molinity" p = Some (VNum (Fin 1)) -> dget "salinity" p = Some (VInt 35) ->
  dget "file_good" p = Some (VBool true) ->
  nrel_on keys_solve (get_kwargs_for keys_solve [] (Some p)) (K0 am nu) ->
  npts (solve_row tiny_env [] p) = Some (VInt 2).
Proof.
  intros R A K TT S P MD WK Wp O Gf Gc Gs Gg N.
  destruct (K0_solved am nu M R A K TT S P MD) as (s & l & FS & Ct & _).
  assert (X := files_solve_null tiny_env (VStr "gen.dat") (VNum (Fin 1)) (VInt 35) (get_kwargs_for keys_solve [] (Some p)) (K0 am nu)
                 (wfd_resolve keys_solve [] p (NoDup_nil _)) WK N).
  eapply row_solved; [exact (backcompat_id [] p O)|exact Gf|exact Gc|exact Gs|exact Gg|].
  exists s. split; [|destruct Ct as [-> _]; reflexivity]. rewrite FS in X.
  destruct (files_solve tiny_env _ _ _ (get_kwargs_for keys_solve [] (Some p))) as [y|]; cbn in X; [now rewrite X|destruct X].
Qed.

Definition v_prep : row xr := w_row by_volume 1 ++ w_totals ++ [("analyte_mass", VNum NaN)].
Lemma prep_v : prep_row tiny_env (dkeys (w_row by_volume 1)) (w_row by_volume 1) = Ok v_prep.
Proof.
  unfold prep_row. rewrite salt_row_spec. rewrite !(tiny_salt _ (w_row by_volume 1) 35) by reflexivity. cbn [bind]. reflexivity.
Qed.

(* a dataset row that is given by its volume is solved, but the table of its Titration is not filled *)
Theorem C62_refuted : exists (e : env xr) sys ds ds' t, is_table ds /\ answers sys /\
  value ds 0 "analyte_volume" = Some (VNum (Fin 1)) /\
  solve e [] ds = Ok ds' /\ value ds' 0 "alkalinity_npts" = Some (VInt 2) /\
  to_Titration e sys ds' 0 [] = Ok t /\
  forall k, In k ["alkalinity_from_acid"; "dilution_factor"; "alkalinity_estimate"] ->
    dget k (ti_table t) = Some [NaN; NaN].
Proof.
  set (w := w_row by_volume 1).
  assert (Ww : wfd w) by (unfold wfd; repeat constructor; cbn; intuition discriminate).
  assert (Wp : wfd v_prep) by (unfold wfd; repeat constructor; cbn; intuition discriminate).
  destruct (single_solves w Ww) as (ds' & E).
  { intros c I. cbn in *. intuition. } { right. cbn. tauto. } { exists 35%Z. reflexivity. } { reflexivity. } { reflexivity. }
  destruct (single_solved w v_prep ds' Ww prep_v E) as (r' & Er & Wr & Gk & GM & Np).
  destruct (volume_mass 1) as (M & AU).
  assert (T1 : npts (solve_row tiny_env [] v_prep) = Some (VInt 2)).
  { apply (K0_npts by_volume 1 M); try reflexivity; try exact Wp.
    - exact AU.
    - apply K0_wfd. now right.
    - repeat split; reflexivity.
    - intros k I. left. each_key I; reflexivity. }
  assert (Get : forall k, mem_str k ("alkalinity_offset" :: output_cols) = false -> dget k r' = dget k v_prep).
  { intros k N. apply mem_str_false in N. apply Gk; intros X; apply N; cbn; [right; exact X|now left]. }
  destruct (titration_K0 by_volume 1 M r') as (t & s & ET & Es & Etm & _); try reflexivity; try exact Wr.
  - exact AU.
  - apply K0_wfd. now right.
  - repeat split; try reflexivity. rewrite Get; reflexivity.
  - rewrite Get; reflexivity.
  - rewrite Get; reflexivity.
  - rewrite Get; reflexivity.
  - intros k I.
    assert (F : forallb (fun k => orb (String.eqb k "analyte_mass") (negb (mem_str k ("alkalinity_offset" :: output_cols)))) keys_solve = true) by reflexivity.
    rewrite forallb_forall in F. specialize (F k I).
    assert (NI : ~ In k ["file_name"; "titrant_molinity"; "salinity"]).
    { assert (F' : forallb (fun k => negb (mem_str k ["file_name"; "titrant_molinity"; "salinity"])) keys_solve = true) by reflexivity.
      rewrite forallb_forall in F'. specialize (F' k I). apply Bool.negb_true_iff, mem_str_false in F'. exact F'. }
    rewrite pos_get by exact NI.
    apply Bool.orb_true_iff in F. destruct F as [F|F].
    + apply String.eqb_eq in F. subst k. right. rewrite GM. split; [cbn; tauto|]. cbn. auto.
    + apply Bool.negb_true_iff in F. rewrite Get by exact F. left. clear -I F. each_key I; first [reflexivity|discriminate F].
  - exists (VNum NaN), NaN. split; [exact GM|reflexivity].
  - exists tiny_env, tiny_sys, (single w), ds', t.
    assert (Tb : is_table (single w)) by (split; [exact Ww|intros r [<-|[]]; reflexivity]).
    split; [exact Tb|]. split; [apply tiny_answers|]. split; [reflexivity|]. split; [exact E|]. split; [now apply Np|].
    assert (ET' : to_Titration tiny_env tiny_sys ds' 0 [] = Ok t) by (unfold to_Titration; rewrite Er; exact ET).
    split; [exact ET'|]. intros k Ik.
    destruct (C62_solved_volume_row_is_nan tiny_env tiny_sys [] (single w) ds' 0 [] t Tb E) with (k := k) as (l & G & Ll & An);
      [cbn; intuition discriminate|exact ET'|constructor|reflexivity|reflexivity|exact Ik|].
    rewrite G. rewrite Es in Ll. cbn [sr_titrant_mass] in Ll. rewrite Etm in Ll.
    destruct l as [|x [|y [|? ?]]]; try discriminate. rewrite (An x), (An y) by (cbn; tauto). reflexivity.
Qed.

(* ------------------------------------------------------------------ *)
(** * C61 *)

(* an empty cell in a column pH_min: the dataset solves the row, but the Titration cannot be made *)
Lemma K0_null_min_raises : files_solve tiny_env (VStr "gen.dat") (VNum (Fin 1)) (VInt 35) (K0 by_mass 1 ++ [("pH_min", VNum NaN)]) = Err AssertionError.
Proof.
  set (kw := K0 by_mass 1 ++ [("pH_min", VNum NaN)]).
  assert (TK := totals_M (Fin 1) 35 35 35 (without_mode kw)).
  assert (K : get_kwargs_for keys_totals_ks (without_mode kw) None = w_totals) by reflexivity. rewrite K in TK.
  assert (D : deq w_totals (filled_totals 35 35 35)) by (unfold w_totals, filled_totals; rewrite <- !(fin_Z' 35); intros k; reflexivity).
  specialize (TK D). clear D.
  unfold files_solve, load, full_name. change (dget "file_path" (without_mode kw)) with (@None (val xr)). cbn [bind].
  change (read_dat tiny_env "gen.dat" (get_kwargs_for keys_read_dat (without_mode kw) None)) with (Ok (Dat tiny_dd)). cbn [bind].
  change (amount_units_dat (Dat tiny_dd) (VInt 35) (get_kwargs_for keys_cau (without_mode kw) None)) with (Ok (cvM (Fin 1))). cbn [bind].
  rewrite K, TK. cbn [bind as_num].
  change (get_kwargs_for keys_titrant_totals (without_mode kw) None) with ([] : kwargs xr). change (mode_of kw) with (VStr "pH" : val xr).
  cbn [add_titrant_totals bind]. unfold dispatch_solve. cbn [as_str bind].
  change (lower "pH") with "ph". cbn [String.eqb Ascii.eqb Bool.eqb].
  change (get_kwargs_for keys_solve_pH (without_mode kw) None) with ([("titrant_normality", VNum (Fin 1)); ("pH_min", VNum NaN)] : kwargs xr).
  unfold call_solve_pH.
  cbn [check_kwargs forallb bind kwarg dget as_num fst mem_str existsb String.eqb Ascii.eqb Bool.eqb orb andb keys_solve_pH].
  unfold solve_pH. cbn [cvM cv_titrant_mass cv_measurement cv_temperature cv_analyte_mass length Nat.eqb negb]. reflexivity.
Qed.

Definition m_prep : row xr := w_row by_mass 1 ++ [("pH_min", VNum NaN)] ++ w_totals.
Lemma prep_m : prep_row tiny_env (dkeys (w_row by_mass 1 ++ [("pH_min", VNum NaN)])) (w_row by_mass 1 ++ [("pH_min", VNum NaN)]) = Ok m_prep.
Proof.
  unfold prep_row. rewrite salt_row_spec. rewrite !(tiny_salt _ (w_row by_mass 1 ++ [("pH_min", VNum NaN)]) 35) by reflexivity. cbn [bind]. reflexivity.
Qed.

Theorem C61_null_pH_min_refuted : exists (e : env xr) sys ds ds', is_table ds /\ answers sys /\
  solve e [] ds = Ok ds' /\ value ds' 0 "alkalinity_npts" = Some (VInt 2) /\ value ds' 0 "pH_min" = Some (VNum NaN) /\
  exists x, to_Titration e sys ds' 0 [] = Err x.
Proof.
  set (w := w_row by_mass 1 ++ [("pH_min", VNum NaN)]).
  assert (Ww : wfd w) by (unfold wfd; repeat constructor; cbn; intuition discriminate).
  assert (Wp : wfd m_prep) by (unfold wfd; repeat constructor; cbn; intuition discriminate).
  destruct (single_solves w Ww) as (ds' & E).
  { intros c I. cbn in *. intuition. } { left. cbn. tauto. } { exists 35%Z. reflexivity. } { reflexivity. } { reflexivity. }
  destruct (single_solved w m_prep ds' Ww prep_m E) as (r' & Er & Wr & Gk & GM & Np).
  assert (T1 : npts (solve_row tiny_env [] m_prep) = Some (VInt 2)).
  { apply (K0_npts by_mass 1 (Fin 1)); try reflexivity; try exact Wp.
    - apply K0_wfd. now left.
    - repeat split; reflexivity.
    - intros k I. left. each_key I; reflexivity. }
  assert (Get : forall k, mem_str k ("alkalinity_offset" :: output_cols) = false -> dget k r' = dget k m_prep).
  { intros k N. apply mem_str_false in N. apply Gk; intros X; apply N; cbn; [right; exact X|now left]. }
  exists tiny_env, tiny_sys, (single w), ds'.
  split; [split; [exact Ww|intros r [<-|[]]; reflexivity]|]. split; [apply tiny_answers|]. split; [exact E|]. split; [now apply Np|].
  split; [unfold value; rewrite Er; cbn [nth_error]; rewrite Get; reflexivity|].
  assert (WK : wfd (K0 by_mass 1 ++ [("pH_min", VNum NaN)])) by (unfold wfd; repeat constructor; cbn; intuition discriminate).
  assert (N : nrel_on keys_solve (pos_filter r') (K0 by_mass 1 ++ [("pH_min", VNum NaN)])).
  { intros k I.
    assert (F : forallb (fun k => orb (String.eqb k "analyte_mass") (negb (mem_str k ("alkalinity_offset" :: output_cols)))) keys_solve = true) by reflexivity.
    rewrite forallb_forall in F. specialize (F k I).
    assert (NI : ~ In k ["file_name"; "titrant_molinity"; "salinity"]).
    { assert (F' : forallb (fun k => negb (mem_str k ["file_name"; "titrant_molinity"; "salinity"])) keys_solve = true) by reflexivity.
      rewrite forallb_forall in F'. specialize (F' k I). apply Bool.negb_true_iff, mem_str_false in F'. exact F'. }
    rewrite pos_get by exact NI. left.
    apply Bool.orb_true_iff in F. destruct F as [F|F].
    + apply String.eqb_eq in F. subst k. exact GM.
    + apply Bool.negb_true_iff in F. rewrite Get by exact F. clear -I F. each_key I; first [reflexivity|discriminate F]. }
  assert (X := files_solve_null tiny_env (VStr "gen.dat") (VNum (Fin 1)) (VInt 35) (pos_filter r') _ (wfd_filter _ r' Wr) WK N).
  rewrite K0_null_min_raises in X.
  unfold to_Titration. rewrite Er. cbn [nth_error of_opt bind]. unfold Titration.
  assert (O : without_old_names [] r') by (repeat split; try reflexivity; rewrite Get; reflexivity).
  rewrite (backcompat_id [] r' O). cbn [bind]. change (dupdate r' []) with r'. unfold solve_named.
  rewrite !Get by reflexivity.
  change (dget "file_name" m_prep) with (Some (VStr "gen.dat" : val xr)). change (dget "titrant_molinity" m_prep) with (Some (VNum (Fin 1))).
  change (dget "salinity" m_prep) with (Some (VInt 35 : val xr)). cbn [of_opt bind]. fold (pos_filter r').
  destruct (files_solve tiny_env (VStr "gen.dat") (VNum (Fin 1)) (VInt 35) (pos_filter r')) as [y|y]; [destruct X|].
  exists y. reflexivity.
Qed.

(* a row marked as bad: the dataset does not solve it, the Titration does *)
Definition bad_row : row xr :=
  [("file_name", VStr "gen.dat"); ("salinity", VInt 35); ("titrant_molinity", VNum (Fin 1)); ("file_good", VBool false); by_mass;
   ("titrant_amount_unit", VStr "kg"); ("solve_mode", VStr "pH"); ("titrant_normality", VNum (Fin 1))].
Lemma prep_bad : prep_row tiny_env (dkeys bad_row) bad_row = Ok (bad_row ++ w_totals).
Proof. unfold prep_row. rewrite salt_row_spec. rewrite !(tiny_salt _ bad_row 35) by reflexivity. cbn [bind]. reflexivity. Qed.

Theorem C61_file_good_refuted : exists (e : env xr) sys ds ds' t, is_table ds /\ answers sys /\
  solve e [] ds = Ok ds' /\ value ds' 0 "alkalinity_npts" = Some (VInt 0) /\
  to_Titration e sys ds' 0 [] = Ok t /\ getattr t "alkalinity_npts" = Ok (VInt 2).
Proof.
  set (w := bad_row).
  assert (Ww : wfd w) by (unfold wfd; repeat constructor; cbn; intuition discriminate).
  destruct (single_solves w Ww) as (ds' & E).
  { intros c I. cbn in *. intuition. } { left. cbn. tauto. } { exists 35%Z. reflexivity. } { reflexivity. } { reflexivity. }
  destruct (single_solved w _ ds' Ww prep_bad E) as (r' & Er & Wr & Gk & GM & Np).
  assert (T1 : npts (solve_row tiny_env [] (bad_row ++ w_totals)) = Some (VInt 0)) by reflexivity.
  assert (Get : forall k, mem_str k ("alkalinity_offset" :: output_cols) = false -> dget k r' = dget k (bad_row ++ w_totals)).
  { intros k N. apply mem_str_false in N. apply Gk; intros X; apply N; cbn; [right; exact X|now left]. }
  assert (O : without_old_names [] r') by (repeat split; try reflexivity; rewrite Get; reflexivity).
  destruct (titration_K0 by_mass 1 (Fin 1) r') as (t & s & ET & Es & Etm & _ & Ct); try reflexivity; try exact Wr; try exact O.
  - apply K0_wfd. now left.
  - rewrite Get; reflexivity.
  - rewrite Get; reflexivity.
  - rewrite Get; reflexivity.
  - intros k I.
    assert (F : forallb (fun k => orb (String.eqb k "analyte_mass") (negb (mem_str k ("alkalinity_offset" :: output_cols)))) keys_solve = true) by reflexivity.
    rewrite forallb_forall in F. specialize (F k I).
    assert (NI : ~ In k ["file_name"; "titrant_molinity"; "salinity"]).
    { assert (F' : forallb (fun k => negb (mem_str k ["file_name"; "titrant_molinity"; "salinity"])) keys_solve = true) by reflexivity.
      rewrite forallb_forall in F'. specialize (F' k I). apply Bool.negb_true_iff, mem_str_false in F'. exact F'. }
    rewrite pos_get by exact NI. left.
    apply Bool.orb_true_iff in F. destruct F as [F|F].
    + apply String.eqb_eq in F. subst k. exact GM.
    + apply Bool.negb_true_iff in F. rewrite Get by exact F. clear -I F. each_key I; first [reflexivity|discriminate F].
  - exists (VNum (Fin 1)), (Fin 1). split; [exact GM|reflexivity].
  - exists tiny_env, tiny_sys, (single w), ds', t.
    split; [split; [exact Ww|intros r [<-|[]]; reflexivity]|]. split; [apply tiny_answers|]. split; [exact E|]. split; [now apply Np|].
    split; [unfold to_Titration; rewrite Er; exact ET|].
    destruct (titration_inv _ _ _ _ _ ET) as (kw1 & st & st1 & B & _ & ER & _). unfold getattr. rewrite ER, Es.
    cbn [add_solve_results]. unfold set_inits. destruct (nth_error (sp_pH s) 0); [destruct (nth_error (sp_temperature s) 0)|];
      rewrite !dget_dset_other by discriminate; rewrite dget_dset_same; unfold Dataset.n_used; destruct Ct as [-> _]; reflexivity.
Qed.

(* ------------------------------------------------------------------ *)
(** * The hypotheses of C61, C62, C63 and C64 are met *)

Example C62_C64_nonvacuous : exists t M a c, Titration tiny_env tiny_sys (w_row by_mass 1 ++ w_totals) [] = Ok t /\
  getattr t "analyte_mass" = Ok (VNum (Fin M)) /\ (0 < M)%R /\
  getattr t "alkalinity" = Ok (VNum (Fin a)) /\ getattr t "titrant_molinity" = Ok (VNum (Fin c)) /\
  (forall x, In x (sr_titrant_mass (ti_sr t)) -> exists m, x = Fin m /\ (0 <= m)%R) /\
  length (sr_titrant_mass (ti_sr t)) = 2%nat.
Proof.
  destruct (by_mass_titration 1) as (t & s & E & Es & Etm & Eall & U & Al).
  set (r := w_row by_mass 1 ++ w_totals) in *.
  assert (O : without_old_names [] r) by (repeat split; reflexivity).
  destruct tiny_sim_finite as (s0 & s1 & Sim).
  assert (Z : (dec 0 0 : xr) = Fin 0) by (cbn; f_equal; unfold Q2R; cbn; lra).
  assert (O1 : (dec 1 0 : xr) = Fin 1) by (cbn; f_equal; unfold Q2R; cbn; lra).
  assert (F : exists a, sp_alkalinity s = Fin a).
  { unfold alkalinity_all, default_opt_pH_scale in Eall. rewrite Sim in Eall. cbn [bind map2] in Eall. rewrite Z, O1 in Eall.
    unfold get_dilution_factor in Eall. revert Eall. xsimp. rewrite !fin_div by lra. xsimp. rewrite !fin_div by lra. intros Eall.
    apply (f_equal (fun z => match z with Ok y => y | Err _ => [] end)) in Eall. cbv beta iota in Eall.
    rewrite Al, U, <- Eall. cbn [mask].
    match goal with |- exists a, nmean [Fin ?x; Fin ?y] = _ => exists (Rmean [x; y]); apply (nmean_fin [x; y]); intros Q; discriminate Q end. }
  destruct F as (a & Fa). exists t, 1%R, a, 1%R. split; [exact E|].
  split; [rewrite (getattr_row _ _ _ _ _ E O) by (cbn; intuition discriminate); reflexivity|]. split; [lra|].
  split.
  { destruct (titration_inv _ _ _ _ _ E) as (kw1 & st & st1 & B & _ & ER & _). unfold getattr. rewrite ER, Es.
    cbn [add_solve_results]. unfold set_inits. destruct (nth_error (sp_pH s) 0); [destruct (nth_error (sp_temperature s) 0)|];
      repeat (rewrite dget_dset_other by discriminate); rewrite dget_dset_same, Fa; reflexivity. }
  split; [rewrite (getattr_row _ _ _ _ _ E O) by (cbn; intuition discriminate); reflexivity|].
  rewrite Es. cbn [sr_titrant_mass]. rewrite Etm, Z, O1. split; [|reflexivity].
  intros x [<-|[<-|[]]]; eexists; (split; [reflexivity|lra]).
Qed.

Definition g_prep : row xr := w_row by_mass 1 ++ w_totals.
Lemma prep_g : prep_row tiny_env (dkeys (w_row by_mass 1)) (w_row by_mass 1) = Ok g_prep.
Proof. unfold prep_row. rewrite salt_row_spec. rewrite !(tiny_salt _ (w_row by_mass 1) 35) by reflexivity. cbn [bind]. reflexivity. Qed.

Example C61_nonvacuous : exists ds ds' r t,
  is_table ds /\ solve tiny_env [] ds = Ok ds' /\ nth_error (f_rows ds') 0 = Some r /\
  without_old_names [] r /\ only_settings ([] : kwargs xr) /\ no_conflict [] r /\
  value ds' 0 "file_good" = Some (VBool true) /\ value ds' 0 "titrant_molinity" = Some (VNum (Fin 1)) /\
  to_Titration tiny_env tiny_sys ds' 0 [] = Ok t /\ getattr t "alkalinity_npts" = Ok (VInt 2).
Proof.
  set (w := w_row by_mass 1).
  assert (Ww : wfd w) by (unfold wfd; repeat constructor; cbn; intuition discriminate).
  destruct (single_solves w Ww) as (ds' & E).
  { intros c I. cbn in *. intuition. } { left. cbn. tauto. } { exists 35%Z. reflexivity. } { reflexivity. } { reflexivity. }
  destruct (single_solved w _ ds' Ww prep_g E) as (r' & Er & Wr & Gk & GM & Np).
  assert (Get : forall k, mem_str k ("alkalinity_offset" :: output_cols) = false -> dget k r' = dget k g_prep).
  { intros k N. apply mem_str_false in N. apply Gk; intros X; apply N; cbn; [right; exact X|now left]. }
  assert (O : without_old_names [] r') by (repeat split; try reflexivity; rewrite Get; reflexivity).
  assert (KG : forall k, In k keys_solve -> dget k r' = dget k (K0 by_mass 1)).
  { intros k I.
    assert (F : forallb (fun k => orb (String.eqb k "analyte_mass") (negb (mem_str k ("alkalinity_offset" :: output_cols)))) keys_solve = true) by reflexivity.
    rewrite forallb_forall in F. specialize (F k I). apply Bool.orb_true_iff in F. destruct F as [F|F].
    + apply String.eqb_eq in F. subst k. exact GM.
    + apply Bool.negb_true_iff in F. rewrite Get by exact F. clear -I F. each_key I; first [reflexivity|discriminate F]. }
  destruct (titration_K0 by_mass 1 (Fin 1) r') as (t & s & ET & Es & Etm & _ & Ct & _); try reflexivity; try exact Wr; try exact O.
  - apply K0_wfd. now left.
  - rewrite Get; reflexivity.
  - rewrite Get; reflexivity.
  - rewrite Get; reflexivity.
  - intros k I.
    assert (NI : ~ In k ["file_name"; "titrant_molinity"; "salinity"]).
    { assert (F' : forallb (fun k => negb (mem_str k ["file_name"; "titrant_molinity"; "salinity"])) keys_solve = true) by reflexivity.
      rewrite forallb_forall in F'. specialize (F' k I). apply Bool.negb_true_iff, mem_str_false in F'. exact F'. }
    rewrite pos_get by exact NI. left. now apply KG.
  - exists (VNum (Fin 1)), (Fin 1). split; [exact GM|reflexivity].
  - exists (single w), ds', r', t.
    split; [split; [exact Ww|intros r [<-|[]]; reflexivity]|]. split; [exact E|]. split; [now rewrite Er|]. split; [exact O|].
    split; [intros k _; reflexivity|]. split.
    { intros k I. cbn [dget]. apply settings_solve in I. rewrite (KG k I). destruct (dget k (K0 by_mass 1)) as [v|] eqn:G; [|exact Logic.I].
      left. apply dget_in in G. cbn in G. repeat (destruct G as [G|G]; [injection G as <- <-; reflexivity|]). destruct G. }
    unfold value. rewrite Er. cbn [nth_error]. rewrite !Get by reflexivity. split; [reflexivity|]. split; [reflexivity|].
    split; [unfold to_Titration; rewrite Er; exact ET|].
    destruct (titration_inv _ _ _ _ _ ET) as (kw1 & st & st1 & B & _ & ER & _). unfold getattr. rewrite ER, Es.
    cbn [add_solve_results]. unfold set_inits. destruct (nth_error (sp_pH s) 0); [destruct (nth_error (sp_temperature s) 0)|];
      rewrite !dget_dset_other by discriminate; rewrite dget_dset_same; unfold Dataset.n_used; rewrite Ct; reflexivity.
Qed.

Print Assumptions C61_null_pH_min_refuted.
Print Assumptions C61_file_good_refuted.
Print Assumptions C62_solved_volume_row_is_nan.
Print Assumptions C62_unsolved_volume_row_raises.
Print Assumptions C62_with_mass_partial.
Print Assumptions C62_refuted.
Print Assumptions C63_estimate_vs_solver.
Print Assumptions C63_normality_one_partial.
Print Assumptions C63_normality_refuted.
Print Assumptions C64_with_file_path_partial.
Print Assumptions C64_without_file_path_raises.
Print Assumptions C64_refuted.
