(* PropIgnored.v -- C49: keyword arguments that dataset.solve reports as ignored *)
From Coq Require Import Reals Qreals Lra.
From Verif Require Import Dataset SpecDataset DictLemmas SettingsProofs PropSettings PropKwargs DatasetProofs RowProofs CalProofs PropDataset PropTables PropBatch PropHistory Witness.
Open Scope string_scope.
Open Scope list_scope.

(* the same keyword arguments without the one called k *)
Definition without {A} (k : string) (kw : dict A) : dict A := filter (fun kv => negb (String.eqb (fst kv) k)) kw.

Section P.
Context {T : Type} `{Num T}.

Definition used_names : list string := old_names ++ keys_solve.

Definition kw_agree (kw kw' : kwargs T) : Prop := forall k, In k used_names -> dget k kw = dget k kw'.

Lemma agree_dset k v (kw kw' : kwargs T) : kw_agree kw kw' -> kw_agree (dset k v kw) (dset k v kw').
Proof. intros A c I. rewrite !dget_dset. destruct (String.eqb c k); [reflexivity|now apply A]. Qed.

Lemma agree_dupdate d (kw kw' : kwargs T) : kw_agree kw kw' -> kw_agree (dupdate kw d) (dupdate kw' d).
Proof.
  unfold dupdate. revert kw kw'. induction d as [|[k v] d IH]; intros kw kw' A; cbn [fold_left]; [exact A|]. now apply IH, agree_dset.
Qed.

Lemma backcompat_kw (kw kw' : kwargs T) r kw1 : kw_agree kw kw' -> backcompat kw r = Ok kw1 ->
  exists kw1', backcompat kw' r = Ok kw1' /\ kw_agree kw1 kw1'.
Proof.
  intros A E. unfold backcompat in *.
  destruct (backcompat_dict kw) as [a|] eqn:E1; cbn [bind] in E; [|discriminate].
  destruct (backcompat_range a) as [b|] eqn:E2; cbn [bind] in E; [|discriminate].
  assert (exists a', backcompat_dict kw' = Ok a' /\ kw_agree a a') as (a' & E1' & Aa).
  { unfold backcompat_dict in *. rewrite <- (A "read_dat_kwargs") by (cbn; tauto).
    destruct (dget "read_dat_kwargs" kw) as [[]|]; try discriminate; injection E1 as <-; eexists; (split; [reflexivity|]); [now apply agree_dupdate|exact A]. }
  assert (exists b', backcompat_range a' = Ok b' /\ kw_agree b b') as (b' & E2' & Ab).
  { unfold backcompat_range in *. rewrite <- (Aa "pH_range") by (cbn; tauto).
    destruct (dget "pH_range" a) as [[]|]; try discriminate.
    - destruct l as [|x [|y [|? ?]]]; try discriminate. injection E2 as <-. eexists. split; [reflexivity|]. now do 2 apply agree_dset.
    - injection E2 as <-. eauto. }
  rewrite E1'. cbn [bind]. rewrite E2'. cbn [bind]. eexists. split; [reflexivity|]. injection E as <-.
  rewrite <- (Ab "read_dat_method") by (cbn; tauto).
  destruct (dget "read_dat_method" b), (dget "read_dat_method" r); repeat apply agree_dset; exact Ab.
Qed.

Lemma agree_sym (kw kw' : kwargs T) : kw_agree kw kw' -> kw_agree kw' kw.
Proof. intros A k I. symmetry. now apply A. Qed.

Lemma backcompat_kw_err (kw kw' : kwargs T) r x : kw_agree kw kw' -> backcompat kw r = Err x -> exists y, backcompat kw' r = Err y.
Proof.
  intros A E. destruct (backcompat kw' r) as [k'|y] eqn:E'; [|eauto].
  destruct (backcompat_kw kw' kw r k' (agree_sym _ _ A) E') as (z & Z & _). congruence.
Qed.

Lemma solve_row_kw (e : env T) kw kw' r : wfd kw -> wfd kw' -> kw_agree kw kw' -> solve_row e kw r = solve_row e kw' r.
Proof.
  intros W W' A. destruct (backcompat kw r) as [k1|x] eqn:E.
  - destruct (backcompat_kw kw kw' r k1 A E) as (k1' & E' & A1).
    apply (solve_row_depends e kw kw' r r k1 k1'); auto.
    intros k I. unfold chosen. rewrite (A1 k); [reflexivity|]. apply in_or_app. now right.
  - destruct (backcompat_kw_err kw kw' r x A E) as (y & E'). unfold solve_row, solve_row_try. rewrite E, E'. reflexivity.
Qed.

Lemma solve_kw (e : env T) kw kw' ds d : wfd kw -> wfd kw' -> kw_agree kw kw' -> solve e kw ds = Ok d -> solve e kw' ds = Ok d.
Proof.
  intros W W' A E. apply solve_inv in E. destruct E as (O & C & M). apply solve_inv.
  split; [|split; [exact C|]].
  - unfold solve_ok in *.
    assert (X : is_ok (solve_ignored kw') = is_ok (solve_ignored kw)).
    { unfold solve_ignored. destruct (backcompat kw []) as [k1|x] eqn:B.
      - destruct (backcompat_kw kw kw' [] k1 A B) as (k1' & -> & _). reflexivity.
      - destruct (backcompat_kw_err kw kw' [] x A B) as (y & ->). reflexivity. }
    rewrite X. exact O.
  - rewrite <- M. clear M. induction (f_rows ds) as [|r l IH]; [reflexivity|]. cbn [mapM]. rewrite IH.
    unfold solve_one. destruct (prep_row e (f_cols ds) r) as [p|]; cbn [bind]; [|reflexivity].
    now rewrite (solve_row_kw e kw kw' p W W' A).
Qed.

Lemma dget_without {A} k c (kw : dict A) : c <> k -> dget c (without k kw) = dget c kw.
Proof.
  intros N. unfold without. induction kw as [|[a v] kw IH]; [reflexivity|]. cbn [filter fst dget].
  destruct (String.eqb_spec a k) as [Ea|Na]; cbn [negb dget].
  - rewrite IH. destruct (String.eqb_spec c a); [congruence|reflexivity].
  - now rewrite IH.
Qed.

(* a keyword that is reported as ignored is ignored, apart from the two that are not *)
Theorem C49_reported_is_ignored_partial : forall (e : env T) kw l k ds d, wfd kw ->
  solve_ignored kw = Ok l -> In k l -> k <> "gran_logic" -> k <> "read_dat_method" ->
  (solve e kw ds = Ok d <-> solve e (without k kw) ds = Ok d).
Proof.
  intros e kw l k ds d W E I N1 N2.
  assert (A : kw_agree kw (without k kw)).
  { intros c Ic. symmetry. apply dget_without. intros ->.
    unfold solve_ignored in E. destruct (backcompat kw []) as [k1|]; cbn [bind] in E; [|discriminate]. injection E as <-.
    apply filter_In in I. destruct I as [_ X]. apply negb_true_iff in X.
    assert (Y : forallb (fun c => mem_str c (keys_calibrate ++ ["pH_range"; "read_dat_kwargs"]) || mem_str c ["gran_logic"; "read_dat_method"]) used_names = true) by reflexivity.
    rewrite forallb_forall in Y. specialize (Y k Ic). apply orb_prop in Y. destruct Y as [Y|Y]; [exact (eq_true_false_abs _ Y X)|].
    apply mem_str_spec in Y. cbn in Y. intuition congruence. }
  assert (W' : wfd (without k kw)) by (now apply wfd_filter).
  split; intros S; (eapply solve_kw; [..|exact S]); auto. now apply agree_sym.
Qed.

(* a keyword that is not reported is a setting, or one of the old names that are translated *)
Theorem C49_unreported_is_recognised : forall (kw : kwargs T) l k, no_old_kwargs kw -> dget "read_dat_method" kw = None ->
  solve_ignored kw = Ok l -> In k (dkeys kw) -> ~ In k l -> In k calibrate_settings.
Proof.
  intros kw l k [O1 O2] O3 E I N. unfold solve_ignored in E. rewrite backcompat_id in E.
  2:{ split; [|reflexivity]. intros c Ic. cbn in Ic. destruct Ic as [<-|[<-|[<-|[]]]]; assumption. }
  cbn [bind] in E. injection E as <-. apply settings_calibrate.
  destruct (mem_str k (keys_calibrate ++ ["pH_range"; "read_dat_kwargs"])) eqn:M.
  - apply mem_str_spec, in_app_or in M. destruct M as [M|M]; [exact M|exfalso].
    assert (G : exists v, dget k kw = Some v) by (now apply dmem_true_get, dget_in_keys).
    destruct G as (v & G). cbn in M. destruct M as [<-|[<-|[]]]; congruence.
  - exfalso. apply N. apply filter_In. split; [exact I|]. exact (f_equal negb M).
Qed.

End P.

Section XR.
Open Scope R_scope.

Definition pclims_kw : kwargs xr := [("read_dat_method", VStr "pclims")].

Lemma one_row_npts kw f ds' : solve tiny_env kw (one_row f) = Ok ds' -> 
  exists p, prep_row tiny_env (f_cols (one_row f)) (tiny_row f) = Ok p /\
  (forall n, npts (solve_row tiny_env kw p) = Some n -> value ds' 0 "alkalinity_npts" = Some n).
Proof.
  intros E. apply solve_inv in E. destruct E as (_ & _ & M). apply mapM_Forall2 in M.
  change (f_rows (one_row f)) with [tiny_row f] in M.
  inversion M as [|? y ? l A B EA EB]. inversion B. subst.
  destruct (solve_one_inv _ _ _ _ _ A) as (p & d & P & S & F). exists p. split; [exact P|].
  intros n N. rewrite S in N. cbn [npts] in N. unfold value. rewrite <- EB. cbn [nth_error].
  rewrite (finish_get _ _ _ _ F), dget_put by discriminate. cbn [mem_str existsb output_cols String.eqb Ascii.eqb Bool.eqb orb].
  unfold cell. now rewrite N.
Qed.

Definition prepped (f : string) : row xr :=
  tiny_row f ++ [("opt_total_borate", VInt 1); ("total_sulfate", VNum (nofZ 35)); ("total_borate", VNum (nofZ 35)); ("total_fluoride", VNum (nofZ 35))].

Lemma one_row_prepped f : prep_row tiny_env (f_cols (one_row f)) (tiny_row f) = Ok (prepped f).
Proof.
  unfold prep_row. rewrite salt_row_spec.
  rewrite !(tiny_salt _ (tiny_row f) 35) by reflexivity. cbn [bind]. reflexivity.
Qed.

Lemma prepped_solved kw f : 
  backcompat kw (prepped f) = Ok (match dget "read_dat_method" kw with Some v => dset "file_type" v kw | None => kw end) ->
  (exists s, files_solve tiny_env (VStr f) (VNum (Fin 1)) (VInt 35)
     (get_kwargs_for keys_solve (match dget "read_dat_method" kw with Some v => dset "file_type" v kw | None => kw end) (Some (prepped f))) = Ok (SrPh s) /\
             count_true (sp_used s) = 2%nat) ->
  npts (solve_row tiny_env kw (prepped f)) = Some (VInt 2).
Proof. intros B S. eapply row_solved; [exact B|reflexivity..|exact S]. Qed.

Lemma prepped_totals kw : get_kwargs_for keys_totals_ks kw None =
    [("opt_total_borate", VInt 1); ("total_borate", VNum (nofZ 35)); ("total_fluoride", VNum (nofZ 35)); ("total_sulfate", VNum (nofZ 35))] ->
  exists tk, totals_ks tiny_env tiny_cv (get_kwargs_for keys_totals_ks kw None) = Ok tk /\
    (forall pH, length pH = 2%nat -> exists l, alkalinity_arr pH (fst tk) (snd tk) 3 = Ok l /\ length l = 2%nat).
Proof.
  intros E. apply (tiny_totals_filled kw 35 35 35). rewrite E. unfold filled_totals. rewrite <- !(fin_Z' 35). intros k. cbn [dget].
  destruct (String.eqb k "opt_total_borate"); [reflexivity|].
  destruct (String.eqb_spec k "total_borate") as [Ek|_]; [rewrite Ek; reflexivity|].
  destruct (String.eqb_spec k "total_fluoride") as [Ek|_]; [rewrite Ek; reflexivity|]. reflexivity.
Qed.

(* read_dat_method is reported as ignored, but without it the file cannot be read *)
Theorem C49_read_dat_method_refuted : exists (e : env xr) kw l ds d d', wfd kw /\ is_table ds /\
  solve_ignored kw = Ok l /\ In "read_dat_method" l /\
  solve e kw ds = Ok d /\ solve e (without "read_dat_method" kw) ds = Ok d' /\
  value d 0 "alkalinity_npts" = Some (VInt 2) /\ value d' 0 "alkalinity_npts" = Some (VInt 0).
Proof.
  destruct (one_row_solves tiny_env pclims_kw "lims.txt") as (d & E); [split; reflexivity|].
  destruct (one_row_solves tiny_env [] "lims.txt") as (d' & E'); [split; reflexivity|].
  exists tiny_env, pclims_kw, ["read_dat_method"], (one_row "lims.txt"), d, d'.
  split; [repeat constructor; cbn; tauto|]. split; [apply one_row_table|]. split; [reflexivity|]. split; [cbn; tauto|].
  split; [exact E|]. split; [exact E'|]. split.
  - destruct (one_row_npts _ _ _ E) as (p & P & N). rewrite one_row_prepped in P. injection P as <-. apply N.
    apply prepped_solved; [reflexivity|].
    apply (tiny_solved "lims.txt" _ "pH"); try reflexivity. apply prepped_totals. reflexivity.
  - destruct (one_row_npts _ _ _ E') as (p & P & N). rewrite one_row_prepped in P. injection P as <-. apply N.
    eapply row_failed; reflexivity.
Qed.

(* a row that is really solved: two points are used *)
Lemma gen_row_solved : exists d, solve tiny_env [] (one_row "gen.dat") = Ok d /\ value d 0 "alkalinity_npts" = Some (VInt 2).
Proof.
  destruct (one_row_solves tiny_env [] "gen.dat") as (d & E); [split; reflexivity|]. exists d. split; [exact E|].
  destruct (one_row_npts _ _ _ E) as (p & P & N). rewrite one_row_prepped in P. injection P as <-. apply N.
  apply prepped_solved; [reflexivity|].
  apply (tiny_solved "gen.dat" _ "pH"); try reflexivity. apply prepped_totals. reflexivity.
Qed.

Example C49_nonvacuous : exists l d, solve_ignored ([("nonsense", VInt 1)] : kwargs xr) = Ok l /\ In "nonsense" l /\
  solve tiny_env [("nonsense", VInt 1)] (one_row "gen.dat") = Ok d /\ value d 0 "alkalinity_npts" = Some (VInt 2).
Proof.
  destruct gen_row_solved as (d & E & V). exists ["nonsense"], d. split; [reflexivity|]. split; [cbn; tauto|]. split; [|exact V].
  apply (C49_reported_is_ignored_partial tiny_env [("nonsense", VInt 1)] ["nonsense"] "nonsense"); try reflexivity; try discriminate.
  - repeat constructor; cbn; tauto.
  - cbn; tauto.
  - exact E.
Qed.

(* ------------------------------------------------------------------ *)
(** * The hypotheses of the table theorems hold for a table that is solved *)

Example C51_nonvacuous : is_table (one_row "gen.dat") /\ exists d, solve tiny_env [] (one_row "gen.dat") = Ok d /\
  value d 0 "alkalinity_npts" = Some (VInt 2).
Proof. split; [apply one_row_table|apply gen_row_solved]. Qed.

Example C55_nonvacuous : exists d, solve tiny_env [] (one_row "gen.dat") = Ok d /\ value d 0 "alkalinity_npts" = Some (VInt 2) /\
  solve tiny_env [] d = Ok d.
Proof.
  destruct gen_row_solved as (d & E & V). exists d. split; [exact E|]. split; [exact V|].
  apply (C55_solve_idempotent tiny_env [] (one_row "gen.dat")); [apply one_row_table|constructor|exact E].
Qed.

(* C59 over the reals *)
Theorem C59_offset_real : forall (e : env xr) kw ds ds' i a c, is_table ds -> solve e kw ds = Ok ds' ->
  value ds' i "alkalinity" = Some (VNum (Fin a)) -> value ds' i "alkalinity_certified" = Some (VNum (Fin c)) ->
  value ds' i "alkalinity_offset" = Some (VNum (Fin (a - c))).
Proof.
  intros e kw ds ds' i a c W E A C.
  assert (Li : (i < n_rows ds')%nat).
  { unfold value in A. unfold n_rows. apply nth_error_Some. now destruct (nth_error (f_rows ds') i). }
  assert (W' := wff_solve e kw ds ds' W E).
  assert (Ic : In "alkalinity_certified" (f_cols ds)).
  { unfold value in C. destruct (nth_error (f_rows ds') i) as [r|] eqn:R; [|discriminate].
    assert (I : In "alkalinity_certified" (f_cols ds')).
    { rewrite <- (proj2 W' r) by (now apply nth_error_In in R). apply dget_in_keys, dmem_true_get. eauto. }
    apply solve_inv in E. destruct E as (_ & Cc & _). rewrite Cc in I. apply mem_str_spec in I. rewrite mem_solve_cols, mem_prep_cols in I.
    apply mem_str_spec. destruct (mem_str "alkalinity_certified" (f_cols ds)); [reflexivity|discriminate]. }
  destruct (proj1 (C59_offset e kw ds ds' W E) Ic) as [_ X]. destruct (X i Li) as (a' & v & c' & A' & V & _ & N & X').
  rewrite A in A'. injection A' as <-. rewrite C in V. injection V as <-. cbn in N. injection N as <-. exact X'.
Qed.

Theorem C59_offset_null : forall (e : env xr) kw ds ds' i a v, is_table ds -> In "alkalinity_certified" (f_cols ds) ->
  solve e kw ds = Ok ds' -> value ds' i "alkalinity" = Some a -> value ds' i "alkalinity_certified" = Some v ->
  is_null a \/ is_null v -> value ds' i "alkalinity_offset" = Some (VNum NaN).
Proof.
  intros e kw ds ds' i a v W Ic E A C N.
  assert (Li : (i < n_rows ds')%nat).
  { unfold value in A. unfold n_rows. apply nth_error_Some. now destruct (nth_error (f_rows ds') i). }
  destruct (proj1 (C59_offset e kw ds ds' W E) Ic) as [_ X]. destruct (X i Li) as (a' & v' & c' & A' & V & _ & Nc & X').
  rewrite A in A'. injection A' as ->. rewrite C in V. injection V as <-. rewrite X'. do 2 f_equal. unfold is_null in N.
  destruct N as [N|N].
  - cbn [isnull] in N. rewrite N. destruct c'; reflexivity.
  - rewrite N in Nc. subst c'. destruct (nisnan a'); [reflexivity|]. destruct a'; reflexivity.
Qed.

Definition cert_row : frame xr :=
  {| f_cols := dkeys (ref_row (VInt 1)); f_rows := [ref_row (VInt 1)] |}.

Example C59_nonvacuous : is_table cert_row /\ exists d, solve tiny_env [] cert_row = Ok d /\ In "alkalinity_certified" (f_cols cert_row).
Proof.
  assert (W : is_table cert_row) by (split; [repeat constructor; cbn; intuition discriminate|]; intros r [<-|[]]; reflexivity).
  split; [exact W|].
  destruct (C51_solve_never_raises tiny_env [] cert_row W) as (d & E).
  - split; reflexivity.
  - intros c I. cbn in I. destruct I as [<-|[<-|[<-|[]]]]; cbn; tauto.
  - left. cbn. tauto.
  - intros c I r v [<-|[]] G. cbn in I. destruct I as [<-|[<-|[<-|[]]]]; cbn in G; try discriminate; injection G as <-; right; eexists; reflexivity.
  - exists d. split; [exact E|]. cbn. tauto.
Qed.

End XR.

Print Assumptions C49_reported_is_ignored_partial.
Print Assumptions C49_unreported_is_recognised.
Print Assumptions C49_read_dat_method_refuted.
Print Assumptions C51_rows_independent.
Print Assumptions C51_solve_never_raises.
Print Assumptions C55_calibrate_idempotent.
Print Assumptions C59_offset_real.
Print Assumptions C59_offset_null.
