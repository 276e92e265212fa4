(* PropTitration.v -- C61, C62, C63, C64: Titration objects *)
From Coq Require Import Permutation.
From Verif Require Import Classes DictLemmas SettingsProofs DatasetProofs RowProofs CalProofs PropSettings SpecDataset PropDataset TitrationProofs.
From Verif Require Export SpecTitration.
Open Scope list_scope.
Open Scope string_scope.

Section P.
Context {T : Type} `{Num T}.

Lemma dget_dupdate {A} (d' d : dict A) k : wfd d' -> dget k (dupdate d d') = match dget k d' with Some v => Some v | None => dget k d end.
Proof.
  unfold dupdate. revert d. induction d' as [|[x v] d' IH]; intros d W; [reflexivity|]. cbn [fold_left fst snd].
  inversion W as [|? ? N W']; subst. rewrite IH by exact W'. cbn [dget].
  destruct (String.eqb_spec k x) as [->|NE].
  - assert (Z : dget x d' = None). { destruct (dget x d') eqn:G; [|reflexivity]. exfalso. apply N. apply (dget_in_keys x d'). unfold dmem. now rewrite G. }
    rewrite Z. apply dget_dset_same.
  - destruct (dget k d'); [reflexivity|]. now apply dget_dset_other.
Qed.

(* adding results either sets a column, to a value that does not depend on the row, or leaves it *)
Lemma asr_columns (sr : solve_result T) c : In c solved_columns ->
  (exists v, forall x, dget c (add_solve_results x sr) = Some v) \/ (forall x, dget c (add_solve_results x sr) = dget c x).
Proof.
  intros I.
  assert (SI : forall p t c, In c solved_columns ->
     (exists v, forall x : row T, dget c (set_inits p t x) = Some v) \/ (forall x, dget c (set_inits p t x) = dget c x)).
  { clear. intros p t c I. unfold set_inits. destruct (nth_error p 0) as [p0|]; [|right; reflexivity].
    destruct (nth_error t 0) as [t0|].
    - destruct (String.eqb_spec c "temperature_init") as [->|N1]; [left; eexists; intros; apply dget_dset_same|].
      destruct (String.eqb_spec c "pH_init") as [->|N2].
      + left. eexists. intros. rewrite dget_dset_other by discriminate. apply dget_dset_same.
      + right. intros. now rewrite !dget_dset_other by assumption.
    - destruct (String.eqb_spec c "pH_init") as [->|N2].
      + left. eexists. intros. apply dget_dset_same.
      + right. intros. now rewrite !dget_dset_other by assumption. }
  destruct sr as [s|s|s]; cbn [add_solve_results].
  - destruct (SI (se_pH s) (se_temperature s) c I) as [(v & E)|E]; [left; exists v; intros; apply E|].
    cbn in I; destruct I as [<-|[<-|[<-|[<-|[<-|[<-|[<-|[<-|[]]]]]]]]];
    first [ left; eexists; intros x; rewrite E; repeat (rewrite dget_dset_other by discriminate); apply dget_dset_same
          | right; intros x; rewrite E; repeat (rewrite dget_dset_other by discriminate); reflexivity ].
  - destruct (SI (sp_pH s) (sp_temperature s) c I) as [(v & E)|E]; [left; exists v; intros; apply E|].
    cbn in I; destruct I as [<-|[<-|[<-|[<-|[<-|[<-|[<-|[<-|[]]]]]]]]];
    first [ left; eexists; intros x; rewrite E; repeat (rewrite dget_dset_other by discriminate); apply dget_dset_same
          | right; intros x; rewrite E; repeat (rewrite dget_dset_other by discriminate); reflexivity ].
  - destruct (SI (sg_pH s) (sg_temperature s) c I) as [(v & E)|E]; [left; exists v; intros; apply E|].
    cbn in I; destruct I as [<-|[<-|[<-|[<-|[<-|[<-|[<-|[<-|[]]]]]]]]];
    first [ left; eexists; intros x; rewrite E; repeat (rewrite dget_dset_other by discriminate); apply dget_dset_same
          | right; intros x; rewrite E; repeat (rewrite dget_dset_other by discriminate); reflexivity ].
Qed.

Lemma solved_row (e : env T) kw ds ds' i r : is_table ds -> wfd kw -> solve e kw ds = Ok ds' ->
  nth_error (f_rows ds') i = Some r ->
  dkeys r = f_cols ds' /\ exists d, solve_row e kw r = Ok d /\ forall c, In c output_cols -> dget c r = Some (cell c d).
Proof.
  intros Tb W E N.
  assert (E2 := solve_again e kw ds ds' Tb W E).
  assert (I1 := E). apply solve_inv in I1. destruct I1 as (_ & C & M).
  assert (I2 := E2). apply solve_inv in I2. destruct I2 as (_ & C2 & M2).
  destruct (mapM_ok _ _ _ M) as [L X].
  assert (exists r0, nth_error (f_rows ds) i = Some r0) as (r0 & N0).
  { destruct (nth_error (f_rows ds) i) eqn:Z; [eauto|]. apply nth_error_None in Z.
    assert (i < length (f_rows ds'))%nat by (apply nth_error_Some; congruence). rewrite L in *. exfalso. apply (Nat.lt_irrefl i). eapply Nat.lt_le_trans; eauto. }
  destruct (X i r0 N0) as (r' & N' & S0). rewrite N in N'. injection N' as <-.
  assert (K0 : dkeys r0 = f_cols ds) by (apply Tb; eapply nth_error_In; exact N0).
  split. { rewrite C. now apply (solve_one_keys e kw (f_cols ds) r0). }
  assert (P := prepared_solved e kw _ r0 r K0 S0). apply prepared_prep in P.
  destruct (mapM_ok _ _ _ M2) as [_ X2]. destruct (X2 i r N) as (r2 & N2 & S2). rewrite N in N2. injection N2 as <-.
  unfold solve_one in S2. rewrite C, P in S2. cbn [bind] in S2.
  destruct (solve_row e kw r) as [d|] eqn:D; cbn [bind] in S2; [|discriminate]. exists d. split; [reflexivity|].
  intros c I. rewrite (finish_get _ _ _ c S2) by (intros ->; cbn in I; intuition discriminate).
  rewrite dget_put. apply mem_str_spec in I. now rewrite I.
Qed.

Lemma titration_inv (e : env T) sys r kw t : Titration e sys r kw = Ok t ->
  exists kw1 st st1, backcompat kw r = Ok kw1 /\ solve_named e (dupdate r kw1) = Ok (ti_sr t) /\
    ti_row t = add_solve_results (dupdate r kw1) (ti_sr t) /\
    data_frame (length (sr_titrant_mass (ti_sr t))) (table_dict (ti_sr t)) = Ok st /\
    get_alkalinity_from_acid (ti_row t) st = Ok st1 /\ do_CO2SYS sys (ti_row t) st1 = Ok (ti_table t).
Proof.
  unfold Titration. intros E. destruct (backcompat kw r) as [kw1|]; cbn [bind] in E; [|discriminate].
  destruct (solve_named e _) as [sr|] eqn:SN; cbn [bind] in E; [|discriminate].
  destruct (of_opt (nth_error (sr_pH sr) 0) IndexError); cbn [bind] in E; [|discriminate].
  destruct (of_opt (nth_error (sr_temperature sr) 0) IndexError); cbn [bind] in E; [|discriminate].
  destruct (data_frame _ _) as [st|] eqn:E1; cbn [bind] in E; [|discriminate].
  destruct (get_alkalinity_from_acid _ st) as [st1|] eqn:E2; cbn [bind] in E; [|discriminate].
  destruct (do_CO2SYS sys _ st1) as [st2|] eqn:E3; cbn [bind] in E; [|discriminate].
  apply (f_equal (fun z => match z with Ok y => y | Err _ => t end)) in E. cbv beta iota in E. subst t.
  cbn [ti_row ti_sr ti_table]. exists kw1, st, st1. auto 10.
Qed.

Lemma same_call (e : env T) kw r f c s : wfd kw -> wfd r -> no_conflict kw r -> 
  req (files_solve e f c s (filter (fun kv => negb (mem_str (fst kv) ["file_name"; "titrant_molinity"; "salinity"])) (dupdate r kw)))
      (files_solve e f c s (get_kwargs_for keys_solve kw (Some r))).
Proof.
  intros W Wr NC. apply files_solve_null; [now apply wfd_filter, wfd_dupdate|now apply wfd_resolve|].
  intros k' I'.
  rewrite (dget_filter (fun k => negb (mem_str k ["file_name"; "titrant_molinity"; "salinity"]))).
  assert (Q : negb (mem_str k' ["file_name"; "titrant_molinity"; "salinity"]) = true).
  { assert (F : forallb (fun k => negb (mem_str k ["file_name"; "titrant_molinity"; "salinity"])) keys_solve = true) by reflexivity.
    rewrite forallb_forall in F. now apply F. }
  rewrite Q, (resolve keys_solve kw r k'), (dget_dupdate kw r k' W). assert (M := I'). apply mem_str_spec in M. rewrite M.
  apply settings_solve in I'. specialize (NC k' I').
  destruct (dget k' kw) as [v|]; destruct (dget k' r) as [w|]; try (left; reflexivity).
  - left. destruct NC as [Z| ->]; unfold notnull; [rewrite Z|destruct (isnull v)]; reflexivity.
  - unfold notnull. destruct (isnull w) eqn:Zw; [|left; reflexivity]. destruct NC as [Z|Z]; [discriminate|].
    right. cbn. auto.
Qed.

(* a row that dataset.solve does not skip *)
Lemma solve_row_good (e : env T) kw (r d : row T) c g f s : without_old_names kw r ->
  dget "titrant_molinity" r = Some c -> isnull c = false -> dget "file_good" r = Some g -> truthy g = true ->
  dget "file_name" r = Some f -> dget "salinity" r = Some s ->
  solve_row e kw r = Ok d ->
  match files_solve e f c s (get_kwargs_for keys_solve kw (Some r)) with
  | Ok sr => d = add_solve_results (blank r) sr
  | Err _ => d = blank r
  end.
Proof.
  intros O Vc NN Vg G Vf Vs. unfold solve_row, solve_row_try, handler, attr.
  rewrite Vc, Vg, Vf, Vs, (backcompat_id kw r O). cbn [of_opt bind]. unfold notnull. rewrite NN, G. cbn [negb andb].
  destruct (files_solve e f c s _) as [sr|x]; intros E;
    now apply (f_equal (fun z => match z with Ok y => y | Err _ => d end)) in E.
Qed.

Lemma solve_named_inv (e : env T) (r : row T) sr : solve_named e r = Ok sr ->
  exists f c s, dget "file_name" r = Some f /\ dget "titrant_molinity" r = Some c /\ dget "salinity" r = Some s /\
    files_solve e f c s (filter (fun kv => negb (mem_str (fst kv) ["file_name"; "titrant_molinity"; "salinity"])) r) = Ok sr.
Proof.
  unfold solve_named. intros E.
  destruct (dget "file_name" r) as [f|]; cbn [of_opt bind] in E; [|discriminate].
  destruct (dget "titrant_molinity" r) as [c|]; cbn [of_opt bind] in E; [|discriminate].
  destruct (dget "salinity" r) as [s|]; cbn [of_opt bind] in E; [|discriminate].
  exists f, c, s. auto.
Qed.

(* ------------------------------------------------------------------ *)
(** * C61 *)

Theorem C61_titration_is_row_partial : forall (e : env T) (sys : co2sys_t T) kw ds ds' i r t g c,
  is_table ds -> wfd kw -> solve e kw ds = Ok ds' ->
  nth_error (f_rows ds') i = Some r ->
  without_old_names kw r -> only_settings kw -> no_conflict kw r ->
  value ds' i "file_good" = Some g -> truthy g = true ->
  value ds' i "titrant_molinity" = Some c -> isnull c = false ->
  to_Titration e sys ds' i kw = Ok t ->
  forall k, In k solved_columns -> getattr t k = of_opt (value ds' i k) (AttributeError k).
Proof.
  intros e sys kw ds ds' i r t g c Tb W E N O S NC Vg G Vc NN Et k Ik.
  destruct (solved_row e kw ds ds' i r Tb W E N) as (Kr & d & D & Out).
  rewrite (value_nth ds' i r _ N) in Vg. rewrite (value_nth ds' i r _ N) in Vc. rewrite (value_nth ds' i r _ N).
  unfold to_Titration in Et. rewrite N in Et. cbn [of_opt bind] in Et.
  destruct (titration_inv e sys r kw t Et) as (kw1 & st & st1 & B & SN & ER & _).
  rewrite (backcompat_id kw r O) in B. injection B as <-.
  unfold getattr. rewrite ER.
  assert (GS : forall k, In k (["file_name"; "titrant_molinity"; "salinity"] ++ solved_columns) -> dget k (dupdate r kw) = dget k r).
  { intros k' I'. rewrite dget_dupdate by exact W. now rewrite (S k' I'). }
  assert (Wr : wfd r).
  { unfold wfd. change (map fst r) with (dkeys r). rewrite Kr. assert (Tb' : is_table ds') by (now apply (wff_solve e kw ds)). apply Tb'. }
  destruct (solve_named_inv e _ _ SN) as (f & c' & s & Gf & Gc & Gs & F).
  rewrite GS in Gf, Gc, Gs by (cbn; tauto). rewrite Vc in Gc. injection Gc as <-.
  assert (R : exists z, files_solve e f c s (get_kwargs_for keys_solve kw (Some r)) = z /\ req (Ok (ti_sr t)) z).
  { eexists. split; [reflexivity|]. rewrite <- F. exact (same_call e kw r f c s W Wr NC). }
  destruct R as (z & Fz & R).
  assert (D' : match z with Ok sr => d = add_solve_results (blank r) sr | Err _ => d = blank r end).
  { rewrite <- Fz. exact (solve_row_good e kw r d c g f s O Vc NN Vg G Gf Gs D). }
  clear Fz F. destruct z as [sr'|]; [|exact (False_ind _ R)].
  change (ti_sr t = sr') in R. subst sr'.
  assert (Io : In k output_cols) by (cbn in Ik |- *; tauto).
  rewrite (Out k Io). f_equal.
  destruct (asr_columns (ti_sr t) k Ik) as [(v & A)|A].
  - rewrite A, D'. unfold cell. now rewrite A.
  - rewrite A, (GS k) by (apply in_or_app; now right). rewrite (Out k Io). reflexivity.
Qed.

End P.
