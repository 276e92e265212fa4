(* PropModes.v -- C50: solve_mode chooses the solver, what it is given and with which settings *)
From Coq Require Import Reals Lra.
From Verif Require Import Dataset DictLemmas SettingsProofs RowProofs TableProofs CalProofs Witness.
From Verif Require Export PropKwargs PropReference.
Open Scope string_scope.
Open Scope list_scope.

Section Modes.
Context {T : Type} `{Num T}.

(* ------------------------------------------------------------------ *)
(** * Specification: a setting has its given value, or else the documented default *)

Definition number (kw : kwargs T) (k : string) (d x : T) : Prop :=
  match dget k kw with Some v => as_num v = Ok x | None => x = d end.
Definition maybe_number (kw : kwargs T) (k : string) (x : option T) : Prop :=
  match dget k kw with Some VNone | None => x = None | Some v => exists y, as_num v = Ok y /\ x = Some y end.
Definition flag (kw : kwargs T) (k : string) (d b : bool) : Prop :=
  b = match dget k kw with Some v => truthy v | None => d end.
Definition mode_is (kw : kwargs T) (m : string) : Prop :=
  match dget "solve_mode" kw with Some (VStr x) => lower x = m | Some _ => False | None => m = "emf" end.

(* the window and the normality *)
Definition window (kw : kwargs T) (pmin pmax n : T) : Prop :=
  number kw "pH_min" (nofZ 3) pmin /\ number kw "pH_max" (nofZ 4) pmax /\ number kw "titrant_normality" (nofZ 1) n.
(* the titrant totals given *)
Definition titrant_given (kw tt : kwargs T) : Prop :=
  forall k, dget k tt = if mem_str k ["titrant_total_sulfate"; "titrant_total_fluoride"; "titrant_total_phosphate"] then dget k kw else None.

(* which solver must have given the result sr, for the data cv, the totals t and the constants ks *)
Definition solved_as (e : env T) (kw : kwargs T) (m : string) (c : T) (cv : Converted T) (t ks : dict (nd T)) (sr : solve_result T) : Prop :=
  let tm := cv_titrant_mass cv in let temps := cv_temperature cv in let M := cv_analyte_mass cv in
  exists pmin pmax n, window kw pmin pmax n /\
  match m with
  | "ph" => exists r, sr = SrPh r /\ solve_pH c tm (cv_measurement cv) temps M t ks pmin pmax n = Ok r
  | "ph_gran" => exists r, sr = SrPhGran r /\ solve_pH_gran c tm (cv_measurement cv) temps M t ks pmin pmax n = Ok r
  | "emf" => exists r ai ei double, sr = SrEmf r /\ maybe_number kw "alkalinity_init" ai /\ maybe_number kw "emf0_init" ei /\ flag kw "double" true double /\
      solve_emf (e_strat e) c tm (cv_measurement cv) temps M t ks ai double ei (logic_of (kwarg "gran_logic" (VStr "v23.7+") kw)) pmin pmax n = Ok r
  | "ph_adjust" => exists r ai double, sr = SrEmf r /\ maybe_number kw "alkalinity_init" ai /\ flag kw "double" true double /\
      solve_emf (e_strat e) c tm (map2 (fun pH t => pH_to_emf pH n0 t) (cv_measurement cv) temps) temps M t ks ai double (Some (nofZ 0))
        (logic_of (kwarg "gran_logic" (VStr "v23.7+") kw)) pmin pmax n = Ok r
  | _ => False
  end.

Definition calibrated_as (e : env T) (kw : kwargs T) (m : string) (cert : T) (cv : Converted T) (t ks : dict (nd T)) (o : opt_result T) : Prop :=
  let tm := cv_titrant_mass cv in let temps := cv_temperature cv in let M := cv_analyte_mass cv in
  exists pmin pmax n init tt, window kw pmin pmax n /\ number kw "titrant_molinity_init" (nofQ 0.1) init /\ titrant_given kw tt /\
  match m with
  | "ph" => snd (calibrate_pH (e_strat e) cert tm (cv_measurement cv) temps M t ks pmin pmax init n tt) = Ok o
  | "ph_gran" => snd (calibrate_pH_gran (e_strat e) cert tm (cv_measurement cv) temps M t ks pmin pmax init n tt) = Ok o
  | "emf" => exists ai ei double, maybe_number kw "alkalinity_init" ai /\ maybe_number kw "emf0_init" ei /\ flag kw "double" true double /\
      snd (calibrate_emf (e_strat e) cert tm (cv_measurement cv) temps M t ks ai ei double pmin pmax init n tt) = Ok o
  | "ph_adjust" => exists ai double, maybe_number kw "alkalinity_init" ai /\ flag kw "double" true double /\
      snd (calibrate_emf (e_strat e) cert tm (map2 (fun pH t => pH_to_emf pH n0 t) (cv_measurement cv) temps) temps M t ks ai (Some (nofZ 0)) double
             pmin pmax init n tt) = Ok o
  | _ => False
  end.

(* ------------------------------------------------------------------ *)
(** * Proofs *)

Lemma number_of kw k z x : as_num (kwarg k (VInt z) kw) = Ok x -> number kw k (nofZ z) x.
Proof. unfold number, kwarg. destruct (dget k kw); [auto|]. now intros [= ->]. Qed.
Lemma number_ofn kw k d x : as_num (kwarg k (VNum d) kw) = Ok x -> number kw k d x.
Proof. unfold number, kwarg. destruct (dget k kw); [auto|]. now intros [= ->]. Qed.
Lemma maybe_of kw k x : opt_num (kwarg k VNone kw) = Ok x -> maybe_number kw k x.
Proof.
  unfold maybe_number, kwarg, opt_num. destruct (dget k kw) as [[]|]; cbn [bind as_num]; try (now intros [= <-]); try discriminate; intros [= <-]; eauto.
Qed.
Lemma flag_of kw k b : flag kw k b (truthy (kwarg k (VBool b) kw)).
Proof. unfold flag, kwarg. now destruct (dget k kw). Qed.

Lemma mode_wm kw m : mode_is kw m -> exists x, as_str (mode_of kw) = Ok x /\ lower x = m.
Proof.
  unfold mode_is, mode_of, kwarg. intros M. destruct (dget "solve_mode" kw) as [[]|]; try contradiction; [eexists; split; [reflexivity|exact M]|]. subst m. exists "emf". split; reflexivity.
Qed.

(* the mode takes part in nothing else *)
Lemma number_wm kw k d x : k <> "solve_mode" -> number (without_mode kw) k d x -> number kw k d x.
Proof. intros N. unfold number, without_mode. rewrite (dget_filter (fun k => negb (String.eqb k "solve_mode"))). apply String.eqb_neq in N. now rewrite N. Qed.
Lemma dget_wm (kw : kwargs T) k : k <> "solve_mode" -> dget k (without_mode kw) = dget k kw.
Proof. intros N. unfold without_mode. rewrite (dget_filter (fun k => negb (String.eqb k "solve_mode"))). apply String.eqb_neq in N. now rewrite N. Qed.

Lemma titrant_is kw : titrant_given kw (get_kwargs_for keys_titrant_totals kw None).
Proof.
  intros k. unfold get_kwargs_for. rewrite (dget_filter (fun k => mem_str k keys_titrant_totals)).
  replace (mem_str k keys_titrant_totals) with (mem_str k ["titrant_total_sulfate"; "titrant_total_fluoride"; "titrant_total_phosphate"]); [reflexivity|].
  unfold mem_str, keys_titrant_totals. cbn [existsb]. destruct (String.eqb k "titrant_total_sulfate"), (String.eqb k "titrant_total_fluoride"), (String.eqb k "titrant_total_phosphate"); reflexivity.
Qed.

Lemma dispatch_as e kw x m c cv t ks sr : as_str x = Ok m -> dispatch_solve e x c cv t ks kw = Ok sr -> solved_as e kw (lower m) c cv t ks sr.
Proof.
  intros Ex E. unfold dispatch_solve in E. rewrite Ex in E. cbn [bind] in E. unfold solved_as.
  destruct (String.eqb_spec (lower m) "emf") as [->|_]; [|destruct (String.eqb_spec (lower m) "ph_adjust") as [->|_]; [|destruct (String.eqb_spec (lower m) "ph") as [->|_]; [|destruct (String.eqb_spec (lower m) "ph_gran") as [->|_]; [|discriminate]]]].
  - destruct (call_solve_emf _ _ _ _ _ _ _ _ _) as [s|] eqn:C in E; cbn [bind] in E; [|discriminate]. injection E as <-.
    unfold call_solve_emf in C. rewrite check_gkf in C. cbn [bind] in C. rewrite !kwarg_gkf in C by (cbn; tauto). inv_binds C.
    exists a1, a2, a3. split; [split; [now apply number_of|split; now apply number_of]|].
    exists s, a, a0, (truthy (kwarg "double" (VBool true) kw)). split; [reflexivity|]. split; [now apply maybe_of|]. split; [now apply maybe_of|]. split; [apply flag_of|exact C].
  - destruct (call_solve_emf _ _ _ _ _ _ _ _ _) as [s|] eqn:C in E; cbn [bind] in E; [|discriminate]. injection E as <-.
    assert (KS : forall k d, In k keys_solve_emf -> k <> "emf0_init" -> kwarg k d (dset "emf0_init" (VInt 0) (get_kwargs_for keys_solve_emf kw None)) = kwarg k d kw).
    { intros k d I N. unfold kwarg. rewrite dget_dset_other by exact N. exact (kwarg_gkf keys_solve_emf k d kw I). }
    assert (ES : kwarg "emf0_init" VNone (dset "emf0_init" (VInt 0) (get_kwargs_for keys_solve_emf kw None)) = VInt 0) by (unfold kwarg; now rewrite dget_dset_same).
    unfold call_solve_emf in C. rewrite check_dset in C by reflexivity. rewrite check_gkf in C. cbn [bind] in C. rewrite ES in C.
    rewrite !(KS "alkalinity_init"), !(KS "pH_min"), !(KS "pH_max"), !(KS "titrant_normality"), !(KS "double"), !(KS "gran_logic") in C by (discriminate || (cbn; tauto)).
    inv_binds C. exists a1, a2, a3. split; [split; [now apply number_of|split; now apply number_of]|].
    exists s, a, (truthy (kwarg "double" (VBool true) kw)). split; [reflexivity|]. split; [now apply maybe_of|]. split; [apply flag_of|].
    cbn in A0. injection A0 as <-. exact C.
  - destruct (call_solve_pH _ _ _ _ _ _ _ _) as [s|] eqn:C in E; cbn [bind] in E; [|discriminate]. injection E as <-.
    unfold call_solve_pH in C. rewrite check_gkf in C. cbn [bind] in C. rewrite !kwarg_gkf in C by (cbn; tauto). inv_binds C.
    exists a, a0, a1. split; [split; [now apply number_of|split; now apply number_of]|]. exists s. split; [reflexivity|exact C].
  - destruct (call_solve_pH_gran _ _ _ _ _ _ _ _) as [s|] eqn:C in E; cbn [bind] in E; [|discriminate]. injection E as <-.
    unfold call_solve_pH_gran in C. rewrite check_gkf in C. cbn [bind] in C. rewrite !kwarg_gkf in C by (cbn; tauto). inv_binds C.
    exists a, a0, a1. split; [split; [now apply number_of|split; now apply number_of]|]. exists s. split; [reflexivity|exact C].
Qed.

Lemma dispatch_cal_as e kw x m cert cv t ks o : as_str x = Ok m -> dispatch_calibrate e x cert cv t ks kw = Ok o -> calibrated_as e kw (lower m) cert cv t ks o.
Proof.
  intros Ex E. unfold dispatch_calibrate in E. rewrite Ex in E. cbn [bind] in E. unfold calibrated_as.
  destruct (String.eqb_spec (lower m) "emf") as [->|_]; [|destruct (String.eqb_spec (lower m) "ph_adjust") as [->|_]; [|destruct (String.eqb_spec (lower m) "ph") as [->|_]; [|destruct (String.eqb_spec (lower m) "ph_gran") as [->|_]; [|discriminate]]]].
  - unfold call_calibrate_emf in E. rewrite !kwarg_gkf in E by (cbn; tauto).
    change keys_calibrate_emf with (["alkalinity_init"; "emf0_init"; "double"; "pH_min"; "pH_max"; "titrant_molinity_init"; "titrant_normality"] ++ keys_titrant_totals) in E.
    rewrite titrant_named in E by (intros k I; cbn in I; destruct I as [<-|[<-|[<-|[]]]]; cbn; intuition discriminate).
    inv_binds E. exists a1, a2, a4, a3, (get_kwargs_for keys_titrant_totals kw None).
    split; [split; [now apply number_of|split; now apply number_of]|]. split; [now apply number_ofn|]. split; [apply titrant_is|].
    exists a, a0, (truthy (kwarg "double" (VBool true) kw)). split; [now apply maybe_of|]. split; [now apply maybe_of|]. split; [apply flag_of|exact E].
  - assert (KW : forall k d, In k keys_calibrate_emf -> k <> "emf0_init" -> kwarg k d (dset "emf0_init" (VInt 0) (get_kwargs_for keys_calibrate_emf kw None)) = kwarg k d kw).
    { intros k d I N. unfold kwarg. rewrite dget_dset_other by exact N. exact (kwarg_gkf keys_calibrate_emf k d kw I). }
    assert (ES : kwarg "emf0_init" VNone (dset "emf0_init" (VInt 0) (get_kwargs_for keys_calibrate_emf kw None)) = VInt 0) by (unfold kwarg; now rewrite dget_dset_same).
    unfold call_calibrate_emf in E. rewrite ES in E. rewrite !(KW "alkalinity_init"), !(KW "pH_min"), !(KW "pH_max"), !(KW "titrant_molinity_init"), !(KW "titrant_normality"), !(KW "double") in E by (discriminate || (cbn; tauto)).
    rewrite titrant_dset in E by (cbn; tauto).
    assert (Tn : titrant_totals_of ["alkalinity_init"; "emf0_init"; "double"; "pH_min"; "pH_max"; "titrant_molinity_init"; "titrant_normality"] (get_kwargs_for keys_calibrate_emf kw None)
       = get_kwargs_for keys_titrant_totals kw None).
    { exact (titrant_named ["alkalinity_init"; "emf0_init"; "double"; "pH_min"; "pH_max"; "titrant_molinity_init"; "titrant_normality"] kw
        ltac:(intros k I; cbn in I; destruct I as [<-|[<-|[<-|[]]]]; cbn; intuition discriminate)). }
    rewrite Tn in E. clear Tn. inv_binds E. exists a1, a2, a4, a3, (get_kwargs_for keys_titrant_totals kw None).
    split; [split; [now apply number_of|split; now apply number_of]|]. split; [now apply number_ofn|]. split; [apply titrant_is|].
    exists a, (truthy (kwarg "double" (VBool true) kw)). split; [now apply maybe_of|]. split; [apply flag_of|]. cbn in A0. injection A0 as <-. exact E.
  - unfold call_calibrate_pH in E. rewrite !kwarg_gkf in E by (cbn; tauto).
    change keys_calibrate_pH with (["pH_min"; "pH_max"; "titrant_molinity_init"; "titrant_normality"] ++ keys_titrant_totals) in E.
    rewrite titrant_named in E by (intros k I; cbn in I; destruct I as [<-|[<-|[<-|[]]]]; cbn; intuition discriminate).
    inv_binds E. exists a, a0, a2, a1, (get_kwargs_for keys_titrant_totals kw None).
    split; [split; [now apply number_of|split; now apply number_of]|]. split; [now apply number_ofn|]. split; [apply titrant_is|exact E].
  - unfold call_calibrate_pH_gran in E. rewrite !kwarg_gkf in E by (cbn; tauto).
    change keys_calibrate_pH_gran with (["pH_min"; "pH_max"; "titrant_molinity_init"; "titrant_normality"] ++ keys_titrant_totals) in E.
    rewrite titrant_named in E by (intros k I; cbn in I; destruct I as [<-|[<-|[<-|[]]]]; cbn; intuition discriminate).
    inv_binds E. exists a, a0, a2, a1, (get_kwargs_for keys_titrant_totals kw None).
    split; [split; [now apply number_of|split; now apply number_of]|]. split; [now apply number_ofn|]. split; [apply titrant_is|exact E].
Qed.

Lemma number_same kw kw' k d x : dget k kw = dget k kw' -> number kw k d x -> number kw' k d x.
Proof. unfold number. now intros ->. Qed.
Lemma maybe_same kw kw' k x : dget k kw = dget k kw' -> maybe_number kw k x -> maybe_number kw' k x.
Proof. unfold maybe_number. now intros ->. Qed.
Lemma flag_same kw kw' k d x : dget k kw = dget k kw' -> flag kw k d x -> flag kw' k d x.
Proof. unfold flag. now intros ->. Qed.
Lemma window_wm kw a b n : window (without_mode kw) a b n -> window kw a b n.
Proof. unfold window, number. rewrite !dget_wm by discriminate. auto. Qed.

Lemma solved_wm e kw m c cv t ks sr : solved_as e (without_mode kw) m c cv t ks sr -> solved_as e kw m c cv t ks sr.
Proof.
  unfold solved_as. cbv zeta. intros (pmin & pmax & n & W & R). exists pmin, pmax, n. split; [now apply window_wm|].
  unfold maybe_number, flag, kwarg in *. rewrite !dget_wm in R by discriminate. exact R.
Qed.
Lemma calibrated_wm e kw m c cv t ks o : calibrated_as e (without_mode kw) m c cv t ks o -> calibrated_as e kw m c cv t ks o.
Proof.
  unfold calibrated_as. cbv zeta. intros (pmin & pmax & n & init & tt & W & I & G & R). exists pmin, pmax, n, init, tt. split; [now apply window_wm|].
  split; [unfold number in *; now rewrite dget_wm in I by discriminate|]. split.
  - intros k. rewrite (G k). destruct (String.eqb_spec k "solve_mode") as [->|N]; [reflexivity|]. now rewrite dget_wm.
  - unfold maybe_number, flag, kwarg in *. rewrite !dget_wm in R by discriminate. exact R.
Qed.

(* ------------------------------------------------------------------ *)
(** * The theorems *)

Theorem C50_mode_selects_solver : forall (e : env T) f c s kw m sr, mode_is kw m ->
  files_solve e f c s kw = Ok sr ->
  exists cv totals ks mol t, load e f s (without_mode kw) = Ok (cv, (totals, ks)) /\ as_num c = Ok mol /\
    (exists tt, titrant_given kw tt /\ add_titrant_totals totals (cv_titrant_mass cv) (cv_analyte_mass cv) mol n0 tt = (t, Ok Datatypes.tt)) /\
    solved_as e kw m mol cv t ks sr.
Proof.
  intros e f c s kw m sr M E. destruct (mode_wm _ _ M) as (x & Mx & <-).
  unfold files_solve in E. destruct (load e f s (without_mode kw)) as [[cv [totals ks]]|]; cbn [bind] in E; [|discriminate].
  destruct (as_num c) as [mol|]; cbn [bind] in E; [|discriminate].
  destruct (add_titrant_totals _ _ _ _ _ _) as [t [[]|]] eqn:At; cbn [bind] in E; [|discriminate].
  exists cv, totals, ks, mol, t. split; [reflexivity|]. split; [reflexivity|]. split.
  - exists (get_kwargs_for keys_titrant_totals (without_mode kw) None). split; [|exact At].
    intros k. rewrite titrant_is. destruct (String.eqb_spec k "solve_mode") as [->|N]; [reflexivity|]. now rewrite dget_wm.
  - apply solved_wm. eapply dispatch_as; eassumption.
Qed.

Theorem C50_mode_selects_calibrator : forall (e : env T) f cert s kw m o, mode_is kw m ->
  files_calibrate e f cert s kw = Ok o ->
  exists cv totals ks a, load e f s (without_mode kw) = Ok (cv, (totals, ks)) /\ as_num cert = Ok a /\
    calibrated_as e kw m a cv totals ks o.
Proof.
  intros e f c s kw m o M E. destruct (mode_wm _ _ M) as (x & Mx & <-).
  unfold files_calibrate in E. destruct (load e f s (without_mode kw)) as [[cv [totals ks]]|]; cbn [bind] in E; [|discriminate].
  destruct (as_num c) as [a|]; cbn [bind] in E; [|discriminate].
  exists cv, totals, ks, a. split; [reflexivity|]. split; [reflexivity|]. apply calibrated_wm. eapply dispatch_cal_as; eassumption.
Qed.
End Modes.

(* the small titrations of Witness.v and PropReference.v meet the hypotheses *)
Example C50_nonvacuous : mode_is cert_kw "ph" /\ exists o cert, files_calibrate tiny_env (VStr "gen.dat") (VNum (Fin cert)) (VInt 35) cert_kw = Ok o /\
  exists sr, files_solve tiny_env (VStr "gen.dat") (VNum (Fin 0.1)) (VInt 35) cert_kw = Ok sr.
Proof.
  split; [reflexivity|]. destruct cert_calibrated as (alk & A). eexists. exists alk. split; [apply A|].
  destruct (C60_file_solved_at_certified tiny_env (VStr "gen.dat") (VNum (Fin alk)) (VInt 35) cert_kw _ (A alk)) as (m & sr & x & X & _ & S & _).
  - cbn [or_fun]. do 2 f_equal. lra.
  - left. reflexivity.
  - left. intros k I. cbn in I. destruct I as [<-|[<-|[<-|[]]]]; reflexivity.
  - injection X as <-. exists sr. exact S.
Qed.

Print Assumptions C50_mode_selects_solver.
Print Assumptions C50_mode_selects_calibrator.
