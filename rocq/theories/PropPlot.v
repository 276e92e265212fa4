(* PropPlot.v -- C99, C100, C103: what the plots of a Titration show *)
From Coq Require Import List Lia Permutation.
From Verif Require Import Classes Plot DictLemmas SettingsProofs DatasetProofs RowProofs CalProofs PropTitration TableProofs PropTable PlotProofs.
From Verif Require Export SpecPlot PropModes.
Open Scope string_scope.
Open Scope list_scope.

Section P.
Context {T : Type} `{Num T}.

(* ------------------------------------------------------------------ *)
(** * Lemmas *)

Lemma scatter_once {A} (x y : list A) G : length G = length x -> length y = length x ->
  drawn_once G (combine x y) (scatter_both x y G).
Proof.
  intros Lx Ly. unfold drawn_once, scatter_both, flagged, unflagged.
  rewrite <- !mask_picked, <- !mask_unpicked, !mask_combine. split; [reflexivity|].
  apply mask_split. rewrite combine_length. lia.
Qed.

Lemma points_combine (t : titration T) tm y : dget "titrant_mass" (ti_table t) = Some tm -> length y = length tm ->
  points_of t y (combine (map grams tm) y).
Proof.
  intros G L. exists tm. split; [exact G|]. split; [rewrite combine_length, map_length; lia|]. split; [exact L|].
  clear G. revert y L. induction tm as [|m tm IH]; intros [|v y] L i m' v' N1 N2; try discriminate; [destruct i; discriminate|].
  destruct i as [|i]; cbn in *; [now injection N1 as <-; injection N2 as <-|]. apply IH; auto.
Qed.

Lemma getattr_kept k (t : titration T) R : (forall k, ~ In k solved_columns -> dget k (ti_row t) = dget k R) ->
  ~ In k solved_columns -> dget k (ti_row t) = dget k R.
Proof. auto. Qed.

(* which solver made the result, and with which window *)
Lemma titration_solved (e : env T) sys r kw t : Titration e sys r kw = Ok t ->
  exists m c cv totals ks, mode_is (ti_row t) m /\ solved_as e (ti_row t) m c cv totals ks (ti_sr t) /\
    (match dget "titrant_molinity" (ti_row t) with Some v => as_num v = Ok c | None => False end).
Proof.
  intros E. destruct (titration_facts e sys r kw t E) as (R & st & st1 & f & c & s & Keep & _ & Gc & _ & FS & _).
  set (K := filter (fun kv => negb (mem_str (fst kv) ["file_name"; "titrant_molinity"; "salinity"])) R) in *.
  assert (KR : forall k, ~ In k ("file_name" :: "titrant_molinity" :: "salinity" :: solved_columns) -> dget k K = dget k (ti_row t)).
  { intros k N. rewrite Keep by (intros I; apply N; cbn; right; right; right; exact I). apply pos_get. cbn in *. tauto. }
  assert (MD : exists m, mode_is K m).
  { unfold mode_is. unfold files_solve in FS.
    destruct (load e f s _) as [[cv [totals ks]]|]; cbn [bind] in FS; [|discriminate].
    destruct (as_num c) as [mol|]; cbn [bind] in FS; [|discriminate].
    destruct (add_titrant_totals _ _ _ _ _ _) as [t' [[]|]]; cbn [bind] in FS; [|discriminate].
    unfold dispatch_solve, mode_of, kwarg in FS.
    destruct (dget "solve_mode" K) as [[]|]; cbn [as_str bind] in FS; try discriminate; eauto. }
  destruct MD as (m & MD). destruct (C50_mode_selects_solver e f c s K m _ MD FS) as (cv & totals & ks & mol & t' & _ & Ec & _ & SA).
  exists m, mol, cv, t', ks. split; [|split].
  - unfold mode_is in *. now rewrite <- KR by (cbn; intuition discriminate).
  - unfold solved_as in *. cbv zeta in *. destruct SA as (p & q & n & (W1 & W2 & W3) & B). exists p, q, n.
    split; [|unfold maybe_number, flag, kwarg in *; rewrite !KR in B by (cbn; intuition discriminate); exact B].
    unfold window, number in *. rewrite !KR in W1, W2, W3 by (cbn; intuition discriminate). auto.
  - rewrite Keep by (cbn; intuition discriminate). now rewrite Gc.
Qed.

Lemma limits_are (t : titration T) p q n : window (ti_row t) p q n -> limit t "pH_min" 3 = Ok p /\ limit t "pH_max" 4 = Ok q.
Proof.
  unfold window, number, limit, getattr. intros (A & B & _).
  destruct (dget "pH_min" (ti_row t)), (dget "pH_max" (ti_row t)); cbn [of_opt]; subst; auto.
Qed.

Lemma row_is (e : env T) sys r kw t : Titration e sys r kw = Ok t -> exists R, ti_row t = add_solve_results R (ti_sr t).
Proof. intros E. destruct (titration_inv e sys r kw t E) as (kw1 & st & st1 & B & SN & ER & _). eauto. Qed.

Lemma inits_get k p q (x : row T) : k <> "pH_init" -> k <> "temperature_init" -> dget k (set_inits p q x) = dget k x.
Proof.
  intros A B. unfold set_inits. destruct (nth_error p 0); [|reflexivity]. destruct (nth_error q 0); rewrite ?dget_dset_other; auto.
Qed.

Definition sr_alkalinity (sr : solve_result T) : T :=
  match sr with SrEmf s => se_alkalinity s | SrPh s => sp_alkalinity s | SrPhGran s => sg_alkalinity s end.

Lemma row_npts R (sr : solve_result T) : dget "alkalinity_npts" (add_solve_results R sr) = Some (VInt (Z.of_nat (count_true (sr_used sr)))).
Proof.
  destruct sr; cbn [add_solve_results]; rewrite inits_get by discriminate; repeat rewrite dget_dset_other by discriminate; apply dget_dset_same.
Qed.
Lemma row_alk R (sr : solve_result T) : dget "alkalinity" (add_solve_results R sr) = Some (VNum (sr_alkalinity sr)).
Proof.
  destruct sr; cbn [add_solve_results]; rewrite inits_get by discriminate; repeat rewrite dget_dset_other by discriminate; apply dget_dset_same.
Qed.
Lemma row_gran_alk R (s : emf_result T) : dget "gran_alkalinity" (add_solve_results R (SrEmf s)) = Some (VNum (ga_alkalinity (gg_ga (se_ggr s)) ⊗ nofQ 1000000)).
Proof.
  cbn [add_solve_results]; rewrite inits_get by discriminate; repeat rewrite dget_dset_other by discriminate; apply dget_dset_same.
Qed.
Lemma row_gran_emf0 R (s : emf_result T) : dget "gran_emf0" (add_solve_results R (SrEmf s)) = Some (VNum (gg_emf0 (se_ggr s))).
Proof.
  cbn [add_solve_results]; rewrite inits_get by discriminate; repeat rewrite dget_dset_other by discriminate; apply dget_dset_same.
Qed.

Lemma mass_nonempty (e : env T) sys r kw t : Titration e sys r kw = Ok t -> sr_titrant_mass (ti_sr t) <> [].
Proof.
  intros E. pose proof (plot_columns _ _ _ _ _ E) as P. pose proof (pt_lpH _ P) as L.
  unfold Titration in E. destruct (backcompat kw r) as [kw1|]; cbn [bind] in E; [|discriminate].
  destruct (solve_named e _) as [sr|]; cbn [bind] in E; [|discriminate].
  destruct (nth_error (sr_pH sr) 0) eqn:N; cbn [of_opt bind] in E; [|discriminate].
  destruct (of_opt (nth_error (sr_temperature sr) 0) IndexError); cbn [bind] in E; [|discriminate].
  destruct (data_frame _ _) as [st|]; cbn [bind] in E; [|discriminate].
  destruct (get_alkalinity_from_acid _ st) as [st1|]; cbn [bind] in E; [|discriminate].
  destruct (do_CO2SYS sys _ st1) as [st2|]; cbn [bind] in E; [|discriminate].
  apply (f_equal (fun z => match z with Ok y => ti_sr y | Err _ => sr end)) in E. cbn [ti_sr] in E. rewrite E in N.
  intros Z. rewrite Z in L. destruct (sr_pH (ti_sr t)); [cbn in N|]; discriminate.
Qed.

Lemma columns_found (t : titration T) ks : (forall k, In k ks -> exists l, dget k (ti_table t) = Some l) ->
  exists ls, mapM (fun k => dgetE k (ti_table t)) ks = Ok ls.
Proof.
  induction ks as [|k ks IH]; intros A; cbn [mapM]; [eauto|]. destruct (A k) as (l & G); [now left|].
  unfold dgetE at 1. rewrite G. cbn [of_opt bind]. destruct IH as (ls & E); [intros k' I; apply A; now right|]. rewrite E. cbn [bind]. eauto.
Qed.

(* ------------------------------------------------------------------ *)
(** * C99 *)

(* the y values that a component is drawn at *)
Definition component_at (log_scale : bool) (mult : Z) (x : T) : T :=
  if log_scale then nopp (nlog10 (x ⊗ nofZ (Z.abs mult))) else x ⊗ nofZ mult ⊗ nofQ 1000000.

Lemma components_are (t : titration T) log_scale l : plot_table t -> plot_components t log_scale = Ok l ->
  forall var marks, In (var, marks) l -> exists mult v,
    dget var component_multipliers = Some mult /\ dget var (ti_table t) = Some v /\
    forallb (fun x => ngtb x (nofZ 0)) v = true /\
    marks = scatter_both (map grams (sr_titrant_mass (ti_sr t))) (map (component_at log_scale mult) v) (sr_used (ti_sr t)).
Proof.
  intros P E var marks I. unfold plot_components, col in E. rewrite (pt_mass _ P) in E. cbn [of_opt bind] in E.
  destruct (mapM (fun k => dgetE k (ti_table t)) _) as [cs|] in E; cbn [bind] in E; [|discriminate].
  cbn [col_used bind] in E. destruct (mapM _ plotted) as [ls|] eqn:M in E; cbn [bind] in E; [|discriminate].
  injection E as <-. apply in_concat in I. destruct I as (x & I & J).
  apply mapM_Forall2 in M. destruct (Forall2_in_r _ _ _ _ M I) as (k & _ & Ek). unfold plot_component in Ek.
  destruct (dget k (ti_table t)) as [v|] eqn:Gv; [|injection Ek as <-; destruct J].
  destruct (forallb (fun x => ngtb x (nofZ 0)) v) eqn:Fv; [|injection Ek as <-; destruct J].
  unfold component_values, dgetE in Ek. destruct (dget k component_multipliers) as [mult|] eqn:Gm; cbn [of_opt bind] in Ek; [|discriminate].
  injection Ek as <-. destruct J as [J|[]]. injection J as -> <-. exists mult, v. auto.
Qed.

Theorem C99_every_point_drawn_once : forall (e : env T) sys r kw t, Titration e sys r kw = Ok t ->
  exists used, 
  (* the reported number of points used is the number of filled points *)
  getattr t "alkalinity_npts" = Ok (VInt (Z.of_nat (length (filter (fun b => b) used)))) /\
  (* pH: all the points, filled where used; with show_gran=False nothing else but the band *)
  (forall f, plot_pH t false = Ok f -> exists pH pts marks lo hi, dget "pH" (ti_table t) = Some pH /\ points_of t pH pts /\
     fig_marks f = marks ++ [Band lo hi] /\ drawn_once used pts marks) /\
  (* alkalinity *)
  (forall f, plot_alkalinity t = Ok f -> exists est pts marks a, dget "alkalinity_estimate" (ti_table t) = Some est /\
     getattr t "alkalinity" = Ok (VNum a) /\
     points_of t (map (fun x => x ⊗ nofQ 1000000) est) pts /\ fig_marks f = marks ++ [HLine a] /\ drawn_once used pts marks) /\
  (* components *)
  (forall log_scale l var marks, plot_components t log_scale = Ok l -> In (var, marks) l ->
     exists mult v pts, dget var component_multipliers = Some mult /\ dget var (ti_table t) = Some v /\
       points_of t (map (component_at log_scale mult) v) pts /\ drawn_once used pts marks).
Proof.
  intros e sys r kw t E. pose proof (plot_columns _ _ _ _ _ E) as P. destruct (plot_flags _ _ _ _ _ E) as (FF & _).
  destruct (row_is _ _ _ _ _ E) as (R & ER).
  exists (sr_used (ti_sr t)). split; [|split; [|split]].
  - unfold getattr. rewrite ER, row_npts. reflexivity.
  - intros f Ef. unfold plot_pH, col in Ef. cbn [bind] in Ef. rewrite (pt_mass _ P), (pt_pH _ P) in Ef. cbn [of_opt bind col_used] in Ef.
    destruct (limit t "pH_min" 3) as [lo|]; cbn [bind] in Ef; [|discriminate]. destruct (limit t "pH_max" 4) as [hi|]; cbn [bind] in Ef; [|discriminate].
    injection Ef as <-. exists (sr_pH (ti_sr t)), (combine (map grams (sr_titrant_mass (ti_sr t))) (sr_pH (ti_sr t))), (scatter_both (map grams (sr_titrant_mass (ti_sr t))) (sr_pH (ti_sr t)) (sr_used (ti_sr t))), lo, hi. split; [exact (pt_pH _ P)|]. split; [exact (points_combine _ _ _ (pt_mass _ P) (pt_lpH _ P))|].
    split; [cbn [fig_marks app]; reflexivity|]. apply scatter_once; rewrite map_length; [exact FF|apply P].
  - intros f Ef. unfold plot_alkalinity, col in Ef. destruct (pt_plotted _ P "alkalinity_estimate") as (est & G & L); [cbn; tauto|].
    rewrite (pt_mass _ P), G in Ef. cbn [of_opt bind col_used] in Ef. unfold getattr in *. rewrite ER in *. rewrite row_alk in *.
    cbn [of_opt bind as_num] in Ef. injection Ef as <-. eexists est, _, (scatter_both (map grams (sr_titrant_mass (ti_sr t))) (map (fun x => x ⊗ nofQ 1000000) est) (sr_used (ti_sr t))), _. split; [exact G|]. split; [reflexivity|].
    split; [apply points_combine; [apply P|now rewrite map_length]|]. split; [cbn [fig_marks]; reflexivity|]. apply scatter_once; rewrite !map_length; [exact FF|exact L].
  - intros ls l var marks El I. destruct (components_are _ _ _ P El _ _ I) as (mult & v & Gm & Gv & _ & ->).
    assert (L : length v = length (sr_titrant_mass (ti_sr t))) by (eapply columns_get; [apply P|eassumption]).
    exists mult, v. eexists. split; [exact Gm|]. split; [exact Gv|]. split; [apply points_combine; [apply P|now rewrite map_length]|].
    apply scatter_once; rewrite !map_length; [exact FF|exact L].
Qed.

(* the Gran plots: filled where the Gran step used the point *)
Theorem C99_gran_points_drawn_once : forall (e : env T) sys r kw t, Titration e sys r kw = Ok t ->
  exists used,
  (forall f, plot_emf0_gran t = Ok f -> exists y pts marks e0, dget "gran_emf0" (ti_table t) = Some y /\ getattr t "gran_emf0" = Ok (VNum e0) /\
     points_of t y pts /\ fig_marks f = marks ++ [HLine e0] /\ fig_title f = [e0] /\ drawn_once used pts marks) /\
  (forall f, plot_alkalinity_gran t = Ok f -> exists y pts marks rest, dget "gran_func" (ti_table t) = Some y /\
     points_of t y pts /\ fig_marks f = marks ++ rest /\ (forall m, In m rest -> match m with Used _ | Unused _ => False | _ => True end) /\
     drawn_once used pts marks) /\
  (* pH with show_gran=True: the first guesses as well, where there are any *)
  (forall f f', plot_pH t true = Ok f -> plot_pH t false = Ok f' -> 
     match dget "gran_pH" (ti_table t) with
     | Some y => exists pts marks, points_of t y pts /\ drawn_once used pts marks /\ fig_marks f = marks ++ fig_marks f'
     | None => f = f'
     end).
Proof.
  intros e sys r kw t E. pose proof (plot_columns _ _ _ _ _ E) as P. destruct (plot_flags _ _ _ _ _ E) as (FF & FG).
  destruct (row_is _ _ _ _ _ E) as (R & ER). pose proof (pt_gran _ P) as PG. pose proof (pt_len _ P) as PL. pose proof (pt_mass _ P) as PM.
  exists (match ti_sr t with SrEmf s => ga_used (gg_ga (se_ggr s)) | SrPh _ => [] | SrPhGran s => sg_used s end).
  split; [|split].
  - intros f Ef. unfold plot_emf0_gran, col, col_gran_used in Ef. rewrite (pt_mass _ P) in Ef. cbn [of_opt bind] in Ef.
    destruct (ti_sr t) as [s|s|s] eqn:Es; cbn [bind] in Ef; [|discriminate|destruct PG as (_ & _ & Z & _); rewrite Z in Ef; discriminate].
    destruct PG as (_ & _ & Z & _). rewrite Z in Ef. cbn [of_opt bind] in Ef. unfold getattr in *. rewrite ER in *. rewrite row_gran_emf0 in *.
    cbn [of_opt bind as_num] in Ef. injection Ef as <-.
    assert (L : length (gg_emf0s (se_ggr s)) = length (sr_titrant_mass (SrEmf s))) by (eapply columns_get; eassumption).
    eexists _, _, (scatter_both (map grams (sr_titrant_mass (SrEmf s))) (gg_emf0s (se_ggr s)) (ga_used (gg_ga (se_ggr s)))), _. split; [exact Z|]. split; [reflexivity|]. split; [apply points_combine; eassumption|]. split; [cbn [fig_marks]; reflexivity|]. split; [reflexivity|].
    apply scatter_once; rewrite map_length; assumption.
  - intros f Ef. unfold plot_alkalinity_gran, col, col_gran_used in Ef. rewrite (pt_mass _ P) in Ef. cbn [of_opt bind] in Ef.
    destruct (ti_sr t) as [s|s|s] eqn:Es; cbn [bind] in Ef; [|discriminate|].
    + destruct PG as (_ & Z & _). rewrite Z in Ef. cbn [of_opt bind] in Ef. unfold getattr in Ef. rewrite ER, row_gran_alk in Ef.
      cbn [of_opt bind as_num fst snd] in Ef. destruct (nmax _) as [x1|]; cbn [bind] in Ef; [|discriminate]. cbv zeta in Ef. injection Ef as <-.
      assert (L : length (ga_gfunc (gg_ga (se_ggr s))) = length (sr_titrant_mass (SrEmf s))) by (eapply columns_get; eassumption).
      eexists _, _, (scatter_both (map grams (sr_titrant_mass (SrEmf s))) (ga_gfunc (gg_ga (se_ggr s))) (ga_used (gg_ga (se_ggr s)))), _. split; [exact Z|]. split; [apply points_combine; eassumption|]. split; [cbn [fig_marks]; reflexivity|].
      split; [cbn; intros m [<-|[<-|[<-|[]]]]; exact I|]. apply scatter_once; rewrite map_length; assumption.
    + destruct PG as (_ & Z & _). rewrite Z in Ef. cbn [of_opt bind] in Ef. unfold getattr in Ef. rewrite ER, row_alk in Ef.
      cbn [of_opt bind as_num fst snd] in Ef. destruct (nmax _) as [x1|]; cbn [bind] in Ef; [|discriminate]. cbv zeta in Ef. injection Ef as <-.
      assert (L : length (sg_gfunc s) = length (sr_titrant_mass (SrPhGran s))) by (eapply columns_get; eassumption).
      eexists _, _, (scatter_both (map grams (sr_titrant_mass (SrPhGran s))) (sg_gfunc s) (sg_used s)), _. split; [exact Z|]. split; [apply points_combine; eassumption|]. split; [cbn [fig_marks]; reflexivity|].
      split; [cbn; intros m [<-|[<-|[<-|[]]]]; exact I|]. apply scatter_once; rewrite map_length; assumption.
  - intros f f' Ef Ef'. unfold plot_pH in Ef, Ef'. cbn [bind] in Ef'. unfold plot_pH_gran, col_gran_used, col in Ef. unfold col in Ef'.
    rewrite PM, (pt_pH _ P) in Ef, Ef'. cbn [of_opt bind col_used] in Ef, Ef'.
    destruct (limit t "pH_min" 3) as [lo|]; cbn [bind] in Ef, Ef'; [|discriminate]. destruct (limit t "pH_max" 4) as [hi|]; cbn [bind] in Ef, Ef'; [|discriminate].
    injection Ef' as <-.
    destruct (ti_sr t) as [s|s|s] eqn:Es; destruct PG as (_ & _ & _ & Z); rewrite Z in *; cbn [of_opt bind] in Ef.
    + assert (L : length (gg_pH (se_ggr s)) = length (sr_titrant_mass (SrEmf s))) by (eapply columns_get; eassumption).
      injection Ef as <-. eexists _, (scatter_both (map grams (sr_titrant_mass (SrEmf s))) (gg_pH (se_ggr s)) (ga_used (gg_ga (se_ggr s)))). split; [apply points_combine; eassumption|]. split; [apply scatter_once; rewrite map_length; eassumption|]. cbn [fig_marks app]. reflexivity.
    + now injection Ef as <-.
    + now injection Ef as <-.
Qed.

(* ------------------------------------------------------------------ *)
(** * C100: which plots can be drawn *)

Theorem C100_available_plots : forall (e : env T) sys r kw t m, Titration e sys r kw = Ok t -> mode_is (ti_row t) m ->
  (* in every mode *)
  can_draw (plot_pH t true) /\ can_draw (plot_pH t false) /\ can_draw (plot_alkalinity t) /\ can_draw (plot_components t true) /\ can_draw (plot_components t false) /\
  cannot_draw (plot_loss t) /\
  match m with
  | "ph" => no_attribute (plot_emf t) /\ no_attribute (plot_emf0_gran t) /\ no_attribute (plot_alkalinity_gran t)
  | "ph_gran" => no_attribute (plot_emf t) /\ no_attribute (plot_emf0_gran t) /\ can_draw (plot_alkalinity_gran t)
  | _ => can_draw (plot_emf t) /\ can_draw (plot_emf0_gran t) /\ can_draw (plot_alkalinity_gran t)
  end.
Proof.
  intros e sys r kw t m E MD. pose proof (plot_columns _ _ _ _ _ E) as P. destruct (row_is _ _ _ _ _ E) as (R & ER).
  pose proof (mass_nonempty _ _ _ _ _ E) as NE.
  destruct (titration_solved _ _ _ _ _ E) as (m' & c & cv & totals & ks & MD' & SA & _).
  assert (m' = m).
  { unfold mode_is in MD, MD'. destruct (dget "solve_mode" (ti_row t)) as [[]|]; try contradiction; congruence. }
  subst m'. unfold solved_as in SA. cbv zeta in SA. destruct SA as (p & q & n & W & SA). apply limits_are in W. destruct W as (Lo & Hi).
  pose proof (pt_gran _ P) as PG. pose proof (pt_mass _ P) as PM.
  assert (Mx : exists x, nmax (sr_titrant_mass (ti_sr t)) = Ok x) by (destruct (sr_titrant_mass (ti_sr t)); [congruence|cbn; eauto]).
  destruct Mx as (x1 & Mx).
  assert (Comp : forall ls, can_draw (plot_components t ls)).
  { intros ls. unfold can_draw, plot_components, col. rewrite PM. cbn [of_opt bind].
    destruct (columns_found t ("titrant_mass" :: plotted)) as (cs & Ec).
    { intros k [<-|I]; [eauto|]. destruct (pt_plotted _ P k I) as (l & G & _). eauto. }
    rewrite Ec. cbn [bind col_used].
    destruct (mapM_total (plot_component ls (sr_titrant_mass (ti_sr t)) (sr_used (ti_sr t)) (ti_table t)) plotted) as (l & El).
    - intros k I. unfold plot_component. destruct (dget k (ti_table t)) as [v|]; [|eauto]. destruct (forallb _ v); [|eauto].
      unfold component_values, dgetE.
      assert (Z : forallb (fun k => match dget k component_multipliers with Some _ => true | None => false end) plotted = true) by reflexivity.
      rewrite forallb_forall in Z. specialize (Z k I). destruct (dget k component_multipliers); [|discriminate]. cbn [of_opt bind]. eauto.
    - rewrite El. cbn [bind]. eauto. }
  split; [|split; [|split; [|split; [|split; [|split]]]]]; auto.
  - unfold can_draw, plot_pH. assert (Z : exists marks, (match plot_pH_gran t with Ok marks => Ok marks | Err (AttributeError _) => Ok [] | Err e => Err e end) = Ok marks).
    { unfold plot_pH_gran, col, col_gran_used. rewrite PM. cbn [of_opt bind].
      destruct (ti_sr t); destruct PG as (_ & _ & _ & Z); rewrite Z; cbn [of_opt bind]; eauto. }
    destruct Z as (marks & ->). cbn [bind]. unfold col. rewrite PM, (pt_pH _ P), Lo, Hi. cbn [of_opt bind col_used]. eauto.
  - unfold can_draw, plot_pH, col. cbn [bind]. rewrite PM, (pt_pH _ P), Lo, Hi. cbn [of_opt bind col_used]. eauto.
  - unfold can_draw, plot_alkalinity, col. destruct (pt_plotted _ P "alkalinity_estimate") as (est & G & L); [cbn; tauto|].
    rewrite PM, G. unfold getattr. rewrite ER, row_alk. cbn [of_opt bind col_used as_num]. eauto.
  - unfold cannot_draw, plot_loss, getattr. destruct (dget "k_dic_loss" (ti_row t)); cbn [of_opt bind].
    + destruct (dget "_get_dic_loss_hires" (ti_row t)); cbn [of_opt bind]; eauto.
    + destruct (dget "get_dic_loss" (ti_row t)); cbn [of_opt bind]; eauto.
  - assert (EM : forall s, ti_sr t = SrEmf s -> can_draw (plot_emf t) /\ can_draw (plot_emf0_gran t) /\ can_draw (plot_alkalinity_gran t)).
    { intros s Es. unfold can_draw, plot_emf, plot_emf0_gran, plot_alkalinity_gran, col, col_gran_used, getattr. rewrite PM, ER. rewrite Es in PG, Mx |- *.
      destruct PG as (Z1 & Z2 & Z3 & _). rewrite Z1, Z2, Z3, row_gran_emf0, row_gran_alk. cbn [of_opt bind as_num fst snd]. rewrite Mx. cbn [bind]. eauto 6. }
    assert (PH : forall s, ti_sr t = SrPh s -> no_attribute (plot_emf t) /\ no_attribute (plot_emf0_gran t) /\ no_attribute (plot_alkalinity_gran t)).
    { intros s Es. unfold no_attribute, plot_emf, plot_emf0_gran, plot_alkalinity_gran, col, col_gran_used. rewrite PM. rewrite Es in PG |- *.
      destruct PG as (Z1 & _). rewrite Z1. cbn [of_opt bind]. eauto 6. }
    assert (PGr : forall s, ti_sr t = SrPhGran s -> no_attribute (plot_emf t) /\ no_attribute (plot_emf0_gran t) /\ can_draw (plot_alkalinity_gran t)).
    { intros s Es. unfold can_draw, no_attribute, plot_emf, plot_emf0_gran, plot_alkalinity_gran, col, col_gran_used, getattr. rewrite PM, ER. rewrite Es in PG, Mx |- *.
      destruct PG as (Z1 & Z2 & Z3 & _). rewrite Z1, Z2, Z3, row_alk. cbn [of_opt bind as_num fst snd]. rewrite Mx. cbn [bind]. eauto 6. }
    repeat (match type of SA with match ?x with _ => _ end => destruct x end; try contradiction).
    all: destruct SA as (? & SA); try (destruct SA as (? & ? & ? & SA)); destruct SA as (Es & _); eauto.
Qed.

(* ------------------------------------------------------------------ *)
(** * C103: the band *)

Theorem C103_band_is_the_window : forall (e : env T) sys r kw t m f b, Titration e sys r kw = Ok t -> mode_is (ti_row t) m ->
  plot_pH t b = Ok f -> exists lo hi n, 
    (* the band drawn is the pH window in force *)
    window (ti_row t) lo hi n /\ (forall lo' hi', In (Band lo' hi') (fig_marks f) <-> lo' = lo /\ hi' = hi) /\
    (* with pH data, the filled points are those inside the band *)
    (m = "ph" \/ m = "ph_gran" -> exists open filled, fig_marks f = [Unused open; Used filled; Band lo hi] /\
       (forall x y, In (x, y) filled -> ngeb y lo && nleb y hi = true) /\
       (forall x y, In (x, y) open -> ngeb y lo && nleb y hi = false)).
Proof.
  intros e sys r kw t m f b E MD Ef. pose proof (plot_columns _ _ _ _ _ E) as P.
  destruct (titration_solved _ _ _ _ _ E) as (m' & c & cv & totals & ks & MD' & SA & _).
  assert (m' = m).
  { unfold mode_is in MD, MD'. destruct (dget "solve_mode" (ti_row t)) as [[]|]; try contradiction; congruence. }
  subst m'. unfold solved_as in SA. cbv zeta in SA. destruct SA as (p & q & n & W & SA). pose proof (limits_are _ _ _ _ W) as (Lo & Hi).
  exists p, q, n. split; [exact W|]. pose proof (pt_gran _ P) as PG. pose proof (pt_mass _ P) as PM.
  assert (F : exists gran, f = Build_figure (gran ++ scatter_both (map grams (sr_titrant_mass (ti_sr t))) (sr_pH (ti_sr t)) (sr_used (ti_sr t)) ++ [Band p q]) [] /\
             (gran = [] \/ exists s x y G, ti_sr t = SrEmf s /\ gran = scatter_both x y G)).
  { unfold plot_pH in Ef. destruct b; cbn [bind] in Ef.
    - unfold plot_pH_gran, col, col_gran_used in Ef. rewrite PM, (pt_pH _ P), Lo, Hi in Ef. cbn [of_opt bind col_used] in Ef.
      destruct (ti_sr t) as [s|s|s]; destruct PG as (_ & _ & _ & Z); rewrite Z in Ef; cbn [of_opt bind] in Ef; injection Ef as <-.
      + exists (scatter_both (map grams (sr_titrant_mass (SrEmf s))) (gg_pH (se_ggr s)) (ga_used (gg_ga (se_ggr s)))). split; [reflexivity|]. right. eauto 6.
      + exists []. split; [reflexivity|]. now left.
      + exists []. split; [reflexivity|]. now left.
    - unfold col in Ef. rewrite PM, (pt_pH _ P), Lo, Hi in Ef. cbn [of_opt bind col_used] in Ef. injection Ef as <-.
      exists []. split; [reflexivity|]. now left. }
  destruct F as (gran & -> & HG). cbn [fig_marks]. split.
  - intros lo hi. rewrite !in_app_iff. split.
    + intros [I|[I|I]].
      * destruct HG as [->|(s & x & y & G & _ & ->)]; cbn in I; intuition discriminate.
      * cbn in I. intuition discriminate.
      * destruct I as [I|[]]. injection I as -> ->. auto.
    + intros (-> & ->). right. right. now left.
  - intros Mm. assert (HU : sr_used (ti_sr t) = in_window p q (sr_pH (ti_sr t)) /\ gran = []).
    { destruct Mm as [-> | ->].
      - destruct SA as (s & Es & S). apply ph_flags in S. rewrite Es. split; [exact S|].
        destruct HG as [->|(s' & x & y & G & Es' & _)]; [reflexivity|congruence].
      - destruct SA as (s & Es & S). apply phgran_flags in S. rewrite Es. split; [exact S|].
        destruct HG as [->|(s' & x & y & G & Es' & _)]; [reflexivity|congruence]. }
    destruct HU as (HU & ->). eexists _, _. split; [reflexivity|]. rewrite HU. clear.
    generalize (map grams (sr_titrant_mass (ti_sr t))). generalize (sr_pH (ti_sr t)). unfold in_window.
    induction l as [|v l IH]; intros xs; cbn [map].
    + split; intros x y; destruct xs; cbn; tauto.
    + destruct xs as [|u xs]; [split; intros x y; cbn; tauto|]. destruct (IH xs) as [A B].
      cbn [mask map]. destruct (ngeb v p && nleb v q)%bool eqn:V; cbn [negb combine]; split; intros x y; try (apply A); try (apply B).
      * intros [Z|Z]; [injection Z as <- <-; exact V|now apply (A x)].
      * intros [Z|Z]; [injection Z as <- <-; exact V|now apply (B x)].
Qed.

End P.

Print Assumptions C99_every_point_drawn_once.
Print Assumptions C99_gran_points_drawn_once.
Print Assumptions C100_available_plots.
Print Assumptions C103_band_is_the_window.
