(* PropPlotReal.v -- C101, C102: the numbers that the plots of a Titration give *)
From Coq Require Import List Lia Permutation Reals Lra.
From Verif Require Import Classes Plot DictLemmas SettingsProofs DatasetProofs RowProofs CalProofs PropTitration TableProofs PropTable PlotProofs.
From Verif Require Import XR XRLemmas SimProofs SolveProofs PropHistory PropIgnored TitrationProofs Witness PropTitrationWitness.
From Verif Require Export PropPlot.
Open Scope string_scope.
Open Scope list_scope.
Open Scope R_scope.

(* ------------------------------------------------------------------ *)
(** * C101: the Gran plot *)

Section Gran.
Context {T : Type} `{Num T}.

Lemma once_ggr st c tm emf temps M totals ks ai ei lg p q n (s : emf_result T) :
  solve_emf_once st c tm emf temps M totals ks ai ei lg p q n = Ok s -> gran_guesses tm emf temps M c n lg = Ok (se_ggr s) /\ se_titrant_mass s = tm.
Proof.
  unfold solve_emf_once. intros E.
  destruct (gran_guesses _ _ _ _ _ _ _) as [g|] eqn:G; cbn [bind] in E; [|discriminate].
  inv_binds E. injection E as <-. split; reflexivity.
Qed.
Lemma emf_ggr st c tm emf temps M totals ks ai db ei lg p q n (s : emf_result T) :
  solve_emf st c tm emf temps M totals ks ai db ei lg p q n = Ok s -> exists lg', gran_guesses tm emf temps M c n lg' = Ok (se_ggr s) /\ se_titrant_mass s = tm.
Proof.
  unfold solve_emf. intros E. destruct (solve_emf_once _ _ _ _ _ _ _ _ _ _ _ _ _ _) as [x|] eqn:A in E; cbn [bind] in E; [|discriminate].
  destruct db; [|injection E as <-]; eexists; eapply once_ggr; [exact E|exact A].
Qed.
Lemma guesses_lr tm emf temps M c n lg (g : gran_guess T) : gran_guesses tm emf temps M c n lg = Ok g ->
  let ga := gg_ga g in linregress (mask (ga_used ga) tm) (mask (ga_used ga) (ga_gfunc ga)) = Ok (ga_lr ga) /\
    ga_alkalinity ga = (nopp (lr_intercept (ga_lr ga)) ⊘ lr_slope (ga_lr ga) ⊗ c ⊗ n ⊘ M)%num.
Proof.
  unfold gran_guesses, gran_alkalinity. intros E. destruct (negb _); [discriminate|].
  destruct (gran_used lg _) as [u|]; cbn [bind] in E; [|discriminate].
  destruct (linregress _ _) as [lr|] eqn:L; cbn [bind] in E; [|discriminate]. cbv zeta in E. injection E as <-. cbn. split; [exact L|reflexivity].
Qed.

(* the line drawn is the regression of the filled points, and the alkalinity in the title is that of its zero *)
Lemma gran_figure : forall (e : env T) sys r kw t f, Titration e sys r kw = Ok t -> plot_alkalinity_gran t = Ok f ->
  exists c n open xs ys lr x1 a,
    match dget "titrant_molinity" (ti_row t) with Some v => as_num v = Ok c | None => False end /\
    number (ti_row t) "titrant_normality" (nofZ 1) n /\
    linregress xs ys = Ok lr /\ length xs = length ys /\
    let x0 := (nopp (lr_intercept lr) ⊘ lr_slope lr)%num in let y x := (x ⊗ lr_slope lr ⊕ lr_intercept lr)%num in
    fig_marks f = [Unused open; Used (combine (map (fun m => m ⊗ nofQ 1000)%num xs) ys); HLine (nofZ 0);
                   Line [((x0 ⊗ nofQ 1000)%num, y x0); ((x1 ⊗ nofQ 1000)%num, y x1)]; VLine (x0 ⊗ nofQ 1000)%num] /\
    fig_title f = [a] /\ (a = (x0 ⊗ c ⊗ n ⊘ sr_analyte_mass (ti_sr t)) ⊗ nofQ 1000000 \/ a = nofQ 1000000 ⊗ (x0 ⊗ c ⊗ n ⊘ sr_analyte_mass (ti_sr t)))%num.
Proof.
  intros e sys r kw t f E Ef. pose proof (plot_columns _ _ _ _ _ E) as P. destruct (row_is _ _ _ _ _ E) as (R & ER).
  pose proof (pt_gran _ P) as PG. pose proof (pt_mass _ P) as PM.
  destruct (titration_solved _ _ _ _ _ E) as (m & c & cv & totals & ks & MD & SA & Gc).
  unfold solved_as in SA. cbv zeta in SA. destruct SA as (p & q & n & (_ & _ & Wn) & SA).
  assert (ML : forall (G : list bool) (l : list T), map grams (mask G l) = mask G (map grams l)).
  { clear. induction G as [|[] G IH]; intros [|x l]; cbn; try reflexivity; [f_equal|]; apply IH. }
  assert (LL : forall (G : list bool) (l l' : list T), length l = length l' -> length (mask G l) = length (mask G l')).
  { clear. induction G as [|[] G IH]; intros [|x l] [|y l'] L; cbn in *; try discriminate; auto. }
  unfold plot_alkalinity_gran, col, col_gran_used in Ef. rewrite PM in Ef. cbn [of_opt bind] in Ef.
  destruct (ti_sr t) as [s|s|s] eqn:Es; cbn [bind] in Ef; [|discriminate|].
  - destruct PG as (_ & Z & _). rewrite Z in Ef. cbn [of_opt bind] in Ef. unfold getattr in Ef. rewrite ER, row_gran_alk in Ef.
    cbn [of_opt bind as_num fst snd] in Ef. destruct (nmax _) as [x1|]; cbn [bind] in Ef; [|discriminate]. cbv zeta in Ef. injection Ef as <-.
    assert (S : exists emf lg ai db ei, solve_emf (e_strat e) c (cv_titrant_mass cv) emf (cv_temperature cv) (cv_analyte_mass cv) totals ks ai db ei lg p q n = Ok s).
    { repeat (match type of SA with match ?x with _ => _ end => destruct x end; try contradiction).
      all: repeat match type of SA with exists _, _ => destruct SA as (? & SA) end; destruct SA as (Q & SA); try discriminate Q; injection Q as <-.
      all: decompose [and] SA; eauto 8. }
    destruct S as (emf & lg & ai & db & ei & S). pose proof (emf_inv _ _ _ _ _ _ _ _ _ _ _ _ _ _ _ _ S) as (_ & _ & _ & _ & HM & _). apply emf_ggr in S. destruct S as (lg' & S & Etm).
    apply guesses_lr in S. destruct S as (S1 & S2). cbn [sr_analyte_mass] in *. cbn [sr_titrant_mass] in *. rewrite <- Etm in S1.
    exists c, n. eexists _, _, _, _, x1, _. split; [exact Gc|]. split; [exact Wn|]. split; [exact S1|].
    split. { apply LL. symmetry. change (se_titrant_mass s) with (sr_titrant_mass (SrEmf s)). rewrite <- Es. eapply columns_get; [apply P|exact Z]. }
    cbv zeta. cbn [fig_marks fig_title]. fold (@grams T _). split; [rewrite ML; reflexivity|]. split; [reflexivity|]. left. rewrite S2, HM. reflexivity.
  - destruct PG as (_ & Z & _). rewrite Z in Ef. cbn [of_opt bind] in Ef. unfold getattr in Ef. rewrite ER, row_alk in Ef.
    cbn [of_opt bind as_num fst snd] in Ef. destruct (nmax _) as [x1|]; cbn [bind] in Ef; [|discriminate]. cbv zeta in Ef. injection Ef as <-.
    assert (S : exists pH, solve_pH_gran c (cv_titrant_mass cv) pH (cv_temperature cv) (cv_analyte_mass cv) totals ks p q n = Ok s).
    { repeat (match type of SA with match ?x with _ => _ end => destruct x end; try contradiction).
      all: repeat match type of SA with exists _, _ => destruct SA as (? & SA) end; destruct SA as (Q & SA); try discriminate Q; injection Q as <-.
      all: decompose [and] SA; eauto 8. }
    destruct S as (pH & S). unfold solve_pH_gran in S. destruct (negb _); [discriminate|]. destruct (assert_ _); cbn [bind] in S; [|discriminate].
    destruct (linregress _ _) as [lr|] eqn:L in S; cbn [bind] in S; [|discriminate]. cbv zeta in S.
    pose proof (columns_get _ _ _ _ (pt_len _ P) Z) as Lg. rewrite Es in Lg.
    injection S as <-. cbn [sg_used sg_gfunc sg_lr sg_alkalinity sr_analyte_mass sg_analyte_mass sr_alkalinity sr_titrant_mass sg_titrant_mass] in *.
    exists c, n. eexists _, _, _, _, x1, _. split; [exact Gc|]. split; [exact Wn|]. split; [exact L|].
    split. { apply LL. symmetry. exact Lg. }
    cbv zeta. cbn [fig_marks fig_title]. fold (@grams T _). split; [rewrite ML; reflexivity|]. split; [reflexivity|]. right. reflexivity.
Qed.
End Gran.

Theorem C101_gran_line : forall (e : env xr) sys r kw t f c n M,
  Titration e sys r kw = Ok t -> plot_alkalinity_gran t = Ok f ->
  getattr t "titrant_molinity" = Ok (VNum (Fin c)) -> number (ti_row t) "titrant_normality" (Fin 1) (Fin n) ->
  sr_analyte_mass (ti_sr t) = Fin M -> M <> 0 ->
  exists open xs ys lr p1,
    (* the regression of the filled points *)
    linregress xs ys = Ok lr /\ length xs = length ys /\
    forall slope intercept, lr_slope lr = Fin slope -> slope <> 0 -> lr_intercept lr = Fin intercept ->
      let zero := - intercept / slope in
      fig_marks f = [Unused open; Used (combine (map (fun m => m ⊗ Fin 1000)%num xs) ys); HLine (Fin 0);
                     Line [(Fin (1000 * zero), Fin 0); p1]; VLine (Fin (1000 * zero))] /\
      fig_title f = [Fin (1000000 * (zero * c * n / M))].
Proof.
  intros e sys r kw t f c n M E Ef Gc Wn HM NM.
  destruct (gran_figure e sys r kw t f E Ef) as (c' & n' & open & xs & ys & lr & x1 & a & Gc' & Wn' & L & Ll & F & Ti & A).
  cbv zeta in F, A.
  assert (c' = Fin c) by (unfold getattr in Gc; destruct (dget "titrant_molinity" (ti_row t)); cbn [of_opt] in Gc; [|destruct Gc']; injection Gc as ->; cbn in Gc'; congruence).
  assert (n' = Fin n).
  { unfold number in *. destruct (dget "titrant_normality" (ti_row t)); [congruence|]. rewrite fin_Z in Wn'. congruence. }
  subst c' n'. exists open, xs, ys, lr, ((x1 ⊗ Fin (Q2R 1000))%num, (x1 ⊗ lr_slope lr ⊕ lr_intercept lr)%num). split; [exact L|]. split; [exact Ll|].
  intros sl ic Hs Ns Hi. cbv zeta. rewrite F, Ti. rewrite Hs, Hi, HM in *.
  rewrite fin_opp, fin_div in * by assumption. rewrite !fin_q, !fin_mul in *. rewrite fin_Z, fin_add.
  replace (Q2R 1000) with 1000 in * by (unfold Q2R; cbn; lra). replace (Q2R 1000000) with 1000000 in * by (unfold Q2R; cbn; lra).
  split.
  - replace (- ic / sl * sl + ic) with 0 by (field; assumption). rewrite (Rmult_comm _ 1000). reflexivity.
  - rewrite fin_div, !fin_mul in A by assumption. destruct A as [-> | ->]; f_equal; f_equal; ring.
Qed.

(* ------------------------------------------------------------------ *)
(** * C102: the spread in the title of the alkalinity plot *)

Lemma row_std R (sr : solve_result xr) all : sr_all sr = Some all ->
  dget "alkalinity_std" (add_solve_results R sr) = Some (VNum (nstd (mask (sr_used sr) all))).
Proof.
  destruct sr; cbn [sr_all]; intros X; [injection X as <-|injection X as <-|discriminate X];
    cbn [add_solve_results]; rewrite inits_get by discriminate; repeat rewrite dget_dset_other by discriminate; apply dget_dset_same.
Qed.

Lemma nstd1_fin l : (2 <= length l)%nat ->
  nstd1 (map Fin l) = Fin (sqrt (Rsum (map (fun x => (x - Rmean l) ^ 2) l) / (INR (length l) - 1))).
Proof.
  intros L. assert (Ne : l <> []) by (destruct l; [cbn in L; lia|discriminate]).
  assert (U : nstd1 (map Fin l) = nsqrt (ndiv (nsum (map (fun x => npow (nsub x (nmean (map Fin l))) 2) (map Fin l))) (nofZ (Z.of_nat (length (map Fin l)) - 1)))).
  { destruct l as [|a [|b l]]; [cbn in L; lia|cbn in L; lia|reflexivity]. }
  rewrite U, nmean_fin by assumption. rewrite map_map.
  assert (E : map (fun x => npow (nsub (Fin x) (Fin (Rmean l))) 2) l = map Fin (map (fun x => (x - Rmean l) ^ 2) l)).
  { rewrite map_map. apply map_ext. intros x. rewrite fin_sub, fin_pow. reflexivity. }
  rewrite E, nsum_fin, fin_Z, map_length, minus_IZR, <- INR_IZR_INZ.
  assert (2 <= INR (length l)) by (apply le_INR in L; exact L).
  rewrite fin_div by lra. rewrite fin_sqrt; [reflexivity|].
  apply Rle_mult_inv_pos; [|lra]. clear. generalize (Rmean l). intros m. induction l as [|x l IH]; [cbn; lra|]. cbn [map]. rewrite Rsum_cons.
  pose proof (pow2_ge_0 (x - m)). lra.
Qed.

Lemma mean_scaled l k : Rmean (map (fun a => a / k) l) = Rmean l / k.
Proof.
  unfold Rmean. rewrite map_length. replace (Rsum (map (fun a => a / k) l)) with (/ k * Rsum l).
  - unfold Rdiv. ring.
  - rewrite <- Rsum_scal. f_equal. apply map_ext. intros a. unfold Rdiv. ring.
Qed.

Lemma all_from_list (P : nat -> xr -> R -> Prop) (f : R -> xr) : forall l u, length l = length u ->
  (forall i x a, nth_error l i = Some x -> nth_error u i = Some a -> x = f a) -> l = map f u.
Proof.
  induction l as [|x l IH]; intros [|a u] L X; try discriminate; [reflexivity|]. cbn. f_equal; [now apply (X 0%nat)|].
  apply IH; [now injection L|]. intros i y b Y B. exact (X (S i) y b Y B).
Qed.

Theorem C102_title_spread_partial : forall (e : env xr) (sys : co2sys_t xr) r kw t f all tm M c N,
  agrees sys -> Titration e sys r kw = Ok t -> plot_alkalinity t = Ok f ->
  sr_all (ti_sr t) = Some (map Fin all) -> sr_titrant_mass (ti_sr t) = map Fin tm -> Forall (fun m => 0 <= m) tm ->
  getattr t "analyte_mass" = Ok (VNum (Fin M)) -> 0 < M ->
  getattr t "titrant_molinity" = Ok (VNum (Fin c)) ->
  as_num (kwarg "titrant_normality" (VInt 1) (ti_row t)) = Ok (Fin 1) ->
  getattr t "alkalinity_npts" = Ok (VInt (Z.of_nat N)) -> (2 <= N)%nat ->
  exists a sd, getattr t "alkalinity_std" = Ok (VNum (Fin sd)) /\
    fig_title f = [a; Fin (sd * sqrt (INR N / (INR N - 1))); Fin (INR N)].
Proof.
  intros e sys r kw t f all tm M c N Ag E Ef Ea Etm Pm GM HM Gc Gn GN HN.
  pose proof (plot_columns _ _ _ _ _ E) as P. destruct (row_is _ _ _ _ _ E) as (R & ER). destruct (plot_flags _ _ _ _ _ E) as (FF & _).
  destruct (pt_plotted _ P "alkalinity_estimate") as (est & Ge & Le); [cbn; tauto|].
  (* lengths *)
  assert (La : length all = length tm).
  { destruct (titration_facts e sys r kw t E) as (R' & st & st1 & f' & c' & s & _ & _ & _ & _ & FS & _).
    apply files_inv in FS. destruct FS as (fn & dd & cv & t0 & ks & cc & t1 & n & _ & _ & _ & _ & _ & _ & _ & (Htm & _ & _ & _ & _ & Hall)).
    rewrite Ea in Hall. unfold alkalinity_all in Hall. destruct (alkalinity_arr _ _ _ _) as [sim|] eqn:Sim; cbn [bind] in Hall; [|discriminate].
    apply arr_length in Sim. rewrite (pt_lpH _ P) in Sim. injection Hall as Hall. apply (f_equal (@length xr)) in Hall. rewrite map_length in Hall. rewrite <- Hall.
    rewrite <- Htm. rewrite (map2_len _ (length tm)); [reflexivity| |]; rewrite ?Sim, Etm, map_length; reflexivity. }
  (* the estimates are the solver's *)
  assert (Est : est = map (fun a => Fin (a / 1000000)) all).
  { apply (all_from_list (fun _ _ _ => True)); [rewrite Le, Etm, map_length; auto|].
    intros i x a Nx Na.
    assert (Nm : exists m, nth_error tm i = Some m).
    { destruct (nth_error tm i) eqn:Z; [eauto|]. apply nth_error_None in Z. assert (i < length all)%nat by (apply nth_error_Some; congruence). lia. }
    destruct Nm as (m & Nm).
    assert (X := C63_normality_one_partial e sys r kw t (map Fin all) est M c i (Fin a) x m Ag E Ea Ge GM HM Gc Gn).
    assert (Hm : 0 <= m) by (rewrite Forall_forall in Pm; apply Pm; eapply nth_error_In; eassumption).
    rewrite Etm in X. specialize (X (map_nth_error Fin _ _ Nm) Hm (map_nth_error Fin _ _ Na) Nx).
    destruct x as [x| | |]; cbn in X.
    - injection X as X. f_equal. lra.
    - unfold inf_times in X. destruct (rltb _ _); [discriminate X|]. destruct (rltb _ _); discriminate X.
    - unfold inf_times in X. destruct (rltb _ _); [discriminate X|]. destruct (rltb _ _); discriminate X.
    - discriminate X. }
  set (u := sr_used (ti_sr t)) in *.
  assert (HNu : N = count_true u).
  { unfold getattr in GN. rewrite ER, row_npts in GN. cbn [of_opt] in GN. injection GN as GN. unfold u. lia. }
  assert (Lm : length (mask u all) = N) by (rewrite HNu; apply mask_count; rewrite La, FF, Etm, map_length; reflexivity).
  assert (HR : 2 <= INR N) by (apply le_INR in HN; exact HN).
  set (S := Rsum (map (fun x => (x - Rmean (mask u all)) ^ 2) (mask u all))).
  assert (S0 : 0 <= S).
  { unfold S. generalize (Rmean (mask u all)). intros m. clear. induction (mask u all) as [|x l IH]; [cbn; lra|]. cbn [map]. rewrite Rsum_cons. pose proof (pow2_ge_0 (x - m)). lra. }
  assert (Sd : nstd (mask u (map Fin all)) = Fin (sqrt (S / INR N))).
  { rewrite mask_map, nstd_fin by (intros Z; rewrite Z in Lm; cbn in Lm; lia). unfold Rvar. unfold Rmean at 1. rewrite map_length, Lm. reflexivity. }
  assert (Sp : nstd1 (mask u est) = Fin (sqrt (S / (INR N - 1)) / 1000000)).
  { rewrite Est, mask_map. rewrite <- (map_map (fun a => a / 1000000) Fin). rewrite nstd1_fin by (rewrite map_length; lia).
    rewrite map_length, Lm, mean_scaled, map_map. f_equal.
    replace (Rsum (map (fun x => (x / 1000000 - Rmean (mask u all) / 1000000) ^ 2) (mask u all))) with (/ 1000000000000 * S).
    2:{ unfold S. rewrite <- Rsum_scal, map_map. f_equal. apply map_ext. intros x. field. }
    apply Rsqr_inj; [apply sqrt_pos| |].
    - apply Rle_mult_inv_pos; [apply sqrt_pos|lra].
    - unfold Rdiv at 2. rewrite Rsqr_mult, !Rsqr_sqrt.
      + unfold Rsqr. field. lra.
      + apply Rle_mult_inv_pos; lra.
      + apply Rle_mult_inv_pos; [|lra]. apply Rmult_le_pos; lra. }
  unfold plot_alkalinity, col in Ef. rewrite (pt_mass _ P), Ge in Ef. cbn [of_opt bind col_used] in Ef. unfold getattr in *. rewrite ER in *. rewrite row_alk in Ef.
  cbn [of_opt bind as_num] in Ef. apply (f_equal (fun z => match z with Ok y => y | Err _ => f end)) in Ef. cbv beta iota in Ef. subst f.
  rewrite (row_std _ _ _ Ea). fold u. rewrite Sd, Sp. eexists _, _. split; [reflexivity|]. cbn [fig_title].
  rewrite fin_q, fin_mul, fin_Z. replace (Q2R 1000000) with 1000000 by (unfold Q2R; cbn; lra).
  f_equal. f_equal.
  - f_equal. rewrite <- sqrt_mult; [|apply Rle_mult_inv_pos; lra|apply Rle_mult_inv_pos; lra].
    replace (S / INR N * (INR N / (INR N - 1))) with (S / (INR N - 1)) by (field; lra). field.
  - change (length (filter (fun b => b) u)) with (count_true u). rewrite <- HNu, <- INR_IZR_INZ. reflexivity.
Qed.

(* ------------------------------------------------------------------ *)
(** * The small titration *)

Definition none1 : dict xr := [("dic", Fin 0); ("total_borate", Fin 0); ("total_fluoride", Fin 0); ("total_sulfate", Fin 0)].
Lemma zero_alk p : alkalinity (Fin p) none1 (slice_at ks1 0) 3 = Ok (Fin (/ pow10R (- p) - pow10R (- p))).
Proof.
  assert (Hh : 0 < pow10R (- p)) by apply pow10R_pos.
  unfold none1, alkalinity. cbn. generalize dependent (pow10R (- p)). intros h Hh.
  repeat (replace (Q2R (inject_Z 0)) with 0 in * by (unfold Q2R; cbn; lra)). repeat (replace (Q2R (inject_Z 1)) with 1 in * by (unfold Q2R; cbn; lra)).
  replace (Q2R 1) with 1 by (unfold Q2R; cbn; lra).
  repeat (match goal with |- context [reqb ?a 0] =>
    replace (reqb a 0) with false by (symmetry; apply reqb_false; apply Rgt_not_eq; unfold Rgt;
      repeat (first [assumption | lra | apply Rplus_lt_0_compat | apply Rdiv_lt_0_compat | apply Rmult_lt_0_compat]) ) end; cbn).
  f_equal. f_equal. replace (Q2R (inject_Z (-1))) with (-1) by (unfold Q2R; cbn; lra). field. nra.
Qed.

Lemma dec00 : (dec 0 0 : xr) = Fin 0. Proof. cbn; f_equal; unfold Q2R; cbn; lra. Qed.
Lemma dec10 : (dec 1 0 : xr) = Fin 1. Proof. cbn; f_equal; unfold Q2R; cbn; lra. Qed.
Lemma dec35 : (dec 35 (-1) : xr) = Fin 3.5. Proof. cbn; f_equal; unfold Q2R; cbn; lra. Qed.
Lemma dec36 : (dec 36 (-1) : xr) = Fin 3.6. Proof. cbn; f_equal; unfold Q2R; cbn; lra. Qed.

Definition s_at (p : R) : R := / pow10R (- p) - pow10R (- p).
Lemma tiny_sim : alkalinity_arr tiny_pH (totM (Fin 1)) ks1 3 = Ok [Fin (s_at 3.5); Fin (s_at 3.6)].
Proof.
  assert (Tot : forall i, (i < 2)%nat -> slice_at (totM (Fin 1)) i = none1).
  { intros i Li. unfold totM. rewrite dec00, dec10. unfold get_dilution_factor. xsimp. rewrite !fin_div by lra. xsimp.
    destruct i as [|[|i]]; [| |lia]; cbn; unfold none1; repeat f_equal; unfold Q2R; cbn; lra. }
  assert (Ks : forall i, slice_at ks1 i = slice_at ks1 0) by reflexivity.
  unfold alkalinity_arr. change (all_fit (length tiny_pH) (totM (Fin 1)) && all_fit (length tiny_pH) ks1)%bool with true. cbv iota.
  unfold tiny_pH. cbn [bind length seq combine mapM fst snd]. rewrite (Ks 1%nat), !Tot by lia. rewrite dec35, dec36, !zero_alk. reflexivity.
Qed.

Lemma s_inc : 0 < s_at 3.5 < s_at 3.6.
Proof.
  unfold s_at. assert (A : pow10R (- (3.6)) < pow10R (- (3.5))) by (apply pow10R_inc; lra).
  assert (B : pow10R (- (3.5)) < 1) by (rewrite <- pow10R_0; apply pow10R_inc; lra).
  pose proof (pow10R_pos (- (3.5))). pose proof (pow10R_pos (- (3.6))).
  generalize dependent (pow10R (- (3.5))). generalize dependent (pow10R (- (3.6))). intros h1 P1 h0 A B P0.
  assert (1 < / h0) by (rewrite <- Rinv_1 at 1; apply Rinv_lt_contravar; lra).
  assert (/ h0 < / h1) by (apply Rinv_lt_contravar; [apply Rmult_lt_0_compat; lra|lra]).
  split; lra.
Qed.

(* the titration that the figures are drawn of in what follows: titrant masses 0 and 1 kg, pH 3.5 and 3.6 *)
Lemma small_titration : exists t s a0 a1, Titration tiny_env tiny_sys (w_row by_mass 1 ++ w_totals) [] = Ok t /\ ti_sr t = SrPh s /\
  sp_titrant_mass s = map Fin [0; 1] /\ sp_alkalinity_all s = map Fin [a0; a1] /\ a0 < a1 /\ sp_used s = [true; true] /\
  getattr t "analyte_mass" = Ok (VNum (Fin 1)) /\ getattr t "titrant_molinity" = Ok (VNum (Fin 1)) /\
  getattr t "alkalinity_npts" = Ok (VInt 2) /\ as_num (kwarg "titrant_normality" (VInt 1) (ti_row t)) = Ok (Fin 1) /\ mode_is (ti_row t) "ph".
Proof.
  destruct (by_mass_titration 1) as (t & s & E & Es & Etm & Eall & U & _).
  set (r := w_row by_mass 1 ++ w_totals) in *.
  assert (O : without_old_names [] r) by (repeat split; reflexivity).
  assert (Att : forall k, ~ In k solved_columns -> getattr t k = of_opt (dget k r) (AttributeError k)) by (intros k N; exact (getattr_row _ _ _ _ k E O N)).
  unfold alkalinity_all, default_opt_pH_scale in Eall. rewrite tiny_sim in Eall. cbn [bind map2] in Eall. rewrite dec00, dec10 in Eall.
  unfold get_dilution_factor in Eall. revert Eall. xsimp. rewrite !fin_div by lra. xsimp. rewrite !fin_div by lra. intros Eall.
  apply (f_equal (fun z => match z with Ok y => y | Err _ => [] end)) in Eall. cbv beta iota in Eall.
  match type of Eall with [Fin ?x; Fin ?y] = _ => exists t, s, x, y end.
  split; [exact E|]. split; [exact Es|]. split; [rewrite Etm, dec00, dec10; reflexivity|]. split; [symmetry; exact Eall|].
  split; [pose proof s_inc; lra|]. split; [exact U|].
  split; [rewrite Att by (cbn; intuition discriminate); reflexivity|]. split; [rewrite Att by (cbn; intuition discriminate); reflexivity|].
  split; [destruct (row_is _ _ _ _ _ E) as (R & ER); unfold getattr; rewrite ER, row_npts, Es; cbn [sr_used]; rewrite U; reflexivity|].
  assert (G : forall k, ~ In k solved_columns -> dget k (ti_row t) = dget k r).
  { intros k N. pose proof (Att k N) as X. unfold getattr in X. destruct (dget k (ti_row t)), (dget k r); cbn in X; congruence. }
  split; [unfold kwarg; rewrite G by (cbn; intuition discriminate); reflexivity|].
  unfold mode_is. rewrite G by (cbn; intuition discriminate). reflexivity.
Qed.

Example C99_case : exists (e : env xr) sys r t f p a, Titration e sys r [] = Ok t /\ plot_alkalinity t = Ok f /\
  length p = 2%nat /\ fig_marks f = [Unused []; Used p; HLine a] /\ mode_is (ti_row t) "ph".
Proof.
  destruct small_titration as (t & s & a0 & a1 & E & Es & Etm & _ & _ & U & _ & _ & _ & _ & MD).
  destruct (C100_available_plots _ _ _ _ _ _ E MD) as (_ & _ & (f & Ef) & _).
  pose proof (plot_columns _ _ _ _ _ E) as P. destruct (row_is _ _ _ _ _ E) as (R & ER).
  destruct (pt_plotted _ P "alkalinity_estimate") as (est & Ge & Le); [cbn; tauto|]. pose proof (pt_mass _ P) as PM.
  rewrite Es in Le, PM. cbn [sr_titrant_mass] in Le, PM. rewrite Etm in Le, PM. destruct est as [|e0 [|e1 [|]]]; try discriminate Le.
  eexists tiny_env, tiny_sys, (w_row by_mass 1 ++ w_totals), t, f, _, _. split; [exact E|]. split; [exact Ef|].
  unfold plot_alkalinity, col in Ef. rewrite PM, Ge in Ef. cbn [of_opt bind col_used] in Ef. unfold getattr in Ef. rewrite ER, row_alk in Ef.
  cbn [of_opt bind as_num] in Ef. apply (f_equal (fun z => match z with Ok y => y | Err _ => f end)) in Ef. cbv beta iota in Ef. subst f.
  rewrite Es. cbn [sr_used]. rewrite U. cbn [fig_marks]. split; [|split; [reflexivity|exact MD]]. reflexivity.
Qed.

(* the ± of the title is not the alkalinity_std that the titration reports *)
Theorem C102_title_spread_refuted : exists (e : env xr) (sys : co2sys_t xr) r t f a pm n sd,
  agrees sys /\ Titration e sys r [] = Ok t /\ plot_alkalinity t = Ok f /\
  fig_title f = [a; Fin pm; n] /\ getattr t "alkalinity_std" = Ok (VNum (Fin sd)) /\ pm <> sd.
Proof.
  destruct small_titration as (t & s & a0 & a1 & E & Es & Etm & Ea & Lt & U & GM & Gc & GN & Gn & MD).
  destruct (C100_available_plots _ _ _ _ _ _ E MD) as (_ & _ & (f & Ef) & _).
  destruct (C102_title_spread_partial tiny_env tiny_sys (w_row by_mass 1 ++ w_totals) [] t f [a0; a1] [0; 1] 1 1 2) as (a & sd & Gs & Ti);
    try assumption; try lra; try lia.
  - apply tiny_agrees.
  - rewrite Es. cbn [sr_all]. now rewrite Ea.
  - rewrite Es. exact Etm.
  - repeat constructor; lra.
  - exists tiny_env, tiny_sys, (w_row by_mass 1 ++ w_totals), t, f, a, (sd * sqrt (INR 2 / (INR 2 - 1))), (Fin (INR 2)), sd.
    split; [apply tiny_agrees|]. split; [exact E|]. split; [exact Ef|]. split; [exact Ti|]. split; [exact Gs|].
    assert (S : sd <> 0).
    { destruct (row_is _ _ _ _ _ E) as (R & ER). unfold getattr in Gs. rewrite ER, (row_std _ _ (map Fin [a0; a1])) in Gs by (rewrite Es; cbn [sr_all]; now rewrite Ea).
      cbn [of_opt] in Gs. rewrite Es in Gs. cbn [sr_used] in Gs. rewrite U in Gs. change (mask [true; true] (map Fin [a0; a1])) with (map Fin [a0; a1]) in Gs.
      rewrite nstd_fin in Gs by discriminate. apply (f_equal (fun z => match z with Ok (VNum (Fin x)) => x | _ => 0 end)) in Gs. cbv beta iota in Gs.
      rewrite <- Gs. apply Rgt_not_eq, sqrt_lt_R0. unfold Rvar, Rmean. cbn. 
      match goal with |- 0 < ?x => replace x with ((a0 - a1) ^ 2 / 4) by field end.
      assert (0 < (a0 - a1) ^ 2) by (replace ((a0 - a1) ^ 2) with ((a1 - a0) * (a1 - a0)) by ring; apply Rmult_lt_0_compat; lra). lra. }
    replace (INR 2 / (INR 2 - 1)) with 2 by (cbn; field). intros X. assert (Y : sqrt 2 = 1) by (apply Rmult_eq_reg_l with sd; lra).
    pose proof (sqrt_sqrt 2 ltac:(lra)). rewrite Y in H. lra.
Qed.

(* ------------------------------------------------------------------ *)
(** * A Gran titration of the same data *)

Definition w_gran : row xr := map (fun kv => if String.eqb (fst kv) "solve_mode" then ("solve_mode", VStr "pH_gran") else kv) (w_row by_mass 1).
Definition K0g : kwargs xr := map (fun kv => if String.eqb (fst kv) "solve_mode" then ("solve_mode", VStr "pH_gran") else kv) (K0 by_mass 1).
Definition gran_ys : list R := [pow10R (- (3.5)); 2 * pow10R (- (3.6))].

Lemma gran_slope : slopeR [0; 1] gran_ys = 2 * pow10R (- (3.6)) - pow10R (- (3.5)) /\ slopeR [0; 1] gran_ys <> 0.
Proof.
  assert (E : slopeR [0; 1] gran_ys = 2 * pow10R (- (3.6)) - pow10R (- (3.5))).
  { unfold slopeR, Rcov, Rmean, gran_ys. cbn. field. }
  split; [exact E|]. rewrite E.
  replace (- (3.5)) with (- (3.6) + 0.1) by lra. rewrite pow10R_add. pose proof (pow10R_pos (- (3.6))) as P.
  assert (L : pow10R 0.1 < 2).
  { unfold pow10R. apply ln_lt_inv; [apply exp_pos|lra|]. rewrite ln_exp.
    assert (X : ln 10 < ln (2 ^ 10)) by (apply ln_increasing; lra). rewrite ln_pow in X by lra. cbn in X. lra. }
  intros Z. assert (pow10R (- (3.6)) * (2 - pow10R 0.1) = 0) by lra. apply Rmult_integral in H. lra.
Qed.

Lemma small_gran_titration : exists t s lr, Titration tiny_env tiny_sys (w_gran ++ w_totals) [] = Ok t /\ ti_sr t = SrPhGran s /\
  sg_used s = [true; true] /\ sg_titrant_mass s = map Fin [0; 1] /\ sg_gfunc s = map Fin gran_ys /\ sg_analyte_mass s = Fin 1 /\
  linregress (map Fin [0; 1]) (map Fin gran_ys) = Ok lr /\ sg_lr s = lr /\
  lr_slope lr = Fin (slopeR [0; 1] gran_ys) /\ lr_intercept lr = Fin (interceptR [0; 1] gran_ys) /\
  getattr t "titrant_molinity" = Ok (VNum (Fin 1)) /\ number (ti_row t) "titrant_normality" (Fin 1) (Fin 1) /\ mode_is (ti_row t) "ph_gran".
Proof.
  destruct (linregress_fin [0; 1] gran_ys) as (lr & L & Ls & Li).
  { exists 0, 1. cbn. repeat split; auto; lra. } { reflexivity. }
  assert (TK := totals_M (Fin 1) 35 35 35 (without_mode K0g)).
  assert (K : get_kwargs_for keys_totals_ks (without_mode K0g) None =
    [("opt_total_borate", VInt 1); ("total_sulfate", VNum (nofZ 35)); ("total_borate", VNum (nofZ 35)); ("total_fluoride", VNum (nofZ 35))]) by reflexivity.
  rewrite K in TK.
  assert (D : deq [("opt_total_borate", VInt 1); ("total_sulfate", VNum (nofZ 35)); ("total_borate", VNum (nofZ 35)); ("total_fluoride", VNum (nofZ 35))] (filled_totals 35 35 35))
    by (unfold filled_totals; rewrite <- !(fin_Z' 35); intros k; reflexivity).
  specialize (TK D). clear D.
  assert (FS : exists s, files_solve tiny_env (VStr "gen.dat") (VNum (Fin 1)) (VInt 35) K0g = Ok (SrPhGran s) /\
    sg_used s = [true; true] /\ sg_titrant_mass s = map Fin [0; 1] /\ sg_gfunc s = map Fin gran_ys /\ sg_analyte_mass s = Fin 1 /\ sg_lr s = lr /\
    sg_pH s = tiny_pH /\ sg_temperature s = [dec 25 0; dec 25 0] /\ sg_totals s = totM (Fin 1) /\ sg_k_constants s = ks1).
  { unfold files_solve, load, full_name. change (dget "file_path" (without_mode K0g)) with (@None (val xr)). cbn [bind].
    change (read_dat tiny_env "gen.dat" (get_kwargs_for keys_read_dat (without_mode K0g) None)) with (Ok (Dat tiny_dd)). cbn [bind].
    change (amount_units_dat (Dat tiny_dd) (VInt 35) (get_kwargs_for keys_cau (without_mode K0g) None)) with (Ok (cvM (Fin 1))). cbn [bind].
    rewrite K, TK. cbn [bind as_num]. change (get_kwargs_for keys_titrant_totals (without_mode K0g) None) with (@nil (string * val xr)).
    change (mode_of K0g) with (@VStr xr "pH_gran"). cbn [add_titrant_totals bind]. unfold dispatch_solve. cbn [as_str bind].
    change (lower "pH_gran") with "ph_gran". cbn [String.eqb Ascii.eqb Bool.eqb].
    change (get_kwargs_for keys_solve_pH_gran (without_mode K0g) None) with [("titrant_normality", VNum (Fin 1))].
    unfold call_solve_pH_gran. cbn [check_kwargs forallb bind kwarg dget as_num fst mem_str existsb String.eqb Ascii.eqb Bool.eqb orb andb keys_solve_pH_gran].
    unfold solve_pH_gran. cbn [cvM cv_titrant_mass cv_measurement cv_temperature cv_analyte_mass length Nat.eqb negb].
    assert (LT : nltb (nofZ 3 : xr) (nofZ 4) = true).
    { cbn. unfold rltb. destruct (Rlt_dec _ _) as [|N]; [reflexivity|]. exfalso; apply N. unfold Q2R; cbn. lra. }
    rewrite LT. cbn [assert_ bind].
    change (nofZ 3 : xr) with (Fin (Q2R 3)). change (nofZ 4 : xr) with (Fin (Q2R 4)). rewrite tiny_window by (unfold Q2R; cbn; lra).
    assert (GF : map2 (fun m p : xr => (m ⊕ Fin 1) ⊗ npow10 (nopp p))%num [dec 0 0; dec 1 0] [dec 35 (-1); dec 36 (-1)] = map Fin gran_ys).
    { cbn [map2]. rewrite dec00, dec10, dec35, dec36. rewrite !fin_add, !fin_opp, !fin_pow10, !fin_mul. unfold gran_ys. cbn [map].
      apply (f_equal2 (fun a b => [Fin a; Fin b])); ring. }
    rewrite GF. change (mask [true; true] (map Fin gran_ys)) with (map Fin gran_ys). change (mask [true; true] [dec 0 0; dec 1 0]) with [dec 0 0; dec 1 0 : xr].
    rewrite dec00, dec10. change [Fin 0; Fin 1] with (map Fin [0; 1]). rewrite L. cbn [bind].
    eexists. split; [reflexivity|]. repeat split. }
  destruct FS as (s & FS & U & Em & Eg & EM & El & E2 & E3 & E4 & E5).
  set (r := w_gran ++ w_totals).
  assert (X := files_solve_null tiny_env (VStr "gen.dat") (VNum (Fin 1)) (VInt 35) (pos_filter r) K0g).
  assert (Wr : wfd r) by (unfold wfd; repeat constructor; cbn; intuition discriminate).
  assert (WK : wfd K0g) by (unfold wfd; repeat constructor; cbn; intuition discriminate).
  assert (N : nrel_on keys_solve (pos_filter r) K0g) by (intros k I; left; each_key I; reflexivity).
  specialize (X (wfd_filter _ r Wr) WK N).
  assert (O : without_old_names [] r) by (repeat split; reflexivity).
  assert (SN : solve_named tiny_env r = Ok (SrPhGran s)).
  { unfold solve_named. change (dget "file_name" r) with (Some (@VStr xr "gen.dat")). change (dget "titrant_molinity" r) with (Some (VNum (Fin 1))). change (dget "salinity" r) with (Some (@VInt xr 35)).
    cbn [of_opt bind]. fold (pos_filter r). rewrite FS in X.
    destruct (files_solve tiny_env _ _ _ (pos_filter r)) as [y|]; cbn in X; [now rewrite X|destruct X]. }
  destruct (titration_exists tiny_env tiny_sys r [] [] (SrPhGran s) [Fin (s_at 3.5); Fin (s_at 3.6)]) as (t & E & Es).
  - apply tiny_answers.
  - now apply backcompat_id.
  - exact SN.
  - unfold shaped_result. cbn [sr_titrant_mass sr_pH sr_temperature sr_totals sr_k_constants]. rewrite Em, E2, E3, E4, E5.
    cbn [length map]. repeat split; try reflexivity; repeat constructor. rewrite Eg. reflexivity.
  - cbn [sr_pH sr_totals sr_k_constants]. rewrite E2, E4, E5. exact tiny_sim. 
  - exists (VNum (Fin 1)), (Fin 1). split; reflexivity.
  - exists (VInt 35), (nofZ 35). split; reflexivity.
  - assert (Att : forall k, ~ In k solved_columns -> getattr t k = of_opt (dget k r) (AttributeError k)) by (intros k N'; exact (getattr_row _ _ _ _ k E O N')).
    assert (G : forall k, ~ In k solved_columns -> dget k (ti_row t) = dget k r).
    { intros k N'. pose proof (Att k N') as Y. unfold getattr in Y. destruct (dget k (ti_row t)), (dget k r); cbn in Y; congruence. }
    exists t, s, lr. repeat (split; [assumption|]).
    split; [rewrite Att by (cbn; intuition discriminate); reflexivity|].
    split; [unfold number; rewrite G by (cbn; intuition discriminate); reflexivity|].
    unfold mode_is. rewrite G by (cbn; intuition discriminate). reflexivity.
Qed.

(* the Gran plot of this titration: the line meets the axis at the drawn end point *)
Example C101_case : exists (e : env xr) sys r t f open filled p1 zero, Titration e sys r [] = Ok t /\ plot_alkalinity_gran t = Ok f /\
  fig_marks f = [Unused open; Used filled; HLine (Fin 0); Line [(Fin (1000 * zero), Fin 0); p1]; VLine (Fin (1000 * zero))] /\ length filled = 2%nat.
Proof.
  destruct small_gran_titration as (t & s & lr & E & Es & U & Em & Eg & EM & L & El & Ls & Li & Gc & Gn & MD).
  destruct (C100_available_plots _ _ _ _ _ _ E MD) as (_ & _ & _ & _ & _ & _ & _ & _ & (f & Ef)).
  exists tiny_env, tiny_sys, (w_gran ++ w_totals), t, f.
  destruct gran_slope as (_ & Ns).
  pose proof (plot_columns _ _ _ _ _ E) as P. pose proof (pt_gran _ P) as PG. pose proof (pt_mass _ P) as PM.
  rewrite Es in PG, PM. cbn [sr_titrant_mass] in PM. rewrite Em in PM. destruct PG as (_ & G & _). rewrite Eg in G.
  pose proof Ef as Ef'. unfold plot_alkalinity_gran, col, col_gran_used in Ef'. rewrite PM, Es, G in Ef'. cbn [of_opt bind] in Ef'.
  destruct (getattr t "alkalinity") as [a|]; cbn [bind] in Ef'; [|discriminate]. destruct (as_num a) as [a'|]; cbn [bind] in Ef'; [|discriminate].
  destruct (nmax (map Fin [0; 1])) as [x1|]; cbn [bind] in Ef'; [|discriminate].
  apply (f_equal (fun z => match z with Ok y => y | Err _ => f end)) in Ef'. cbv beta iota in Ef'.
  rewrite El, U in Ef'. cbn [fst snd] in Ef'. rewrite Ls, Li in Ef'.
  exists [], (combine (map grams (map Fin [0; 1])) (map Fin gran_ys)), (grams x1, (x1 ⊗ Fin (slopeR [0; 1] gran_ys) ⊕ Fin (interceptR [0; 1] gran_ys))%num), (- interceptR [0; 1] gran_ys / slopeR [0; 1] gran_ys).
  split; [exact E|]. split; [exact Ef|]. split; [|reflexivity].
  rewrite <- Ef'. rewrite fin_opp, fin_div by assumption. unfold grams at 2 4. cbn [fig_marks].
  rewrite fin_q, !fin_mul, fin_Z, fin_add. replace (Q2R 1000) with 1000 by (unfold Q2R; cbn; lra).
  replace (- interceptR [0; 1] gran_ys / slopeR [0; 1] gran_ys * slopeR [0; 1] gran_ys + interceptR [0; 1] gran_ys) with 0 by (field; assumption).
  rewrite (Rmult_comm _ 1000). reflexivity.
Qed.
Print Assumptions C101_gran_line. Print Assumptions C102_title_spread_partial. Print Assumptions C102_title_spread_refuted.
