(* PropCurves.v -- C141: the two alkalinity curves in the table of a Titration *)
From Coq Require Import Reals Lra.
From Verif Require Import Classes DictLemmas SettingsProofs DatasetProofs RowProofs CalProofs PropSettings SpecDataset PropDataset PropHistory PropTitration TableProofs.
From Verif Require Import XR XRLemmas SpecTitration PropTable PropTitrationWitness Witness PropCases.
Open Scope string_scope.
Open Scope R_scope.
Open Scope list_scope.

(* the column that the estimates are computed from *)
Lemma from_pH_column {T} `{Num T} (sys : co2sys_t T) (r : row T) (st0 st' : ttable T) : do_CO2SYS sys r st0 = Ok st' ->
  forall tm M c, dget "titrant_mass" st0 = Some tm ->
  match dget "analyte_mass" r with Some v => as_num v = Ok M | None => False end ->
  match dget "titrant_molinity" r with Some v => as_num v = Ok c | None => False end ->
  exists afp df, dget "alkalinity_from_pH" st' = Some afp /\ dget "dilution_factor" st' = Some df /\
    dget "alkalinity_estimate" st' = Some (map3 (fun a m d => Classes.estimate M c a m d) afp tm df).
Proof.
  unfold do_CO2SYS, col, attr. intros E tm' M' c' Gt GM Gc. rewrite Gt in E. cbn [of_opt bind] in E.
  destruct (dget "analyte_mass" r) as [vM|]; cbn [of_opt bind] in E; [|discriminate].
  rewrite GM in E. cbn [bind] in E. cbv zeta in E.
  match type of E with bind ?x _ = _ => destruct x as [dic|]; cbn [bind] in E; [|discriminate E] end.
  match type of E with bind ?x _ = _ => destruct x as [pH|]; cbn [bind] in E; [|discriminate E] end.
  destruct (dget "salinity" r) as [vs|]; cbn [of_opt bind] in E; [|discriminate].
  destruct (as_num vs) as [s|]; cbn [bind] in E; [|discriminate].
  match type of E with bind ?x _ = _ => destruct x as [temps|]; cbn [bind] in E; [|discriminate E] end.
  match type of E with bind ?x _ = _ => destruct x as [results|]; cbn [bind] in E; [|discriminate E] end.
  match type of E with bind ?x _ = _ => destruct x as [st1|]; cbn [bind] in E; [|discriminate E] end.
  match type of E with bind ?x _ = _ => destruct x as [st2|]; cbn [bind] in E; [|discriminate E] end.
  match type of E with bind ?x _ = _ => destruct x as [st3|]; cbn [bind] in E; [|discriminate E] end.
  match type of E with bind ?x _ = _ => destruct x as [st5|]; cbn [bind] in E; [|discriminate E] end.
  match type of E with bind ?x _ = _ => destruct x as [st6|]; cbn [bind] in E; [|discriminate E] end.
  destruct (dget "alkalinity_from_pH" st6) as [afp|] eqn:S7; cbn [of_opt bind] in E; [|discriminate E].
  destruct (dget "titrant_molinity" r) as [vc|]; cbn [of_opt bind] in E; [|discriminate].
  rewrite Gc in E. cbn [bind] in E.
  destruct (dget "dilution_factor" st6) as [df|] eqn:S8; cbn [of_opt bind] in E; [|discriminate E].
  injection E as <-. exists afp, df. rewrite !dget_dset_other by discriminate. rewrite dget_dset_same. auto.
Qed.

Lemma nth_map3 {A B C D} (f : A -> B -> C -> D) : forall l1 l2 l3 i x, nth_error (map3 f l1 l2 l3) i = Some x ->
  exists a b c, nth_error l1 i = Some a /\ nth_error l2 i = Some b /\ nth_error l3 i = Some c /\ x = f a b c.
Proof.
  induction l1 as [|a l1 IH]; intros [|b l2] [|c l3] [|i] x E; cbn in E; try discriminate.
  - exists a, b, c. cbn. repeat split. now injection E.
  - cbn. now apply IH.
Qed.

(* The titration at hand: sample mass M, result a in micromol/kg, titrant molinity c, and at
   point i the titrant mass m, the alkalinity p found from the pH, the alkalinity q left after
   adding the acid, and the estimate z. *)
Definition at_point (t : titration xr) (i : nat) (M a c m p : R) (q z : xr) : Prop :=
  getattr t "analyte_mass" = Ok (VNum (Fin M)) /\ getattr t "alkalinity" = Ok (VNum (Fin a)) /\
  getattr t "titrant_molinity" = Ok (VNum (Fin c)) /\ nth_error (sr_titrant_mass (ti_sr t)) i = Some (Fin m) /\
  (exists l, dget "alkalinity_from_pH" (ti_table t) = Some l /\ nth_error l i = Some (Fin p)) /\
  (exists l, dget "alkalinity_from_acid" (ti_table t) = Some l /\ nth_error l i = Some q) /\
  (exists l, dget "alkalinity_estimate" (ti_table t) = Some l /\ nth_error l i = Some z).

Lemma columns_at (e : env xr) sys r kw t i M a c m p q z : Titration e sys r kw = Ok t ->
  at_point t i M a c m p q z -> 0 < M -> 0 <= m ->
  q = Fin ((a / 1000000 * M - m * c) / (M + m)) /\ z = Fin ((p + m * c / (m + M)) / (M / (m + M))).
Proof.
  intros E (GM & Ga & Gc & Gm & (lp & Gp & Np) & (lq & Gq & Nq) & (lz & Gz & Nz)) HM Hm.
  destruct (titration_facts e sys r kw t E) as (R0 & st & st1 & f & vc & vs & K & Gf & Gcc & Gs & FS & DF & AA & CO).
  destruct (mass_columns e sys r kw t _ _ E GM eq_refl) as (a' & c' & afp & Ea & Ec & La & C1 & C2 & C3).
  assert (Aa : dget "alkalinity" (ti_row t) = Some (VNum (Fin a))) by (unfold getattr in Ga; destruct (dget "alkalinity" (ti_row t)); cbn [of_opt] in Ga; congruence).
  assert (Ac : dget "titrant_molinity" (ti_row t) = Some (VNum (Fin c))) by (unfold getattr in Gc; destruct (dget "titrant_molinity" (ti_row t)); cbn [of_opt] in Gc; congruence).
  assert (AM : dget "analyte_mass" (ti_row t) = Some (VNum (Fin M))) by (unfold getattr in GM; destruct (dget "analyte_mass" (ti_row t)); cbn [of_opt] in GM; congruence).
  unfold cell in Ea, Ec. rewrite Aa in Ea. rewrite Ac in Ec. cbn [as_num] in Ea, Ec. injection Ea as <-. injection Ec as <-.
  split.
  - rewrite C1 in Gq. apply some_inj in Gq. subst lq. rewrite nth_error_map, Gm in Nq. cbn [option_map] in Nq.
    apply some_inj in Nq. rewrite <- Nq.
    rewrite fin_q. xsimp. rewrite fin_div by lra. apply (f_equal Fin). f_equal. q2r. field.
  - destruct (from_acid_inv _ _ _ AA) as (a0 & M0 & c0 & tm0 & _ & _ & _ & B4 & ->).
    assert (Et : tm0 = sr_titrant_mass (ti_sr t)).
    { pose proof (sr_named _ _ _ _ _ _ FS) as (Nt & Dm & Nk).
      pose proof (frame_get _ _ _ DF "titrant_mass") as X. destruct (table_get (ti_sr t) "titrant_mass" Nt Nk) as (_ & _ & Y & _). rewrite Y in X by reflexivity.
      destruct X as (l & Gl & Cl). rewrite B4 in Gl. injection Gl as <-. cbn [column] in Cl. rewrite Nat.eqb_refl in Cl. now injection Cl as <-. }
    subst tm0.
    destruct (from_pH_column sys _ _ _ CO (sr_titrant_mass (ti_sr t)) (Fin M) (Fin c)) as (l1 & df & X1 & X2 & X3).
    { now rewrite dget_dset_other by discriminate. } { now rewrite AM. } { now rewrite Ac. }
    rewrite X3 in Gz. apply some_inj in Gz. subst lz. rewrite X1 in Gp. apply some_inj in Gp. subst l1. rewrite C2 in X2. apply some_inj in X2. subst df.
    apply nth_map3 in Nz. destruct Nz as (x & y & w & Nx & Ny & Nw & ->). rewrite Np in Nx. rewrite Gm in Ny. rewrite nth_error_map, Gm in Nw. cbn [option_map] in Nw.
    apply some_inj in Nx, Ny, Nw. subst x y w.
    unfold Classes.estimate, get_dilution_factor.
    assert (0 < M / (m + M)) by (apply Rdiv_lt_0_compat; lra).
    assert (0 < M / (M + m)) by (apply Rdiv_lt_0_compat; lra).
    xsimp. rewrite !fin_div by lra. xsimp. rewrite fin_div by lra. apply (f_equal Fin). field. lra.
Qed.

(* ------------------------------------------------------------------ *)
(** * C141 *)

(* what the estimate at a point has too much, compared with the result, is what the alkalinity
   from the pH has too much, compared with the alkalinity from the acid, undiluted *)
Theorem C141_excess : forall (e : env xr) sys r kw t i M a c m p q z, Titration e sys r kw = Ok t ->
  at_point t i M a c m p q z -> 0 < M -> 0 <= m ->
  exists q' z', q = Fin q' /\ z = Fin z' /\ z' - a / 1000000 = (p - q') * ((M + m) / M).
Proof.
  intros e sys r kw t i M a c m p q z E P HM Hm. destruct (columns_at _ _ _ _ _ _ _ _ _ _ _ _ _ E P HM Hm) as [-> ->].
  eexists. eexists. split; [reflexivity|]. split; [reflexivity|]. field. lra.
Qed.

(* so the two curves meet exactly where the estimate is the result, and the curve from the pH
   is the upper one exactly where the estimate is too high *)
Theorem C141_curves_meet : forall (e : env xr) sys r kw t i M a c m p q z, Titration e sys r kw = Ok t ->
  at_point t i M a c m p q z -> 0 < M -> 0 <= m ->
  exists q' z', q = Fin q' /\ z = Fin z' /\ (p = q' <-> z' = a / 1000000) /\ (q' < p <-> a / 1000000 < z').
Proof.
  intros e sys r kw t i M a c m p q z E P HM Hm. destruct (C141_excess _ _ _ _ _ _ _ _ _ _ _ _ _ E P HM Hm) as (q' & z' & -> & -> & X).
  exists q', z'. split; [reflexivity|]. split; [reflexivity|].
  assert (F : 0 < (M + m) / M) by (apply Rdiv_lt_0_compat; lra).
  split; split; intros Y.
  - subst p. replace (q' - q') with 0 in X by ring. lra.
  - rewrite Y in X. assert (Z : (p - q') * ((M + m) / M) = 0) by lra. apply Rmult_integral in Z. destruct Z; lra.
  - assert (0 < (p - q') * ((M + m) / M)) by (apply Rmult_lt_0_compat; lra). lra.
  - destruct (Rlt_or_le q' p) as [L|L]; [exact L|exfalso].
    assert ((p - q') * ((M + m) / M) <= 0) by (rewrite <- (Rmult_0_l ((M + m) / M)); apply Rmult_le_compat_r; lra). lra.
Qed.

(* The curve from the acid is the alkalinity of the sample, diluted, less the acid added.
   Missing: the acid is counted as titrant mass times molinity, whatever titrant_normality
   says (C141_normality_left_out). *)
Theorem C141_acid_balance_partial : forall (e : env xr) sys r kw t i M a c m p q z, Titration e sys r kw = Ok t ->
  at_point t i M a c m p q z -> 0 < M -> 0 <= m ->
  exists q', q = Fin q' /\ q' * (M + m) = a / 1000000 * M - 1 * c * m.
Proof.
  intros e sys r kw t i M a c m p q z E P HM Hm. destruct (columns_at _ _ _ _ _ _ _ _ _ _ _ _ _ E P HM Hm) as [-> _].
  eexists. split; [reflexivity|]. field. lra.
Qed.

Theorem C141_normality_left_out : forall (e : env xr) sys r kw t i M a c m p q z nu, Titration e sys r kw = Ok t ->
  at_point t i M a c m p q z -> 0 < M -> 0 < m -> c <> 0 -> nu <> 1 ->
  exists q', q = Fin q' /\ q' * (M + m) <> a / 1000000 * M - nu * c * m.
Proof.
  intros e sys r kw t i M a c m p q z nu E P HM Hm Hc Hn.
  destruct (C141_acid_balance_partial _ _ _ _ _ _ _ _ _ _ _ _ _ E P HM) as (q' & -> & X); [lra|].
  exists q'. split; [reflexivity|]. rewrite X. intros Y.
  assert (Z : (nu - 1) * (c * m) = 0) by lra. apply Rmult_integral in Z. destruct Z as [Z|Z]; [lra|].
  apply Rmult_integral in Z. destruct Z; lra.
Qed.

(* the second point of the small titration, with a titrant of normality 2 *)
Lemma estimate_fin_inv (p : xr) (u d z : R) : 0 < d -> ((p ⊕ Fin u) ⊘ Fin d)%num = Fin z -> exists x, p = Fin x.
Proof.
  intros D E. destruct p as [x| | |]; [now exists x| | |]; exfalso; revert E; cbn; rewrite ?reqb_false, ?rltb_true, ?rltb_false by lra; discriminate.
Qed.

Example C141_nonvacuous : exists t a p q z,
  Titration tiny_env tiny_sys (w_row by_mass 2 ++ w_totals) [] = Ok t /\ at_point t 1 1 a 1 1 p q z.
Proof.
  destruct (by_mass_titration 2) as (t & s & E & Es & Etm & Eall & U & Al).
  set (r := w_row by_mass 2 ++ w_totals) in *.
  assert (O : without_old_names [] r) by (repeat split; reflexivity).
  assert (Att : forall k, ~ In k solved_columns -> getattr t k = of_opt (dget k r) (AttributeError k)) by (intros k N; exact (getattr_row _ _ _ _ k E O N)).
  assert (GM : getattr t "analyte_mass" = Ok (VNum (Fin 1))) by (rewrite Att by (cbn; intuition discriminate); reflexivity).
  assert (Gc : getattr t "titrant_molinity" = Ok (VNum (Fin 1))) by (rewrite Att by (cbn; intuition discriminate); reflexivity).
  assert (Gn : as_num (kwarg "titrant_normality" (VInt 1) (ti_row t)) = Ok (Fin 2)).
  { unfold kwarg. pose proof (Att "titrant_normality" ltac:(cbn; intuition discriminate)) as X. unfold getattr in X.
    destruct (dget "titrant_normality" (ti_row t)); cbn in X; [|discriminate]. injection X as ->. reflexivity. }
  assert (Z : (dec 0 0 : xr) = Fin 0) by (cbn; f_equal; unfold Q2R; cbn; lra).
  assert (O1 : (dec 1 0 : xr) = Fin 1) by (cbn; f_equal; unfold Q2R; cbn; lra).
  destruct tiny_sim_finite as (s0 & s1 & Sim).
  assert (F : exists x y, sp_alkalinity_all s = [Fin x; Fin y]).
  { unfold alkalinity_all, default_opt_pH_scale in Eall. rewrite Sim in Eall. cbn [bind map2] in Eall. rewrite Z, O1 in Eall.
    unfold get_dilution_factor in Eall. revert Eall. xsimp. rewrite !fin_div by lra. xsimp. rewrite !fin_div by lra. intros Eall.
    apply (f_equal (fun z => match z with Ok y => y | Err _ => [] end)) in Eall. cbv beta iota in Eall. rewrite <- Eall. eexists. eexists. reflexivity. }
  destruct F as (x & y & Fa).
  assert (Ga : getattr t "alkalinity" = Ok (VNum (Fin (Rmean [x; y])))).
  { destruct (titration_inv _ _ _ _ _ E) as (kw1 & st & st1 & B & _ & ER & _). unfold getattr. rewrite ER, Es.
    assert (Q : sp_alkalinity s = Fin (Rmean [x; y])) by (rewrite Al, U, Fa; cbn [mask]; apply (nmean_fin [x; y]); intros Q; discriminate Q).
    cbn [add_solve_results]. unfold set_inits. destruct (nth_error (sp_pH s) 0); [destruct (nth_error (sp_temperature s) 0)|];
      repeat (rewrite dget_dset_other by discriminate); rewrite dget_dset_same, Q; reflexivity. }
  assert (Gm : nth_error (sr_titrant_mass (ti_sr t)) 1 = Some (Fin 1)) by (rewrite Es; cbn [sr_titrant_mass]; rewrite Etm; cbn [nth_error]; now rewrite O1).
  destruct (mass_columns _ _ _ _ _ _ _ E GM eq_refl) as (a' & c' & afp' & _ & _ & La & C1 & C2 & C3).
  destruct (titration_facts _ _ _ _ _ E) as (R0 & st & st1 & f & vc & vs & K & Gf & Gcc & Gs & FS & DF & AA & CO).
  destruct (from_acid_inv _ _ _ AA) as (a0 & M0 & c0 & tm0 & _ & _ & _ & B4 & E1).
  assert (Et : tm0 = sr_titrant_mass (ti_sr t)).
  { pose proof (sr_named _ _ _ _ _ _ FS) as (Nt & Dm & Nk).
    pose proof (frame_get _ _ _ DF "titrant_mass") as X. destruct (table_get (ti_sr t) "titrant_mass" Nt Nk) as (_ & _ & Y & _). rewrite Y in X by reflexivity.
    destruct X as (l & Gl & Cl). rewrite B4 in Gl. injection Gl as <-. cbn [column] in Cl. rewrite Nat.eqb_refl in Cl. now injection Cl as <-. }
  subst tm0.
  assert (AM : dget "analyte_mass" (ti_row t) = Some (VNum (Fin 1))) by (unfold getattr in GM; destruct (dget "analyte_mass" (ti_row t)); cbn [of_opt] in GM; congruence).
  assert (Ac : dget "titrant_molinity" (ti_row t) = Some (VNum (Fin 1))) by (unfold getattr in Gc; destruct (dget "titrant_molinity" (ti_row t)); cbn [of_opt] in Gc; congruence).
  destruct (from_pH_column tiny_sys _ _ _ CO (sr_titrant_mass (ti_sr t)) (Fin 1) (Fin 1)) as (l1 & df & X1 & X2 & X3).
  { rewrite E1. now rewrite dget_dset_other by discriminate. } { now rewrite AM. } { now rewrite Ac. }
  rewrite C2 in X2. apply some_inj in X2. subst df.
  assert (Len : exists z, nth_error (map3 (fun a m d => Classes.estimate (Fin 1) (Fin 1) a m d) l1 (sr_titrant_mass (ti_sr t))
      (map (fun m => get_dilution_factor m (Fin 1)) (sr_titrant_mass (ti_sr t)))) 1 = Some z).
  { rewrite C3 in X3. apply some_inj in X3. rewrite <- X3.
    destruct (nth_error afp' 1) as [x'|] eqn:N1.
    - eexists. eapply DictLemmas.nth_error_map3; [exact N1|exact Gm|]. rewrite nth_error_map, Gm. reflexivity.
    - exfalso. apply nth_error_None in N1. rewrite La in N1. apply nth_error_None in N1. rewrite Gm in N1. discriminate N1. }
  destruct Len as (z & Nz).
  assert (Ez : exists zr, z = Fin zr).
  { pose proof (C63_estimate_vs_solver _ _ _ _ _ [Fin x; Fin y] _ 1 1 2 1 (Fin y) z 1 tiny_agrees E ltac:(rewrite Es; cbn [sr_all]; now rewrite Fa) X3 GM ltac:(lra) Gc Gn Gm ltac:(lra) eq_refl Nz) as Q.
    destruct z as [w| | |]; [now exists w| | |]; exfalso; revert Q; clear; cbn; unfold inf_times; rewrite ?reqb_false, ?rltb_true, ?rltb_false by lra; try (intros Q; discriminate Q); repeat (match goal with |- context [if ?b then _ else _] => destruct b end); intros Q; discriminate Q. }
  destruct Ez as (zr & ->).
  pose proof Nz as Nz'. apply nth_map3 in Nz'. destruct Nz' as (p & m & d & Np & Nm & Nd & Ep).
  rewrite Gm in Nm. rewrite nth_error_map, Gm in Nd. cbn [option_map] in Nd. apply some_inj in Nm, Nd. subst m d.
  assert (Fp : exists x, p = Fin x).
  { unfold Classes.estimate, get_dilution_factor in Ep. revert Ep. xsimp. rewrite !fin_div by lra. intros Ep. symmetry in Ep. apply estimate_fin_inv in Ep; [exact Ep|lra]. }
  destruct Fp as (pr & ->).
  exists t, (Rmean [x; y]), pr. eexists. exists (Fin zr). split; [exact E|].
  split; [exact GM|]. split; [exact Ga|]. split; [exact Gc|]. split; [exact Gm|]. split; [now exists l1|].
  split; [|now exists (map3 (fun a m d => Classes.estimate (Fin 1) (Fin 1) a m d) l1 (sr_titrant_mass (ti_sr t)) (map (fun m => get_dilution_factor m (Fin 1)) (sr_titrant_mass (ti_sr t))))].
  eexists. split; [exact C1|]. rewrite nth_error_map, Gm. reflexivity.
Qed.
