(* PropSimTitration.v -- C81, C82: simulated titrations *)
From Coq Require Import Reals Qreals Lra.
From Verif Require Import SimTitration PropConvert PropAlign PropEmf.
From Verif Require Export SpecSimTitration.
From Verif Require Import XR XRLemmas.
Open Scope list_scope.
Open Scope R_scope.

Definition params (M dic E air : R) (k : option R) (salinity temperature : nd xr) (start step stop c : R) : sim_params xr :=
  {| pm_analyte_mass := Fin M; pm_dic := Fin dic; pm_emf0 := Fin E; pm_fCO2_air := Fin air;
     pm_k_dic_loss := option_map Fin k; pm_salinity := salinity; pm_temperature := temperature;
     pm_titrant_mass_start := Fin start; pm_titrant_mass_step := Fin step; pm_titrant_mass_stop := Fin stop;
     pm_titrant_molinity := Fin c |}.

Lemma arange_ramp' start stop step : 0 < step ->
  exists n, arange (Fin start) (Fin stop) (Fin step) = Ok (map Fin (ramp start step n)) /\ (stop - start) / step <= INR n.
Proof.
  intros Hp. unfold arange. rewrite fin_sub, fin_div by lra. rewrite fin_isfinite.
  rewrite fin_add, fin_sub. eexists. split.
  - f_equal. unfold ramp. rewrite map_map. apply map_ext. intros i.
    rewrite fin_Z, fin_mul, fin_add. f_equal. rewrite <- INR_IZR_INZ. lra.
  - pose proof (nceil_spec ((stop - start) / step)) as [_ Q]. set (z := nceil _) in *.
    rewrite INR_IZR_INZ. assert (z <= Z.of_nat (Z.to_nat z))%Z by lia. apply IZR_le in H. lra.
Qed.

Lemma arange_ramp start stop step : 0 < step -> exists n, arange (Fin start) (Fin stop) (Fin step) = Ok (map Fin (ramp start step n)).
Proof. intros Hp. destruct (arange_ramp' start stop step Hp) as (n & E & _). eauto. Qed.

Lemma ramp_ok start step n M : 0 < M -> 0 <= start -> 0 < step -> masses_ok (ramp start step n) M.
Proof.
  intros HM Hs Hp. split; [exact HM|]. unfold ramp. apply Forall_forall. intros m I. apply in_map_iff in I.
  destruct I as (i & <- & _). pose proof (pos_INR i). nra.
Qed.

Lemma ramp_S start step n : ramp start step (S n) = start :: ramp (start + step) step n.
Proof.
  unfold ramp. cbn [seq map]. f_equal; [cbn [INR]; lra|]. rewrite <- seq_shift, map_map. apply map_ext.
  intros i. rewrite S_INR. lra.
Qed.

Lemma call_kwargs_ok (a b r : dict (nd xr)) : call_kwargs a b = Ok r -> r = (a ++ b)%list.
Proof. unfold call_kwargs. destruct existsb; congruence. Qed.

Lemma dset_In {A} k (v : A) d k' w : In (k', w) (dset k v d) -> (k', w) = (k, v) \/ In (k', w) d.
Proof.
  induction d as [|[c x] d IH]; cbn; [intuition|]. destruct (String.eqb_spec k c) as [->|N]; cbn; intuition.
Qed.

(* the loop over the salts *)
Lemma dilute_all_spec start df : forall names kw kw', dilute_all start df names kw = Ok kw' -> NoDup names ->
  (forall k, In k names -> exists v v', dget k start = Some v /\ nd_map2 nmul v (NdA df) = Ok v' /\ dget k kw' = Some v') /\
  (forall k, ~ In k names -> dget k kw' = dget k kw) /\
  (forall n, length df = n -> shaped n start -> shaped n kw -> shaped n kw').
Proof.
  induction names as [|k names IH]; intros kw kw' E N.
  - injection E as <-. repeat split; auto. intros k [].
  - cbn in E. apply bind_ok in E as (kw1 & E1 & E). inversion N as [|? ? Nk NN]; subst.
    unfold dilute_into in E1. apply bind_ok in E1 as (v & Ev & E1). apply bind_ok in E1 as (v' & Ev' & E1). injection E1 as <-.
    unfold dgetE in Ev. destruct (dget k start) eqn:Ek; [|discriminate]. injection Ev as ->.
    destruct (IH _ _ E NN) as (A & B & C). split; [|split].
    + intros k' [->|I]; [|auto]. exists v, v'. rewrite (B k' Nk), dget_dset_same. auto.
    + intros k' I. rewrite B by (intros I'; apply I; now right). apply dget_dset_other. intros ->. apply I. now left.
    + intros n Hn Hs Hk. apply C; auto. intros k' w I. apply dset_In in I as [[= -> ->]|I]; [|eapply Hk; exact I].
      assert (Sv : shaped n [(k, v)]).
      { intros k2 v2 [[= <- <-]|[]]. exact (Hs k v (dget_in _ _ _ Ek)). }
      apply shaped_fit in Sv. cbn in Sv. rewrite andb_true_r in Sv. rewrite <- Hn in Sv.
      destruct (nd_map2_at nmul v df Sv) as (l' & El & Hl & _). rewrite Ev' in El. injection El as ->. left. congruence.
Qed.

(* ------------------------------------------------------------------ *)
(** * What a run consists of *)

Lemma dget_named p k (d : dict (nd xr)) : startswith k p = true -> dget k (named p d) = dget k d.
Proof.
  intros S. unfold named. induction d as [|[c v] d IH]; [reflexivity|]. cbn [filter fst].
  destruct (startswith c p) eqn:E; cbn [dget].
  - destruct (String.eqb k c); [reflexivity|exact IH].
  - destruct (String.eqb_spec k c) as [->|N]; [congruence|exact IH].
Qed.

Lemma dget_app {A} k (a b : dict A) : dget k (a ++ b)%list = match dget k a with Some v => Some v | None => dget k b end.
Proof. induction a as [|[c v] a IH]; [reflexivity|]. cbn. destruct (String.eqb k c); [reflexivity|exact IH]. Qed.

Lemma options_kept (kw : dict (nd xr)) k v : dget k kw = Some v -> dget k (add_default_options kw) = Some v.
Proof.
  unfold add_default_options. generalize default_options. intros l. revert kw.
  induction l as [|[o z] l IH]; intros kw D; [exact D|]. cbn [fold_left fst snd]. apply IH.
  destruct (dmem o kw) eqn:M; [exact D|]. rewrite dget_dset_other; [exact D|]. intros ->. unfold dmem in M. rewrite D in M. discriminate.
Qed.

Lemma options_shaped n (kw : dict (nd xr)) : shaped n kw -> shaped n (add_default_options kw).
Proof.
  unfold add_default_options. generalize default_options. intros l. revert kw.
  induction l as [|[o z] l IH]; intros kw D; [exact D|]. cbn [fold_left fst snd]. apply IH.
  destruct (dmem o kw); [exact D|]. intros k v I. apply dset_In in I as [[= -> ->]|I]; [exact Logic.I|eapply D; exact I].
Qed.

(* the temperatures along the titration *)
Definition temps_of (tm : list xr) (t : nd xr) : nd xr := match t with NdS t => NdA (map (fun _ => t) tm) | NdA l => NdA l end.

Lemma sim_inv sys A M dic E air k sal temp m0 step stop c kw s :
  0 < M -> 0 <= m0 -> 0 < step ->
  sim_titration sys (Fin A) (params M dic E air k sal temp m0 step stop c) kw = Ok s ->
  exists n args0 r0 kwt dics args r pH,
    let tm := ramp m0 step n in
    let df := map Fin (map (fun m => M / (m + M)) tm) in
    let alks := map (fun m => 1000000 * (M * A * 0.000001 - m * c) / (M + m)) tm in
    sm_titrant_mass s = map Fin tm /\
    args0 = ([("salinity", sal); ("temperature", temps_of (map Fin tm) temp); ("opt_pH_scale", NdS (Fin 3))] ++ add_default_options kw)%list /\
    sys args0 = Ok r0 /\
    dilute_all r0 df diluted_totals args0 = Ok kwt /\
    (match option_map Fin k with
     | Some k => match map Fin tm with [] => Err IndexError | _ => sim_loss_steps sys kwt k (Fin M) (Fin step) (Fin air) 0 (Fin dic) (map Fin tm) (map Fin alks) end
     | None => Ok (map (fun d => Fin dic ⊗ d)%num df)
     end) = Ok dics /\
    args = ([("par1", NdA (map Fin alks)); ("par2", NdA dics); ("par1_type", NdS (Fin 1)); ("par2_type", NdS (Fin 2))] ++ kwt)%list /\
    sys args = Ok r /\ dget "pH_free" r = Some pH /\
    sm_temperature s = temps_of (map Fin tm) temp /\ sm_analyte_mass s = Fin M /\
    nd_map2 (fun p t => pH_to_emf p (Fin E) t) pH (temps_of (map Fin tm) temp) = Ok (sm_emf s) /\
    sm_totals s = contents r /\ sm_k_constants s = constants r.
Proof.
  intros HM Hs Hp R. unfold sim_titration, params in R. cbn [pm_analyte_mass pm_dic pm_emf0 pm_fCO2_air pm_k_dic_loss pm_salinity pm_temperature
    pm_titrant_mass_start pm_titrant_mass_step pm_titrant_mass_stop pm_titrant_molinity] in R.
  destruct (arange_ramp m0 stop step Hp) as [n En]. rewrite En in R. cbn [bind] in R.
  pose proof (ramp_ok m0 step n M HM Hs Hp) as [_ Htm]. set (tm := ramp m0 step n) in *.
  assert (Edf : map (fun m => get_dilution_factor m (Fin M)) (map Fin tm) = map Fin (map (fun m => M / (m + M)) tm)).
  { rewrite !map_map. apply map_ext_in. intros m I. rewrite Forall_forall in Htm. apply Htm in I. apply df_fin. lra. }
  assert (Ealk : alkalinity_titration (Fin A) (Fin M) (Fin c) (map Fin tm)
                 = map Fin (map (fun m => 1000000 * (M * A * 0.000001 - m * c) / (M + m)) tm)).
  { unfold alkalinity_titration. rewrite !map_map. apply map_ext_in. intros m I. rewrite Forall_forall in Htm. apply Htm in I.
    xsimp. rewrite fin_div by lra. apply (f_equal Fin). unfold Rdiv. q2r. field. lra. }
  rewrite Edf, Ealk in R. set (df := map Fin (map (fun m => M / (m + M)) tm)) in *.
  set (alks := map (fun m => 1000000 * (M * A * 0.000001 - m * c) / (M + m)) tm) in *.
  apply bind_ok in R as (args0 & E0 & R). apply call_kwargs_ok in E0.
  apply bind_ok in R as (r0 & Er0 & R). apply bind_ok in R as (kwt & Ek & R).
  apply bind_ok in R as (dics & Ed & R). apply bind_ok in R as (args & Ea & R). apply call_kwargs_ok in Ea.
  apply bind_ok in R as (r & Er & R). apply bind_ok in R as (pH & EpH & R). apply bind_ok in R as (emf & Ee & R).
  apply bind_ok in R as (dicv & Edic & R). injection R as <-. cbn [sm_titrant_mass sm_emf sm_temperature sm_analyte_mass sm_totals sm_k_constants].
  unfold dgetE in EpH, Edic. destruct (dget "pH_free" r) as [pH'|] eqn:EpH'; [|discriminate]. injection EpH as ->.
  destruct (dget "dic" r) as [dv|] eqn:Edv; [|discriminate]. injection Edic as ->.
  exists n, args0, r0, kwt, dics, args, r, pH. cbv zeta.
  split; [reflexivity|]. split; [|split; [exact Er0|]].
  { rewrite E0. unfold temps_of. rewrite fin_Z. reflexivity. }
  split; [exact Ek|]. split; [destruct k; exact Ed|]. split; [|split; [exact Er|]].
  { rewrite Ea. rewrite !fin_Z. reflexivity. }
  split; [exact EpH'|]. split; [reflexivity|]. split; [reflexivity|]. split; [exact Ee|]. split; [|reflexivity].
  unfold contents. rewrite Edv. reflexivity.
Qed.

Lemma shaped_app n (a b : dict (nd xr)) : shaped n a -> shaped n b -> shaped n (a ++ b)%list.
Proof. intros A B k v I. apply in_app_iff in I as [I|I]; [exact (A k v I)|exact (B k v I)]. Qed.

Lemma diluted_is_salts : diluted_totals = salts. Proof. reflexivity. Qed.
Lemma salts_nodup : NoDup salts. Proof. unfold salts. repeat constructor; cbn; intuition discriminate. Qed.

Lemma temps_shaped tm t n : length tm = n -> shaped n [("temperature", t)] -> shaped n [("temperature", temps_of (map Fin tm) t)].
Proof.
  intros L S k v [[= <- <-]|[]]. destruct t as [x|l]; cbn; [left; now rewrite !map_length|].
  exact (S "temperature" _ (or_introl eq_refl)).
Qed.

Lemma loss_length sys kw k M step air : forall ms alks i x l, length alks = length ms ->
  sim_loss_steps (T := xr) sys kw k M step air i x ms alks = Ok l -> ms <> [] -> length l = length ms.
Proof.
  induction ms as [|m ms IH]; intros [|a alks] i x l L E N; try discriminate; [contradiction|].
  destruct ms as [|m2 ms]; [injection E as <-; reflexivity|]. cbn [sim_loss_steps] in E.
  do 5 (apply bind_ok in E as (? & ? & E)). apply bind_ok in E as (rest & Er & E). injection E as <-. cbn [length].
  f_equal. eapply IH; [|exact Er|discriminate]. cbn in L |- *. lia.
Qed.

(* facts about the arguments of the two calls of PyCO2SYS *)
Lemma sim_shapes sys A M dic air k sal temp m0 step c kw n args0 r0 kwt dics args r :
  keeps_inputs sys ->
  let tm := ramp m0 step n in
  let df := map Fin (map (fun m => M / (m + M)) tm) in
  let alks := map (fun m => 1000000 * (M * A * 0.000001 - m * c) / (M + m)) tm in
  args0 = ([("salinity", sal); ("temperature", temps_of (map Fin tm) temp); ("opt_pH_scale", NdS (Fin 3))] ++ add_default_options kw)%list ->
  sys args0 = Ok r0 -> dilute_all r0 df diluted_totals args0 = Ok kwt ->
  (match option_map Fin k with
   | Some k => match map Fin tm with [] => Err IndexError | _ => sim_loss_steps sys kwt k (Fin M) (Fin step) (Fin air) 0 (Fin dic) (map Fin tm) (map Fin alks) end
   | None => Ok (map (fun d => Fin dic ⊗ d)%num df)
   end) = Ok dics ->
  args = ([("par1", NdA (map Fin alks)); ("par2", NdA dics); ("par1_type", NdS (Fin 1)); ("par2_type", NdS (Fin 2))] ++ kwt)%list ->
  sys args = Ok r ->
  shaped n [("salinity", sal)] -> shaped n [("temperature", temp)] -> shaped n kw ->
  length dics = n /\ shaped n args0 /\ shaped n r0 /\ shaped n args /\ shaped n r.
Proof.
  intros K tm df alks E0 R0 Ek Ed Ea Er Ss St Sk.
  assert (Ltm : length tm = n) by (unfold tm, ramp; rewrite map_length; apply seq_length).
  assert (S0 : shaped n args0).
  { rewrite E0. apply shaped_app; [|now apply options_shaped].
    intros k' v [I|[I|[I|[]]]].
    - exact (Ss k' v (or_introl I)).
    - exact (temps_shaped tm temp n Ltm St k' v (or_introl I)).
    - injection I as <- <-. exact Logic.I. }
  assert (Sr0 : shaped n r0) by exact (ki_shape _ K _ _ _ R0 S0).
  assert (Ld : length df = n) by (unfold df; rewrite !map_length; exact Ltm).
  rewrite diluted_is_salts in Ek. destruct (dilute_all_spec _ _ _ _ _ Ek salts_nodup) as (_ & _ & Skt).
  specialize (Skt n Ld Sr0 S0).
  assert (Ldic : length dics = n).
  { destruct k as [k|]; cbn [option_map] in Ed.
    - destruct (map Fin tm) eqn:Etm; [discriminate|]. rewrite <- Etm in Ed. apply loss_length in Ed.
      + rewrite Ed, map_length. exact Ltm.
      + unfold alks. now rewrite !map_length.
      + now rewrite Etm.
    - injection Ed as <-. now rewrite map_length. }
  assert (Sa : shaped n args).
  { rewrite Ea. apply shaped_app; [|exact Skt].
    intros k' v [I|[I|[I|[I|[]]]]]; injection I as <- <-; try exact Logic.I; left; [|exact Ldic].
    unfold alks. now rewrite !map_length. }
  repeat split; trivial. exact (ki_shape _ K _ _ _ Er Sa).
Qed.

Lemma molar_at n v i x : shaped n [("k", v)] -> (i < n)%nat -> nd_at v i = Fin x -> nd_at (molar v) i = Fin (x * 0.000001).
Proof.
  intros S I E. apply shaped_fit in S. cbn in S. rewrite andb_true_r in S. unfold molar.
  rewrite (nd_at_map _ n v i S I), E, fin_mul. reflexivity.
Qed.

Lemma shaped_get n (d : dict (nd xr)) k v : shaped n d -> dget k d = Some v -> shaped n [("k", v)].
Proof. intros S D k' v' [[= <- <-]|[]]. apply dget_in in D. exact (S k v D). Qed.

Lemma nth_lt {A} (l : list A) i x : nth_error l i = Some x -> (i < length l)%nat.
Proof. intros E. apply nth_error_Some. congruence. Qed.

Lemma salt_in_contents k r v : In k salts -> dget k r = Some v -> dget k (contents r) = Some (molar v).
Proof.
  intros I D. unfold contents. rewrite dget_dset_other.
  2:{ intros ->. unfold salts in I. cbn in I. intuition discriminate. }
  rewrite dget_dmap. fold (named "total_" r). rewrite dget_named, D; [reflexivity|].
  unfold salts in I. cbn in I. intuition (subst k; reflexivity).
Qed.

Lemma salt_not_arg k : In k salts -> ~ In k ["par1"; "par2"; "par1_type"; "par2_type"; "opt_pH_scale"; "salinity"; "temperature"].
Proof. unfold salts. cbn. intuition (subst; discriminate). Qed.

(* ------------------------------------------------------------------ *)
(** * C81: contents of the mixture *)

Theorem C81_mixture : forall sys A M dic E air k sal temp m0 step stop c kw s,
  keeps_inputs sys -> 0 < M -> 0 <= m0 -> 0 < step ->
  sim_titration sys (Fin A) (params M dic E air k sal temp m0 step stop c) kw = Ok s ->
  exists n args start,
    sm_titrant_mass s = map Fin (ramp m0 step n) /\ sm_analyte_mass s = Fin M /\
    (* the composition of the analyte *)
    sys args = Ok start /\ dget "salinity" args = Some sal /\
    (forall o v, dget o kw = Some v -> ~ In o ["salinity"; "temperature"; "opt_pH_scale"] -> dget o args = Some v) /\
    (shaped n [("salinity", sal)] -> shaped n [("temperature", temp)] -> shaped n kw ->
     (forall i m salt x, nth_error (ramp m0 step n) i = Some m -> In salt salts -> holds start salt i x ->
        holds (sm_totals s) salt i (x * (M / (M + m)) * 0.000001)) /\
     (k = None -> forall i m, nth_error (ramp m0 step n) i = Some m ->
        holds (sm_totals s) "dic" i (dic * (M / (M + m)) * 0.000001))).
Proof.
  intros sys A M dic E air k sal temp m0 step stop c kw s K HM Hs Hp R.
  destruct (sim_inv _ _ _ _ _ _ _ _ _ _ _ _ _ _ _ HM Hs Hp R)
    as (n & args0 & r0 & kwt & dics & args & r & pH & H). cbv zeta in H.
  destruct H as (Etm & E0 & R0 & Ek & Ed & Ea & Er & EpH & Et & EM & Ee & Etot & Eks).
  exists n, args0, r0. split; [exact Etm|]. split; [exact EM|]. split; [exact R0|]. split; [rewrite E0; reflexivity|]. split.
  { intros o v D N. rewrite E0, dget_app. cbn [dget].
    destruct (String.eqb_spec o "salinity") as [->|_]; [exfalso; apply N; cbn; tauto|].
    destruct (String.eqb_spec o "temperature") as [->|_]; [exfalso; apply N; cbn; tauto|].
    destruct (String.eqb_spec o "opt_pH_scale") as [->|_]; [exfalso; apply N; cbn; tauto|].
    now apply options_kept. }
  intros Ss St Sk. pose proof (ramp_ok m0 step n M HM Hs Hp) as [_ Htm].
  destruct (sim_shapes sys A M dic air k sal temp m0 step c kw n args0 r0 kwt dics args r K E0 R0 Ek Ed Ea Er Ss St Sk)
    as (Ldic & S0 & Sr0 & Sa & Sr).
  assert (Ltm : length (ramp m0 step n) = n) by (unfold ramp; rewrite map_length; apply seq_length).
  split.
  - intros i m salt x Hi Is (v & Dv & Xv). rewrite Etot.
    rewrite diluted_is_salts in Ek. destruct (dilute_all_spec _ _ _ _ _ Ek salts_nodup) as (Ein & _ & _).
    destruct (Ein salt Is) as (v0 & v' & Dv0 & Ev' & Dv'). assert (v0 = v) by congruence. subst v0.
    assert (Sv : nd_fits (length (map Fin (map (fun m => M / (m + M)) (ramp m0 step n)))) v = true).
    { rewrite !map_length, Ltm. pose proof (shaped_get _ _ _ _ Sr0 Dv) as S1. apply shaped_fit in S1. cbn in S1. now rewrite andb_true_r in S1. }
    destruct (nd_map2_at nmul v _ Sv) as (l' & El & Ll & Hl). rewrite Ev' in El. injection El as ->.
    assert (Hdf : nth_error (map Fin (map (fun m => M / (m + M)) (ramp m0 step n))) i = Some (Fin (M / (m + M)))).
    { rewrite !nth_error_map, Hi. reflexivity. }
    specialize (Hl i _ Hdf). rewrite Xv, fin_mul in Hl.
    assert (Da : dget salt args = Some (NdA l')).
    { rewrite Ea, dget_app. apply salt_not_arg in Is. cbn [dget].
      destruct (String.eqb_spec salt "par1") as [->|_]; [exfalso; apply Is; cbn; tauto|].
      destruct (String.eqb_spec salt "par2") as [->|_]; [exfalso; apply Is; cbn; tauto|].
      destruct (String.eqb_spec salt "par1_type") as [->|_]; [exfalso; apply Is; cbn; tauto|].
      destruct (String.eqb_spec salt "par2_type") as [->|_]; [exfalso; apply Is; cbn; tauto|]. exact Dv'. }
    pose proof (ki_salts _ K _ _ _ _ Er Is Da) as Dr.
    exists (molar (NdA l')). split; [now apply salt_in_contents|].
    rewrite (molar_at n _ i (x * (M / (m + M)))).
    + do 2 f_equal. now rewrite (Rplus_comm M m).
    + exact (shaped_get _ _ _ _ Sr Dr).
    + rewrite <- Ltm. now apply nth_lt in Hi.
    + now apply nd_at_nth.
  - intros -> i m Hi. cbn [option_map] in Ed. injection Ed as <-. rewrite Etot.
    assert (Dd : dget "dic" r = Some (NdA (map (fun d => Fin dic ⊗ d)%num (map Fin (map (fun m => M / (m + M)) (ramp m0 step n)))))).
    { apply (ki_dic _ K _ _ _ Er); rewrite Ea; reflexivity. }
    eexists. unfold contents at 1. rewrite dget_dset_same, Dd. split; [reflexivity|].
    rewrite (molar_at n _ i (dic * (M / (m + M)))).
    + do 2 f_equal. now rewrite (Rplus_comm M m).
    + exact (shaped_get _ _ _ _ Sr Dd).
    + rewrite <- Ltm. now apply nth_lt in Hi.
    + apply nd_at_nth. rewrite !nth_error_map, Hi. cbn. reflexivity.
Qed.

(* ------------------------------------------------------------------ *)
(** * C81: solving a simulated titration with the true values leaves no residual *)

Theorem C81_truth_zeroes_residual : forall sys A M dic E air k sal temp m0 step stop c kw s temps,
  keeps_inputs sys -> balances sys -> 0 < M -> 0 <= m0 -> 0 < step ->
  sim_titration sys (Fin A) (params M dic E air k sal temp m0 step stop c) kw = Ok s ->
  let n := length (sm_titrant_mass s) in
  n <> 0%nat -> sm_temperature s = NdA (map Fin temps) -> length temps = n -> Forall (fun t => -273.15 < t) temps ->
  shaped n [("salinity", sal)] -> shaped n [("temperature", temp)] -> shaped n kw ->
  exists emf, sm_emf s = NdA emf /\
    lsqfun_solve_emf (Fin c) (sm_titrant_mass s) emf (map Fin temps) (sm_analyte_mass s) (sm_totals s) (sm_k_constants s)
      (Fin 1) [Fin (A * 0.000001); Fin E] = Ok (map (fun _ => Fin 0) (sm_titrant_mass s)).
Proof.
  intros sys A M dic E air k sal temp m0 step stop c kw s temps K B HM Hs Hp R n Nn Tt Lt Ft Ss St Sk. subst n.
  destruct (sim_inv _ _ _ _ _ _ _ _ _ _ _ _ _ _ _ HM Hs Hp R)
    as (n & args0 & r0 & kwt & dics & args & r & pH & H). cbv zeta in H.
  destruct H as (Etm & E0 & R0 & Ek & Ed & Ea & Er & EpH & Et & EM & Ee & Etot & Eks).
  assert (Ltm : length (ramp m0 step n) = n) by (unfold ramp; rewrite map_length; apply seq_length).
  rewrite Etm, map_length, Ltm in *.
  destruct (sim_shapes sys A M dic air k sal temp m0 step c kw n args0 r0 kwt dics args r K E0 R0 Ek Ed Ea Er Ss St Sk)
    as (Ldic & S0 & Sr0 & Sa & Sr).
  rewrite diluted_is_salts in Ek. destruct (dilute_all_spec _ _ _ _ _ Ek salts_nodup) as (_ & Eout & _).
  set (alks := map (fun m => 1000000 * (M * A * 0.000001 - m * c) / (M + m)) (ramp m0 step n)) in *.
  assert (Lalk : length alks = n) by (unfold alks; now rewrite map_length).
  destruct (B n args r alks Er Sa Lalk) as (p & Ep & Lp & Hbal); try (rewrite Ea; reflexivity).
  { rewrite Ea, dget_app. cbn [dget String.eqb]. change (dget "opt_pH_scale" kwt = Some (NdS (Fin 3))).
    rewrite Eout by (unfold salts; cbn; intuition discriminate). rewrite E0. reflexivity. }
  rewrite Ep in EpH. injection EpH as <-. rewrite Tt in Et. rewrite <- Et in Ee. cbn [nd_map2] in Ee.
  rewrite !map_length, Lp, Lt, Nat.eqb_refl in Ee. injection Ee as Ee.
  exists (map2 (fun x t => pH_to_emf (Fin x) (Fin E) (Fin t)) p temps). split.
  { rewrite <- Ee. f_equal. clear. revert temps. induction p as [|x p IH]; intros [|t temps]; cbn; try reflexivity.
    f_equal. apply IH. }
  rewrite EM, Etot, Eks.
  rewrite map_map.
  refine (C35_truth_zeroes_residual c (ramp m0 step n) temps p M (contents r) (constants r) 1 (A * 0.000001) E _ Ft _ _ _ _ _ _).
  - now apply ramp_ok.
  - intros Z. rewrite Z in Ltm. cbn in Ltm. congruence.
  - congruence.
  - congruence.
  - rewrite Ltm. unfold contents. intros k' v I. apply dset_In in I as [[= -> ->]|I].
    + destruct (dget "dic" r) as [v|] eqn:D; [|exact Logic.I]. apply dget_in in D. apply Sr in D.
      destruct v; cbn; [exact Logic.I|]. now rewrite map_length.
    + unfold dmap in I. apply in_map_iff in I as ([k2 v2] & [= <- <-] & I). apply filter_In in I as [I _]. apply Sr in I.
      destruct v2; cbn; [exact Logic.I|]. now rewrite map_length.
  - rewrite Ltm. intros k' v I. unfold constants in I. apply filter_In in I as [I _]. exact (Sr _ _ I).
  - intros i m x Hm Hx. rewrite (Hbal i x (1000000 * (M * A * 0.000001 - m * c) / (M + m)) Hx).
    + do 2 f_equal. pose proof (ramp_ok m0 step n M HM Hs Hp) as [_ Htm].
      assert (0 <= m) by (eapply Forall_nth_error in Htm; [exact Htm|exact Hm]). q2r. field. lra.
    + unfold alks. rewrite nth_error_map, Hm. reflexivity.
Qed.

(* ------------------------------------------------------------------ *)
(** * C81: a titration without gas exchange loses no DIC *)

Lemma ramp_length m0 step n : length (ramp m0 step n) = n.
Proof. unfold ramp. rewrite map_length. apply seq_length. Qed.

Lemma loss_cons (sys : co2sys_t xr) kw k M step air i x m m2 ms a alks :
  sim_loss_steps sys kw k M step air i x (m :: m2 :: ms) (a :: alks) =
  (kw_i <- kwargs_at i kw ;;
   args <- call_kwargs [("par1", NdS a); ("par2", NdS x); ("par1_type", NdS (nofZ 1)); ("par2_type", NdS (nofZ 2))] kw_i ;;
   r <- sys args ;;
   f <- dgetE "fCO2" r ;;
   fCO2 <- as_element f ;;
   rest <- sim_loss_steps sys kw k M step air (S i)
             (x ⊗ get_dilution_factor step (M ⊕ m) ⊖ k ⊗ (fCO2 ⊖ air) ⊗ step)%num (m2 :: ms) alks ;;
   Ok (x :: rest)).
Proof. reflexivity. Qed.

Lemma no_loss_steps sys kw M step air : finite_fCO2 sys -> 0 < M -> 0 < step ->
  forall n m i x alks l, 0 <= m -> length alks = S n ->
  sim_loss_steps sys kw (Fin 0) (Fin M) (Fin step) (Fin air) i (Fin x) (map Fin (ramp m step (S n))) alks = Ok l ->
  l = map Fin (map (fun m' => x * (M + m) / (M + m')) (ramp m step (S n))).
Proof.
  intros F HM Hp. induction n as [|n IH]; intros m i x [|a alks] l Hm La E; try discriminate.
  - unfold ramp in *. cbn in E |- *. injection E as <-. do 2 f_equal. field. lra.
  - rewrite ramp_S in E |- *. rewrite ramp_S in E |- *. cbn [map] in E. rewrite loss_cons in E.
    apply bind_ok in E as (? & _ & E). apply bind_ok in E as (? & _ & E). apply bind_ok in E as (r & Er & E).
    destruct (F _ _ Er) as [f Ef]. unfold dgetE in E. rewrite Ef in E. cbn [of_opt bind as_element] in E.
    apply bind_ok in E as (rest & Erest & E). injection E as <-.
    rewrite fin_add, df_fin in Erest by lra. rewrite !fin_mul, fin_sub, !fin_mul, fin_sub in Erest.
    change (Fin (m + step) :: map Fin (ramp (m + step + step) step n)) with (map Fin ((m + step) :: ramp (m + step + step) step n)) in Erest.
    match type of Erest with context [map Fin ?z] => replace z with (ramp (m + step) step (S n)) in Erest by apply ramp_S end.
    apply IH in Erest; [|lra|cbn in La; lia].
    rewrite <- (ramp_S (m + step) step n). cbn [map]. f_equal; [f_equal; field; lra|].
    rewrite Erest. apply f_equal. apply map_ext_in. intros m' I.
    assert (0 <= m') by (destruct (ramp_ok (m + step) step (S n) M HM ltac:(lra) Hp) as [_ Q]; rewrite Forall_forall in Q; now apply Q).
    field. lra.
Qed.

Theorem C81_zero_loss_partial : forall sys A M dic E air sal temp step stop c kw s,
  finite_fCO2 sys -> 0 < M -> 0 < step ->
  sim_titration sys (Fin A) (params M dic E air (Some 0) sal temp 0 step stop c) kw = Ok s ->
  sim_titration sys (Fin A) (params M dic E air None sal temp 0 step stop c) kw = Ok s.
Proof.
  intros sys A M dic E air sal temp step stop c kw s F HM Hp R.
  rewrite <- R. unfold sim_titration, params in *. cbn [pm_analyte_mass pm_dic pm_emf0 pm_fCO2_air pm_k_dic_loss pm_salinity pm_temperature
    pm_titrant_mass_start pm_titrant_mass_step pm_titrant_mass_stop pm_titrant_molinity option_map] in *.
  destruct (arange_ramp 0 stop step Hp) as [n En]. rewrite En in *. cbn [bind] in *.
  apply bind_ok in R as (args0 & E0 & R). rewrite E0. cbn [bind] in *.
  apply bind_ok in R as (r0 & Er0 & R). rewrite Er0. cbn [bind]. apply bind_ok in R as (kwt & Ek & R). rewrite Ek. cbn [bind].
  apply bind_ok in R as (dics & Ed & _).
  destruct n as [|n]; [discriminate|].
  assert (Ed' : sim_loss_steps sys kwt (Fin 0) (Fin M) (Fin step) (Fin air) 0 (Fin dic) (map Fin (ramp 0 step (S n)))
                 (alkalinity_titration (Fin A) (Fin M) (Fin c) (map Fin (ramp 0 step (S n)))) = Ok dics).
  { rewrite ramp_S in Ed |- *. exact Ed. }
  assert (Q : dics = map (fun d => Fin dic ⊗ d)%num (map (fun m => get_dilution_factor m (Fin M)) (map Fin (ramp 0 step (S n))))).
  { apply no_loss_steps in Ed'; trivial; [|lra|].
    2:{ unfold alkalinity_titration. rewrite !map_length. apply ramp_length. }
    rewrite Ed', !map_map. apply map_ext_in. intros m I.
    assert (0 <= m) by (destruct (ramp_ok 0 step (S n) M HM ltac:(lra) Hp) as [_ Q]; rewrite Forall_forall in Q; now apply Q).
    rewrite df_fin, fin_mul by lra. f_equal. field. lra. }
  rewrite Ed, Q. reflexivity.
Qed.

(* ------------------------------------------------------------------ *)
(** * A chemistry for examples: no salts, no DIC, only acid *)

Definition zero_nd (v : nd xr) : bool :=
  match v with NdS x => nleb x (Fin 0) && nleb (Fin 0) x | NdA l => forallb (fun x => nleb x (Fin 0) && nleb (Fin 0) x) l end.
Definition neg_nd (v : nd xr) : bool := match v with NdS x => nltb x (Fin 0) | NdA l => forallb (fun x => nltb x (Fin 0)) l end.

Definition given (k : string) (kw : dict (nd xr)) : nd xr := match dget k kw with Some v => v | None => NdS (Fin 0) end.
Definition one : nd xr := NdS (Fin 1).
Definition toy_constants : dict (nd xr) :=
  [("k_carbonic_1", one); ("k_carbonic_2", one); ("k_borate", one); ("k_phosphoric_1", one); ("k_phosphoric_2", one);
   ("k_phosphoric_3", one); ("k_silicate", one); ("k_ammonia", one); ("k_sulfide", one); ("k_alpha", one); ("k_beta", one);
   ("k_fluoride", one); ("k_bisulfate", one)].
Definition toy_pH (v : nd xr) : nd xr := nd_map (fun a => nopp (nlog10 (nopp (a ⊗ Fin 0.000001)))%num) v.
Definition toy (kw : dict (nd xr)) : res (dict (nd xr)) :=
  if forallb (fun k => zero_nd (given k kw)) ("par2" :: salts) && (negb (dmem "par1" kw) || neg_nd (given "par1" kw))
  then Ok (map (fun k => (k, given k kw)) salts
           ++ [("dic", given "par2" kw); ("fCO2", NdS (Fin 0)); ("pH_free", toy_pH (given "par1" kw))] ++ toy_constants)%list
  else Err ValueError.

Lemma zero_fin x : nleb x (Fin 0) && nleb (Fin 0) x = true -> x = Fin 0.
Proof.
  rewrite andb_true_iff. intros [A B]. destruct x as [r| | |]; try discriminate.
  apply x_leb_fin in A. apply x_leb_fin in B. f_equal. lra.
Qed.

Lemma zero_molar n v i : zero_nd v = true -> shaped n [("k", v)] -> (i < n)%nat -> nd_at (molar v) i = Fin 0.
Proof.
  intros Z S I. rewrite (molar_at n v i 0 S I); [f_equal; lra|].
  destruct v as [x|l]; cbn [zero_nd] in Z; [now apply zero_fin|].
  specialize (S "k" (NdA l) (or_introl eq_refl)). cbn in S. rewrite forallb_forall in Z.
  destruct S as [L|L].
  - destruct (nth_error l i) as [x|] eqn:E; [|apply nth_error_None in E; lia].
    rewrite (nd_at_nth _ _ _ E). apply zero_fin. apply Z. eapply nth_error_In; exact E.
  - destruct l as [|x [|? ?]]; try discriminate. cbn. apply zero_fin. apply Z. now left.
Qed.

Lemma toy_ok kw r : toy kw = Ok r ->
  (forall k, In k ("par2" :: salts) -> zero_nd (given k kw) = true) /\
  (dmem "par1" kw = true -> neg_nd (given "par1" kw) = true) /\
  r = (map (fun k => (k, given k kw)) salts
       ++ [("dic", given "par2" kw); ("fCO2", NdS (Fin 0)); ("pH_free", toy_pH (given "par1" kw))] ++ toy_constants)%list.
Proof.
  unfold toy. destruct (_ && _) eqn:C; [|discriminate]. intros [= <-]. apply andb_true_iff in C as [C1 C2].
  rewrite forallb_forall in C1. split; [exact C1|]. split; [|reflexivity].
  intros M. rewrite M in C2. exact C2.
Qed.

Lemma given_shaped n k kw : shaped n kw -> shaped n [("k", given k kw)].
Proof.
  intros S. unfold given. destruct (dget k kw) eqn:D; [now apply (shaped_get n kw k)|]. intros k' v [[= <- <-]|[]]. exact Logic.I.
Qed.

Lemma toy_salt kw r k : toy kw = Ok r -> In k salts -> dget k r = Some (given k kw).
Proof.
  intros E I. apply toy_ok in E as (_ & _ & ->). rewrite dget_app.
  replace (dget k (map (fun k => (k, given k kw)) salts)) with (Some (given k kw)); [reflexivity|].
  unfold salts in *. cbn [In] in I. repeat destruct I as [<-|I]; try reflexivity. destruct I.
Qed.

Lemma toy_rest kw r : toy kw = Ok r ->
  dget "dic" r = Some (given "par2" kw) /\ dget "pH_free" r = Some (toy_pH (given "par1" kw)) /\ dget "fCO2" r = Some (NdS (Fin 0)).
Proof. intros E. apply toy_ok in E as (_ & _ & ->). repeat split; reflexivity. Qed.

Lemma toy_keeps : keeps_inputs toy.
Proof.
  split.
  - intros n kw r E S. apply toy_ok in E as (_ & _ & ->). repeat apply shaped_app.
    + intros k v I. apply in_map_iff in I as (k' & [= <- <-] & _). exact (given_shaped n k' kw S "k" _ (or_introl eq_refl)).
    + intros k v [I|[I|[I|[]]]]; injection I as <- <-; [|exact Logic.I|].
      * exact (given_shaped n "par2" kw S "k" _ (or_introl eq_refl)).
      * pose proof (given_shaped n "par1" kw S "k" _ (or_introl eq_refl)) as Q. unfold toy_pH.
        destruct (given "par1" kw); cbn; [exact Logic.I|]. now rewrite map_length.
    + intros k v I. unfold toy_constants in I. cbn [In] in I. repeat destruct I as [I|I]; try (injection I as <- <-; exact Logic.I). destruct I.
  - intros kw r k v E I D. rewrite (toy_salt _ _ _ E I). unfold given. now rewrite D.
  - intros kw r v E _ D. destruct (toy_rest _ _ E) as (-> & _). unfold given. now rewrite D.
Qed.

Lemma toy_finite : finite_fCO2 toy.
Proof. intros kw r E. destruct (toy_rest _ _ E) as (_ & _ & ->). eauto. Qed.

Lemma contr_zero totals ks s h : (forall k v, dget k totals = Some v -> v = Fin 0) -> contr totals ks s h = 0.
Proof.
  intros Z. unfold contr. destruct (dget (s_name s) totals) as [t|] eqn:D; [|reflexivity]. apply Z in D as ->. cbn [unfin].
  destruct (get_ks s ks) as [kk|]; [|reflexivity]. generalize (map unfin kk). intros l. unfold contrR.
  destruct s; repeat (destruct l as [|? l]; try reflexivity); try destruct (pK_low _); unfold Rdiv; ring.
Qed.

Lemma acid_alk x totals (ks : dict xr) : (forall k v, dget k totals = Some v -> v = Fin 0) -> ks_ok ks -> dget "k_water" ks = None ->
  (forall s k, In k (s_ks s) -> dmem k ks = true) -> alkalinity (Fin x) totals ks 3 = Ok (Fin (- pow10R (- x))).
Proof.
  intros Z K W P.
  assert (C : exists c, alkalinity_components (Fin x) totals ks 3 = Ok c).
  { rewrite components_run. cbn [assert_ existsb Z.eqb Pos.eqb orb bind]. apply run_all_ok. intros s _ _ k I. now apply (P s). }
  destruct C as [c C]. rewrite (alkalinity_fin x totals ks 3 c); trivial.
  - do 2 f_equal. unfold alkR, waterR. rewrite W.
    replace (Rsum (map (fun s => contr totals ks s (pow10R (- x))) (substs 3))) with 0; [lra|].
    induction (substs 3) as [|s l IH]; [reflexivity|]. cbn [map]. rewrite Rsum_cons, <- IH, contr_zero by exact Z. lra.
  - intros s v D. exists 0. now apply (Z (s_name s)).
Qed.

Lemma toy_balances : balances toy.
Proof.
  intros n kw r alk E S La D1 _ _ _. pose proof E as E'. apply toy_ok in E as (Zs & Ng & Er).
  destruct (toy_rest _ _ E') as (Dd & Dp & _).
  assert (G : given "par1" kw = NdA (map Fin alk)) by (unfold given; now rewrite D1).
  assert (Neg : forall a, In a alk -> a < 0).
  { intros a I. unfold dmem in Ng. rewrite D1, G in Ng. specialize (Ng eq_refl). cbn [neg_nd] in Ng.
    rewrite forallb_forall in Ng. apply x_ltb_fin, Ng. now apply in_map. }
  exists (map (fun a => - log10R (- (a * 0.000001))) alk). split; [|split; [now rewrite map_length|]].
  { rewrite Dp, G. unfold toy_pH. cbn [nd_map]. do 2 f_equal. rewrite !map_map. apply map_ext_in. intros a I. apply Neg in I.
    rewrite fin_mul, fin_opp, fin_log10, fin_opp by (q2r; lra). reflexivity. }
  intros i x a Hx Ha. rewrite nth_error_map, Ha in Hx. injection Hx as <-.
  pose proof (Neg a (nth_error_In _ _ Ha)) as Na. assert (Hi : (i < n)%nat) by (rewrite <- La; now apply nth_lt in Ha).
  rewrite acid_alk.
  - do 2 f_equal. rewrite Ropp_involutive, pow10_log10 by (q2r; lra). lra.
  - intros k v Dk. unfold slice_at in Dk. rewrite dget_dmap in Dk. unfold contents in Dk.
    destruct (String.eqb_spec k "dic") as [->|Nk].
    + rewrite dget_dset_same, Dd in Dk. injection Dk as <-. apply (zero_molar n); [|apply given_shaped; exact S|exact Hi].
      apply Zs. now left.
    + rewrite dget_dset_other, dget_dmap in Dk by exact Nk.
      destruct (dget k (filter (fun kv => startswith (fst kv) "total_") r)) as [w|] eqn:Ew; [|discriminate]. injection Dk as <-.
      assert (Q : In k salts /\ w = given k kw).
      { apply dget_in in Ew. rewrite Er in Ew. apply filter_In in Ew as [I St]. cbn [fst] in St.
        apply in_app_iff in I as [I|I].
        - apply in_map_iff in I as (k' & [= <- <-] & I). auto.
        - exfalso. unfold toy_constants in I. cbn [In app] in I. repeat destruct I as [I|I]; try (injection I as <- <-; discriminate); destruct I. }
      destruct Q as [Q ->]. apply (zero_molar n); [|apply given_shaped; exact S|exact Hi]. apply Zs. now right.
  - rewrite Er. split.
    + intros s k v I Dk. unfold slice_at, constants in Dk. rewrite dget_dmap in Dk. cbn in Dk. exists 1. split; [|lra].
      destruct s; cbn [s_ks In] in I; repeat destruct I as [<-|I]; try (injection Dk as <-; reflexivity); destruct I.
    + intros v Dk. unfold slice_at, constants in Dk. rewrite dget_dmap in Dk. cbn in Dk. discriminate.
  - rewrite Er. reflexivity.
  - intros s k I. rewrite Er. destruct s; cbn [s_ks In] in I; repeat destruct I as [<-|I]; try reflexivity; destruct I.
Qed.

(* the same chemistry without the checks: its pH is only right for pure acid, its contents always are *)
Definition loose (kw : dict (nd xr)) : res (dict (nd xr)) :=
  Ok (map (fun k => (k, given k kw)) salts
      ++ [("dic", given "par2" kw); ("fCO2", NdS (Fin 0)); ("pH_free", toy_pH (given "par1" kw))] ++ toy_constants)%list.

Lemma loose_keeps : keeps_inputs loose.
Proof.
  split.
  - intros n kw r E S. unfold loose in E. apply (f_equal (fun z => match z with Ok y => y | Err _ => r end)) in E. cbv beta iota in E. rewrite <- E. clear E. repeat apply shaped_app.
    + intros k v I. apply in_map_iff in I as (k' & [= <- <-] & _). exact (given_shaped n k' kw S "k" _ (or_introl eq_refl)).
    + intros k v [I|[I|[I|[]]]]; injection I as <- <-; [|exact Logic.I|].
      * exact (given_shaped n "par2" kw S "k" _ (or_introl eq_refl)).
      * pose proof (given_shaped n "par1" kw S "k" _ (or_introl eq_refl)) as Q. unfold toy_pH.
        destruct (given "par1" kw); cbn; [exact Logic.I|]. now rewrite map_length.
    + intros k v I. unfold toy_constants in I. cbn [In] in I. repeat destruct I as [I|I]; try (injection I as <- <-; exact Logic.I). destruct I.
  - intros kw r k v E I D. unfold loose in E. apply (f_equal (fun z => match z with Ok y => y | Err _ => r end)) in E. cbv beta iota in E. rewrite <- E, dget_app. clear E.
    replace (dget k (map (fun k => (k, given k kw)) salts)) with (Some (given k kw)); [unfold given; now rewrite D|].
    unfold salts in *. cbn [In] in I. repeat destruct I as [<-|I]; try reflexivity. destruct I.
  - intros kw r v [= <-] _ D. cbn. unfold given. now rewrite D.
Qed.

(* the first point has already been diluted by titrant_mass_start, but with a k_dic_loss the DIC starts at the
   undiluted value *)
Theorem C81_start_not_diluted : forall sys A M dic E air sal temp m0 step stop c kw s s',
  keeps_inputs sys -> 0 < M -> 0 < m0 -> 0 < step -> dic <> 0 ->
  sim_titration sys (Fin A) (params M dic E air (Some 0) sal temp m0 step stop c) kw = Ok s ->
  sim_titration sys (Fin A) (params M dic E air None sal temp m0 step stop c) kw = Ok s' ->
  let n := length (sm_titrant_mass s) in
  shaped n [("salinity", sal)] -> shaped n [("temperature", temp)] -> shaped n kw ->
  exists x x', holds (sm_totals s) "dic" 0 x /\ holds (sm_totals s') "dic" 0 x' /\ x <> x'.
Proof.
  intros sys A M dic E air sal temp m0 step stop c kw s s' K HM Hm Hp Hd R R' n Ss St Sk. subst n.
  pose proof R as R1. pose proof R' as R2.
  destruct (sim_inv _ _ _ _ _ _ _ _ _ _ _ _ _ _ _ HM (Rlt_le _ _ Hm) Hp R)
    as (n & args0 & r0 & kwt & dics & args & r & pH & H). cbv zeta in H.
  destruct H as (Etm & E0 & R0 & Ek & Ed & Ea & Er & EpH & Et & EM & Ee & Etot & Eks).
  rewrite Etm, map_length, ramp_length in *.
  destruct (sim_shapes sys A M dic air (Some 0) sal temp m0 step c kw n args0 r0 kwt dics args r K E0 R0 Ek Ed Ea Er Ss St Sk)
    as (Ldic & S0 & Sr0 & Sa & Sr).
  cbn [option_map] in Ed. destruct n as [|n]; [discriminate|].
  assert (D0 : nth_error dics 0 = Some (Fin dic)).
  { rewrite ramp_S in Ed. cbn [map] in Ed. destruct (map Fin (ramp (m0 + step) step n)).
    - injection Ed as <-. reflexivity.
    - rewrite loss_cons in Ed. do 5 (apply bind_ok in Ed as (? & _ & Ed)). apply bind_ok in Ed as (? & _ & Ed). injection Ed as <-. reflexivity. }
  destruct (C81_mixture sys A M dic E air None sal temp m0 step stop c kw s' K HM (Rlt_le _ _ Hm) Hp R')
    as (n' & a' & st' & T' & _ & _ & _ & _ & Q).
  assert (n' = S n).
  { unfold sim_titration, params in R1, R2. cbn [pm_analyte_mass pm_dic pm_emf0 pm_fCO2_air pm_k_dic_loss pm_salinity pm_temperature
    pm_titrant_mass_start pm_titrant_mass_step pm_titrant_mass_stop pm_titrant_molinity] in R1, R2.
    destruct (arange (Fin m0) (Fin stop) (Fin step)) as [l|]; [|discriminate]. cbn [bind] in R1, R2.
    assert (sm_titrant_mass s = l).
    { do 9 (apply bind_ok in R1 as (? & _ & R1)). injection R1 as <-. reflexivity. }
    assert (sm_titrant_mass s' = l).
    { do 9 (apply bind_ok in R2 as (? & _ & R2)). injection R2 as <-. reflexivity. }
    assert (length (map Fin (ramp m0 step n')) = length (map Fin (ramp m0 step (S n)))) as L by congruence.
    rewrite !map_length, !ramp_length in L. exact L. }
  subst n'. specialize (Q Ss St Sk). destruct Q as [_ Q].
  exists (dic * 0.000001), (dic * (M / (M + m0)) * 0.000001). split; [|split].
  - rewrite Etot. assert (Dd : dget "dic" r = Some (NdA dics)) by (apply (ki_dic _ K _ _ _ Er); rewrite Ea; reflexivity).
    eexists. unfold contents at 1. rewrite dget_dset_same, Dd. split; [reflexivity|].
    apply (molar_at (S n)); [exact (shaped_get _ _ _ _ Sr Dd)|lia|now apply nd_at_nth].
  - apply Q; [reflexivity|]. rewrite ramp_S. reflexivity.
  - intros X. apply Rmult_eq_reg_r in X; [|q2r; lra]. apply Hd. apply Rmult_eq_reg_r with (m0 / (M + m0)).
    + rewrite Rmult_0_l. replace (m0 / (M + m0)) with (1 - M / (M + m0)) by (field; lra). lra.
    + apply Rgt_not_eq. apply Rdiv_lt_0_compat; lra.
Qed.

(* ------------------------------------------------------------------ *)
(** * Runs of the examples *)

Definition ex_args (temps : list xr) : dict (nd xr) :=
  ([("salinity", NdS (Fin 35)); ("temperature", NdA temps); ("opt_pH_scale", NdS (nofZ 3))] ++ add_default_options [])%list.
Definition ex_kwt (temps df : list xr) : dict (nd xr) :=
  (ex_args temps ++ map (fun k => (k, NdA (map (fun d => Fin 0 ⊗ d)%num df))) salts)%list.

Lemma ex_dilute temps df r : loose (ex_args temps) = Ok r -> dilute_all r df diluted_totals (ex_args temps) = Ok (ex_kwt temps df).
Proof. intros E. unfold loose in E. apply (f_equal (fun z => match z with Ok y => y | Err _ => r end)) in E. cbv beta iota in E. rewrite <- E. reflexivity. Qed.

Lemma kwargs_at_ok i (kw : dict (nd xr)) : (forall k l, In (k, NdA l) kw -> (i < length l)%nat) ->
  exists kwi, kwargs_at i kw = Ok kwi /\ dkeys kwi = dkeys kw.
Proof.
  induction kw as [|[k v] kw IH]; intros L; [exists []; split; reflexivity|].
  destruct IH as (kwi & E & D); [intros; eapply L; right; eassumption|]. unfold kwargs_at in *. cbn [mapM fst snd]. rewrite E.
  destruct v as [x|l].
  - cbn [bind]. eexists. split; [reflexivity|]. cbn. f_equal. exact D.
  - specialize (L k l (or_introl eq_refl)). destruct (nth_error l i) as [x|] eqn:N; [|apply nth_error_None in N; lia].
    cbn [of_opt bind]. eexists. split; [reflexivity|]. cbn. f_equal. exact D.
Qed.

Lemma dmem_keys {A B} k (d : dict A) (d' : dict B) : dkeys d = dkeys d' -> dmem k d = dmem k d'.
Proof.
  intros E. destruct (dmem k d) eqn:M.
  - symmetry. apply dget_in_keys. rewrite <- E. now apply dget_in_keys.
  - destruct (dmem k d') eqn:M'; [|reflexivity]. apply dget_in_keys in M'. rewrite <- E in M'. apply dget_in_keys in M'. congruence.
Qed.

Lemma ex_call temps df (kw : dict (nd xr)) a b c d : dkeys kw = dkeys (ex_kwt temps df) ->
  exists args, call_kwargs [("par1", a); ("par2", b); ("par1_type", c); ("par2_type", d)] kw = Ok args.
Proof.
  intros E. unfold call_kwargs. cbn [dkeys map fst existsb]. rewrite !(dmem_keys _ _ _ E). cbn. eexists. reflexivity.
Qed.

Lemma ex_steps temps df k M step air : length temps = length df -> forall ms alks i x, length ms = length alks ->
  (i + length ms <= length df)%nat ->
  exists l, sim_loss_steps loose (ex_kwt temps df) k M step air i x ms alks = Ok l.
Proof.
  intros L. induction ms as [|m ms IH]; intros [|a alks] i x La Hi; try discriminate; [eexists; reflexivity|].
  destruct ms as [|m2 ms]; [eexists; reflexivity|]. rewrite loss_cons.
  destruct (kwargs_at_ok i (ex_kwt temps df)) as (kwi & -> & D).
  { intros k' l I. cbn in Hi. unfold ex_kwt in I. apply in_app_iff in I as [I|I].
    - cbn in I. repeat destruct I as [I|I]; try discriminate I; try (destruct I; fail). injection I as _ <-. lia.
    - apply in_map_iff in I as (? & [= _ <-] & _). rewrite map_length. lia. }
  cbn [bind]. destruct (ex_call temps df kwi (NdS a) (NdS x) (NdS (nofZ 1)) (NdS (nofZ 2)) D) as (args & ->). cbn [bind].
  destruct (loose args) as [r|] eqn:Er; [|discriminate]. cbn [bind].
  assert (F : dgetE "fCO2" r = Ok (NdS (Fin 0))).
  { unfold loose in Er. apply (f_equal (fun z => match z with Ok y => y | Err _ => r end)) in Er. cbv beta iota in Er. rewrite <- Er. reflexivity. }
  rewrite F. cbn [bind as_element].
  match goal with |- context [sim_loss_steps _ _ _ _ _ _ _ ?y (m2 :: ms) alks] =>
    destruct (IH alks (S i) y ltac:(cbn in La |- *; lia) ltac:(cbn in Hi |- *; lia)) as (l & ->) end.
  cbn [bind]. eexists. reflexivity.
Qed.

Lemma loose_rest kw r : loose kw = Ok r -> dgetE "pH_free" r = Ok (toy_pH (given "par1" kw)) /\ dgetE "dic" r = Ok (given "par2" kw).
Proof.
  intros E. unfold loose in E. apply (f_equal (fun z => match z with Ok y => y | Err _ => r end)) in E. cbv beta iota in E.
  rewrite <- E. split; reflexivity.
Qed.

Lemma loose_runs A M dic E air k m0 step stop c : 0 < M -> 0 <= m0 -> 0 < step -> m0 < stop ->
  exists s, sim_titration loose (Fin A) (params M dic E air k (NdS (Fin 35)) (NdS (Fin 25)) m0 step stop c) [] = Ok s /\
            sm_titrant_mass s <> [].
Proof.
  intros HM Hm Hp Hs. unfold sim_titration, params. cbn [pm_analyte_mass pm_dic pm_emf0 pm_fCO2_air pm_k_dic_loss pm_salinity pm_temperature
    pm_titrant_mass_start pm_titrant_mass_step pm_titrant_mass_stop pm_titrant_molinity].
  destruct (arange_ramp' m0 stop step Hp) as (n & En & Hn). rewrite En. cbn [bind].
  destruct n as [|n].
  { exfalso. cbn in Hn. assert (0 < (stop - m0) / step) by (apply Rdiv_lt_0_compat; lra). lra. }
  set (tm := map Fin (ramp m0 step (S n))). assert (Ltm : length tm = S n) by (unfold tm; now rewrite map_length, ramp_length).
  set (alks := alkalinity_titration _ _ _ _).
  assert (Ha : length alks = S n) by (unfold alks, alkalinity_titration; now rewrite map_length).
  set (df := map (fun m => get_dilution_factor m (Fin M)) tm). assert (Ld : length df = S n) by (unfold df; now rewrite map_length).
  set (temps := map (fun _ => Fin 25) tm). assert (Lt : length temps = S n) by (unfold temps; now rewrite map_length).
  change (call_kwargs [("salinity", NdS (Fin 35)); ("temperature", NdA temps); ("opt_pH_scale", NdS (nofZ 3))] (add_default_options []))
    with (Ok (ex_args temps)). cbn [bind].
  destruct (loose (ex_args temps)) as [r0|] eqn:E0; [|discriminate]. cbn [bind].
  rewrite (ex_dilute _ df _ E0). cbn [bind].
  assert (Hd : exists dics, match option_map Fin k with
     | Some k => match tm with [] => Err IndexError | _ => sim_loss_steps loose (ex_kwt temps df) k (Fin M) (Fin step) (Fin air) 0 (Fin dic) tm alks end
     | None => Ok (map (fun d => Fin dic ⊗ d)%num df) end = Ok dics).
  { destruct k as [k|]; cbn [option_map]; [|eexists; reflexivity].
    destruct tm as [|t tm'] eqn:Etm; [discriminate|]. apply ex_steps; try congruence. rewrite Ltm, Ld. lia. }
  destruct Hd as (dics & Hd).
  match goal with |- context [@bind _ _ ?e _] => replace e with (Ok dics : res (list xr)) end.
  cbn [bind]. destruct (ex_call temps df (ex_kwt temps df) (NdA alks) (NdA dics) (NdS (nofZ 1)) (NdS (nofZ 2)) eq_refl) as (args & Ea).
  rewrite Ea. cbn [bind]. destruct (loose args) as [r|] eqn:Er; [|discriminate]. cbn [bind].
  destruct (loose_rest _ _ Er) as [-> ->]. cbn [bind]. apply call_kwargs_ok in Ea.
  assert (G : given "par1" args = NdA alks) by (rewrite Ea; reflexivity). rewrite G. unfold toy_pH. cbn [nd_map nd_map2].
  rewrite map_length, Ha, Lt, Nat.eqb_refl. cbn [bind]. eexists. split; [reflexivity|]. cbn [sm_titrant_mass].
  intros Z. rewrite Z in Ltm. discriminate.
Qed.

Theorem C81_start_refuted : exists sys A M dic E air sal temp m0 step stop c kw s s' x x',
  keeps_inputs sys /\
  sim_titration sys (Fin A) (params M dic E air (Some 0) sal temp m0 step stop c) kw = Ok s /\
  sim_titration sys (Fin A) (params M dic E air None sal temp m0 step stop c) kw = Ok s' /\
  holds (sm_totals s) "dic" 0 x /\ holds (sm_totals s') "dic" 0 x' /\ x <> x'.
Proof.
  destruct (loose_runs 0 1 2000 600 450 (Some 0) 1 1 3 1) as (s & R & N); try lra.
  destruct (loose_runs 0 1 2000 600 450 None 1 1 3 1) as (s' & R' & _); try lra.
  exists loose, 0, 1, 2000, 600, 450, (NdS (Fin 35)), (NdS (Fin 25)), 1, 1, 3, 1, [], s, s'.
  destruct (C81_start_not_diluted loose 0 1 2000 600 450 (NdS (Fin 35)) (NdS (Fin 25)) 1 1 3 1 [] s s') as (x & x' & H & H' & Hne); try lra; trivial.
  - apply loose_keeps.
  - intros ? ? [[= <- <-]|[]]. exact Logic.I.
  - intros ? ? [[= <- <-]|[]]. exact Logic.I.
  - intros ? ? [].
  - exists x, x'. split; [apply loose_keeps|]. auto.
Qed.

(* C82: titration cannot be called *)
Theorem C82_titration_refuted : forall sys A p kw, simulate_titration (T := xr) sys A p kw = Err (NameError "Titration").
Proof. reflexivity. Qed.

Lemma toy_loose kw : (forall k, In k ("par2" :: salts) -> zero_nd (given k kw) = true) ->
  (dmem "par1" kw = true -> neg_nd (given "par1" kw) = true) -> toy kw = loose kw.
Proof.
  intros Z N. unfold toy. replace (forallb (fun k => zero_nd (given k kw)) ("par2" :: salts)) with true.
  2:{ symmetry. apply forallb_forall. exact Z. }
  destruct (dmem "par1" kw); [rewrite N by reflexivity|]; reflexivity.
Qed.

Lemma toy_runs m0 step stop : 0 < m0 -> 0 < step -> m0 < stop ->
  exists s, sim_titration toy (Fin 0) (params 1 0 600 450 None (NdS (Fin 35)) (NdS (Fin 25)) m0 step stop 1) [] = Ok s /\
            sm_titrant_mass s <> [].
Proof.
  intros Hm Hp Hs.
  destruct (loose_runs 0 1 0 600 450 None m0 step stop 1 ltac:(lra) (Rlt_le _ _ Hm) Hp Hs) as (s & R & N).
  exists s. split; [|exact N]. rewrite <- R.
  unfold sim_titration, params. cbn [pm_analyte_mass pm_dic pm_emf0 pm_fCO2_air pm_k_dic_loss pm_salinity pm_temperature
    pm_titrant_mass_start pm_titrant_mass_step pm_titrant_mass_stop pm_titrant_molinity option_map].
  destruct (arange_ramp m0 stop step Hp) as (n & En). rewrite En. cbn [bind].
  destruct (ramp_ok m0 step n 1 ltac:(lra) (Rlt_le _ _ Hm) Hp) as [_ Htm].
  assert (Hpos : Forall (fun m => 0 < m) (ramp m0 step n)).
  { apply Forall_forall. intros m I. unfold ramp in I. apply in_map_iff in I as (i & <- & _). pose proof (pos_INR i). nra. }
  set (tm := map Fin (ramp m0 step n)).
  set (df := map (fun m => get_dilution_factor m (Fin 1)) tm). set (temps := map (fun _ => Fin 25) tm).
  change (call_kwargs [("salinity", NdS (Fin 35)); ("temperature", NdA temps); ("opt_pH_scale", NdS (nofZ 3))] (add_default_options []))
    with (Ok (ex_args temps)). cbn [bind].
  assert (Z0 : nleb (Fin 0) (Fin 0) && nleb (Fin 0) (Fin 0) = true) by (rewrite x_leb_fin_t by lra; reflexivity).
  rewrite (toy_loose (ex_args temps)).
  2:{ intros k I. unfold salts in I. cbn [In] in I. repeat destruct I as [<-|I]; try exact Z0. destruct I. }
  2:{ intros Q. discriminate Q. }
  destruct (loose (ex_args temps)) as [r0|] eqn:E0; [|reflexivity]. cbn [bind].
  rewrite (ex_dilute _ df _ E0). cbn [bind].
  set (alks := alkalinity_titration _ _ _ _).
  set (dics := map (fun d => Fin 0 ⊗ d)%num df).
  destruct (ex_call temps df (ex_kwt temps df) (NdA alks) (NdA dics) (NdS (nofZ 1)) (NdS (nofZ 2)) eq_refl) as (args & Ea).
  rewrite Ea. cbn [bind]. apply call_kwargs_ok in Ea.
  assert (Zd : zero_nd (NdA dics) = true).
  { unfold dics, df, tm. cbn [zero_nd]. apply forallb_forall. intros x I. rewrite !map_map in I. apply in_map_iff in I as (m & <- & I).
    rewrite Forall_forall in Htm. apply Htm in I. rewrite df_fin, fin_mul, Rmult_0_l by lra. exact Z0. }
  rewrite (toy_loose args); [reflexivity| |].
  - intros k I. rewrite Ea. unfold salts in I. cbn [In] in I. repeat destruct I as [<-|I]; try exact Zd. destruct I.
  - intros _. rewrite Ea. change (forallb (fun x => nltb x (Fin 0)) alks = true). apply forallb_forall. intros x I.
    unfold alks, alkalinity_titration, tm in I. rewrite map_map in I. apply in_map_iff in I as (m & <- & I).
    rewrite Forall_forall in Hpos. apply Hpos in I. xsimp. rewrite fin_div by lra. apply x_ltb_fin_t.
    assert (0 < m / (1 + m)) by (apply Rdiv_lt_0_compat; lra). q2r.
    replace (1000000 * / 1 * (1 * 0 * (1 * / 1000000) - m * 1) / (1 + m)) with (- 1000000 * (m / (1 + m))) by (field; lra). lra.
Qed.

(* a titration of three additions that meets every hypothesis of C81_mixture and C81_truth_zeroes_residual *)
Example C81_nonvacuous : exists s temps,
  keeps_inputs toy /\ balances toy /\
  sim_titration toy (Fin 0) (params 1 0 600 450 None (NdS (Fin 35)) (NdS (Fin 25)) 1 1 4 1) [] = Ok s /\
  let n := length (sm_titrant_mass s) in
  n <> 0%nat /\ sm_temperature s = NdA (map Fin temps) /\ length temps = n /\ Forall (fun t => -273.15 < t) temps /\
  shaped n [("salinity", NdS (Fin 35))] /\ shaped n [("temperature", NdS (Fin 25))] /\ shaped n [].
Proof.
  destruct (toy_runs 1 1 4) as (s & R & N); try lra.
  destruct (sim_inv toy 0 1 0 600 450 None _ _ 1 1 4 1 [] s ltac:(lra) ltac:(lra) ltac:(lra) R)
    as (n & args0 & r0 & kwt & dics & args & r & pH & H). cbv zeta in H.
  destruct H as (Etm & _ & _ & _ & _ & _ & _ & _ & Et & _).
  exists s, (map (fun _ => 25) (ramp 1 1 n)). split; [apply toy_keeps|]. split; [apply toy_balances|]. split; [exact R|]. cbv zeta.
  split; [destruct (sm_titrant_mass s); [contradiction|discriminate]|]. split.
  { rewrite Et. cbn [temps_of]. now rewrite !map_map. }
  split; [now rewrite Etm, !map_length|]. split; [apply Forall_forall; intros t I; apply in_map_iff in I as (? & <- & _); lra|].
  repeat split.
  - intros ? ? [[= <- <-]|[]]. exact Logic.I.
  - intros ? ? [[= <- <-]|[]]. exact Logic.I.
  - intros ? ? [].
Qed.

Example C81_nonvacuous_partial : finite_fCO2 loose /\ exists s,
  sim_titration loose (Fin 2300) (params 0.1 2000 600 450 (Some 0) (NdS (Fin 35)) (NdS (Fin 25)) 0 0.001 0.004 0.1) [] = Ok s /\
  sm_titrant_mass s <> [].
Proof.
  split; [|apply loose_runs; lra]. intros kw r E. exists 0.
  unfold loose in E. apply (f_equal (fun z => match z with Ok y => y | Err _ => r end)) in E. cbv beta iota in E. rewrite <- E. reflexivity.
Qed.

Print Assumptions C81_mixture.
Print Assumptions C81_truth_zeroes_residual.
Print Assumptions C81_zero_loss_partial.
Print Assumptions C81_start_not_diluted.
Print Assumptions C81_start_refuted.
Print Assumptions C82_titration_refuted.
