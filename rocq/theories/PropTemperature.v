(* PropTemperature.v -- C123: what the equilibrium constants of a titration depend on *)
From Coq Require Import List Lia.
From Verif Require Import Files DictLemmas SettingsProofs TableProofs Classes PropSupplied PropModes PropWhichFile PropAmount.
From Coq Require Import Floats.SpecFloat.
From Verif Require Import SFNum PropPure.
Import ListNotations.
Open Scope string_scope.
Open Scope list_scope.

Section Temperature.
Context {T : Type} `{Num T}.

(* ------------------------------------------------------------------ *)
(** * Vocabulary *)

(* the settings that say what is in the sample and how its constants are found *)
Definition chemistry : list string :=
  ["dic"; "total_alpha"; "total_beta"; "total_ammonia"; "total_phosphate"; "total_silicate"; "total_sulfide";
   "total_borate"; "total_fluoride"; "total_sulfate"; "opt_total_borate"; "opt_k_carbonic"; "opt_k_bisulfate";
   "opt_k_fluoride"; "opt_pH_scale"; "k_alpha"; "k_ammonia"; "k_beta"; "k_bisulfate"; "k_borate"; "k_carbonic_1";
   "k_carbonic_2"; "k_fluoride"; "k_phosphoric_1"; "k_phosphoric_2"; "k_phosphoric_3"; "k_silicate"; "k_sulfide"; "k_water"].

(* dilute_totals_for_ks is not set, or false *)
Definition undiluted (kw : kwargs T) : Prop :=
  match dget "dilute_totals_for_ks" kw with Some v => truthy v = false | None => True end.

(* PyCO2SYS works element by element: for one solution (scalar totals) at several temperatures it gives
   a value for each temperature (or a scalar), and the same value where the temperature is the same *)
Definition elementwise (e : env T) : Prop :=
  forall ts (tp : dict T) o1 o2 o3 o4 given kp, e_equil e ts (dmap NdS tp) o1 o2 o3 o4 given = Ok kp ->
    all_fit (length ts) kp = true /\
    forall k v i j t, dget k kp = Some v -> nth_error ts i = Some t -> nth_error ts j = Some t -> nd_at v i = nd_at v j.

(* ------------------------------------------------------------------ *)
(** * Proofs *)

Lemma salinity_kept dd s kw (cv : Converted T) : amount_units_dat dd s kw = Ok cv -> cv_salinity cv = s.
Proof.
  destruct dd as [dd|]; [|discriminate]. cbn [amount_units_dat]. unfold amount_units. intros E.
  destruct (check_kwargs _ _); cbn [bind] in E; [|discriminate].
  match type of E with bind ?x _ = _ => destruct x; cbn [bind] in E; [|discriminate] end.
  destruct (cau_titrant_mass _ _); cbn [bind] in E; [|discriminate].
  destruct (cau_analyte_mass _ _ _); cbn [bind] in E; [|discriminate]. now injection E as <-.
Qed.

Ltac same := repeat match goal with
  | E : deq ?a ?b |- context [kwarg ?k ?v ?a] => rewrite (kwarg_deq k v a b E)
  | E : deq ?a ?b |- context [check_kwargs ?k ?a] => rewrite (check_kwargs_deq k a b E)
  end.
Lemma get_totals_deq (e : env T) s (kw kw' : kwargs T) : deq kw kw' -> get_totals e s kw = get_totals e s kw'.
Proof. intros E. unfold get_totals. same. reflexivity. Qed.
Lemma get_k_constants_deq (e : env T) tp t (kw kw' : kwargs T) : deq kw kw' -> get_k_constants e tp t kw = get_k_constants e tp t kw'.
Proof. intros E. unfold get_k_constants. rewrite (given_ks_deq _ _ E). same. reflexivity. Qed.

Lemma no_dilution (kw : kwargs T) : undiluted kw ->
  match dget "dilute_totals_for_ks" (get_kwargs_for keys_totals_ks (without_mode kw) None) with Some v => truthy v | None => false end = false.
Proof.
  unfold undiluted. intros U. rewrite dget_gkf by (apply mem_str_spec; reflexivity). rewrite PropSupplied.dget_wm by discriminate.
  destruct (dget _ kw); [exact U|reflexivity].
Qed.

Lemma filtered k keys (kw : kwargs T) : mem_str k keys_totals_ks = true -> k <> "solve_mode" ->
  dget k (filter (fun kv => mem_str (fst kv) keys) (get_kwargs_for keys_totals_ks (without_mode kw) None))
    = if mem_str k keys then dget k kw else None.
Proof.
  intros M N. rewrite (dget_filter (fun k => mem_str k keys)). destruct (mem_str k keys); [|reflexivity].
  rewrite dget_gkf by now apply mem_str_spec. now apply PropSupplied.dget_wm.
Qed.

Lemma totals_ks_inv (e : env T) cv kw t ks : totals_ks e cv (get_kwargs_for keys_totals_ks (without_mode kw) None) = Ok (t, ks) -> undiluted kw ->
  exists t0 tp, get_totals e (cv_salinity cv) (filter (fun kv => mem_str (fst kv) keys_kwargs_totals) (get_kwargs_for keys_totals_ks (without_mode kw) None)) = Ok (t0, tp) /\
    get_k_constants e (dmap NdS tp) (cv_temperature cv)
      (filter (fun kv => mem_str (fst kv) keys_kwargs_k_constants) (get_kwargs_for keys_totals_ks (without_mode kw) None)) = Ok ks.
Proof.
  intros E U. unfold totals_ks in E. cbv zeta in E.
  destruct (get_totals _ _ _) as [[t0 tp]|]; cbn [bind] in E; [|discriminate].
  destruct (dilute_totals _ _ _) as [t1|]; cbn [bind] in E; [|discriminate].
  rewrite (no_dilution kw U) in E. cbn [bind] in E.
  destruct (get_k_constants _ _ _ _) as [k1|] eqn:K; cbn [bind] in E; [|discriminate].
  injection E as _ <-. exists t0, tp. auto.
Qed.

(* The constants do not depend on the amounts of titrant and sample, on the measurements, on the titrant or on how
   the result is found: two titrations with the same temperatures, of solutions of the same salinity
   and composition, are solved with the same constants. *)
Theorem C123_temperature_only : forall (e e' : env T) f f' c c' s kw kw' sr sr', same_services e e' ->
  (forall k, In k chemistry -> dget k kw' = dget k kw) -> undiluted kw -> undiluted kw' ->
  files_solve e f c s kw = Ok sr -> files_solve e' f' c' s kw' = Ok sr' ->
  sr_temperature sr' = sr_temperature sr -> sr_k_constants sr' = sr_k_constants sr.
Proof.
  intros e e' f f' c c' s kw kw' sr sr' (V1 & V2 & _ & _) Same U U' E E' Ht.
  apply files_inv in E. destruct E as (fn & dd & cv & t & ks & x & t' & n & _ & _ & F3 & F4 & _ & _ & _ & (_ & S2 & _ & S4 & _)).
  apply files_inv in E'. destruct E' as (fn0 & dd0 & cv0 & t0 & ks0 & x0 & t0' & n0 & _ & _ & G3 & G4 & _ & _ & _ & (_ & R2 & _ & R4 & _)).
  rewrite S4, R4. rewrite S2, R2 in Ht.
  destruct (totals_ks_inv _ _ _ _ _ F4 U) as (a & tp & GT & GK). destruct (totals_ks_inv _ _ _ _ _ G4 U') as (a0 & tp0 & GT0 & GK0).
  rewrite (salinity_kept _ _ _ _ F3) in GT. rewrite (salinity_kept _ _ _ _ G3) in GT0.
  assert (Q : forall keys, (forall k, mem_str k keys = true -> In k chemistry) ->
    deq (filter (fun kv => mem_str (fst kv) keys) (get_kwargs_for keys_totals_ks (without_mode kw') None))
        (filter (fun kv => mem_str (fst kv) keys) (get_kwargs_for keys_totals_ks (without_mode kw) None))).
  { intros keys I k. rewrite !(dget_filter (fun k => mem_str k keys)). destruct (mem_str k keys) eqn:Mk; [|reflexivity].
    apply I in Mk. assert (J : In k keys_totals_ks) by (revert Mk; unfold chemistry; cbn; intuition (subst; tauto)).
    rewrite !dget_gkf by exact J. rewrite !PropSupplied.dget_wm by (intros ->; revert J; apply mem_str_false; reflexivity). now apply Same. }
  assert (Q1 := Q keys_kwargs_totals). assert (Q2 := Q keys_kwargs_k_constants).
  rewrite (get_totals_deq _ _ _ _ (Q1 ltac:(intros k Mk; apply mem_str_spec in Mk; revert Mk; unfold chemistry; cbn; intuition))) in GT0.
  rewrite (get_k_constants_deq _ _ _ _ _ (Q2 ltac:(intros k Mk; apply mem_str_spec in Mk; revert Mk; unfold chemistry; cbn; intuition))) in GK0.
  assert (X : get_totals e' s (filter (fun kv => mem_str (fst kv) keys_kwargs_totals) (get_kwargs_for keys_totals_ks (without_mode kw) None)) =
              get_totals e s (filter (fun kv => mem_str (fst kv) keys_kwargs_totals) (get_kwargs_for keys_totals_ks (without_mode kw) None))).
  { unfold get_totals. now rewrite V1. }
  rewrite X, GT in GT0. injection GT0 as <- <-.
  assert (Y : forall tpx ts k, get_k_constants e' tpx ts k = get_k_constants e tpx ts k) by (intros; unfold get_k_constants; now rewrite V2).
  rewrite Y, Ht, GK in GK0. now injection GK0 as <-.
Qed.

Definition alike (n : nat) (v : nd T) (i j : nat) : Prop := nd_fits n v = true /\ nd_at v i = nd_at v j.

Lemma map2_alike f n (a b w : nd T) i j : (i < n)%nat -> (j < n)%nat -> alike n a i j -> alike n b i j -> nd_map2 f a b = Ok w -> alike n w i j.
Proof.
  intros Li Lj [Fa Ea] [Fb Eb] E. destruct b as [y|l].
  - destruct a as [x|m]; cbn [nd_map2] in E; injection E as <-; [split; reflexivity|].
    change (map (fun x => f x y) m) with (map (fun x => f x y) m). split.
    + cbn [nd_fits] in Fa |- *. now rewrite map_length.
    + change (NdA (map (fun x => f x y) m)) with (nd_map (fun x => f x y) (NdA m)). rewrite !(nd_at_map _ n) by assumption. now rewrite Ea.
  - destruct (Nat.eq_dec (length l) n) as [El|Nl].
    + rewrite <- El in Fa. destruct (nd_map2_at f a l Fa) as (l' & E' & L' & P). rewrite E in E'. injection E' as ->. split; [cbn [nd_fits]; rewrite L', El, Nat.eqb_refl; reflexivity|].
      destruct (nth_error l i) as [x|] eqn:Xi; [|apply nth_error_None in Xi; lia]. destruct (nth_error l j) as [y|] eqn:Xj; [|apply nth_error_None in Xj; lia].
      rewrite (nd_at_nth _ _ _ Xi), (nd_at_nth _ _ _ Xj) in Eb. subst y.
      rewrite (nd_at_nth _ _ _ (P i x Xi)), (nd_at_nth _ _ _ (P j x Xj)). now rewrite Ea.
    + unfold nd_fits in Fb. rewrite orb_true_iff, !Nat.eqb_eq in Fb. destruct Fb as [|L1]; [contradiction|].
      destruct l as [|y [|? ?]]; try discriminate L1. destruct a as [x|m].
      * cbn [nd_map2 map] in E. injection E as <-. split; [cbn; apply orb_true_r|reflexivity].
      * destruct m as [|x [|x' m]].
        { unfold nd_fits in Fa. rewrite orb_true_iff, !Nat.eqb_eq in Fa. cbn in Fa. lia. }
        { cbn in E. injection E as <-. split; [cbn; apply orb_true_r|reflexivity]. }
        { cbn in E. injection E as <-. split.
          - unfold nd_fits in Fa |- *. cbn [length] in Fa |- *. now rewrite map_length.
          - change (NdA (f x y :: f x' y :: map (fun a => f a y) m)) with (nd_map (fun a => f a y) (NdA (x :: x' :: m))).
            rewrite !(nd_at_map _ n) by assumption. now rewrite Ea. }
Qed.

Lemma select_from (kp : dict (nd T)) k v : dget k (select_ks kp) = Some v -> exists K, dget K kp = Some v.
Proof.
  unfold select_ks. assert (G : forall l acc, (forall k v, dget k acc = Some v -> exists K, dget K kp = Some v) ->
    forall k v, dget k (fold_left (fun acc cp => match dget (snd cp) kp with Some v => dset (fst cp) v acc | None => acc end) l acc) = Some v ->
    exists K, dget K kp = Some v).
  { induction l as [|[a b] l IH]; intros acc A k0 v0 G; cbn [fold_left fst snd] in G; [exact (A _ _ G)|].
    revert G. apply IH. intros k1 v1 G1. destruct (dget b kp) as [w|] eqn:B; [|exact (A _ _ G1)].
    rewrite dget_dset in G1. destruct (String.eqb k1 a); [injection G1 as <-; eauto|exact (A _ _ G1)]. }
  apply G. intros k0 v0 D. discriminate D.
Qed.

(* Within a titration, the constants are the same at all points that have the same temperature. *)
Theorem C123_same_at_equal_temperature : forall (e : env T) f c s kw sr i j t, elementwise e -> undiluted kw ->
  files_solve e f c s kw = Ok sr ->
  nth_error (sr_temperature sr) i = Some t -> nth_error (sr_temperature sr) j = Some t ->
  forall k, dget k (slice_at (sr_k_constants sr) i) = dget k (slice_at (sr_k_constants sr) j).
Proof.
  intros e f c s kw sr i j t El U E Hi Hj.
  apply files_inv in E. destruct E as (fn & dd & cv & t0 & ks & x & t' & n & _ & _ & F3 & F4 & _ & _ & _ & (_ & S2 & _ & S4 & _)).
  rewrite S2 in Hi, Hj. rewrite S4. clear S2 S4.
  destruct (totals_ks_inv _ _ _ _ _ F4 U) as (a & tp & _ & GK). clear F4 F3.
  set (N := length (cv_temperature cv)). assert (Li : (i < N)%nat) by (apply nth_error_Some; congruence). assert (Lj : (j < N)%nat) by (apply nth_error_Some; congruence).
  assert (A : forall k v, dget k ks = Some v -> alike N v i j).
  { unfold get_k_constants in GK. destruct (check_kwargs _ _); cbn [bind] in GK; [|discriminate].
    destruct (given_ks _) as [g|]; cbn [bind] in GK; [|discriminate].
    destruct (e_equil _ _ _ _ _ _ _ _) as [kp|] eqn:Q; cbn [bind] in GK; [|discriminate].
    apply El in Q. destruct Q as [Fit Same].
    assert (B : forall k v, dget k (select_ks kp) = Some v -> alike N v i j).
    { intros k v G. apply select_from in G as (K & G). split; [exact (all_fit_get _ _ _ _ Fit G)|exact (Same K v i j t G Hi Hj)]. }
    cbv zeta in GK. destruct (val_eq_int _ 1); [|injection GK as <-; exact B].
    rewrite (dget_dmap NdS) in GK. destruct (dget "TSO4" tp) as [ts|]; [|injection GK as <-; exact B].
    unfold dgetE, of_opt in GK. destruct (dget "k_bisulfate" (select_ks kp)) as [ksv|] eqn:K1; cbn [bind] in GK; [|discriminate].
    destruct (nd_map2 ndiv (NdS ts) ksv) as [q|] eqn:Q; cbn [bind] in GK; [|discriminate].
    destruct (dget "k_fluoride" (select_ks kp)) as [kf|] eqn:K2; cbn [bind] in GK; [|discriminate].
    destruct (nd_map2 nmul kf _) as [kf'|] eqn:K3; cbn [bind] in GK; [|discriminate]. injection GK as <-.
    assert (Aq : alike N q i j) by (eapply map2_alike; [exact Li|exact Lj| |exact (B _ _ K1)|exact Q]; split; reflexivity).
    assert (Af : alike N (nd_map (fun x => nofQ 1 ⊕ x) q) i j).
    { destruct Aq as [Fq Eq]. split; [destruct q; cbn [nd_map nd_fits] in *; [reflexivity|now rewrite map_length]|].
      rewrite !(nd_at_map _ N) by assumption. now rewrite Eq. }
    intros k v G. rewrite dget_dset in G. destruct (String.eqb k "k_fluoride"); [|exact (B _ _ G)].
    injection G as <-. eapply map2_alike; [exact Li|exact Lj|exact (B _ _ K2)|exact Af|exact K3]. }
  intros k. rewrite !dget_slice. destruct (dget k ks) as [v|] eqn:G; [|reflexivity]. f_equal. now apply (A k v G).
Qed.
End Temperature.

(* ------------------------------------------------------------------ *)
(** * Concrete cases: constants that do vary with temperature and with total sulfate *)

Definition warm : env sf := {|
  e_file := fun p => if String.eqb p "gen.dat" then Some two_points
                     else if String.eqb p "more.dat" then Some (fline ["h"] ++ fline ["h"] ++ fline ["2"; "3.7"; "25"] ++ fline ["5"; "3.9"; "25"])%string
                     else None;
  e_excel := fun _ => None;
  e_salts := fun _ _ _ _ _ _ _ _ => Ok [("TB", fone); ("TF", fone); ("TSO4", fone)];
  e_equil := fun ts tp _ _ _ _ _ =>
    Ok (("KW", NdA ts) :: ("KSO4", match dget "TSO4" tp with Some v => v | None => NdS fone end) :: map (fun k => (k, NdS fone)) ["K1"; "K2"; "KB"; "KF"]);
  e_sys_salt := fun s _ _ => s;
  e_strat := e_strat fenv
|}.

Lemma warm_elementwise : elementwise (H := Num_sf flm) warm.
Proof.
  intros ts tp o1 o2 o3 o4 given kp E. cbn [e_equil warm] in E. rewrite (dget_dmap NdS) in E.
  assert (E' : exists s, kp = ("KW", NdA ts) :: ("KSO4", NdS s) :: map (fun k => (k, NdS fone)) ["K1"; "K2"; "KB"; "KF"]).
  { destruct (dget "TSO4" tp) as [s|]; injection E as <-; eauto. }
  destruct E' as (s & ->). split.
  - cbn [all_fit forallb snd nd_fits map]. now rewrite Nat.eqb_refl.
  - intros k v i j t G Hi Hj. cbn [dget map] in G. destruct (String.eqb k "KW").
    + injection G as <-. now rewrite (nd_at_nth (H := Num_sf flm) _ _ _ Hi), (nd_at_nth (H := Num_sf flm) _ _ _ Hj).
    + repeat (destruct (String.eqb k _); [injection G as <-; reflexivity|]). discriminate.
Qed.

Definition other_kw : kwargs sf := [("analyte_mass", VInt 3); ("titrant_amount_unit", VStr "g"); ("solve_mode", VStr "pH")].
Definition diluting_kw : kwargs sf := ("dilute_totals_for_ks", VBool true) :: fkw.

(* the hypotheses are met by two titrations with different amounts, readings and settings *)
Example C123_nonvacuous :
  undiluted (H := Num_sf flm) fkw /\ undiluted (H := Num_sf flm) other_kw /\ (forall k, In k chemistry -> dget k other_kw = dget k fkw) /\
  exists sr sr', files_solve (H := Num_sf flm) warm (VStr "gen.dat") (VInt 1) (VInt 35) fkw = Ok sr /\
    files_solve (H := Num_sf flm) warm (VStr "more.dat") (VInt 2) (VInt 35) other_kw = Ok sr' /\
    sr_temperature sr' = sr_temperature sr /\ sr_titrant_mass sr' <> sr_titrant_mass sr /\ sr_pH sr' <> sr_pH sr.
Proof.
  split; [exact I|]. split; [exact I|]. split.
  - intros k J. unfold chemistry in J. cbn [In] in J. repeat (destruct J as [<-|J]; [reflexivity|]). destruct J.
  - eexists. eexists. split; [vm_compute; reflexivity|]. split; [vm_compute; reflexivity|]. repeat split; vm_compute; discriminate.
Qed.

(* and dilute_totals_for_ks is what makes the difference: with it, two points at the same temperature
   have different constants *)
Example C123_diluting : exists sr t, files_solve (H := Num_sf flm) warm (VStr "gen.dat") (VInt 1) (VInt 35) diluting_kw = Ok sr /\
  nth_error (sr_temperature sr) 0 = Some t /\ nth_error (sr_temperature sr) 1 = Some t /\
  dget "k_bisulfate" (slice_at (H := Num_sf flm) (sr_k_constants sr) 0) <> dget "k_bisulfate" (slice_at (H := Num_sf flm) (sr_k_constants sr) 1).
Proof. eexists. eexists. split; [vm_compute; reflexivity|]. split; [vm_compute; reflexivity|]. split; [vm_compute; reflexivity|]. vm_compute. discriminate. Qed.

Print Assumptions C123_temperature_only.
Print Assumptions C123_same_at_equal_temperature.
