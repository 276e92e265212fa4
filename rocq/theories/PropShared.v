(* PropShared.v -- C137: an error in one certified value is shared out over the references of its batch *)
From Coq Require Import Reals Qreals Lra Lia List.
From Verif Require Import Files Dataset DictLemmas SpecDataset SpecSettings SettingsProofs TableProofs CalProofs PropBatch PropSupplied PropSettings PropReference PropModes PropCalibrate PropCases PropReport RowProofs DatasetProofs PropHistory PropIgnored PropCalHistory.
From Verif Require Import XR XRLemmas SpecConvert SpecCore SpecSimulate SimProofs SolveProofs PropSolve PropMonotone Witness PropSulfuric PropTransfer PropWorkflow PropOffsets.
From Verif Require Import PropLeaveOut.
Import ListNotations.
Open Scope R_scope.
Open Scope string_scope.
Open Scope list_scope.

(* ------------------------------------------------------------------ *)
(** * Specification *)

(* ds.loc[j, "alkalinity_certified"] = x *)
Definition recertify (j : nat) (x : R) (ds : frame xr) : frame xr := set_cell j "alkalinity_certified" (VNum (Fin x)) ds.

(* a row that was solved at molinity m with result a, and whose file responds with k *)
Definition solved_sample (e : env xr) (kw : kwargs xr) (r : row xr) (m a k : R) : Prop :=
  without_old_names kw r /\
  exists f s g kwr, dget "file_name" r = Some f /\ dget "salinity" r = Some s /\ dget "file_good" r = Some g /\ truthy g = true /\
    settings_of solve_settings kw r kwr /\ no_titrant_totals kwr /\ responds e f s kwr m a k.

(* ------------------------------------------------------------------ *)
(** * Lemmas *)

Lemma flat_map_swap {A B} (g : A -> list B) : forall j l1 l2 a b, length l1 = length l2 ->
  (forall i x y, i <> j -> nth_error l1 i = Some x -> nth_error l2 i = Some y -> g y = g x) ->
  nth_error l1 j = Some a -> nth_error l2 j = Some b ->
  exists P Q, flat_map g l1 = P ++ g a ++ Q /\ flat_map g l2 = P ++ g b ++ Q.
Proof.
  intros j l1. revert j. induction l1 as [|x l1 IH]; intros j [|y l2] a b L N Ga Gb; cbn in L; try discriminate; [destruct j; discriminate|].
  destruct j as [|j].
  - apply some_inj in Ga, Gb. subst x y. exists [], (flat_map g l1). split; [reflexivity|]. cbn [flat_map app]. f_equal.
    assert (X : forall i u v, nth_error l1 i = Some u -> nth_error l2 i = Some v -> g v = g u) by (intros i u v; apply (N (S i)); lia).
    clear - L X. apply f_equal with (f := pred) in L. cbn in L. revert l2 L X. induction l1 as [|u l1 IH]; intros [|v l2] L X; try discriminate; [reflexivity|].
    cbn [flat_map]. f_equal; [apply (X O); reflexivity|]. apply IH; [cbn in L; lia|]. intros i. apply (X (S i)).
  - destruct (IH j l2 a b) as (P & Q & E1 & E2); auto.
    + intros i u v I. apply (N (S i)). lia.
    + exists (g x ++ P), Q. cbn [flat_map]. rewrite E1, E2, (N O x y ltac:(lia) eq_refl eq_refl). now rewrite <- !app_assoc.
Qed.

Lemma moved (e : env xr) f s kw m m' x x' k sr sr' : no_titrant_totals kw ->
  files_solve e f (VNum (Fin m)) s kw = Ok sr -> sr_alkalinity sr = Fin x ->
  files_solve e f (VNum (Fin m')) s kw = Ok sr' -> sr_alkalinity sr' = Fin x' ->
  responds e f s kw m x k -> x' - x = k * (m' - m).
Proof.
  intros Nt Es Ax Eb Ab [(Hm & q & tm & pH & M & pmin & pmax & n & Eq & S & Wi & ->)|(Hm & Nm & ->)].
  - destruct (proj1 (same_mode _ _ _ _ _ _ Eb) Hm) as (qb & ->). cbn [sr_alkalinity] in Ab.
    rewrite Es in Eq. apply ok_inj in Eq. subst sr. cbn [sr_alkalinity] in Ax.
    destruct (C127_molinity_error e f s kw m m' q qb tm pH M pmin pmax n Hm Nt Wi Es Eb S) as (a0 & a1 & B & B' & D).
    rewrite Ax in B. rewrite Ab in B'. apply fin_inj in B. apply fin_inj in B'. subst a0 a1. rewrite D. ring.
  - destruct (proj2 (same_mode _ _ _ _ _ _ Eb) Hm) as (qb & ->). destruct (proj2 (same_mode _ _ _ _ _ _ Es) Hm) as (q & ->).
    cbn [sr_alkalinity] in Ab, Ax. destruct (gran_ratio e f s kw m m' q qb _ _ Hm Nt Es Eb Ax Ab) as (z & D & D').
    rewrite D, D'. field. exact Nm.
Qed.

Lemma req_join {A} (a b c d : res A) : req c a -> req d b -> req d c -> req b a.
Proof. destruct a, b, c, d; cbn; intros Q1 Q2 Q3; try contradiction; congruence. Qed.

(* rows that agree on what solving reads are solved alike *)
Lemma same_solution (e : env xr) f c s kw r r' kwr kwr' : NoDup (dkeys kw) -> (forall k, In k keys_solve -> dget k r' = dget k r) ->
  settings_of solve_settings kw r kwr -> settings_of solve_settings kw r' kwr' -> req (files_solve e f c s kwr') (files_solve e f c s kwr).
Proof.
  intros W A S S'.
  assert (Q1 := settings_like e f c s solve_settings kw r kwr settings_solve eq_refl W S).
  assert (Q2 := settings_like e f c s solve_settings kw r' kwr' settings_solve eq_refl W S').
  assert (Q3 : req (files_solve e f c s (get_kwargs_for keys_solve kw (Some r'))) (files_solve e f c s (get_kwargs_for keys_solve kw (Some r)))).
  { refine (files_solve_deq e f c s _ _ (wfd_resolve keys_solve kw r' W) (wfd_resolve keys_solve kw r W) (chosen_deq keys_solve kw kw r' r _)).
    intros k I. unfold chosen. rewrite (A k I). reflexivity. }
  exact (req_join _ _ _ _ Q1 Q2 Q3).
Qed.

Definition read_keys : list string := ["file_name"; "salinity"; "file_good"; "read_dat_method"] ++ keys_solve.

(* what the two runs read in row i is the same *)
Lemma same_inputs (e : env xr) kw ds d1 d2 j x : is_table ds -> In "alkalinity_certified" (f_cols ds) ->
  calibrate e kw ds = Ok d1 -> calibrate e kw (recertify j x ds) = Ok d2 ->
  length (f_rows d2) = length (f_rows d1) /\ value d2 j "analysis_batch" = value d1 j "analysis_batch" /\
  (forall i r r2, nth_error (f_rows d1) i = Some r -> nth_error (f_rows d2) i = Some r2 -> forall k, In k read_keys -> dget k r2 = dget k r) /\
  (forall r r2, nth_error (f_rows d1) j = Some r -> nth_error (f_rows d2) j = Some r2 ->
     dget "alkalinity_certified" r2 = Some (VNum (Fin x)) /\
     forall m m', dget "titrant_molinity_here" r = Some (VNum (Fin m)) -> dget "titrant_molinity_here" r2 = Some (VNum (Fin m')) ->
       dget "reference_good" r2 = dget "reference_good" r).
Proof.
  intros W Mc E E2.
  destruct (two_runs e kw ds d1 d2 j _ _ W E E2) as (rows & rows2 & L1 & L2 & L3 & Ne & Pr & N1 & N2).
  assert (Kk : forall r0, dkeys r0 = f_cols ds -> dkeys (dset "alkalinity_certified" (VNum (Fin x)) r0) = f_cols ds).
  { intros r0 K. rewrite dkeys_dset, K. apply addc_in. now apply mem_str_spec. }
  assert (One : forall i r r2, nth_error (f_rows d1) i = Some r -> nth_error (f_rows d2) i = Some r2 ->
     exists r0 rr rr2 p p2 y y2 m m2, dkeys r0 = f_cols ds /\
       let r0' := if Nat.eqb i j then dset "alkalinity_certified" (VNum (Fin x)) r0 else r0 in
       dkeys r0' = f_cols ds /\
       prep_row e (f_cols ds) r0 = Ok p /\ prep_row e (f_cols ds) r0' = Ok p2 /\
       ref_one e kw (f_cols ds) r0 = Ok rr /\ ref_one e kw (f_cols ds) r0' = Ok rr2 /\
       solve_one e kw (addc "titrant_molinity" (ref_cols (f_cols ds))) (dset "titrant_molinity" (VNum m) rr) = Ok r /\
       solve_one e kw (addc "titrant_molinity" (ref_cols (f_cols ds))) (dset "titrant_molinity" (VNum m2) rr2) = Ok r2 /\
       rr = flag_row (f_cols ds) (dset "titrant_molinity_here" (VNum y) p) /\ rr2 = flag_row (f_cols ds) (dset "titrant_molinity_here" (VNum y2) p2) /\
       (forall k, In k ["analysis_batch"; "reference_good"; "titrant_molinity_here"] -> dget k r = dget k rr) /\
       (forall k, In k ["analysis_batch"; "reference_good"; "titrant_molinity_here"] -> dget k r2 = dget k rr2)).
  { intros i r r2 B D.
    assert (Li : (i < length (f_rows d1))%nat) by (apply nth_error_Some; congruence).
    destruct (nth_error rows i) as [rr|] eqn:A; [|apply nth_error_None in A; rlia].
    destruct (nth_error rows2 i) as [rr2|] eqn:C; [|apply nth_error_None in C; rlia].
    destruct (N1 i rr r A B) as (m & _ & S & K1). destruct (N2 i rr2 r2 C D) as (m2 & _ & S2 & K2).
    destruct (Pr i rr rr2 A C) as (r0 & K & R1 & R2).
    destruct (ref_one_inv _ _ _ _ _ R1) as (p & y & P & _ & F). destruct (ref_one_inv _ _ _ _ _ R2) as (p2 & y2 & P2 & _ & F2).
    exists r0, rr, rr2, p, p2, y, y2, m, m2. split; [exact K|]. cbv zeta. split; [destruct (Nat.eqb i j); auto|]. repeat (split; [assumption|]). assumption. }
  split; [rlia|].
  assert (Bt : forall cols (q : row xr), dget "analysis_batch" (flag_row cols q) = if mem_str "analysis_batch" cols then dget "analysis_batch" q else Some (VInt 0)).
  { intros cols q. unfold flag_row. cbv zeta. destruct (mem_str "analysis_batch" cols); destruct (mem_str "reference_good" cols);
      rewrite ?dget_dset_same, ?dget_dset_other by discriminate; rewrite ?dget_dset_same; reflexivity. }
  split; [|split].
  - unfold value. destruct (nth_error (f_rows d1) j) as [r|] eqn:B.
    + destruct (nth_error (f_rows d2) j) as [r2|] eqn:D.
      2:{ apply nth_error_None in D. assert (Lj : (j < length (f_rows d1))%nat) by (apply nth_error_Some; congruence). rlia. }
      destruct (One j r r2 B D) as (r0 & rr & rr2 & p & p2 & y & y2 & m & m2 & K & K' & P & P2 & _ & _ & _ & _ & F & F2 & G & G2).
      rewrite G, G2 by (cbn; tauto). rewrite F, F2, !Bt. destruct (mem_str "analysis_batch" (f_cols ds)); [|reflexivity].
      rewrite !dget_dset_other by discriminate. rewrite Nat.eqb_refl in P2.
      apply (prep_set e (f_cols ds) r0 p p2 _ _ K Mc ltac:(cbn; tauto) P P2). discriminate.
    + apply nth_error_None in B. now rewrite (proj2 (nth_error_None (f_rows d2) j)) by rlia.
  - intros i r r2 B D k I.
    destruct (One i r r2 B D) as (r0 & rr & rr2 & p & p2 & y & y2 & m & m2 & K & K' & P & P2 & R1 & R2 & S & S2 & F & F2 & G & G2).
    assert (Ep : dget k p2 = dget k p).
    { destruct (Nat.eqb i j).
      - apply (prep_set e (f_cols ds) r0 p p2 _ _ K Mc ltac:(cbn; tauto) P P2). intros ->.
        assert (X : mem_str "alkalinity_certified" read_keys = false) by reflexivity. apply mem_str_spec in I. congruence.
      - rewrite P in P2. apply ok_inj in P2. now subst p2. }
    destruct (mem_str k cal_keys) eqn:Mk.
    + apply mem_str_spec in Mk.
      destruct (cal_row e kw _ r0 rr r m K R1 S) as (q & z & Pq & _ & _ & _ & _ & Ag). rewrite P in Pq. apply ok_inj in Pq. subst q.
      destruct (cal_row e kw _ _ rr2 r2 m2 K' R2 S2) as (q & z2 & Pq & _ & _ & _ & _ & Ag2). rewrite P2 in Pq. apply ok_inj in Pq. subst q.
      rewrite (Ag k Mk), (Ag2 k Mk). exact Ep.
    + assert (k = "gran_logic").
      { clear - I Mk. apply mem_str_spec in I. revert I Mk.
        assert (Y : forallb (fun c => mem_str c cal_keys || String.eqb c "gran_logic") read_keys = true) by reflexivity.
        intros I Mk. rewrite forallb_forall in Y. apply mem_str_spec in I. specialize (Y k I). rewrite Mk in Y. now apply String.eqb_eq. }
      subst k. rewrite (solve_one_get _ _ _ _ _ _ S), (solve_one_get _ _ _ _ _ _ S2) by (apply mem_str_false; reflexivity).
      rewrite !dget_dset_other by discriminate. rewrite F, F2, !flag_row_get by discriminate. rewrite !dget_dset_other by discriminate. exact Ep.
  - intros r r2 B D.
    destruct (One j r r2 B D) as (r0 & rr & rr2 & p & p2 & y & y2 & m & m2 & K & K' & P & P2 & R1 & R2 & S & S2 & F & F2 & G & G2).
    rewrite Nat.eqb_refl in *. split.
    + destruct (cal_row e kw _ _ rr2 r2 m2 K' R2 S2) as (q & z2 & Pq & _ & _ & _ & _ & Ag2). rewrite P2 in Pq. apply ok_inj in Pq. subst q.
      rewrite Ag2 by (right; left; reflexivity). rewrite (prep_row_get e _ _ p2 _ P2) by (apply mem_str_false; reflexivity). apply dget_dset_same.
    + intros h h' Gh Gh'. rewrite G in Gh by (cbn; tauto). rewrite G2 in Gh' by (cbn; tauto). rewrite G, G2 by (cbn; tauto).
      rewrite F, F2 in *. rewrite flag_row_get in Gh, Gh' by discriminate. rewrite dget_dset_same in Gh, Gh'.
      apply some_inj in Gh, Gh'. injection Gh as ->. injection Gh' as ->.
      unfold flag_row. cbv zeta. destruct (mem_str "reference_good" (f_cols ds)).
      * assert (Gp : dget "reference_good" p2 = dget "reference_good" p) by (apply (prep_set e (f_cols ds) r0 p p2 _ _ K Mc ltac:(cbn; tauto) P P2); discriminate).
        destruct (mem_str "analysis_batch" (f_cols ds)); rewrite !dget_dset_other by discriminate; exact Gp.
      * rewrite !dget_dset_same. do 2 f_equal. unfold cell.
        destruct (mem_str "analysis_batch" (f_cols ds)); rewrite ?(dget_dset_other _ "analysis_batch") by discriminate; rewrite !dget_dset_same; reflexivity.
Qed.

(* only the batch of the reference is touched *)
Theorem C137_only_its_batch : forall (e : env xr) kw ds d1 d2 j x, is_table ds -> In "alkalinity_certified" (f_cols ds) ->
  calibrate e kw ds = Ok d1 -> calibrate e kw (recertify j x ds) = Ok d2 ->
  n_rows d2 = n_rows d1 /\
  (forall i, i <> j -> value d2 i "titrant_molinity_here" = value d1 i "titrant_molinity_here") /\
  (forall i, i <> j -> ~ same_batch d1 i j -> forall c, value d2 i c = value d1 i c).
Proof.
  intros e kw ds d1 d2 j x W Mc E E2. destruct (same_inputs e kw ds d1 d2 j x W Mc E E2) as (_ & Hb & _).
  destruct (other_batches e kw ds d1 d2 j _ _ W E E2 Hb) as (L & O & B). split; [exact L|]. split; [|exact B].
  intros i Ni. apply O; [exact Ni|cbn; tauto].
Qed.

(* A reference with certified value x, in a batch of n references, is given the value x' instead: its own molinity moves by
   (x' - x) / k, that of the batch by an n-th of this, and the alkalinity of every titration of the batch in proportion. *)
Theorem C137_shared : forall (e : env xr) kw ds d1 d2 j b x x' m m' k k' xs r r2,
  is_table ds -> NoDup (dkeys kw) -> In "alkalinity_certified" (f_cols ds) ->
  all_cells ds "reference_good" (fun v => is_null v \/ exists g : bool, v = VBool g) ->
  calibrate e kw ds = Ok d1 -> calibrate e kw (recertify j x' ds) = Ok d2 ->
  (* row j is one of the references of batch b, calibrated exactly in both runs *)
  batch_references d1 b = map Fin xs ->
  nth_error (f_rows d1) j = Some r -> good_reference b r = [Fin m] -> solved_reference e kw r x m k -> k <> 0 ->
  nth_error (f_rows d2) j = Some r2 -> solved_reference e kw r2 x' m' k' ->
  m' = m + (x' - x) / k /\
  forall i mb, value d1 i "analysis_batch" = Some b -> value d1 i "titrant_molinity" = Some (VNum (Fin mb)) ->
    let mb' := mb + (x' - x) / k / INR (length xs) in
    value d2 i "titrant_molinity" = Some (VNum (Fin mb')) /\
    forall ri a a' ki, nth_error (f_rows d1) i = Some ri -> solved_sample e kw ri mb a ki ->
      value d1 i "alkalinity" = Some (VNum (Fin a)) -> value d2 i "alkalinity" = Some (VNum (Fin a')) ->
      a' = a + ki / k * ((x' - x) / INR (length xs)).
Proof.
  intros e kw ds d1 d2 j b x x' m m' k k' xs r r2 W Wk Mc F E E2 Br Ir Gr Q Nk I2 Q2.
  destruct (same_inputs e kw ds d1 d2 j x' W Mc E E2) as (L & Hb & Si & Sj). destruct (Sj r r2 Ir I2) as (Gc2 & Sf).
  destruct (other_batches e kw ds d1 d2 j _ _ W E E2 Hb) as (_ & O & _).
  assert (Wr : is_table (recertify j x' ds)).
  { split; [exact (proj1 W)|]. intros y Iy. cbn [recertify set_cell with_rows f_rows f_cols] in *. destruct (in_update _ _ _ _ Iy) as [I|(z & I & ->)]; [now apply W|].
    rewrite dkeys_dset, (proj2 W z I). apply addc_in. now apply mem_str_spec. }
  assert (Fr : all_cells (recertify j x' ds) "reference_good" (fun v => is_null v \/ exists g, v = VBool g)).
  { intros y v Iy G. destruct (in_update _ _ _ _ Iy) as [I|(z & I & ->)]; [exact (F y v I G)|]. rewrite dget_dset_other in G by discriminate. exact (F z v I G). }
  assert (Em : m' = m + (x' - x) / k).
  { destruct Q as (O1 & Gc & Gh & f & s & g & kwr & Gf & Gs & Gg & Tg & St & Dl & Nt & Ex & Re).
    destruct Q2 as (O2 & _ & Gh2 & f2 & s2 & g2 & kwr2 & Gf2 & Gs2 & Gg2 & Tg2 & St2 & Dl2 & Nt2 & Ex2 & Re2).
    assert (f2 = f /\ s2 = s) as [-> ->].
    { rewrite (Si j r r2 Ir I2 "file_name") in Gf2 by (apply mem_str_spec; reflexivity). rewrite (Si j r r2 Ir I2 "salinity") in Gs2 by (apply mem_str_spec; reflexivity). split; congruence. }
    destruct (calibrated_at e kw ds d1 j r f s g x m kwr W Wk E Ir O1 Gc Gh Gf Gs Gg Tg
      (settings_sub _ _ _ _ _ (fun k K => in_or_app _ _ _ (or_introl K)) St) Dl Nt Ex) as (sr & Es & Ax).
    destruct (calibrated_at e kw _ d2 j r2 f s g2 x' m' kwr2 Wr Wk E2 I2 O2 Gc2 Gh2 Gf2 Gs2 Gg2 Tg2
      (settings_sub _ _ _ _ _ (fun k K => in_or_app _ _ _ (or_introl K)) St2) Dl2 Nt2 Ex2) as (sr2 & Es2 & Ax2).
    assert (Qs := same_solution e f (VNum (Fin m')) s kw r r2 kwr kwr2 Wk (fun k K => Si j r r2 Ir I2 k (in_or_app _ _ _ (or_intror K)))
      (settings_sub _ _ _ _ _ (fun k K => in_or_app _ _ _ (or_intror K)) St) (settings_sub _ _ _ _ _ (fun k K => in_or_app _ _ _ (or_intror K)) St2)).
    rewrite Es2 in Qs. destruct (files_solve e f (VNum (Fin m')) s kwr) as [sr'|] eqn:Es'; cbn [req] in Qs; [subst sr'|contradiction].
    assert (D := moved e f s kwr m m' x x' k sr sr2 Nt Es Ax Es' Ax2 Re). rewrite D. field. exact Nk. }
  split; [exact Em|]. intros i mb Vb Vm mb'. assert (Emb : mb' = mb + (x' - x) / k / INR (length xs)) by reflexivity. clearbody mb'.
  assert (Vb2 : value d2 i "analysis_batch" = Some b).
  { destruct (Nat.eq_dec i j) as [->|Ni]; [now rewrite Hb|]. rewrite O; [exact Vb|exact Ni|cbn; tauto]. }
  assert (Gr2 : good_reference b r2 = [Fin m']).
  { destruct Q as (_ & _ & Gh & _). destruct Q2 as (_ & _ & Gh2 & _). assert (Gg := Sf m m' Gh Gh2).
    unfold value in Hb. rewrite Ir, I2 in Hb. revert Gr. unfold good_reference. rewrite Hb, Gg, Gh, Gh2.
    destruct (dget "analysis_batch" r); [|discriminate]. destruct (dget "reference_good" r) as [[|[|]| | | | |]|]; try discriminate.
    destruct (key_eqb _ b); [reflexivity|discriminate]. }
  destruct (flat_map_swap (good_reference b) j (f_rows d1) (f_rows d2) r r2) as (P & Q' & E1' & E2'); auto.
  { intros n y z Nn Iy Iz. unfold good_reference.
    assert (Y : forall c, In c ["titrant_molinity_here"; "analysis_batch"; "reference_good"] -> dget c z = dget c y) by (intros c Ic; specialize (O n c Nn Ic); unfold value in O; now rewrite Iy, Iz in O).
    now rewrite !Y by (cbn; tauto). }
  rewrite Gr in E1'. rewrite Gr2 in E2'. cbn [app] in E1', E2'.
  assert (Br' := Br). unfold batch_references in Br'. rewrite E1' in Br'. symmetry in Br'.
  destruct (map_fin_app [] P (Fin m :: Q') xs Br') as (p & q' & -> & -> & Eq).
  destruct q' as [|x0 q]; [discriminate|]. cbn [map] in Eq. assert (Fin m = Fin x0) by exact (f_equal (hd NaN) Eq).
  assert (EQ : Q' = map Fin q) by exact (f_equal (@tl xr) Eq). assert (x0 = m) by (symmetry; now apply fin_inj). subst x0 Q'.
  assert (B2 : batch_references d2 b = map Fin (p ++ m' :: q)) by (unfold batch_references; rewrite E2'; now rewrite map_app).
  assert (Lp : 0 < INR (length (p ++ m :: q))) by (apply lt_0_INR; rewrite app_length; cbn; lia).
  assert (Ll : length (p ++ m' :: q) = length (p ++ m :: q)) by (rewrite !app_length; reflexivity).
  assert (Vm2 : value d2 i "titrant_molinity" = Some (VNum (Fin mb'))).
  { rewrite (C53_batch_mean_real e kw _ d2 i b (p ++ m' :: q) Wr Fr E2 Vb2 B2). rewrite Ll.
    rewrite (C53_batch_mean_real e kw ds d1 i b (p ++ m :: q) W F E Vb Br) in Vm. apply some_inj in Vm.
    assert (Vm' : (if p ++ m :: q then NaN else Fin (fold_right Rplus 0 (p ++ m :: q) / INR (length (p ++ m :: q)))) = Fin mb) by exact (f_equal (fun v => match v with VNum y => y | _ => NaN end) Vm).
    assert (Nil : forall z, p ++ z :: q <> []) by (intros z; destruct p; discriminate).
    destruct (p ++ m :: q) as [|u us] eqn:U; [now destruct (Nil m)|]. apply fin_inj in Vm'. rewrite <- U in *. clear u us U.
    destruct (p ++ m' :: q) as [|u us] eqn:U; [now destruct (Nil m')|]. rewrite <- U in *. clear u us U.
    do 3 f_equal. rewrite Emb. rewrite <- Vm', Em, !sum_app. cbn [fold_right]. field. split; first [exact Nk|lra]. }
  split; [exact Vm2|]. intros ri a a' ki Ni (O1 & f & s & g & kwr & Gf & Gs & Gg & Tg & St & Nt & Re) Va Va2.
  assert (N2 : exists ri2, nth_error (f_rows d2) i = Some ri2).
  { destruct (nth_error (f_rows d2) i) as [ri2|] eqn:D; [eauto|]. unfold value in Va2. rewrite D in Va2. discriminate. }
  destruct N2 as (ri2 & Ni2). assert (S := Si i ri ri2 Ni Ni2).
  apply calibrate_inv in E. destruct E as (e1 & E1 & Es1). apply calibrate_inv in E2. destruct E2 as (e2 & Ec2 & Es2).
  assert (W1 := wff_calibrate_only e kw _ e1 W E1). assert (W2 := wff_calibrate_only e kw _ e2 Wr Ec2).
  assert (O2 : without_old_names kw ri2) by (destruct O1 as [A B]; split; [exact A|]; now rewrite S by (apply mem_str_spec; reflexivity)).
  assert (St2 : settings_of solve_settings kw ri2 kwr).
  { destruct St as [A B]. split; [exact A|]. intros c Ic. rewrite (B c Ic). unfold chosen. rewrite S; [reflexivity|].
    apply in_or_app. right. now apply settings_solve. }
  assert (Y : forall d e0 (rr : row xr) z y, is_table e0 -> solve e kw e0 = Ok d -> nth_error (f_rows d) i = Some rr -> without_old_names kw rr ->
     settings_of solve_settings kw rr kwr -> dget "file_name" rr = Some f -> dget "salinity" rr = Some s -> dget "file_good" rr = Some g ->
     value d i "titrant_molinity" = Some (VNum (Fin z)) -> value d i "alkalinity" = Some (VNum (Fin y)) ->
     exists sr, files_solve e f (VNum (Fin z)) s kwr = Ok sr /\ sr_alkalinity sr = Fin y).
  { intros d e0 rr z y We Ee Nr Or Sr Gf' Gs' Gg' Vz Vy.
    assert (Gz : dget "titrant_molinity" rr = Some (VNum (Fin z))) by (unfold value in Vz; now rewrite Nr in Vz).
    destruct (C111_rows_report_solutions e kw e0 d i rr kwr f (VNum (Fin z)) s g We Wk Ee Nr Or Sr Gf' Gz Gs' Gg') as [R1 R2].
    destruct (files_solve e f (VNum (Fin z)) s kwr) as [sb|err] eqn:Eb.
    - exists sb. split; [reflexivity|].
      assert (V : value d i "alkalinity" = Some (VNum (sr_alkalinity sb))) by (apply (R1 ltac:(discriminate) Tg sb eq_refl); destruct sb; cbn [reported In sr_alkalinity]; left; reflexivity).
      rewrite Vy in V. apply some_inj in V. now injection V as <-.
    - exfalso. assert (B : is_blank d i) by (apply R2; right; right; eauto).
      assert (Vy' : value d i "alkalinity" = Some (VNum NaN)) by (apply B; cbn; tauto). rewrite Vy in Vy'. discriminate. }
  destruct (Y d1 e1 ri mb a W1 Es1 Ni O1 St Gf Gs Gg Vm Va) as (sr1 & F1 & A1).
  destruct (Y d2 e2 ri2 mb' a' W2 Es2 Ni2 O2 St2) as (sr2 & F2 & A2); [rewrite S by (apply mem_str_spec; reflexivity); assumption..|exact Vm2|exact Va2|].
  assert (D := moved e f s kwr mb mb' a a' ki sr1 sr2 Nt F1 A1 F2 A2 Re). rewrite Emb in D.
  replace a' with (a + (a' - a)) by ring. rewrite D. field. split; first [exact Nk|lra].
Qed.

(* ------------------------------------------------------------------ *)
(** * Two references, the second of which had a wrong certified value *)

Lemma wf_sample ds' i r y m mb d : line_at d -> ref_facts ds' i r y m mb d -> solved_sample sec_env [] r mb (500000 * mb + d) 500000.
Proof.
  intros L F. destruct (wf_facts 2) as (Mi & Nt & Dl & Wi). assert (Ag := rf_settings _ _ _ _ _ _ _ F). assert (Ah := rf_inputs _ _ _ _ _ _ _ F).
  split; [split; [reflexivity|]; now rewrite (Ah "read_dat_method") by (cbn [In]; tauto)|].
  exists (VStr "gen.dat"), (VInt 35), (VBool true), (wf_kw 2).
  split; [now rewrite (Ah "file_name") by (cbn [In]; tauto)|]. split; [now rewrite (Ah "salinity") by (cbn [In]; tauto)|].
  split; [now rewrite (Ah "file_good") by (cbn [In]; tauto)|]. split; [reflexivity|].
  split; [|split; [exact Nt|]].
  - split; [repeat constructor; cbn; intuition discriminate|]. intros k I. unfold chosen. rewrite (Ag k (in_or_app _ _ _ (or_intror I))).
    cbn in I. repeat (destruct I as [<-|I]; [reflexivity|]). destruct I.
  - left. split; [exact Mi|]. destruct (L mb) as (q & E & S & A & _).
    exists q, [0; 1], [3.5; 3.6], 2, 3.55, 4, 1. split; [exact E|]. split; [exact S|]. split; [exact Wi|]. rewrite A. lra.
Qed.

(* the first titration moves by half of the error *)
Example C137_nonvacuous y1 y2 y2' : exists d1 d2 m1 m2 m2' r r2 r0 a,
  is_table (two_refs y1 y2) /\ In "alkalinity_certified" (f_cols (two_refs y1 y2)) /\
  all_cells (two_refs y1 y2) "reference_good" (fun v => is_null v \/ exists g : bool, v = VBool g) /\
  calibrate sec_env [] (two_refs y1 y2) = Ok d1 /\ calibrate sec_env [] (recertify 1 y2' (two_refs y1 y2)) = Ok d2 /\
  batch_references d1 (VInt 1) = map Fin [m1; m2] /\
  nth_error (f_rows d1) 1 = Some r /\ good_reference (VInt 1) r = [Fin m2] /\ solved_reference sec_env [] r y2 m2 500000 /\
  nth_error (f_rows d2) 1 = Some r2 /\ solved_reference sec_env [] r2 y2' m2' 500000 /\
  value d1 0 "analysis_batch" = Some (VInt 1) /\ value d1 0 "titrant_molinity" = Some (VNum (Fin ((m1 + m2) / 2))) /\
  nth_error (f_rows d1) 0 = Some r0 /\ solved_sample sec_env [] r0 ((m1 + m2) / 2) a 500000 /\
  value d1 0 "alkalinity" = Some (VNum (Fin a)) /\ value d2 0 "alkalinity" = Some (VNum (Fin (a + (y2' - y2) / 2))).
Proof.
  destruct wf_line as (d & L). destruct (two_refs_run d y1 y2 L) as (d1 & r0 & r1 & m1 & m2 & E & Rs & F0 & F1).
  destruct (two_refs_run d y1 y2' L) as (d2 & s0 & s1 & n1 & n2 & E2 & Rs2 & H0 & H1).
  destruct (two_refs_table y1 y2) as [W RG].
  exists d1, d2, m1, m2, n2, r1, s1, r0, (500000 * ((m1 + m2) / 2) + d).
  assert (S0 := wf_sample _ _ _ _ _ _ _ L F0).
  destruct F0 as [N0 G0 Q0 _ _ Y0 B0 Vm0 Va0]. destruct F1 as [N1 G1 Q1 _ _ Y1 B1 Vm1 Va1].
  destruct H0 as [N0' G0' Q0' _ _ Y0' B0' Vm0' Va0']. destruct H1 as [N1' G1' Q1' _ _ Y1' B1' Vm1' Va1'].
  split; [exact W|]. split; [cbn; tauto|]. split; [exact RG|]. split; [exact E|]. split; [exact E2|].
  split; [unfold batch_references; rewrite Rs; cbn [flat_map]; rewrite G0, G1; reflexivity|].
  repeat (split; [assumption|]). rewrite Va0'. do 3 f_equal. lra.
Qed.
