(* CalProofs.v -- calibrate, row by row and batch by batch *)
From Verif Require Import Dataset DictLemmas SettingsProofs PropSettings DatasetProofs RowProofs.
Open Scope list_scope.
Open Scope string_scope.

Section C.
Context {T : Type} `{Num T}.

Lemma solve_inv e kw (ds ds' : frame T) :
  solve e kw ds = Ok ds' <->
  solve_ok kw (f_cols ds) = true /\ f_cols ds' = solve_cols (f_cols ds) /\
  mapM (solve_one e kw (f_cols ds)) (f_rows ds) = Ok (f_rows ds').
Proof.
  pose proof (solve_rowwise e kw ds) as R. unfold rowwise in R. split.
  - intros E. rewrite E in R. destruct (solve_ok kw (f_cols ds)); [|easy].
    destruct (mapM _ _) as [rows|]; cbn in R; [|easy]. subst ds'. auto.
  - intros (O & C & M). rewrite O, M in R. cbn [bind] in R. destruct (solve e kw ds); [|easy].
    cbn in R. subst. rewrite <- C. now destruct ds'.
Qed.

Definition flag_row (cols : list string) (r : row T) : row T :=
  let r2 := if mem_str "analysis_batch" cols then r else dset "analysis_batch" (VInt 0) r in
  if mem_str "reference_good" cols then r2
  else dset "reference_good" (VBool (notnull (cell "titrant_molinity_here" r2))) r2.

Definition ref_one (e : env T) (kw : kwargs T) (cols : list string) (r : row T) : res (row T) :=
  r1 <- prep_row e cols r ;;
  x <- calibrate_row e kw r1 ;;
  Ok (flag_row cols (dset "titrant_molinity_here" (VNum x) r1)).

Definition ref_cols (cols : list string) : list string :=
  addc "reference_good" (addc "analysis_batch" (addc "titrant_molinity_here" (prep_cols cols))).

Definition calibrate_ok (cols : list string) : bool := prepare_ok cols && mem_str "alkalinity_certified" cols.

Lemma calibrate_only_spec e kw (ds : frame T) :
  req (calibrate_only e kw ds)
      (if calibrate_ok (f_cols ds) then
         rows <- mapM (ref_one e kw (f_cols ds)) (f_rows ds) ;;
         ms <- mapM (batch_molinity rows) rows ;;
         Ok {| f_cols := addc "titrant_molinity" (ref_cols (f_cols ds));
               f_rows := map2 (fun r m => dset "titrant_molinity" (VNum m) r) rows ms |}
       else Err AssertionError).
Proof.
  unfold calibrate_only, calibrate_ok.
  eapply req_trans; [apply req_bind1, prepare_rowwise|].
  set (cols := f_cols ds). set (rows := f_rows ds).
  destruct (prepare_ok cols) eqn:PO; cbn [andb]; [|exact I].
  set (g2 := fun r1 => x <- calibrate_row e kw r1 ;; Ok (dset "titrant_molinity_here" (VNum x) r1)).
  eapply (req_trans _ (d <- rowwise (prep_cols cols) (prep_row e cols) rows ;;
     if mem_str "alkalinity_certified" cols
     then d2 <- rowwise (addc "titrant_molinity_here" (prep_cols cols)) g2 (f_rows d) ;;
          d3 <- rowwise (ref_cols cols) (fun r => Ok (flag_row cols r)) (f_rows d2) ;;
          ms <- mapM (batch_molinity (f_rows d3)) (f_rows d3) ;;
          Ok (set_col_list "titrant_molinity" (map VNum ms) d3)
     else Err AssertionError)).
  - apply req_bind_ok. intros ds1 E1.
    assert (C1 : f_cols ds1 = prep_cols cols).
    { unfold rowwise in E1. destruct (mapM (prep_row e cols) rows); cbn [bind] in E1; [|discriminate]. now injection E1 as <-. }
    unfold has at 1. rewrite C1, mem_prep_cols.
    replace (mem_str "alkalinity_certified" ["opt_total_borate"; "total_sulfate"; "total_borate"; "total_fluoride"; "analyte_mass"; "file_good"]) with false by reflexivity.
    rewrite orb_false_r. destruct (mem_str "alkalinity_certified" cols); cbn [assert_ bind]; [|exact I].
    assert (S2 : rowwise (addc "titrant_molinity_here" (prep_cols cols)) g2 (f_rows ds1) =
                 (here <- mapM (calibrate_row e kw) (f_rows ds1) ;; Ok (set_col_list "titrant_molinity_here" (map VNum here) ds1))).
    { rewrite <- C1. transitivity (vs <- mapM (fun r => x <- calibrate_row e kw r ;; Ok (VNum x)) (f_rows ds1) ;; Ok (set_col_list "titrant_molinity_here" vs ds1)).
      - rewrite set_col_list_rowwise. apply rowwise_ext. intros r _. unfold g2. now destruct (calibrate_row e kw r).
      - assert (M : mapM (fun r => x <- calibrate_row e kw r ;; Ok (VNum x)) (f_rows ds1) = (l <- mapM (calibrate_row e kw) (f_rows ds1) ;; Ok (map VNum l))).
        { generalize (f_rows ds1). intros l. induction l as [|r l IH]; [reflexivity|]. cbn [mapM]. rewrite IH.
          destruct (calibrate_row e kw r); cbn [bind]; [|reflexivity]. now destruct (mapM (calibrate_row e kw) l). }
        rewrite M. now destruct (mapM (calibrate_row e kw) (f_rows ds1)). }
    rewrite S2. destruct (mapM (calibrate_row e kw) (f_rows ds1)) as [here|]; cbn [bind]; [|exact I].
    set (ds2 := set_col_list "titrant_molinity_here" (map VNum here) ds1).
    assert (C2 : f_cols ds2 = addc "titrant_molinity_here" (prep_cols cols)) by (unfold ds2; now rewrite set_col_list_cols, C1).
    unfold rowwise. rewrite mapM_pure. cbn [bind].
    assert (HM : has "analysis_batch" ds2 = mem_str "analysis_batch" cols).
    { unfold has. rewrite C2, mem_addc, mem_prep_cols.
      replace (mem_str "analysis_batch" ["opt_total_borate"; "total_sulfate"; "total_borate"; "total_fluoride"; "analyte_mass"; "file_good"]) with false by reflexivity.
      replace (String.eqb "analysis_batch" "titrant_molinity_here") with false by reflexivity. now rewrite !orb_false_r. }
    rewrite HM. set (ds3 := if mem_str "analysis_batch" cols then ds2 else _).
    assert (C3 : f_cols ds3 = addc "analysis_batch" (addc "titrant_molinity_here" (prep_cols cols))).
    { unfold ds3. destruct (mem_str "analysis_batch" cols) eqn:AB; [|now rewrite set_col_cols, C2].
      rewrite C2. symmetry. apply addc_mem. now rewrite mem_addc, mem_prep_cols, AB. }
    assert (HR : has "reference_good" ds3 = mem_str "reference_good" cols).
    { unfold has. rewrite C3, !mem_addc, mem_prep_cols.
      replace (mem_str "reference_good" ["opt_total_borate"; "total_sulfate"; "total_borate"; "total_fluoride"; "analyte_mass"; "file_good"]) with false by reflexivity.
      replace (String.eqb "reference_good" "titrant_molinity_here") with false by reflexivity.
      replace (String.eqb "reference_good" "analysis_batch") with false by reflexivity. now rewrite !orb_false_r. }
    rewrite HR. set (ds4 := if mem_str "reference_good" cols then ds3 else _).
    assert (E4 : ds4 = {| f_cols := ref_cols cols; f_rows := map (flag_row cols) (f_rows ds2) |}).
    { assert (C4 : f_cols ds4 = ref_cols cols).
      { unfold ds4, ref_cols. destruct (mem_str "reference_good" cols) eqn:RG; [|now rewrite set_col_cols, C3].
        rewrite C3. symmetry. apply addc_mem. now rewrite !mem_addc, mem_prep_cols, RG. }
      assert (R4 : f_rows ds4 = map (flag_row cols) (f_rows ds2)).
      { unfold ds4, ds3, flag_row. destruct (mem_str "reference_good" cols), (mem_str "analysis_batch" cols); cbn [set_col f_rows].
        - now rewrite map_id.
        - reflexivity.
        - reflexivity.
        - rewrite map_map. reflexivity. }
      rewrite <- C4, <- R4. now destruct ds4. }
    rewrite <- E4. apply req_refl.
  - destruct (mem_str "alkalinity_certified" cols); [|destruct (rowwise _ _ _); exact I].
    set (final := fun d3 : frame T => ms <- mapM (batch_molinity (f_rows d3)) (f_rows d3) ;; Ok (set_col_list "titrant_molinity" (map VNum ms) d3)).
    eapply (req_trans _ (d3 <- (d <- rowwise (prep_cols cols) (prep_row e cols) rows ;;
              (d2 <- rowwise (addc "titrant_molinity_here" (prep_cols cols)) g2 (f_rows d) ;;
               rowwise (ref_cols cols) (fun r => Ok (flag_row cols r)) (f_rows d2))) ;; final d3)).
    { destruct (rowwise (prep_cols cols) (prep_row e cols) rows); cbn [bind]; [|exact I].
      destruct (rowwise _ g2 _); cbn [bind]; [|exact I]. apply req_refl. }
    eapply req_trans.
    { apply req_bind1. eapply req_trans; [apply req_bind_ok; intros d _; apply rowwise_comp|]. apply rowwise_comp. }
    rewrite (rowwise_ext _ _ (ref_one e kw cols)).
    2:{ intros r _. unfold ref_one, g2. destruct (prep_row e cols r); cbn [bind]; [|reflexivity]. now destruct (calibrate_row e kw _). }
    unfold rowwise. destruct (mapM (ref_one e kw cols) rows) as [l|]; cbn [bind f_rows]; [|exact I].
    unfold final. cbn [f_rows]. destruct (mapM (batch_molinity l) l) as [ms|]; cbn [bind]; [|exact I].
    apply req_eq. f_equal. unfold set_col_list. cbn [f_cols f_rows has]. f_equal.
    now rewrite map2_map_r.
Qed.

Lemma calibrate_only_inv e kw (ds ds' : frame T) :
  calibrate_only e kw ds = Ok ds' <->
  calibrate_ok (f_cols ds) = true /\ f_cols ds' = addc "titrant_molinity" (ref_cols (f_cols ds)) /\
  exists rows ms, mapM (ref_one e kw (f_cols ds)) (f_rows ds) = Ok rows /\ mapM (batch_molinity rows) rows = Ok ms /\
    f_rows ds' = map2 (fun r m => dset "titrant_molinity" (VNum m) r) rows ms.
Proof.
  pose proof (calibrate_only_spec e kw ds) as R. split.
  - intros E. rewrite E in R. destruct (calibrate_ok (f_cols ds)); [|easy].
    destruct (mapM (ref_one e kw (f_cols ds)) (f_rows ds)) as [rows|]; cbn [bind] in R; [|easy].
    destruct (mapM (batch_molinity rows) rows) as [ms|] eqn:M; cbn [bind] in R; [|easy]. cbn in R. subst ds'.
    split; [reflexivity|]. split; [reflexivity|]. exists rows, ms. auto.
  - intros (O & C & rows & ms & E1 & E2 & E3). rewrite O, E1 in R. cbn [bind] in R. rewrite E2 in R. cbn [bind] in R.
    destruct (calibrate_only e kw ds); [|easy]. cbn in R. subst. rewrite <- C, <- E3. now destruct ds'.
Qed.

Lemma calibrate_inv e kw (ds ds' : frame T) :
  calibrate e kw ds = Ok ds' <-> exists ds1, calibrate_only e kw ds = Ok ds1 /\ solve e kw ds1 = Ok ds'.
Proof.
  unfold calibrate. split.
  - intros E. destruct (calibrate_only e kw ds) as [ds1|]; cbn [bind] in E; [|discriminate]. eauto.
  - intros (ds1 & E1 & E2). now rewrite E1.
Qed.

(* ------------------------------------------------------------------ *)
(** * Doing it again *)

Lemma mapM_Forall2 {A B} (f : A -> res B) l l' : mapM f l = Ok l' <-> Forall2 (fun x y => f x = Ok y) l l'.
Proof.
  split.
  - revert l'. induction l as [|x l IH]; intros l' E; cbn [mapM] in E.
    + injection E as <-. constructor.
    + destruct (f x) as [y|] eqn:F; cbn [bind] in E; [|discriminate].
      destruct (mapM f l) as [ys|]; cbn [bind] in E; [|discriminate]. injection E as <-. constructor; auto.
  - induction 1 as [|x y l l' F _ IH]; cbn [mapM]; [reflexivity|]. now rewrite F, IH.
Qed.

Lemma Forall2_refl {A} (R : A -> A -> Prop) l : (forall x, In x l -> R x x) -> Forall2 R l l.
Proof. induction l as [|x l IH]; intros A0; constructor; [apply A0; now left|apply IH; intros y I; apply A0; now right]. Qed.

Lemma Forall2_in_r {A B} (R : A -> B -> Prop) l l' y : Forall2 R l l' -> In y l' -> exists x, In x l /\ R x y.
Proof. induction 1 as [|a b l l' Ra _ IH]; cbn; [tauto|]. intros [<-|I]; [eauto|]. destruct (IH I) as (x & I' & Rx). eauto. Qed.

Lemma Forall2_in_l {A B} (R : A -> B -> Prop) l l' x : Forall2 R l l' -> In x l -> exists y, In y l' /\ R x y.
Proof. induction 1 as [|a b l l' Ra _ IH]; cbn; [tauto|]. intros [<-|I]; [eauto|]. destruct (IH I) as (y & I' & Rx). eauto. Qed.

Lemma Forall2_nth {A B} (R : A -> B -> Prop) l l' i x : Forall2 R l l' -> nth_error l i = Some x ->
  exists y, nth_error l' i = Some y /\ R x y.
Proof.
  intros F. revert i. induction F as [|a b l l' Ra _ IH]; intros [|i] E; cbn in *; try discriminate.
  - injection E as <-. eauto.
  - now apply IH.
Qed.

Lemma Forall2_comp {A B C} (R : A -> B -> Prop) (S : B -> C -> Prop) l1 l2 l3 :
  Forall2 R l1 l2 -> Forall2 S l2 l3 -> Forall2 (fun x z => exists y, R x y /\ S y z) l1 l3.
Proof. intros F. revert l3. induction F; intros l3 G; inversion G; subst; constructor; eauto. Qed.

Lemma Forall2_mono {A B} (R S : A -> B -> Prop) l l' :
  (forall x y, In x l -> In y l' -> R x y -> S x y) -> Forall2 R l l' -> Forall2 S l l'.
Proof.
  intros M F. induction F as [|x y l l' Rx F IH]; constructor.
  - apply M; auto; now left.
  - apply IH. intros a b Ia Ib. apply M; now right.
Qed.

Lemma Forall2_map2 {A B C} (f : A -> B -> C) l l' : length l = length l' ->
  Forall2 (fun x z => exists y, In (x, y) (combine l l') /\ z = f x y) l (map2 f l l').
Proof.
  revert l'. induction l as [|x l IH]; intros [|y l'] E; cbn in *; try discriminate; constructor.
  - exists y. auto.
  - eapply Forall2_mono; [|apply IH; now injection E]. intros a b _ _ (z & I & ->). exists z. auto.
Qed.

Lemma Forall2_combine {A B} (R : A -> B -> Prop) l l' x y : Forall2 R l l' -> In (x, y) (combine l l') -> R x y.
Proof. induction 1 as [|a b l l' Ra _ IH]; cbn; [tauto|]. intros [[= <- <-]|I]; auto. Qed.

Lemma flag_row_get cols (r : row T) k : k <> "analysis_batch" -> k <> "reference_good" -> dget k (flag_row cols r) = dget k r.
Proof.
  intros N1 N2. unfold flag_row. destruct (mem_str "reference_good" cols), (mem_str "analysis_batch" cols);
    rewrite ?dget_dset_other by assumption; reflexivity.
Qed.

Lemma flag_row_same cols (r : row T) : mem_str "analysis_batch" cols = true -> mem_str "reference_good" cols = true -> flag_row cols r = r.
Proof. intros A R. unfold flag_row. now rewrite A, R. Qed.

Lemma ref_one_inv e kw cols (r r' : row T) : ref_one e kw cols r = Ok r' ->
  exists r1 x, prep_row e cols r = Ok r1 /\ calibrate_row e kw r1 = Ok x /\ r' = flag_row cols (dset "titrant_molinity_here" (VNum x) r1).
Proof.
  unfold ref_one. intros E. destruct (prep_row e cols r) as [r1|]; cbn [bind] in E; [|discriminate].
  destruct (calibrate_row e kw r1) as [x|] eqn:S; cbn [bind] in E; [|discriminate]. injection E as <-. eauto.
Qed.

Lemma ref_one_keys e kw cols (r r' : row T) : dkeys r = cols -> ref_one e kw cols r = Ok r' -> dkeys r' = ref_cols cols.
Proof.
  intros K E. destruct (ref_one_inv _ _ _ _ _ E) as (r1 & x & P & _ & ->).
  assert (K1 := prep_row_keys e cols r r1 K P). unfold flag_row, ref_cols.
  set (c3 := addc "titrant_molinity_here" (prep_cols cols)).
  assert (K3 : dkeys (dset "titrant_molinity_here" (VNum x) r1) = c3) by (rewrite dkeys_dset, K1; reflexivity).
  assert (MA : mem_str "analysis_batch" cols = true -> addc "analysis_batch" c3 = c3).
  { intros M. apply addc_in. unfold c3. now rewrite mem_addc, mem_prep_cols, M. }
  assert (MR : mem_str "reference_good" cols = true -> forall c, mem_str "reference_good" c3 = true -> addc "reference_good" (addc c c3) = addc c c3).
  { intros M c M3. apply addc_in. now rewrite mem_addc, M3. }
  assert (M3 : mem_str "reference_good" cols = true -> mem_str "reference_good" c3 = true).
  { intros M. unfold c3. now rewrite mem_addc, mem_prep_cols, M. }
  destruct (mem_str "reference_good" cols) eqn:RG, (mem_str "analysis_batch" cols) eqn:AB; cbv zeta; rewrite ?dkeys_dset, K1; fold c3.
  - rewrite (MA eq_refl). symmetry. apply addc_in. auto.
  - symmetry. apply MR; auto.
  - now rewrite (MA eq_refl).
  - reflexivity.
Qed.

Lemma batch_agree (rows rows' : list (row T)) (r r' : row T) :
  Forall2 (fun a b => forall k, In k ["analysis_batch"; "reference_good"; "titrant_molinity_here"] -> cell k a = cell k b) rows rows' ->
  cell "analysis_batch" r = cell "analysis_batch" r' ->
  batch_molinity rows r = batch_molinity rows' r'.
Proof.
  intros F E. unfold batch_molinity. rewrite E. cbv zeta. set (k := cell "analysis_batch" r').
  assert (G : good_molinities (filter (in_batch k) rows) = good_molinities (filter (in_batch k) rows')).
  { clear - F. induction F as [|a b l l' A _ IH]; [reflexivity|]. cbn [filter].
    assert (B : in_batch k a = in_batch k b) by (unfold in_batch; now rewrite (A "analysis_batch") by (cbn; tauto)).
    rewrite B. destruct (in_batch k b); [|exact IH].
    cbn [good_molinities]. rewrite IH, (A "reference_good"), (A "titrant_molinity_here") by (cbn; tauto). reflexivity. }
  unfold get_group_calibration. rewrite G. reflexivity.
Qed.

Lemma solve_rows_inv e kw (ds ds' : frame T) r' : wff ds -> solve e kw ds = Ok ds' -> In r' (f_rows ds') ->
  exists r, In r (f_rows ds) /\ dkeys r = f_cols ds /\ solve_one e kw (f_cols ds) r = Ok r'.
Proof.
  intros [_ W] E I. apply solve_inv in E. destruct E as (_ & _ & M). apply mapM_Forall2 in M.
  destruct (Forall2_in_r _ _ _ _ M I) as (r & Ir & Er). exists r. auto.
Qed.

Lemma NoDup_prep cols : NoDup cols -> NoDup (prep_cols cols).
Proof. intros N. unfold prep_cols, salt_cols, salts. cbn [fold_left]. repeat apply NoDup_addc. exact N. Qed.
Lemma NoDup_outc cols : NoDup cols -> NoDup (outc cols).
Proof.
  unfold outc. generalize output_cols. intros ks. revert cols. induction ks as [|x ks IH]; intros cols N; cbn [fold_left]; [exact N|].
  apply IH. now apply NoDup_addc.
Qed.
Lemma NoDup_solve_cols cols : NoDup cols -> NoDup (solve_cols cols).
Proof. intros N. unfold solve_cols. destruct (mem_str _ cols); [apply NoDup_addc|]; apply NoDup_outc, NoDup_prep, N. Qed.

Lemma wff_solve e kw (ds ds' : frame T) : wff ds -> solve e kw ds = Ok ds' -> wff ds'.
Proof.
  intros W E. assert (E' := E). apply solve_inv in E'. destruct E' as (_ & C & _). split.
  - rewrite C. apply NoDup_solve_cols, W.
  - intros r' I. destruct (solve_rows_inv e kw ds ds' r' W E I) as (r & _ & K & S). rewrite C. now apply (solve_one_keys e kw _ r).
Qed.

Lemma wff_calibrate_only e kw (ds ds' : frame T) : wff ds -> calibrate_only e kw ds = Ok ds' -> wff ds'.
Proof.
  intros [N W] E. apply calibrate_only_inv in E. destruct E as (_ & C & rows & ms & E1 & E2 & E3). split.
  - rewrite C. unfold ref_cols. do 4 apply NoDup_addc. now apply NoDup_prep.
  - rewrite C, E3. intros r' I. apply in_map2 in I. destruct I as (r & m & I & _ & ->).
    apply mapM_Forall2 in E1. destruct (Forall2_in_r _ _ _ _ E1 I) as (r0 & I0 & R0).
    rewrite dkeys_dset. f_equal. apply (ref_one_keys e kw _ r0); auto.
Qed.

Lemma solve_again e kw (ds ds' : frame T) : wff ds -> wfd kw -> solve e kw ds = Ok ds' -> solve e kw ds' = Ok ds'.
Proof.
  intros W Wk E. assert (E' := E). apply solve_inv in E'. destruct E' as (O & C & M). apply solve_inv. split; [|split].
  - rewrite C. unfold solve_ok, prepare_ok in *. rewrite !mem_solve_cols, !mem_prep_cols.
    apply andb_prop in O. destruct O as [O MT]. apply andb_prop in O. destruct O as [-> O].
    apply andb_prop in O. destruct O as [MS MM]. rewrite MT, MS. cbn [andb orb].
    apply orb_prop in MM. destruct MM as [-> | ->]; cbn [orb]; [reflexivity|]. now rewrite !orb_true_r.
  - rewrite C. now rewrite solve_cols_again.
  - rewrite C. apply mapM_Forall2, Forall2_refl. intros r' I.
    destruct (solve_rows_inv e kw ds ds' r' W E I) as (r & _ & K & S). now apply (solve_one_again e kw _ r).
Qed.

(* a row in the course of calibrate: the prepared row and the finished row agree on
   everything that calibrate_row reads *)
Lemma cal_row e kw cols (r0 rr r2 : row T) m : dkeys r0 = cols ->
  ref_one e kw cols r0 = Ok rr ->
  solve_one e kw (addc "titrant_molinity" (ref_cols cols)) (dset "titrant_molinity" (VNum m) rr) = Ok r2 ->
  exists r1 x, prep_row e cols r0 = Ok r1 /\ calibrate_row e kw r1 = Ok x /\
    dget "titrant_molinity_here" r2 = Some (VNum x) /\ dget "titrant_molinity" r2 = Some (VNum m) /\
    (forall k, In k ["analysis_batch"; "reference_good"; "titrant_molinity_here"] -> dget k r2 = dget k rr) /\
    (forall k, In k ("file_name" :: "alkalinity_certified" :: "salinity" :: "file_good" :: "read_dat_method" :: keys_calibrate) ->
               dget k r2 = dget k r1).
Proof.
  intros K E S. assert (Kr := ref_one_keys e kw cols r0 rr K E).
  destruct (ref_one_inv _ _ _ _ _ E) as (r1 & x & P & Cx & R). exists r1, x. do 2 (split; [assumption|]).
  assert (A : forall k, ~ In k solve_outputs -> k <> "titrant_molinity" -> dget k r2 = dget k rr).
  { intros k N N2. rewrite (solve_one_get _ _ _ _ _ k S N). now apply dget_dset_other. }
  split; [|split; [|split]].
  - rewrite (A "titrant_molinity_here") by (cbn; intuition discriminate). rewrite R, flag_row_get by discriminate. apply dget_dset_same.
  - rewrite (solve_one_get _ _ _ _ _ "titrant_molinity" S) by (cbn; intuition discriminate). apply dget_dset_same.
  - intros k I. apply A; cbn in I; destruct I as [<-|[<-|[<-|[]]]]; try discriminate; cbn; intuition discriminate.
  - (* the row is still prepared when solve gets it *)
    set (cr := addc "titrant_molinity" (ref_cols cols)) in *. set (rt := dset "titrant_molinity" (VNum m) rr) in *.
    assert (Art : forall k, ~ In k ["titrant_molinity"; "titrant_molinity_here"; "analysis_batch"; "reference_good"] -> dget k rt = dget k r1).
    { intros k N. unfold rt. rewrite dget_dset_other by (intros ->; apply N; cbn; tauto).
      rewrite R, flag_row_get, dget_dset_other by (intros ->; apply N; cbn; tauto). reflexivity. }
    assert (Pr : prepared e cr rt).
    { apply (prepared_agree e (prep_cols cols) _ r1); [now apply (prep_row_prepared e cols r0)|..].
      - intros k I. apply Art. intros I2. cbn in I, I2. intuition congruence.
      - intros k I. unfold cr, ref_cols. rewrite !mem_addc. cbn in I. destruct I as [<-|[<-|[<-|[]]]]; cbn [String.eqb Ascii.eqb Bool.eqb]; now rewrite !orb_false_r. }
    destruct (solve_one_inv _ _ _ _ _ S) as (r1' & d & P' & S' & F').
    rewrite (prepared_prep _ _ _ Pr) in P'. injection P' as <-.
    assert (M : dmem "analyte_mass" rt = true).
    { apply dget_in_keys. unfold rt. rewrite dkeys_dset, Kr. apply mem_str_spec. unfold ref_cols. rewrite !mem_addc, mem_prep_cols.
      replace (mem_str "analyte_mass" ["opt_total_borate"; "total_sulfate"; "total_borate"; "total_fluoride"; "analyte_mass"; "file_good"]) with true by reflexivity.
      now rewrite !orb_true_r. }
    intros k I. rewrite (solved_same_inputs e kw cr rt r2 rt d k (prepared_prep _ _ _ Pr) S' F' M).
    + apply Art.
      assert (X : forallb (fun k => negb (mem_str k ["titrant_molinity"; "titrant_molinity_here"; "analysis_batch"; "reference_good"]))
         ("file_name" :: "alkalinity_certified" :: "salinity" :: "file_good" :: "read_dat_method" :: keys_calibrate) = true) by reflexivity.
      rewrite forallb_forall in X. specialize (X k I). now apply negb_true_iff, mem_str_false in X.
    + do 5 (destruct I as [I|I]; [apply mem_str_spec; rewrite <- I; reflexivity|]). do 7 right.
      apply in_or_app. right. apply in_or_app. right. exact I.
Qed.

Lemma mem_ref_cols k cols : mem_str k (addc "titrant_molinity" (ref_cols cols)) =
  (mem_str k (prep_cols cols) || mem_str k ["titrant_molinity_here"; "analysis_batch"; "reference_good"; "titrant_molinity"])%bool.
Proof.
  unfold ref_cols. rewrite !mem_addc. cbn [mem_str existsb].
  destruct (mem_str k (prep_cols cols)), (String.eqb k "titrant_molinity_here"), (String.eqb k "analysis_batch"), (String.eqb k "reference_good"), (String.eqb k "titrant_molinity"); reflexivity.
Qed.

Lemma calibrate_again e kw (ds ds' : frame T) : wff ds -> wfd kw ->
  calibrate e kw ds = Ok ds' -> calibrate_only e kw ds' = Ok ds'.
Proof.
  intros W Wk E. apply calibrate_inv in E. destruct E as (ds1 & E1 & E2).
  assert (W1 := wff_calibrate_only e kw ds ds1 W E1).
  apply calibrate_only_inv in E1. destruct E1 as (O & C1 & rows & ms & Er & Em & R1).
  assert (E2' := E2). apply solve_inv in E2'. destruct E2' as (_ & C2 & M2).
  set (cols := f_cols ds) in *. set (c1 := addc "titrant_molinity" (ref_cols cols)) in *.
  rewrite C1 in *. rewrite R1 in M2.
  assert (L := mapM_ok _ _ _ Em). destruct L as [L _]. 
  apply mapM_Forall2 in M2. apply mapM_Forall2 in Er. assert (Em' := Em). apply mapM_Forall2 in Em'.
  (* the four stages of each row *)
  assert (F : Forall2 (fun rr r2 => exists r0 m, dkeys r0 = cols /\ ref_one e kw cols r0 = Ok rr /\
                 batch_molinity rows rr = Ok m /\
                 solve_one e kw c1 (dset "titrant_molinity" (VNum m) rr) = Ok r2) rows (f_rows ds')).
  { assert (G := Forall2_map2 (fun r m => dset "titrant_molinity" (VNum m) r) rows ms (eq_sym L)).
    pose proof (Forall2_comp _ _ _ _ _ G M2) as G2. eapply Forall2_mono; [|exact G2]. cbn.
    intros rr r2 I _ (rt & (m & Im & ->) & S). destruct (Forall2_in_r _ _ _ _ Er I) as (r0 & I0 & R0).
    exists r0, m. split; [now apply W|]. split; [exact R0|]. split; [|exact S].
    exact (Forall2_combine _ _ _ _ _ Em' Im). }
  assert (FA : Forall2 (fun a b => forall k, In k ["analysis_batch"; "reference_good"; "titrant_molinity_here"] -> cell k a = cell k b) rows (f_rows ds')).
  { eapply Forall2_mono; [|exact F]. cbn beta. intros rr r2 _ _ (r0 & m & K & R0 & _ & S) k I.
    destruct (cal_row e kw cols r0 rr r2 m K R0 S) as (r1 & x & _ & _ & _ & _ & A & _). unfold cell. now rewrite (A k I). }
  apply calibrate_only_inv. split; [|split].
  - rewrite C2. unfold calibrate_ok, prepare_ok in *. rewrite !mem_solve_cols, !mem_prep_cols. unfold c1. rewrite !mem_ref_cols, !mem_prep_cols.
    apply andb_prop in O. destruct O as [O MT].
    apply andb_prop in O. destruct O as [MS MM]. rewrite MT, MS. cbn [andb orb].
    apply orb_prop in MM. destruct MM as [-> | ->]; cbn [orb]; [reflexivity|].
    rewrite !orb_true_r. reflexivity.
  - assert (PC : prep_cols (f_cols ds') = f_cols ds').
    { assert (M : forall k, In k ["opt_total_borate"; "total_sulfate"; "total_borate"; "total_fluoride"; "analyte_mass"; "file_good"] -> mem_str k (f_cols ds') = true).
      { intros k I. rewrite C2, mem_solve_cols, mem_prep_cols. apply mem_str_spec in I. rewrite I. now rewrite orb_true_r. }
      unfold prep_cols, salt_cols, salts. cbn [fold_left].
      repeat rewrite (fun c => addc_in c (f_cols ds')) by (apply M; cbn; tauto). reflexivity. }
    assert (MR : forall k, In k ["titrant_molinity_here"; "analysis_batch"; "reference_good"; "titrant_molinity"] -> mem_str k (f_cols ds') = true).
    { intros k I. rewrite C2, mem_solve_cols, mem_prep_cols. unfold c1. rewrite mem_ref_cols. apply mem_str_spec in I. rewrite I. now rewrite orb_true_r. }
    unfold ref_cols. rewrite PC. repeat rewrite (fun c => addc_in c (f_cols ds')) by (apply MR; cbn; tauto). reflexivity.
  - exists (f_rows ds'), ms. split; [|split].
    + apply mapM_Forall2, Forall2_refl. intros r2 I. destruct (Forall2_in_r _ _ _ _ F I) as (rr & Irr & r0 & m & K & R0 & _ & S).
      destruct (cal_row e kw cols r0 rr r2 m K R0 S) as (r1 & x & P & Cx & Gh & Gm & _ & A).
      unfold ref_one. rewrite C2.
      assert (Kt : dkeys (dset "titrant_molinity" (VNum m) rr) = c1).
      { rewrite dkeys_dset. unfold c1. f_equal. now apply (ref_one_keys e kw cols r0). }
      rewrite (prepared_prep _ _ _ (prepared_solved e kw c1 _ r2 Kt S)). cbn [bind].
      rewrite (calibrate_row_agree e kw r2 r1 Wk) by exact A. rewrite Cx. cbn [bind].
      rewrite (dset_same_value _ _ _ Gh). f_equal. apply flag_row_same.
      * rewrite mem_solve_cols, mem_prep_cols. unfold c1. rewrite mem_ref_cols.
        replace (mem_str "analysis_batch" ["titrant_molinity_here"; "analysis_batch"; "reference_good"; "titrant_molinity"]) with true by reflexivity.
        now rewrite !orb_true_r.
      * rewrite mem_solve_cols, mem_prep_cols. unfold c1. rewrite mem_ref_cols.
        replace (mem_str "reference_good" ["titrant_molinity_here"; "analysis_batch"; "reference_good"; "titrant_molinity"]) with true by reflexivity.
        now rewrite !orb_true_r.
    + apply mapM_Forall2. 
      assert (G : Forall2 (fun a b => forall k, In k ["analysis_batch"; "reference_good"; "titrant_molinity_here"] -> cell k a = cell k b) rows (f_rows ds')) by exact FA.
      assert (X : forall l l' l2, Forall2 (fun a b => forall k, In k ["analysis_batch"; "reference_good"; "titrant_molinity_here"] -> cell k a = cell k b) l l' ->
              Forall2 (fun rr m => batch_molinity rows rr = Ok m) l l2 -> Forall2 (fun r2 m => batch_molinity (f_rows ds') r2 = Ok m) l' l2).
      { intros l l' l2 A. revert l2. induction A as [|a b l l' Ab _ IH]; intros l2 B; inversion B; subst; constructor; [|now apply IH].
        rewrite <- (batch_agree rows (f_rows ds') a b FA); [assumption|]. apply Ab. cbn; tauto. }
      eapply X; [exact FA|exact Em'].
    + assert (X : forall l l' l2, Forall2 (fun rr r2 => exists r0 m, dkeys r0 = cols /\ ref_one e kw cols r0 = Ok rr /\
                 batch_molinity rows rr = Ok m /\ solve_one e kw c1 (dset "titrant_molinity" (VNum m) rr) = Ok r2) l l' ->
              Forall2 (fun rr m => batch_molinity rows rr = Ok m) l l2 -> l' = map2 (fun r m => dset "titrant_molinity" (VNum m) r) l' l2).
      { intros l l' l2 A. revert l2. induction A as [|a b l l' Ab _ IH]; intros l2 B; inversion B; subst; [reflexivity|]. cbn [map2]. f_equal; [|now apply IH].
        destruct Ab as (r0 & m & K & R0 & Bm & S). destruct (cal_row e kw cols r0 a b m K R0 S) as (r1 & x & _ & _ & _ & Gm & _).
        symmetry. apply dset_same_value. rewrite Gm. congruence. }
      eapply X; [exact F|exact Em'].
Qed.

End C.
