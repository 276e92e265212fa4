(* PropDataset.v -- C48, C51, C52, C55, C56, C58, C59: solve and calibrate on whole tables *)
From Coq Require Import Permutation.
From Verif Require Import Dataset DictLemmas SettingsProofs PropSettings DatasetProofs RowProofs CalProofs.
From Verif Require Export SpecDataset.
Open Scope string_scope.
Open Scope list_scope.

Section P.
Context {T : Type} `{Num T}.

Lemma value_nth (ds : frame T) i r c : nth_error (f_rows ds) i = Some r -> value ds i c = dget c r.
Proof. unfold value. now intros ->. Qed.

(* ------------------------------------------------------------------ *)
(** * C51 *)

(* the results of a row are those of a table with that row only *)
Theorem C51_rows_independent : forall (e : env T) kw ds ds',
  solve e kw ds = Ok ds' ->
  n_rows ds' = n_rows ds /\
  forall i r, nth_error (f_rows ds) i = Some r ->
    exists r', nth_error (f_rows ds') i = Some r' /\
      solve e kw (with_rows ds [r]) = Ok (with_rows ds' [r']).
Proof.
  intros e kw ds ds' E. apply solve_inv in E. destruct E as (O & C & M).
  assert (M' := mapM_ok _ _ _ M). destruct M' as [L N]. split; [exact L|].
  intros i r I. destruct (N i r I) as (r' & I' & R). exists r'. split; [exact I'|].
  apply solve_inv. cbn [with_rows f_cols f_rows mapM]. rewrite R. auto.
Qed.

Lemma mapM_app {A B} (f : A -> res B) l l' : mapM f (l ++ l') = (a <- mapM f l ;; b <- mapM f l' ;; Ok (a ++ b)).
Proof.
  induction l as [|x l IH]; cbn [mapM app].
  - cbn [bind]. now destruct (mapM f l').
  - destruct (f x); cbn [bind]; [|reflexivity]. rewrite IH. destruct (mapM f l); cbn [bind]; [|reflexivity].
    now destruct (mapM f l').
Qed.

(* a table can be cut anywhere and solved in pieces *)
Theorem C51_split : forall (e : env T) kw ds a b ds', f_rows ds = a ++ b ->
  (solve e kw ds = Ok ds' <->
   exists a' b', solve e kw (with_rows ds a) = Ok (with_rows ds' a') /\
                 solve e kw (with_rows ds b) = Ok (with_rows ds' b') /\ f_rows ds' = a' ++ b').
Proof.
  intros e kw ds a b ds' R. split.
  - intros E. apply solve_inv in E. destruct E as (O & C & M). rewrite R, mapM_app in M.
    apply DictLemmas.bind_ok in M. destruct M as (a' & Ea & M). apply DictLemmas.bind_ok in M. destruct M as (b' & Eb & M).
    injection M as M. exists a', b'. repeat split; [apply solve_inv|apply solve_inv|now symmetry]; cbn [with_rows f_cols f_rows]; auto.
  - intros (a' & b' & Ea & Eb & R'). apply solve_inv in Ea, Eb. cbn [with_rows f_cols f_rows] in *.
    destruct Ea as (O & C & Ea). destruct Eb as (_ & _ & Eb). apply solve_inv. split; [exact O|]. split; [exact C|].
    rewrite R, mapM_app, Ea. cbn [bind]. rewrite Eb. cbn [bind]. now rewrite R'.
Qed.

(* permuting the rows permutes the results in the same way *)
Theorem C51_permute : forall (e : env T) kw ds ds' rows2,
  solve e kw ds = Ok ds' -> Permutation (f_rows ds) rows2 ->
  exists rows2', solve e kw (with_rows ds rows2) = Ok (with_rows ds' rows2') /\
    Permutation (combine (f_rows ds) (f_rows ds')) (combine rows2 rows2').
Proof.
  intros e kw ds ds' rows2 E P. apply solve_inv in E. destruct E as (O & C & M).
  assert (X : forall l l2, Permutation l l2 -> forall l', mapM (solve_one e kw (f_cols ds)) l = Ok l' ->
     exists l2', mapM (solve_one e kw (f_cols ds)) l2 = Ok l2' /\ Permutation (combine l l') (combine l2 l2')).
  { clear. induction 1 as [|x l l2 P IH|x y l|l l2 l3 P1 IH1 P2 IH2]; intros l' E.
    - exists l'. split; [exact E|apply Permutation_refl].
    - cbn [mapM] in *. apply DictLemmas.bind_ok in E. destruct E as (z & Ez & E). apply DictLemmas.bind_ok in E. destruct E as (zs & Ezs & E).
      injection E as <-. destruct (IH zs Ezs) as (l2' & E2 & P2). exists (z :: l2'). rewrite Ez, E2. cbn. split; [reflexivity|]. now constructor.
    - cbn [mapM] in *. apply DictLemmas.bind_ok in E. destruct E as (z & Ez & E). apply DictLemmas.bind_ok in E. destruct E as (zs & Ezs & E).
      apply DictLemmas.bind_ok in Ezs. destruct Ezs as (z2 & Ez2 & Ezs). apply DictLemmas.bind_ok in Ezs. destruct Ezs as (zs2 & Ezs2 & Ezs).
      injection Ezs as <-. injection E as <-. exists (z2 :: z :: zs2). rewrite Ez, Ez2, Ezs2. cbn. split; [reflexivity|constructor].
    - destruct (IH1 l' E) as (l2' & E2 & Q1). destruct (IH2 l2' E2) as (l3' & E3 & Q2). exists l3'. split; [exact E3|]. now apply (Permutation_trans Q1). }
  destruct (X _ _ P _ M) as (rows2' & M2 & P2). exists rows2'. split; [|exact P2].
  apply solve_inv. cbn [with_rows f_cols f_rows]. auto.
Qed.

Lemma isnull_cell_num (v : val T) : is_null v \/ numeric v -> exists x, cell_num v = Ok x.
Proof.
  unfold is_null, numeric, cell_num. destruct (isnull v); [eauto|]. intros [|]; [discriminate|assumption].
Qed.

Lemma salt_val_ok e k (r : row T) :
  is_null (cell "salinity" r) \/ numeric (cell "salinity" r) ->
  is_null (cell "opt_total_borate" r) \/ numeric (cell "opt_total_borate" r) ->
  exists v, salt_val e k r = Ok v.
Proof.
  intros S B. unfold salt_val. destruct (notnull (cell k r)); [eauto|].
  destruct (isnull_cell_num _ S) as (s & ->). cbn [bind].
  assert (exists b, cell_num (def_borate r) = Ok b) as (b & ->).
  { unfold def_borate. destruct (notnull (cell "opt_total_borate" r)) eqn:N; [now apply isnull_cell_num|]. cbn. eauto. }
  cbn [bind]. eauto.
Qed.

Lemma prep_row_ok e cols (r : row T) :
  is_null (cell "salinity" r) \/ numeric (cell "salinity" r) ->
  is_null (cell "opt_total_borate" r) \/ numeric (cell "opt_total_borate" r) ->
  exists r1, prep_row e cols r = Ok r1.
Proof.
  intros S B. unfold prep_row. rewrite salt_row_spec.
  destruct (salt_val_ok e "total_sulfate" r S B) as (s1 & ->).
  destruct (salt_val_ok e "total_borate" r S B) as (s2 & ->).
  destruct (salt_val_ok e "total_fluoride" r S B) as (s3 & ->). cbn [bind]. eauto.
Qed.

Lemma cell_null_or (ds : frame T) c P r : all_cells ds c P -> In r (f_rows ds) -> (forall v, P v -> is_null v \/ numeric v) ->
  is_null (cell c r) \/ numeric (cell c r).
Proof.
  intros A I Q. unfold cell. destruct (dget c r) as [v|] eqn:G; [|left; reflexivity]. apply Q. now apply (A r v).
Qed.

Lemma solve_row_total e kw (r : row T) c g f : dget "titrant_molinity" r = Some c -> dget "file_good" r = Some g ->
  dget "file_name" r = Some f -> exists d, solve_row e kw r = Ok d.
Proof.
  intros C G F. unfold solve_row, handler, attr. rewrite C, G, F. cbn [of_opt bind].
  destruct (notnull c && truthy g); [|eauto]. destruct (solve_row_try e kw r); eauto.
Qed.

Lemma res_number e kw (r d : row T) : solve_row e kw r = Ok d -> exists x, cell "alkalinity" d = VNum x.
Proof.
  intros E. assert (S : d = blank r \/ exists sr, d = add_solve_results (blank r) sr).
  { unfold solve_row in E.
    destruct (attr "titrant_molinity" r) as [c|]; cbn [bind] in E; [|discriminate].
    destruct (attr "file_good" r) as [g|]; cbn [bind] in E; [|discriminate].
    destruct (notnull c && truthy g); [|injection E as <-; auto].
    destruct (solve_row_try e kw r) as [sr|].
    - injection E as <-. right. now exists sr.
    - unfold handler in E. destruct (attr "file_name" r); cbn [bind] in E; [|discriminate]. injection E as <-. auto. }
  destruct S as [->|(sr & ->)]; [eexists; reflexivity|].
  assert (I : forall p t (x : row T), cell "alkalinity" (set_inits p t x) = cell "alkalinity" x).
  { intros p t x. unfold set_inits. destruct (nth_error p 0); [|reflexivity].
    destruct (nth_error t 0); rewrite !cell_dset_other by discriminate; reflexivity. }
  destruct sr; cbn [add_solve_results]; rewrite I, ?(cell_dset_other "alkalinity" "gran_emf0"),
    ?(cell_dset_other "alkalinity" "gran_alkalinity"), ?(cell_dset_other "alkalinity" "emf0") by discriminate;
    rewrite cell_dset_same; eauto.
Qed.

(* solve returns, whatever the files contain and whichever rows fail *)
Theorem C51_solve_never_raises : forall (e : env T) kw ds, is_table ds -> no_old_kwargs kw ->
  (forall c, In c ["file_name"; "salinity"; "titrant_molinity"] -> In c (f_cols ds)) ->
  (In "analyte_mass" (f_cols ds) \/ In "analyte_volume" (f_cols ds)) ->
  (forall c, In c ["salinity"; "opt_total_borate"; "alkalinity_certified"] ->
             all_cells ds c (fun v => is_null v \/ numeric v)) ->
  exists ds', solve e kw ds = Ok ds'.
Proof.
  intros e kw ds W [K1 K2] Cs Cm Cn.
  assert (O : solve_ok kw (f_cols ds) = true).
  { unfold solve_ok, prepare_ok, solve_ignored, backcompat, backcompat_dict. rewrite K1. cbn [bind].
    unfold backcompat_range. rewrite K2. cbn [bind is_ok andb].
    assert (M : forall c, In c ["file_name"; "salinity"; "titrant_molinity"] -> mem_str c (f_cols ds) = true) by (intros c I; now apply mem_str_spec, Cs).
    rewrite (M "salinity"), (M "titrant_molinity") by (cbn; tauto). cbn [andb].
    destruct Cm as [Cm|Cm]; apply mem_str_spec in Cm; rewrite Cm; rewrite ?orb_true_r; destruct (dget "read_dat_method" kw); reflexivity. }
  assert (M : exists rows, mapM (solve_one e kw (f_cols ds)) (f_rows ds) = Ok rows).
  { apply mapM_total. intros r I. unfold solve_one.
    destruct (prep_row_ok e (f_cols ds) r) as (r1 & P); [eapply cell_null_or; [apply (Cn "salinity"); cbn; tauto|exact I|auto]|
      eapply cell_null_or; [apply (Cn "opt_total_borate"); cbn; tauto|exact I|auto]|].
    rewrite P. cbn [bind].
    assert (K := prep_row_keys e _ r r1 (proj2 W r I) P).
    assert (G : forall c, mem_str c (prep_cols (f_cols ds)) = true -> exists v, dget c r1 = Some v).
    { intros c M. apply dmem_true_get. apply dget_in_keys. rewrite K. now apply mem_str_spec. }
    assert (GG : forall c, In c ["file_name"; "titrant_molinity"] -> exists v, dget c r1 = Some v).
    { intros c Ic. apply G. rewrite mem_prep_cols. replace (mem_str c (f_cols ds)) with true; [reflexivity|].
      symmetry. apply mem_str_spec, Cs. cbn in Ic |- *. tauto. }
    destruct (GG "titrant_molinity") as (c & Gc); [cbn; tauto|]. destruct (GG "file_name") as (f & Gf); [cbn; tauto|].
    destruct (G "file_good") as (g & Gg); [rewrite mem_prep_cols; apply orb_true_r|].
    destruct (solve_row_total e kw r1 c g f Gc Gg Gf) as (d & S). rewrite S. cbn [bind].
    unfold finish_row. destruct (mem_str "alkalinity_certified" (f_cols ds)); [|eauto].
    unfold offset_of. rewrite output_cell by (cbn; tauto). destruct (res_number e kw r1 d S) as (a & ->).
    assert (exists x, cell_num (VNum a : val T) = Ok x) as (a' & ->) by (unfold cell_num; destruct (isnull _); cbn; eauto).
    cbn [bind].
    assert (Z : cell "alkalinity_certified" (put_results d r1) = cell "alkalinity_certified" r).
    { unfold cell. rewrite dget_put. replace (mem_str "alkalinity_certified" output_cols) with false by reflexivity.
      rewrite (prep_row_get e _ r r1 "alkalinity_certified" P) by (cbn; intuition discriminate). reflexivity. }
    rewrite Z. destruct (isnull_cell_num (cell "alkalinity_certified" r)) as (x & ->); [|cbn [bind]; eauto].
    eapply cell_null_or; [apply (Cn "alkalinity_certified"); cbn; tauto|exact I|auto]. }
  destruct M as (rows & M). exists {| f_cols := solve_cols (f_cols ds); f_rows := rows |}. apply solve_inv. auto.
Qed.

(* ------------------------------------------------------------------ *)
(** * C52 *)

Lemma blank_out (r : row T) c v : In (c, v) blank_results -> cell c (blank r) = v /\ In c output_cols.
Proof.
  intros I. unfold blank_results in I. cbn [In] in I.
  repeat (destruct I as [I|I]; [injection I as <- <-; split; [reflexivity|cbn; tauto]|]). contradiction.
Qed.

Lemma blank_value e kw cols (r r' r1 : row T) c v : prep_row e cols r = Ok r1 -> solve_row e kw r1 = Ok (blank r1) ->
  solve_one e kw cols r = Ok r' -> In (c, v) blank_results -> dget c r' = Some v.
Proof.
  intros P S E I. destruct (solve_one_inv _ _ _ _ _ E) as (r1' & d & P' & S' & F).
  rewrite P in P'. injection P' as <-. rewrite S in S'. injection S' as <-.
  destruct (blank_out r1 c v I) as [B O].
  rewrite (finish_get cols _ _ c F) by (intros ->; cbn in O; intuition discriminate).
  rewrite dget_put. apply mem_str_spec in O. rewrite O. now rewrite B.
Qed.

Lemma bad_row_blank e kw (r : row T) c g :
  dget "titrant_molinity" r = Some c -> dget "file_good" r = Some g ->
  notnull c && truthy g = false -> solve_row e kw r = Ok (blank r).
Proof. intros C G N. unfold solve_row, attr. rewrite C, G. cbn [of_opt bind]. now rewrite N. Qed.

Lemma prep_row_files (e e' : env T) cols r : same_but_files e e' -> prep_row e cols r = prep_row e' cols r.
Proof.
  intros (_ & _ & S & _). unfold prep_row. rewrite !salt_row_spec. unfold salt_val. now rewrite S.
Qed.

(* prep keeps what is there *)
Lemma prep_row_keeps e cols (r r1 : row T) k v : dkeys r = cols -> prep_row e cols r = Ok r1 ->
  dget k r = Some v -> notnull v = true \/ k = "file_good" \/ k = "analyte_mass" -> dget k r1 = Some v.
Proof.
  intros K E G N.
  assert (M : mem_str k cols = true).
  { apply mem_str_spec. rewrite <- K. apply dget_in_keys, dmem_true_get. eauto. }
  destruct (mem_str k prep_keys) eqn:MP.
  2:{ apply mem_str_false in MP. now rewrite (prep_row_get e cols r r1 k E MP). }
  unfold prep_row in E. rewrite salt_row_spec in E.
  destruct (salt_val e "total_sulfate" r) as [s1|] eqn:E1; cbn [bind] in E; [|discriminate].
  destruct (salt_val e "total_borate" r) as [s2|] eqn:E2; cbn [bind] in E; [|discriminate].
  destruct (salt_val e "total_fluoride" r) as [s3|] eqn:E3; cbn [bind] in E; [|discriminate].
  injection E as <-. apply mem_str_spec in MP. cbn in MP.
  destruct MP as [<-|[<-|[<-|[<-|[<-|[<-|[<-|[]]]]]]]].
  - destruct N as [N|[N|N]]; try discriminate. rewrite rest_row_get by (cbn; intuition discriminate).
    rewrite !dget_dset_other by discriminate. rewrite dget_dset_same. unfold def_borate, cell. now rewrite G, N.
  - destruct N as [N|[N|N]]; try discriminate. rewrite rest_row_get by (cbn; intuition discriminate).
    rewrite !dget_dset_other by discriminate. rewrite dget_dset_same. unfold salt_val, cell in E1. rewrite G, N in E1. congruence.
  - destruct N as [N|[N|N]]; try discriminate. rewrite rest_row_get by (cbn; intuition discriminate).
    rewrite !dget_dset_other by discriminate. rewrite dget_dset_same. unfold salt_val, cell in E2. rewrite G, N in E2. congruence.
  - destruct N as [N|[N|N]]; try discriminate. rewrite rest_row_get by (cbn; intuition discriminate).
    rewrite dget_dset_same. unfold salt_val, cell in E3. rewrite G, N in E3. congruence.
  - unfold rest_row. rewrite M. destruct (mem_str "file_good" cols), (mem_str "titrant_amount_unit" cols);
      rewrite ?dget_dset_other by discriminate; exact G.
  - destruct N as [N|[N|N]]; try discriminate. unfold rest_row. rewrite M.
    set (ra := if mem_str "analyte_mass" cols then _ else _).
    assert (Ga : dget "titrant_amount_unit" ra = Some v).
    { unfold ra. destruct (mem_str "analyte_mass" cols); rewrite !dget_dset_other by discriminate; exact G. }
    destruct (mem_str "file_good" cols); rewrite ?(dget_dset_other "titrant_amount_unit" "file_good") by discriminate;
      rewrite dget_dset_same; unfold cell; rewrite Ga; unfold notnull in N; apply negb_true_iff in N; now rewrite N.
  - unfold rest_row. rewrite M. destruct (mem_str "analyte_mass" cols), (mem_str "titrant_amount_unit" cols);
      rewrite ?dget_dset_other by discriminate; exact G.
Qed.

(* a row that is marked bad, or has no titrant molinity, gets the blank result, the same
   one in every file system *)
Theorem C52_solve_ignores_bad_files : forall (e e' : env T) kw ds d1 d2 i, is_table ds -> same_but_files e e' ->
  solve e kw ds = Ok d1 -> solve e' kw ds = Ok d2 ->
  (exists v, value ds i "file_good" = Some v /\ truthy v = false) \/
  (exists v, value ds i "titrant_molinity" = Some v /\ is_null v) ->
  is_blank d1 i /\ forall c, value d1 i c = value d2 i c.
Proof.
  intros e e' kw ds d1 d2 i W SF E1 E2 B.
  apply solve_inv in E1, E2. destruct E1 as (O & C1 & M1). destruct E2 as (_ & C2 & M2).
  assert (exists r, nth_error (f_rows ds) i = Some r) as (r & Ri).
  { unfold value in B. destruct (nth_error (f_rows ds) i); [eauto|]. destruct B as [(v & B & _)|(v & B & _)]; discriminate. }
  apply mapM_ok in M1, M2. destruct M1 as [_ M1]. destruct M2 as [_ M2].
  destruct (M1 i r Ri) as (r1 & Ri1 & S1). destruct (M2 i r Ri) as (r2 & Ri2 & S2).
  assert (K : dkeys r = f_cols ds) by (apply W; now apply nth_error_In in Ri).
  destruct (solve_one_inv _ _ _ _ _ S1) as (p & d & P & S & F).
  assert (Bl : forall e0 : env T, solve_row e0 kw p = Ok (blank p)).
  { intros e0. destruct (solve_row_ok e kw p d S) as (c & g & Gc & Gg).
    apply (bad_row_blank e0 kw p c g Gc Gg).
    destruct B as [(v & B & N)|(v & B & N)]; rewrite (value_nth ds i r _ Ri) in B.
    - rewrite (prep_row_keeps e _ r p "file_good" v K P B) in Gg by auto. injection Gg as <-. rewrite N. apply andb_false_r.
    - rewrite <- (prep_row_get e _ r p "titrant_molinity" P) in B by (cbn; intuition discriminate).
      rewrite Gc in B. injection B as ->. unfold notnull. unfold is_null in N. now rewrite N. }
  split.
  - intros c v I. rewrite (value_nth d1 i r1 c Ri1). exact (blank_value e kw _ r r1 p c v P (Bl e) S1 I).
  - intros c. rewrite (value_nth d1 i r1 c Ri1), (value_nth d2 i r2 c Ri2).
    assert (X : solve_one e kw (f_cols ds) r = solve_one e' kw (f_cols ds) r).
    { unfold solve_one. rewrite <- (prep_row_files e e' (f_cols ds) r SF), P. cbn [bind]. now rewrite (Bl e), (Bl e'). }
    congruence.
Qed.

(* the same for the calibration of a row *)
Theorem C52_calibrate_ignores_bad_files : forall (e : env T) kw ds d1 i, is_table ds ->
  calibrate e kw ds = Ok d1 ->
  (exists v, value ds i "file_good" = Some v /\ truthy v = false) \/
  (exists v, value ds i "alkalinity_certified" = Some v /\ is_null v) ->
  value d1 i "titrant_molinity_here" = Some (VNum nnan).
Proof.
  intros e kw ds d1 i W E B.
  apply calibrate_inv in E. destruct E as (dm & E1 & E2).
  apply calibrate_only_inv in E1. destruct E1 as (O & C1 & rows & ms & Er & Em & R1).
  apply solve_inv in E2. destruct E2 as (_ & C2 & M2).
  assert (exists r, nth_error (f_rows ds) i = Some r) as (r & Ri).
  { unfold value in B. destruct (nth_error (f_rows ds) i); [eauto|]. destruct B as [(v & B & _)|(v & B & _)]; discriminate. }
  apply mapM_ok in Er. destruct Er as [_ Er]. destruct (Er i r Ri) as (rr & Rr & Q).
  apply mapM_ok in Em. destruct Em as [_ Em]. destruct (Em i rr Rr) as (m & Rm & _).
  assert (Rt : nth_error (f_rows dm) i = Some (dset "titrant_molinity" (VNum m) rr)).
  { rewrite R1. apply (nth_error_map2 (fun r m => dset "titrant_molinity" (VNum m) r)); auto. }
  apply mapM_ok in M2. destruct M2 as [_ M2]. destruct (M2 i _ Rt) as (r2 & R2 & S2).
  rewrite (value_nth d1 i r2 _ R2). rewrite C1 in S2.
  assert (K : dkeys r = f_cols ds) by (apply W; now apply nth_error_In in Ri).
  destruct (cal_row e kw _ r rr r2 m K Q S2) as (p & x & P & Cx & Gh & _). rewrite Gh. do 2 f_equal.
  unfold calibrate_row, attr in Cx.
  destruct (dget "alkalinity_certified" p) as [c|] eqn:Gc; cbn [of_opt bind] in Cx; [|discriminate].
  destruct (dget "file_good" p) as [g|] eqn:Gg; cbn [of_opt bind] in Cx; [|discriminate].
  destruct (notnull c && truthy g) eqn:N; [|now injection Cx as <-]. exfalso.
  apply andb_prop in N. destruct N as [Nc Ng].
  destruct B as [(v & B & N)|(v & B & N)]; rewrite (value_nth ds i r _ Ri) in B.
  - rewrite (prep_row_keeps e _ r p "file_good" v K P B) in Gg by auto. congruence.
  - rewrite <- (prep_row_get e _ r p "alkalinity_certified" P) in B by (cbn; intuition discriminate).
    rewrite Gc in B. injection B as ->. unfold notnull in Nc. unfold is_null in N. now rewrite N in Nc.
Qed.

(* ------------------------------------------------------------------ *)
(** * C55 *)

Theorem C55_solve_idempotent : forall (e : env T) kw ds ds', is_table ds -> wfd kw ->
  solve e kw ds = Ok ds' -> solve e kw ds' = Ok ds'.
Proof. exact solve_again. Qed.

Theorem C55_calibrate_idempotent : forall (e : env T) kw ds ds', is_table ds -> wfd kw ->
  calibrate e kw ds = Ok ds' -> calibrate e kw ds' = Ok ds'.
Proof.
  intros e kw ds ds' W K E. apply calibrate_inv. exists ds'. split; [now apply (calibrate_again e kw ds)|].
  apply calibrate_inv in E. destruct E as (ds1 & E1 & E2).
  apply (solve_again e kw ds1); [|exact K|exact E2]. now apply (wff_calibrate_only e kw ds).
Qed.

Theorem C55_calkulate_is_calibrate : forall (e : env T) kw ds, is_table ds -> wfd kw ->
  calkulate e kw ds = calibrate e kw ds.
Proof.
  intros e kw ds W K. unfold calkulate. destruct (calibrate e kw ds) as [ds'|] eqn:E; cbn [bind]; [|reflexivity].
  apply calibrate_inv in E. destruct E as (ds1 & E1 & E2).
  apply (solve_again e kw ds1); [|exact K|exact E2]. now apply (wff_calibrate_only e kw ds).
Qed.

End P.
