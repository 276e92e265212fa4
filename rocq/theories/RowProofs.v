(* RowProofs.v -- what preparing and solving one row changes, and why doing it twice
   changes nothing *)
From Verif Require Import Dataset DictLemmas SettingsProofs PropSettings DatasetProofs.
Open Scope list_scope.
Open Scope string_scope.

Section R.
Context {T : Type} `{Num T}.

Definition salt_val (e : env T) (k : string) (r : row T) : res (val T) :=
  if notnull (cell k r) then Ok (cell k r)
  else s <- cell_num (cell "salinity" r) ;; b <- cell_num (def_borate r) ;; Ok (VNum (e_sys_salt e s b k)).

Lemma cell_dset_same k v (r : row T) : cell k (dset k v r) = v.
Proof. unfold cell. now rewrite dget_dset_same. Qed.
Lemma cell_dset_other k k' v (r : row T) : k <> k' -> cell k (dset k' v r) = cell k r.
Proof. intros N. unfold cell. now rewrite dget_dset_other. Qed.

Lemma salt_row_spec e (r : row T) :
  salt_row e r =
  (s1 <- salt_val e "total_sulfate" r ;; s2 <- salt_val e "total_borate" r ;; s3 <- salt_val e "total_fluoride" r ;;
   Ok (dset "total_fluoride" s3 (dset "total_borate" s2 (dset "total_sulfate" s1 (dset "opt_total_borate" (def_borate r) r))))).
Proof.
  unfold salt_row, salts. cbn [fill_row].
  set (rb := dset "opt_total_borate" (def_borate r) r).
  assert (E : forall k r', k <> "opt_total_borate" -> (forall c, In c [k; "salinity"; "opt_total_borate"] -> cell c r' = cell c rb) ->
              fill_salt e k r' = salt_val e k r).
  { intros k r' N C. unfold fill_salt, salt_val.
    rewrite (C k), (C "salinity"), (C "opt_total_borate") by (cbn; auto). unfold rb.
    rewrite cell_dset_same, !cell_dset_other by (assumption || discriminate). reflexivity. }
  rewrite (E "total_sulfate" rb) by (discriminate || reflexivity).
  destruct (salt_val e "total_sulfate" r) as [s1|]; cbn [bind]; [|reflexivity].
  rewrite (E "total_borate" (dset "total_sulfate" s1 rb)).
  2:{ discriminate. }
  2:{ intros c I. apply cell_dset_other. cbn in I. intros ->. intuition discriminate. }
  destruct (salt_val e "total_borate" r) as [s2|]; cbn [bind]; [|reflexivity].
  rewrite (E "total_fluoride" (dset "total_borate" s2 (dset "total_sulfate" s1 rb))).
  2:{ discriminate. }
  2:{ intros c I. rewrite !cell_dset_other; [reflexivity|..]; cbn in I; intros ->; intuition discriminate. }
  destruct (salt_val e "total_fluoride" r) as [s3|]; reflexivity.
Qed.

Definition prep_keys : list string :=
  ["opt_total_borate"; "total_sulfate"; "total_borate"; "total_fluoride"; "analyte_mass"; "titrant_amount_unit"; "file_good"].

Lemma salt_row_get e (r r1 : row T) k : salt_row e r = Ok r1 ->
  ~ In k ["opt_total_borate"; "total_sulfate"; "total_borate"; "total_fluoride"] -> dget k r1 = dget k r.
Proof.
  rewrite salt_row_spec. intros E N.
  destruct (salt_val e "total_sulfate" r) as [s1|]; cbn [bind] in E; [|discriminate].
  destruct (salt_val e "total_borate" r) as [s2|]; cbn [bind] in E; [|discriminate].
  destruct (salt_val e "total_fluoride" r) as [s3|]; cbn [bind] in E; [|discriminate].
  injection E as <-. rewrite !dget_dset_other; [reflexivity|..]; intros ->; apply N; cbn; tauto.
Qed.

Lemma rest_row_get cols (r : row T) k : ~ In k ["analyte_mass"; "titrant_amount_unit"; "file_good"] ->
  dget k (rest_row cols r) = dget k r.
Proof.
  intros N. unfold rest_row.
  assert (N1 : k <> "analyte_mass") by (intros ->; apply N; cbn; tauto).
  assert (N2 : k <> "titrant_amount_unit") by (intros ->; apply N; cbn; tauto).
  assert (N3 : k <> "file_good") by (intros ->; apply N; cbn; tauto).
  destruct (mem_str "file_good" cols), (mem_str "titrant_amount_unit" cols), (mem_str "analyte_mass" cols);
    rewrite ?dget_dset_other by assumption; reflexivity.
Qed.

Lemma prep_row_get e cols (r r1 : row T) k : prep_row e cols r = Ok r1 -> ~ In k prep_keys -> dget k r1 = dget k r.
Proof.
  unfold prep_row. intros E N. destruct (salt_row e r) as [r0|] eqn:E0; cbn [bind] in E; [|discriminate].
  injection E as <-. rewrite rest_row_get by (intros I; apply N; cbn in I |- *; tauto).
  apply (salt_row_get e); [exact E0|]. intros I; apply N; cbn in I |- *; tauto.
Qed.

(* a row that preparing again does not change *)
Record prepared (e : env T) (cols : list string) (r : row T) : Prop := {
  pr_borate : exists v, dget "opt_total_borate" r = Some v /\ notnull v = true;
  pr_salt : forall k, In k salts -> exists v, dget k r = Some v /\ salt_val e k r = Ok v;
  pr_mass : mem_str "analyte_mass" cols = true;
  pr_unit : mem_str "titrant_amount_unit" cols = true -> exists v, dget "titrant_amount_unit" r = Some v /\ notnull v = true;
  pr_good : mem_str "file_good" cols = true
}.

Lemma prepared_prep e cols (r : row T) : prepared e cols r -> prep_row e cols r = Ok r.
Proof.
  intros [(b & Gb & Nb) S M U G]. unfold prep_row. rewrite salt_row_spec.
  destruct (S "total_sulfate") as (s1 & G1 & E1); [cbn; auto|].
  destruct (S "total_borate") as (s2 & G2 & E2); [cbn; auto|].
  destruct (S "total_fluoride") as (s3 & G3 & E3); [cbn; auto|].
  rewrite E1, E2, E3. cbn [bind].
  assert (B : def_borate r = b) by (unfold def_borate, cell; now rewrite Gb, Nb).
  rewrite B. rewrite (dset_same_value "opt_total_borate" b r Gb).
  rewrite (dset_same_value "total_sulfate" s1 r G1), (dset_same_value "total_borate" s2 r G2), (dset_same_value "total_fluoride" s3 r G3).
  f_equal. unfold rest_row. rewrite M, G.
  destruct (mem_str "titrant_amount_unit" cols) eqn:TU; [|reflexivity].
  destruct (U eq_refl) as (u & Gu & Nu). apply dset_same_value. unfold cell. rewrite Gu.
  unfold notnull in Nu. apply negb_true_iff in Nu. now rewrite Nu.
Qed.

Lemma prepared_agree e cols cols' (r r' : row T) : prepared e cols r ->
  (forall k, In k ("salinity" :: prep_keys) -> dget k r' = dget k r) ->
  (forall k, In k ["analyte_mass"; "titrant_amount_unit"; "file_good"] -> mem_str k cols' = mem_str k cols) ->
  prepared e cols' r'.
Proof.
  intros [B S M U G] K C. split.
  - destruct B as (b & Gb & Nb). exists b. split; [|exact Nb]. rewrite K by (cbn; tauto). exact Gb.
  - intros k I. destruct (S k I) as (v & Gv & Ev). exists v.
    assert (Ik : In k ("salinity" :: prep_keys)) by (cbn in I |- *; tauto).
    split; [now rewrite K|].
    rewrite <- Ev. unfold salt_val, def_borate, cell.
    rewrite (K k Ik), (K "salinity"), (K "opt_total_borate") by (cbn; tauto). reflexivity.
  - rewrite C by (cbn; tauto). exact M.
  - rewrite C by (cbn; tauto). intros M'. destruct (U M') as (v & Gv & Nv). exists v. split; [|exact Nv].
    rewrite K by (cbn; tauto). exact Gv.
  - rewrite C by (cbn; tauto). exact G.
Qed.

Lemma notnull_null (v : val T) : notnull v = negb (isnull v).
Proof. reflexivity. Qed.

Lemma salt_val_null_again e k (r : row T) v : salt_val e k r = Ok v ->
  forall r', cell k r' = v -> cell "salinity" r' = cell "salinity" r -> def_borate r' = def_borate r ->
  salt_val e k r' = Ok v.
Proof.
  intros E r' C S B. unfold salt_val in *. rewrite C, S, B.
  destruct (notnull (cell k r)) eqn:N.
  - injection E as <-. now rewrite N.
  - rewrite E. destruct (notnull v); reflexivity.
Qed.

Lemma prep_row_prepared e cols (r r1 : row T) : prep_row e cols r = Ok r1 -> prepared e (prep_cols cols) r1.
Proof.
  intros E0. assert (E := E0). unfold prep_row in E. rewrite salt_row_spec in E.
  destruct (salt_val e "total_sulfate" r) as [s1|] eqn:E1; cbn [bind] in E; [|discriminate].
  destruct (salt_val e "total_borate" r) as [s2|] eqn:E2; cbn [bind] in E; [|discriminate].
  destruct (salt_val e "total_fluoride" r) as [s3|] eqn:E3; cbn [bind] in E; [|discriminate].
  injection E as <-. set (rr := dset "total_fluoride" s3 _).
  assert (Gb : dget "opt_total_borate" (rest_row cols rr) = Some (def_borate r)).
  { rewrite rest_row_get by (cbn; intuition discriminate). unfold rr.
    rewrite !dget_dset_other by discriminate. apply dget_dset_same. }
  assert (Nb : notnull (def_borate r) = true).
  { unfold def_borate. destruct (notnull (cell "opt_total_borate" r)) eqn:N; [exact N|reflexivity]. }
  assert (Bb : def_borate (rest_row cols rr) = def_borate r).
  { unfold def_borate at 1, cell. now rewrite Gb, Nb. }
  assert (Sal : cell "salinity" (rest_row cols rr) = cell "salinity" r).
  { unfold cell. assert (X : dget "salinity" (rest_row cols rr) = dget "salinity" r)
      by (apply (prep_row_get e cols r _ "salinity" E0); cbn; intuition discriminate). now rewrite X. }
  assert (G1 : dget "total_sulfate" (rest_row cols rr) = Some s1).
  { rewrite rest_row_get by (cbn; intuition discriminate). unfold rr.
    rewrite !dget_dset_other by discriminate. apply dget_dset_same. }
  assert (G2 : dget "total_borate" (rest_row cols rr) = Some s2).
  { rewrite rest_row_get by (cbn; intuition discriminate). unfold rr.
    rewrite !dget_dset_other by discriminate. apply dget_dset_same. }
  assert (G3 : dget "total_fluoride" (rest_row cols rr) = Some s3).
  { rewrite rest_row_get by (cbn; intuition discriminate). unfold rr. apply dget_dset_same. }
  split.
  - exists (def_borate r). auto.
  - intros k I. cbn in I.
    destruct I as [<-|[<-|[<-|[]]]]; [exists s1|exists s2|exists s3]; (split; [assumption|]).
    + apply (salt_val_null_again e _ r); auto. unfold cell. now rewrite G1.
    + apply (salt_val_null_again e _ r); auto. unfold cell. now rewrite G2.
    + apply (salt_val_null_again e _ r); auto. unfold cell. now rewrite G3.
  - rewrite mem_prep_cols. cbn. apply orb_true_r.
  - rewrite mem_prep_cols. cbn [mem_str existsb String.eqb Ascii.eqb Bool.eqb orb]. rewrite orb_false_r. intros TU.
    unfold rest_row. rewrite TU.
    destruct (mem_str "file_good" cols), (mem_str "analyte_mass" cols);
      rewrite ?(dget_dset_other "titrant_amount_unit" "file_good") by discriminate; rewrite dget_dset_same;
      (eexists; split; [reflexivity|]); cbv zeta;
      match goal with |- notnull (if isnull ?x then _ else _) = true => destruct (isnull x) eqn:Z; [reflexivity|unfold notnull; now rewrite Z] end.
  - rewrite mem_prep_cols. cbn. apply orb_true_r.
Qed.

(* ------------------------------------------------------------------ *)
(** * Results *)

Lemma dget_fold_put ks (d r : row T) k :
  dget k (fold_left (fun acc k => dset k (cell k d) acc) ks r) = if mem_str k ks then Some (cell k d) else dget k r.
Proof.
  revert r. induction ks as [|x ks IH]; intros r; cbn [fold_left]; [reflexivity|].
  rewrite IH. cbn [mem_str existsb]. fold (mem_str k ks). destruct (mem_str k ks); [now rewrite orb_true_r|].
  rewrite orb_false_r. destruct (String.eqb_spec k x) as [E|N]; [rewrite E; apply dget_dset_same|now apply dget_dset_other].
Qed.

Lemma dget_put (d r : row T) k : dget k (put_results d r) = if mem_str k output_cols then Some (cell k d) else dget k r.
Proof. apply dget_fold_put. Qed.

Lemma put_same (d r : row T) : (forall k, In k output_cols -> dget k r = Some (cell k d)) -> put_results d r = r.
Proof.
  unfold put_results. generalize output_cols. intros ks. induction ks as [|x ks IH]; intros G; cbn [fold_left]; [reflexivity|].
  rewrite (dset_same_value x (cell x d) r) by (apply G; cbn; auto). apply IH. intros k I. apply G. now right.
Qed.

(* the result of a row always has the row's own analyte_mass *)
Lemma solve_row_mass e kw (r d : row T) : solve_row e kw r = Ok d -> cell "analyte_mass" d = cell "analyte_mass" r.
Proof.
  intros E. assert (S : d = blank r \/ exists sr, d = add_solve_results (blank r) sr).
  { unfold solve_row in E.
    destruct (attr "titrant_molinity" r) as [c|]; cbn [bind] in E; [|discriminate].
    destruct (attr "file_good" r) as [g|]; cbn [bind] in E; [|discriminate].
    destruct (notnull c && truthy g); [|injection E as <-; auto].
    destruct (solve_row_try e kw r) as [sr|].
    - injection E as <-. right. now exists sr.
    - unfold handler in E. destruct (attr "file_name" r); cbn [bind] in E; [|discriminate]. injection E as <-. auto. }
  destruct S as [->|(sr & ->)]; [reflexivity|].
  assert (I : forall p t (x : row T), cell "analyte_mass" (set_inits p t x) = cell "analyte_mass" x).
  { intros p t x. unfold set_inits. destruct (nth_error p 0); [|reflexivity].
    destruct (nth_error t 0); rewrite !cell_dset_other by discriminate; reflexivity. }
  destruct sr; cbn [add_solve_results]; rewrite I, !cell_dset_other by discriminate; reflexivity.
Qed.

Lemma solve_row_ok e kw (r d : row T) : solve_row e kw r = Ok d ->
  exists c g, dget "titrant_molinity" r = Some c /\ dget "file_good" r = Some g.
Proof.
  unfold solve_row, attr. intros E.
  destruct (dget "titrant_molinity" r) as [c|]; cbn [of_opt bind] in E; [|discriminate].
  destruct (dget "file_good" r) as [g|]; cbn [of_opt bind] in E; [|discriminate]. eauto.
Qed.

(* whether old-style keyword arguments can be translated does not depend on the row *)
Lemma backcompat_row (kw : kwargs T) (r r' : row T) : dget "read_dat_method" r = dget "read_dat_method" r' ->
  backcompat kw r = backcompat kw r'.
Proof. intros E. unfold backcompat. now rewrite E. Qed.

Lemma solve_row_agree e kw (r r' : row T) : wfd kw ->
  (forall k, In k ("file_name" :: "titrant_molinity" :: "salinity" :: "file_good" :: "analyte_mass" :: "read_dat_method" :: keys_solve) ->
             dget k r = dget k r') ->
  solve_row e kw r = solve_row e kw r'.
Proof.
  intros W A.
  assert (B : backcompat kw r = backcompat kw r') by (apply backcompat_row, A; cbn; tauto).
  destruct (backcompat kw r) as [kw1|] eqn:E.
  - apply (solve_row_depends e kw kw r r' kw1 kw1); auto.
    + intros k I. unfold chosen. now rewrite (A k) by (cbn; tauto).
    + intros c I. apply A. cbn in I |- *. tauto.
  - unfold solve_row, solve_row_try. rewrite E, <- B. unfold attr, handler, attr.
    rewrite (A "file_name"), (A "titrant_molinity"), (A "file_good") by (cbn; tauto).
    assert (Bl : blank r = blank r') by (unfold blank, cell; now rewrite (A "analyte_mass") by (cbn; tauto)).
    rewrite Bl. reflexivity.
Qed.

Lemma calibrate_row_agree e kw (r r' : row T) : wfd kw ->
  (forall k, In k ("file_name" :: "alkalinity_certified" :: "salinity" :: "file_good" :: "read_dat_method" :: keys_calibrate) ->
             dget k r = dget k r') ->
  calibrate_row e kw r = calibrate_row e kw r'.
Proof.
  intros W A.
  assert (B : backcompat kw r = backcompat kw r') by (apply backcompat_row, A; cbn; tauto).
  destruct (backcompat kw r) as [kw1|] eqn:E.
  - apply (calibrate_row_depends e kw kw r r' kw1 kw1); auto.
    + intros k I. unfold chosen. now rewrite (A k) by (cbn; tauto).
    + intros c I. apply A. cbn in I |- *. tauto.
  - unfold calibrate_row, calibrate_row_try. rewrite E, <- B. unfold attr, handler, attr.
    rewrite (A "file_name"), (A "alkalinity_certified"), (A "file_good") by (cbn; tauto). reflexivity.
Qed.

(* the columns that solving a row may change *)
Definition solve_outputs : list string := "alkalinity_offset" :: prep_keys ++ output_cols.

Lemma finish_get cols (r r' : row T) k : finish_row cols r = Ok r' -> k <> "alkalinity_offset" -> dget k r' = dget k r.
Proof.
  unfold finish_row. destruct (mem_str _ cols); [|intros [= <-]; reflexivity].
  destruct (offset_of r) as [o|]; cbn [bind]; [|discriminate]. intros [= <-] N. now apply dget_dset_other.
Qed.

Lemma solve_one_inv e kw cols (r r' : row T) : solve_one e kw cols r = Ok r' ->
  exists r1 d, prep_row e cols r = Ok r1 /\ solve_row e kw r1 = Ok d /\ finish_row cols (put_results d r1) = Ok r'.
Proof.
  unfold solve_one. intros E. destruct (prep_row e cols r) as [r1|]; cbn [bind] in E; [|discriminate].
  destruct (solve_row e kw r1) as [d|] eqn:S; cbn [bind] in E; [|discriminate]. exists r1, d. auto.
Qed.

Lemma solve_one_get e kw cols (r r' : row T) k : solve_one e kw cols r = Ok r' -> ~ In k solve_outputs -> dget k r' = dget k r.
Proof.
  intros E N. destruct (solve_one_inv _ _ _ _ _ E) as (r1 & d & P & S & F).
  assert (N1 : k <> "alkalinity_offset") by (intros ->; apply N; now left).
  assert (N2 : ~ In k prep_keys) by (intros I; apply N; right; apply in_or_app; auto).
  assert (N3 : ~ In k output_cols) by (intros I; apply N; right; apply in_or_app; auto).
  rewrite (finish_get cols _ _ k F N1), dget_put. apply mem_str_false in N3. rewrite N3.
  now apply (prep_row_get e cols).
Qed.

Lemma output_cell (d r : row T) k : In k output_cols -> cell k (put_results d r) = cell k d.
Proof. intros I. unfold cell. rewrite dget_put. apply mem_str_spec in I. now rewrite I. Qed.

(* the columns dataset.solve reads are not among the columns it writes, apart from
   analyte_mass and the null-filled settings *)
Lemma solved_same_inputs e kw cols (r r' r1 d : row T) k :
  prep_row e cols r = Ok r1 -> solve_row e kw r1 = Ok d -> finish_row cols (put_results d r1) = Ok r' ->
  dmem "analyte_mass" r1 = true ->
  In k ("file_name" :: "titrant_molinity" :: "salinity" :: "file_good" :: "analyte_mass" :: "read_dat_method" :: "alkalinity_certified" :: prep_keys ++ keys_solve ++ keys_calibrate) ->
  dget k r' = dget k r1.
Proof.
  intros P S F M I.
  assert (X : forallb (fun k => negb (mem_str k ("alkalinity_offset" :: filter (fun c => negb (String.eqb c "analyte_mass")) output_cols)))
     ("file_name" :: "titrant_molinity" :: "salinity" :: "file_good" :: "analyte_mass" :: "read_dat_method" :: "alkalinity_certified" :: prep_keys ++ keys_solve ++ keys_calibrate) = true) by reflexivity.
  rewrite forallb_forall in X. specialize (X k I). apply negb_true_iff, mem_str_false in X.
  rewrite (finish_get cols _ _ k F) by (intros ->; apply X; now left). rewrite dget_put.
  destruct (mem_str k output_cols) eqn:MO; [|reflexivity].
  destruct (String.eqb_spec k "analyte_mass") as [E|N].
  - rewrite E. rewrite (solve_row_mass e kw r1 d S). unfold cell. apply dmem_true_get in M. destruct M as (v & ->). reflexivity.
  - exfalso. apply X. right. apply filter_In. split; [now apply mem_str_spec|]. now apply negb_true_iff, String.eqb_neq.
Qed.

Lemma prep_row_keys e cols (r r1 : row T) : dkeys r = cols -> prep_row e cols r = Ok r1 -> dkeys r1 = prep_cols cols.
Proof.
  intros K E. unfold prep_row in E. rewrite salt_row_spec in E.
  destruct (salt_val e "total_sulfate" r) as [s1|] eqn:E1; cbn [bind] in E; [|discriminate].
  destruct (salt_val e "total_borate" r) as [s2|] eqn:E2; cbn [bind] in E; [|discriminate].
  destruct (salt_val e "total_fluoride" r) as [s3|] eqn:E3; cbn [bind] in E; [|discriminate].
  injection E as <-. set (rr := dset "total_fluoride" s3 _).
  assert (R : dkeys rr = salt_cols cols).
  { unfold rr, salt_cols, salts. cbn [fold_left]. now rewrite !dkeys_dset, K. }
  unfold rest_row, prep_cols. cbv zeta.
  assert (Z : forall k c, mem_str k c = true -> addc k c = c) by (intros k c M; unfold addc; now rewrite M).
  destruct (mem_str "analyte_mass" cols) eqn:AM, (mem_str "titrant_amount_unit" cols) eqn:TU, (mem_str "file_good" cols) eqn:FG;
    rewrite ?dkeys_dset, R;
    repeat first
      [ rewrite (Z "analyte_mass") by (rewrite ?mem_addc, mem_salt_cols, ?AM, ?TU, ?FG; reflexivity)
      | rewrite (Z "titrant_amount_unit") by (rewrite ?mem_addc, mem_salt_cols, ?AM, ?TU, ?FG; reflexivity)
      | rewrite (Z "file_good") by (rewrite ?mem_addc, mem_salt_cols, ?AM, ?TU, ?FG; reflexivity) ]; reflexivity.
Qed.

Lemma put_keys (d r : row T) : dkeys (put_results d r) = outc (dkeys r).
Proof.
  unfold put_results, outc. generalize output_cols. intros ks. revert r.
  induction ks as [|x ks IH]; intros r; cbn [fold_left]; [reflexivity|]. now rewrite IH, dkeys_dset.
Qed.

Lemma solve_one_keys e kw cols (r r' : row T) : dkeys r = cols -> solve_one e kw cols r = Ok r' -> dkeys r' = solve_cols cols.
Proof.
  intros K E. destruct (solve_one_inv _ _ _ _ _ E) as (r1 & d & P & S & F).
  assert (K2 : dkeys (put_results d r1) = outc (prep_cols cols)) by (rewrite put_keys; f_equal; now apply (prep_row_keys e cols r)).
  unfold solve_cols. unfold finish_row in F. destruct (mem_str "alkalinity_certified" cols).
  - destruct (offset_of _) as [o|]; cbn [bind] in F; [|discriminate]. injection F as <-. now rewrite dkeys_dset, K2.
  - now injection F as <-.
Qed.

Lemma mem_solve_cols k cols : mem_str k (solve_cols cols) =
  (mem_str k (prep_cols cols) || mem_str k output_cols || (mem_str "alkalinity_certified" cols && String.eqb k "alkalinity_offset"))%bool.
Proof.
  unfold solve_cols. destruct (mem_str "alkalinity_certified" cols); cbn [andb].
  - now rewrite mem_addc, mem_outc.
  - now rewrite mem_outc, orb_false_r.
Qed.

Lemma prepared_solved e kw cols (r r' : row T) : dkeys r = cols ->
  solve_one e kw cols r = Ok r' -> prepared e (solve_cols cols) r'.
Proof.
  intros K E. destruct (solve_one_inv _ _ _ _ _ E) as (r1 & d & P & S & F).
  assert (K1 := prep_row_keys e cols r r1 K P).
  assert (M : dmem "analyte_mass" r1 = true).
  { apply dget_in_keys. rewrite K1. apply mem_str_spec. rewrite mem_prep_cols. apply orb_true_r. }
  apply (prepared_agree e (prep_cols cols) _ r1); [now apply (prep_row_prepared e cols r)|..].
  - intros k I. apply (solved_same_inputs e kw cols r r' r1 d k P S F M).
    destruct I as [<-|I]; [do 2 right; left; reflexivity|]. do 7 right. apply in_or_app. now left.
  - intros k I. rewrite mem_solve_cols.
    replace (String.eqb k "alkalinity_offset") with false by (cbn in I; destruct I as [<-|[<-|[<-|[]]]]; reflexivity).
    rewrite andb_false_r, orb_false_r.
    cbn in I. destruct I as [<-|[<-|[<-|[]]]].
    + rewrite mem_prep_cols.
      replace (mem_str "analyte_mass" ["opt_total_borate"; "total_sulfate"; "total_borate"; "total_fluoride"; "analyte_mass"; "file_good"]) with true by reflexivity.
      now rewrite !orb_true_r.
    + replace (mem_str "titrant_amount_unit" output_cols) with false by reflexivity. apply orb_false_r.
    + replace (mem_str "file_good" output_cols) with false by reflexivity. apply orb_false_r.
Qed.

Lemma solve_one_again e kw cols (r r' : row T) : wfd kw -> dkeys r = cols ->
  solve_one e kw cols r = Ok r' -> solve_one e kw (solve_cols cols) r' = Ok r'.
Proof.
  intros W K E. assert (P' := prepared_solved e kw cols r r' K E).
  destruct (solve_one_inv _ _ _ _ _ E) as (r1 & d & P & S & F).
  assert (K1 := prep_row_keys e cols r r1 K P).
  assert (M : dmem "analyte_mass" r1 = true).
  { apply dget_in_keys. rewrite K1. apply mem_str_spec. rewrite mem_prep_cols. apply orb_true_r. }
  unfold solve_one. rewrite (prepared_prep _ _ _ P'). cbn [bind].
  rewrite (solve_row_agree e kw r' r1 W).
  2:{ intros k I. apply (solved_same_inputs e kw cols r r' r1 d k P S F M).
      do 6 (destruct I as [I|I]; [apply mem_str_spec; rewrite <- I; reflexivity|]). do 7 right.
      apply in_or_app. right. apply in_or_app. left. exact I. }
  rewrite S. cbn [bind].
  assert (PS : put_results d r' = r').
  { apply put_same. intros k I. rewrite (finish_get cols _ _ k F).
    - rewrite dget_put. apply mem_str_spec in I. now rewrite I.
    - intros ->. cbn in I. intuition discriminate. }
  rewrite PS. unfold finish_row in *.
  assert (MC : mem_str "alkalinity_certified" (solve_cols cols) = mem_str "alkalinity_certified" cols).
  { rewrite mem_solve_cols, mem_prep_cols.
    replace (mem_str "alkalinity_certified" output_cols) with false by reflexivity.
    replace (String.eqb "alkalinity_certified" "alkalinity_offset") with false by reflexivity.
    replace (mem_str "alkalinity_certified" ["opt_total_borate"; "total_sulfate"; "total_borate"; "total_fluoride"; "analyte_mass"; "file_good"]) with false by reflexivity.
    now rewrite andb_false_r, !orb_false_r. }
  rewrite MC. destruct (mem_str "alkalinity_certified" cols); [|reflexivity].
  destruct (offset_of (put_results d r1)) as [o|] eqn:O; cbn [bind] in F; [|discriminate]. injection F as <-.
  assert (O' : offset_of (dset "alkalinity_offset" o (put_results d r1)) = Ok o).
  { unfold offset_of in *. rewrite !cell_dset_other by discriminate. exact O. }
  rewrite O'. cbn [bind]. now rewrite dset_dset_same.
Qed.

Lemma addc_in c cols : mem_str c cols = true -> addc c cols = cols.
Proof. unfold addc. now intros ->. Qed.

Lemma solve_cols_again cols : solve_cols (solve_cols cols) = solve_cols cols.
Proof.
  assert (Z : forall ks c, (forall k, In k ks -> mem_str k c = true) -> fold_left (fun c k => addc k c) ks c = c).
  { induction ks as [|x ks IH]; intros c A; cbn [fold_left]; [reflexivity|].
    rewrite (addc_in x c) by (apply A; now left). apply IH. intros k I. apply A. now right. }
  set (c := solve_cols cols).
  assert (M : forall k, In k ["opt_total_borate"; "total_sulfate"; "total_borate"; "total_fluoride"; "analyte_mass"; "file_good"] -> mem_str k c = true).
  { intros k I. unfold c. rewrite mem_solve_cols, mem_prep_cols. apply mem_str_spec in I. rewrite I. now rewrite orb_true_r. }
  assert (PC : prep_cols c = c).
  { unfold prep_cols, salt_cols. rewrite (addc_in "opt_total_borate" c) by (apply M; cbn; tauto).
    rewrite (Z salts c) by (intros k I; apply M; cbn in I |- *; tauto).
    rewrite (addc_in "analyte_mass" c) by (apply M; cbn; tauto). apply addc_in, M. cbn; tauto. }
  assert (OC : outc c = c).
  { apply Z. intros k I. unfold c. rewrite mem_solve_cols. apply mem_str_spec in I. rewrite I. now rewrite orb_true_r. }
  unfold solve_cols at 1. rewrite PC, OC.
  destruct (mem_str "alkalinity_certified" c) eqn:AC; [|reflexivity].
  apply addc_in. unfold c in AC |- *. rewrite mem_solve_cols in AC |- *. rewrite mem_prep_cols in AC.
  replace (mem_str "alkalinity_certified" output_cols) with false in AC by reflexivity.
  replace (String.eqb "alkalinity_certified" "alkalinity_offset") with false in AC by reflexivity.
  replace (mem_str "alkalinity_certified" ["opt_total_borate"; "total_sulfate"; "total_borate"; "total_fluoride"; "analyte_mass"; "file_good"]) with false in AC by reflexivity.
  rewrite andb_false_r, !orb_false_r in AC. rewrite AC. cbn. apply orb_true_r.
Qed.

End R.
