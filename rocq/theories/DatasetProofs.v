(* DatasetProofs.v -- what prepare, solve and calibrate do to one row *)
From Verif Require Import Dataset DictLemmas SettingsProofs PropSettings.
Open Scope list_scope.
Open Scope string_scope.

Section D.
Context {T : Type} `{Num T}.

(* every row has exactly the frame's columns *)
Definition wff (ds : frame T) : Prop :=
  NoDup (f_cols ds) /\ forall r, In r (f_rows ds) -> dkeys r = f_cols ds.

Definition addc (c : string) (cols : list string) : list string :=
  if mem_str c cols then cols else (cols ++ [c])%list.

Lemma set_col_cols c f (ds : frame T) : f_cols (set_col c f ds) = addc c (f_cols ds).
Proof. reflexivity. Qed.
Lemma set_col_list_cols c vs (ds : frame T) : f_cols (set_col_list c vs ds) = addc c (f_cols ds).
Proof. reflexivity. Qed.

Lemma dkeys_dset {A} c (v : A) r : dkeys (dset c v r) = addc c (dkeys r).
Proof.
  unfold addc. destruct (mem_str c (dkeys r)) eqn:M.
  - apply mem_str_spec, dget_in_keys in M. now apply dkeys_dset_mem.
  - apply dkeys_dset_new. destruct (dmem c r) eqn:D; [|reflexivity].
    apply dget_in_keys, mem_str_spec in D. congruence.
Qed.

Lemma NoDup_addc c cols : NoDup cols -> NoDup (addc c cols).
Proof.
  unfold addc. intros N. destruct (mem_str c cols) eqn:M; [exact N|].
  apply mem_str_false in M.
  rewrite <- (rev_involutive (cols ++ [c])). apply NoDup_rev. rewrite rev_app_distr. cbn. constructor.
  - now rewrite <- in_rev.
  - now apply NoDup_rev.
Qed.

Lemma mem_addc k c cols : mem_str k (addc c cols) = (mem_str k cols || String.eqb k c)%bool.
Proof.
  unfold addc, mem_str. destruct (existsb (String.eqb c) cols) eqn:M.
  - destruct (String.eqb_spec k c) as [->|N]; [now rewrite M|now rewrite orb_false_r].
  - rewrite existsb_app. cbn. now rewrite orb_false_r.
Qed.

Lemma wff_get (ds : frame T) c r : wff ds -> In r (f_rows ds) -> has c ds = dmem c r.
Proof.
  intros [_ W] I. unfold has. rewrite <- (W r I). apply eq_true_iff_eq. rewrite mem_str_spec. apply dget_in_keys.
Qed.

Lemma wff_set_col c f (ds : frame T) : wff ds -> wff (set_col c f ds).
Proof.
  intros [N W]. split; [now apply NoDup_addc|]. intros r I. cbn in I. apply in_map_iff in I.
  destruct I as (r0 & <- & I). now rewrite dkeys_dset, (W r0 I).
Qed.

Lemma in_map2 {A B C} (f : A -> B -> C) l l' z : In z (map2 f l l') -> exists x y, In x l /\ In y l' /\ z = f x y.
Proof.
  revert l'. induction l as [|x l IH]; intros [|y l']; cbn; try tauto.
  intros [<-|I]; [exists x, y; auto|]. destruct (IH l' I) as (a & b & Ia & Ib & ->). exists a, b; auto.
Qed.

Lemma wff_set_col_list c vs (ds : frame T) : wff ds -> wff (set_col_list c vs ds).
Proof.
  intros [N W]. split; [now apply NoDup_addc|]. intros r I. cbn in I. apply in_map2 in I.
  destruct I as (r0 & v & I & _ & ->). now rewrite dkeys_dset, (W r0 I).
Qed.

(* ------------------------------------------------------------------ *)
(** * Functions that work row by row *)

Lemma surjective_frame (ds : frame T) : ds = {| f_cols := f_cols ds; f_rows := f_rows ds |}.
Proof. now destruct ds. Qed.

Definition rowwise (cols : list string) (g : row T -> res (row T)) (rows : list (row T)) : res (frame T) :=
  rows' <- mapM g rows ;; Ok {| f_cols := cols; f_rows := rows' |}.

Lemma mapM_fuse {A B C} (f : A -> res B) (g : B -> res C) l :
  req (l1 <- mapM f l ;; mapM g l1) (mapM (fun x => y <- f x ;; g y) l).
Proof.
  induction l as [|x l IH]; [reflexivity|]. cbn [mapM].
  destruct (f x) as [y|]; cbn [bind]; [|exact I].
  destruct (mapM f l) as [ys|]; cbn [bind] in *.
  - cbn [mapM]. destruct (g y) as [z|]; cbn [bind]; [|exact I].
    destruct (mapM g ys), (mapM _ l); cbn in IH |- *; try easy. now subst.
  - destruct (g y); cbn [bind]; [|exact I]. destruct (mapM _ l); [easy|exact I].
Qed.

Lemma mapM_pure {A B} (f : A -> B) l : mapM (fun x => Ok (f x)) l = Ok (map f l).
Proof. induction l as [|x l IH]; [reflexivity|]. cbn. now rewrite IH. Qed.

Lemma req_sym {A} (a b : res A) : req a b -> req b a.
Proof. destruct a, b; cbn; auto. Qed.
Lemma req_trans {A} (a b c : res A) : req a b -> req b c -> req a c.
Proof. destruct a, b, c; cbn; try tauto; congruence. Qed.
Lemma req_ok {A} (a b : res A) x : req a b -> a = Ok x -> b = Ok x.
Proof. intros R ->. destruct b; cbn in R; [now subst|easy]. Qed.
Lemma req_bind1 {A B} (r r' : res A) (k : A -> res B) : req r r' -> req (bind r k) (bind r' k).
Proof. intros R. apply req_bind; [exact R|]. intros. apply req_refl. Qed.

Lemma req_bind_ok {A B} (r : res A) (k k' : A -> res B) : (forall a, r = Ok a -> req (k a) (k' a)) -> req (bind r k) (bind r k').
Proof. destruct r; cbn; auto. Qed.

Lemma rowwise_comp c1 g1 c2 g2 rows :
  req (d <- rowwise c1 g1 rows ;; rowwise c2 g2 (f_rows d)) (rowwise c2 (fun r => r1 <- g1 r ;; g2 r1) rows).
Proof.
  unfold rowwise. pose proof (mapM_fuse g1 g2 rows) as F.
  destruct (mapM g1 rows) as [l|]; cbn [bind f_rows] in *.
  - destruct (mapM g2 l), (mapM _ rows); cbn in F |- *; try easy. now subst.
  - destruct (mapM _ rows); [easy|exact I].
Qed.

Lemma rowwise_ext c g g' rows : (forall r, In r rows -> g r = g' r) -> rowwise c g rows = rowwise c g' rows.
Proof. intros E. unfold rowwise. now rewrite (mapM_ext g g' rows E). Qed.

Lemma set_col_rowwise c f (ds : frame T) :
  Ok (set_col c f ds) = rowwise (addc c (f_cols ds)) (fun r => Ok (dset c (f r) r)) (f_rows ds).
Proof. unfold rowwise. rewrite mapM_pure. reflexivity. Qed.

Lemma set_col_list_rowwise c (g : row T -> res (val T)) (ds : frame T) :
  (vs <- mapM g (f_rows ds) ;; Ok (set_col_list c vs ds)) =
  rowwise (addc c (f_cols ds)) (fun r => v <- g r ;; Ok (dset c v r)) (f_rows ds).
Proof.
  unfold rowwise, set_col_list. change (if has c ds then f_cols ds else (f_cols ds ++ [c])%list) with (addc c (f_cols ds)).
  generalize (addc c (f_cols ds)). intros cols. generalize (f_rows ds). intros l.
  assert (E : (vs <- mapM g l ;; Ok (map2 (fun r v => dset c v r) l vs)) = mapM (fun r => v <- g r ;; Ok (dset c v r)) l).
  { induction l as [|r l IH]; [reflexivity|]. cbn [mapM]. rewrite <- IH.
    destruct (g r) as [v|]; cbn [bind]; [|reflexivity]. now destruct (mapM g l). }
  transitivity (rows' <- (vs <- mapM g l ;; Ok (map2 (fun r v => dset c v r) l vs)) ;; Ok {| f_cols := cols; f_rows := rows' |}).
  - now destruct (mapM g l).
  - exact (f_equal (fun z => bind z _) E).
Qed.

(* ------------------------------------------------------------------ *)
(** * prepare, row by row *)

Definition def_borate (r : row T) : val T :=
  let v := cell "opt_total_borate" r in if notnull v then v else VInt 1.

Fixpoint fill_row (e : env T) (ss : list string) (r : row T) : res (row T) :=
  match ss with
  | [] => Ok r
  | s :: ss' => r1 <- (v <- fill_salt e s r ;; Ok (dset s v r)) ;; fill_row e ss' r1
  end.

Lemma fill_cols_rowwise e ss (ds : frame T) :
  req (fill_cols e ss ds) (rowwise (fold_left (fun c s => addc s c) ss (f_cols ds)) (fill_row e ss) (f_rows ds)).
Proof.
  revert ds. induction ss as [|s ss IH]; intros ds; cbn [fill_cols fill_row fold_left].
  - apply req_eq. unfold rowwise. rewrite mapM_pure. rewrite map_id. now destruct ds.
  - eapply req_trans; [|apply (rowwise_comp (addc s (f_cols ds)) _ _ (fill_row e ss))].
    rewrite <- (set_col_list_rowwise s (fill_salt e s) ds). fold (fill_col e s ds).
    apply req_bind_ok. intros ds1 E. unfold fill_col in E.
    destruct (mapM (fill_salt e s) (f_rows ds)); cbn [bind] in E; [|discriminate]. injection E as <-.
    eapply req_trans; [apply IH|]. apply req_refl.
Qed.

Lemma fill_nothing e ss (ds : frame T) :
  forallb (fun s => has s ds && forallb (fun r => notnull (cell s r)) (f_rows ds)) ss = true ->
  fill_cols e ss ds = Ok ds.
Proof.
  induction ss as [|s ss IH]; [reflexivity|]. cbn [forallb fill_cols]. intros F.
  apply andb_prop in F. destruct F as [F G]. apply andb_prop in F. destruct F as [Hs F].
  assert (E : fill_col e s ds = Ok ds).
  { unfold fill_col. rewrite set_col_list_rowwise. unfold rowwise.
    replace (addc s (f_cols ds)) with (f_cols ds) by (unfold addc; unfold has in Hs; now rewrite Hs).
    rewrite (mapM_ext _ (fun r => Ok r)).
    - rewrite mapM_pure, map_id. cbn. now destruct ds.
    - intros r I. rewrite forallb_forall in F. specialize (F r I). unfold fill_salt. rewrite F. cbn [bind].
      f_equal. apply dset_same_value. unfold cell in *. destruct (dget s r); [reflexivity|discriminate]. }
  rewrite E. cbn [bind]. now apply IH.
Qed.

Definition salt_cols (cols : list string) : list string :=
  fold_left (fun c s => addc s c) salts (addc "opt_total_borate" cols).

Definition salt_row (e : env T) (r : row T) : res (row T) :=
  fill_row e salts (dset "opt_total_borate" (def_borate r) r).

Lemma get_total_salts_rowwise e (ds : frame T) :
  req (get_total_salts e ds)
      (if has "salinity" ds then rowwise (salt_cols (f_cols ds)) (salt_row e) (f_rows ds) else Err AssertionError).
Proof.
  unfold get_total_salts. destruct (has "salinity" ds); cbn [assert_ bind]; [|exact I].
  fold (def_borate). change (fun r : row T => let v := cell "opt_total_borate" r in if notnull v then v else VInt 1) with def_borate.
  set (ds1 := set_col "opt_total_borate" def_borate ds).
  eapply (req_trans _ (fill_cols e salts ds1)).
  - destruct (forallb _ salts) eqn:F; [|apply req_refl]. rewrite (fill_nothing e salts ds1 F). apply req_refl.
  - eapply req_trans; [apply fill_cols_rowwise|].
    change (fold_left (fun c s => addc s c) salts (f_cols ds1)) with (salt_cols (f_cols ds)).
    eapply (req_trans _ (d <- Ok ds1 ;; rowwise (salt_cols (f_cols ds)) (fill_row e salts) (f_rows d))); [apply req_refl|].
    unfold ds1. rewrite set_col_rowwise. eapply req_trans; [apply rowwise_comp|].
    apply req_eq. apply rowwise_ext. reflexivity.
Qed.

Definition rest_row (cols : list string) (r1 : row T) : row T :=
  let r2 := if mem_str "analyte_mass" cols then r1 else dset "analyte_mass" (VNum nnan) r1 in
  let r3 := if mem_str "titrant_amount_unit" cols
            then dset "titrant_amount_unit"
                   (let v := cell "titrant_amount_unit" r2 in if isnull v then VStr "ml" else v) r2
            else r2 in
  if mem_str "file_good" cols then r3 else dset "file_good" (VBool true) r3.

Definition prep_row (e : env T) (cols : list string) (r : row T) : res (row T) :=
  r1 <- salt_row e r ;; Ok (rest_row cols r1).

Definition prep_cols (cols : list string) : list string :=
  addc "file_good" (addc "analyte_mass" (salt_cols cols)).

Definition prepare_ok (cols : list string) : bool :=
  mem_str "salinity" cols && (mem_str "analyte_mass" cols || mem_str "analyte_volume" cols).

Lemma mem_salt_cols k cols : mem_str k (salt_cols cols) = (mem_str k cols || mem_str k ["opt_total_borate"; "total_sulfate"; "total_borate"; "total_fluoride"])%bool.
Proof.
  unfold salt_cols, salts. cbn [fold_left]. rewrite !mem_addc. cbn [mem_str existsb].
  destruct (mem_str k cols), (String.eqb k "opt_total_borate"), (String.eqb k "total_sulfate"), (String.eqb k "total_borate"),
    (String.eqb k "total_fluoride"); reflexivity.
Qed.

Lemma addc_mem c cols : mem_str c cols = true -> addc c cols = cols.
Proof. intros M. unfold addc. now rewrite M. Qed.

Lemma prepare_rowwise e (ds : frame T) :
  req (prepare e ds)
      (if prepare_ok (f_cols ds) then rowwise (prep_cols (f_cols ds)) (prep_row e (f_cols ds)) (f_rows ds)
       else Err AssertionError).
Proof.
  unfold prepare, prepare_ok.
  eapply req_trans; [apply req_bind1, get_total_salts_rowwise|].
  change (mem_str "salinity" (f_cols ds)) with (has "salinity" ds).
  destruct (has "salinity" ds) eqn:HS; cbn [andb]; [|exact I].
  unfold rowwise at 1. destruct (mapM (salt_row e) (f_rows ds)) as [rows1|] eqn:ER; cbn [bind].
  2:{ destruct (mem_str "analyte_mass" (f_cols ds) || mem_str "analyte_volume" (f_cols ds))%bool; [|exact I].
      pose proof (mapM_fuse (salt_row e) (fun r1 => Ok (rest_row (f_cols ds) r1)) (f_rows ds)) as F.
      rewrite ER in F. cbn [bind] in F. unfold rowwise. fold (prep_row e (f_cols ds)) in F.
      change (fun x : row T => r1 <- salt_row e x;; Ok (rest_row (f_cols ds) r1)) with (prep_row e (f_cols ds)) in F.
      destruct (mapM (prep_row e (f_cols ds)) (f_rows ds)); [easy|exact I]. }
  set (ds1 := {| f_cols := salt_cols (f_cols ds); f_rows := rows1 |}).
  assert (HM : forall k, mem_str k ["opt_total_borate"; "total_sulfate"; "total_borate"; "total_fluoride"] = false ->
               has k ds1 = mem_str k (f_cols ds)).
  { intros k N. unfold has, ds1. cbn [f_cols]. rewrite mem_salt_cols, N. apply orb_false_r. }
  assert (FIN : forall (b1 b2 : bool) (d : frame T), True) by auto.
  pose proof (mapM_fuse (salt_row e) (fun r1 => Ok (rest_row (f_cols ds) r1)) (f_rows ds)) as F.
  rewrite ER in F. cbn [bind] in F. rewrite mapM_pure in F.
  change (fun x : row T => r1 <- salt_row e x;; Ok (rest_row (f_cols ds) r1)) with (prep_row e (f_cols ds)) in F.
  assert (R : rowwise (prep_cols (f_cols ds)) (prep_row e (f_cols ds)) (f_rows ds) =
              Ok {| f_cols := prep_cols (f_cols ds); f_rows := map (rest_row (f_cols ds)) rows1 |}).
  { unfold rowwise. destruct (mapM (prep_row e (f_cols ds)) (f_rows ds)); cbn in F; [|easy]. now subst. }
  rewrite R. clear R F FIN ER.
  rewrite (HM "analyte_mass"), (HM "analyte_volume") by reflexivity.
  set (ds2 := if mem_str "analyte_mass" (f_cols ds) then ds1 else set_col "analyte_mass" (fun _ => VNum nnan) ds1).
  assert (H2 : forall k, k <> "analyte_mass" -> has k ds2 = has k ds1).
  { intros k N. unfold ds2. destruct (mem_str "analyte_mass" (f_cols ds)); [reflexivity|].
    unfold has. rewrite set_col_cols, mem_addc. destruct (String.eqb_spec k "analyte_mass"); [congruence|]. apply orb_false_r. }
  destruct (mem_str "analyte_mass" (f_cols ds) || mem_str "analyte_volume" (f_cols ds))%bool eqn:OR.
  2:{ apply orb_false_elim in OR. destruct OR as [-> ->]. exact I. }
  assert (E2 : (if mem_str "analyte_mass" (f_cols ds) then Ok ds1
                else _ <- assert_ (mem_str "analyte_volume" (f_cols ds)) ;; Ok (set_col "analyte_mass" (fun _ => VNum nnan) ds1)) = Ok ds2).
  { unfold ds2. destruct (mem_str "analyte_mass" (f_cols ds)); [reflexivity|]. cbn [orb] in OR. rewrite OR. reflexivity. }
  rewrite E2. cbn [bind]. clear E2.
  rewrite (H2 "salinity") by discriminate. rewrite (HM "salinity") by reflexivity.
  change (mem_str "salinity" (f_cols ds)) with (has "salinity" ds). rewrite HS. cbn [assert_ bind].
  rewrite (H2 "titrant_amount_unit"), (HM "titrant_amount_unit") by (reflexivity || discriminate).
  set (ds3 := if mem_str "titrant_amount_unit" (f_cols ds) then _ else ds2).
  assert (C3 : f_cols ds3 = f_cols ds2).
  { unfold ds3. destruct (mem_str "titrant_amount_unit" (f_cols ds)) eqn:TU; [|reflexivity].
    rewrite set_col_cols. apply addc_mem. change (has "titrant_amount_unit" ds2 = true).
    rewrite (H2 "titrant_amount_unit"), (HM "titrant_amount_unit") by (reflexivity || discriminate). exact TU. }
  assert (H3 : has "file_good" ds3 = mem_str "file_good" (f_cols ds)).
  { unfold has. rewrite C3. change (has "file_good" ds2 = mem_str "file_good" (f_cols ds)).
    rewrite (H2 "file_good"), (HM "file_good") by (reflexivity || discriminate). reflexivity. }
  rewrite H3. apply req_eq. f_equal.
  assert (C2 : f_cols ds2 = addc "analyte_mass" (salt_cols (f_cols ds))).
  { unfold ds2. destruct (mem_str "analyte_mass" (f_cols ds)) eqn:AM; [|reflexivity].
    symmetry. apply (addc_mem "analyte_mass" (salt_cols (f_cols ds))). rewrite mem_salt_cols, AM. reflexivity. }
  assert (R2 : f_rows ds2 = map (fun r1 => if mem_str "analyte_mass" (f_cols ds) then r1 else dset "analyte_mass" (VNum nnan) r1) rows1).
  { unfold ds2. destruct (mem_str "analyte_mass" (f_cols ds)); [now rewrite map_id|reflexivity]. }
  assert (R3 : f_rows ds3 = map (fun r2 => if mem_str "titrant_amount_unit" (f_cols ds)
            then dset "titrant_amount_unit" (let v := cell "titrant_amount_unit" r2 in if isnull v then VStr "ml" else v) r2
            else r2) (f_rows ds2)).
  { unfold ds3. destruct (mem_str "titrant_amount_unit" (f_cols ds)); [reflexivity|now rewrite map_id]. }
  unfold prep_cols.
  destruct (mem_str "file_good" (f_cols ds)) eqn:FG.
  - replace (addc "file_good" (addc "analyte_mass" (salt_cols (f_cols ds)))) with (f_cols ds3).
    + rewrite (surjective_frame ds3). f_equal. rewrite R3, R2, !map_map. apply map_ext. intros r. unfold rest_row. now rewrite FG.
    + rewrite C3, C2. symmetry. apply addc_mem. rewrite mem_addc, mem_salt_cols, FG. reflexivity.
  - unfold set_col. f_equal.
    + change (addc "file_good" (f_cols ds3) = addc "file_good" (addc "analyte_mass" (salt_cols (f_cols ds)))). now rewrite C3, C2.
    + rewrite R3, R2, !map_map. apply map_ext. intros r. unfold rest_row. now rewrite FG.
Qed.

(* ------------------------------------------------------------------ *)
(** * solve, row by row *)

Definition put_results (d r : row T) : row T := fold_left (fun acc k => dset k (cell k d) acc) output_cols r.

Lemma set_results_rows ks (ds : frame T) solved : length solved = length (f_rows ds) ->
  fold_left (fun d k => set_col_list k (map (cell k) solved) d) ks ds =
  {| f_cols := fold_left (fun c k => addc k c) ks (f_cols ds);
     f_rows := map2 (fun r d => fold_left (fun acc k => dset k (cell k d) acc) ks r) (f_rows ds) solved |}.
Proof.
  revert ds. induction ks as [|k ks IH]; intros ds L; cbn [fold_left].
  - rewrite (surjective_frame ds) at 1. f_equal. symmetry. clear - L.
    revert solved L. generalize (f_rows ds). induction l as [|r l IH]; intros [|d solved]; cbn; try discriminate; auto.
    intros L. f_equal. apply IH. now injection L.
  - rewrite IH.
    + f_equal. cbn [set_col_list f_rows]. clear - L. revert solved L. generalize (f_rows ds).
      induction l as [|r l IH]; intros [|d solved]; cbn; try discriminate; auto. intros L. f_equal. apply IH. now injection L.
    + cbn [set_col_list f_rows]. clear - L. revert solved L. generalize (f_rows ds).
      induction l as [|r l IH]; intros [|d solved]; cbn; try discriminate; auto.
Qed.

Definition outc (cols : list string) : list string := fold_left (fun c k => addc k c) output_cols cols.

Lemma set_results_rowwise (g : row T -> res (row T)) (ds : frame T) :
  (solved <- mapM g (f_rows ds) ;; Ok (set_results solved ds)) =
  rowwise (outc (f_cols ds)) (fun r => d <- g r ;; Ok (put_results d r)) (f_rows ds).
Proof.
  unfold rowwise, set_results.
  transitivity (solved <- mapM g (f_rows ds) ;;
     Ok {| f_cols := outc (f_cols ds);
           f_rows := map2 (fun r d => put_results d r) (f_rows ds) solved |}).
  - destruct (mapM g (f_rows ds)) as [solved|] eqn:E; cbn [bind]; [|reflexivity]. f_equal.
    apply set_results_rows. now apply mapM_ok in E.
  - generalize (outc (f_cols ds)). intros cols. generalize (f_rows ds). intros l.
    assert (E : (vs <- mapM g l ;; Ok (map2 (fun r d => put_results d r) l vs)) = mapM (fun r => d <- g r ;; Ok (put_results d r)) l).
    { induction l as [|r l IH]; [reflexivity|]. cbn [mapM]. rewrite <- IH.
      destruct (g r) as [v|]; cbn [bind]; [|reflexivity]. now destruct (mapM g l). }
    rewrite <- E. now destruct (mapM g l).
Qed.

Definition finish_row (cols : list string) (r2 : row T) : res (row T) :=
  if mem_str "alkalinity_certified" cols then o <- offset_of r2 ;; Ok (dset "alkalinity_offset" o r2) else Ok r2.

Definition solve_one (e : env T) (kw : kwargs T) (cols : list string) (r : row T) : res (row T) :=
  r1 <- prep_row e cols r ;;
  r2 <- (d <- solve_row e kw r1 ;; Ok (put_results d r1)) ;;
  finish_row cols r2.

Definition solve_cols (cols : list string) : list string :=
  if mem_str "alkalinity_certified" cols then addc "alkalinity_offset" (outc (prep_cols cols)) else outc (prep_cols cols).

Definition solve_ok (kw : kwargs T) (cols : list string) : bool :=
  is_ok (solve_ignored kw) && prepare_ok cols && mem_str "titrant_molinity" cols.

Lemma mem_prep_cols k cols : mem_str k (prep_cols cols) =
  (mem_str k cols || mem_str k ["opt_total_borate"; "total_sulfate"; "total_borate"; "total_fluoride"; "analyte_mass"; "file_good"])%bool.
Proof.
  unfold prep_cols. rewrite !mem_addc, mem_salt_cols. cbn [mem_str existsb].
  destruct (mem_str k cols), (String.eqb k "opt_total_borate"), (String.eqb k "total_sulfate"), (String.eqb k "total_borate"),
    (String.eqb k "total_fluoride"), (String.eqb k "analyte_mass"), (String.eqb k "file_good"); reflexivity.
Qed.

Lemma mem_outc k c : mem_str k (outc c) = (mem_str k c || mem_str k output_cols)%bool.
Proof.
  unfold outc. generalize output_cols. intros l. revert c.
  induction l as [|x l IH]; intros c; cbn [fold_left]; [now rewrite orb_false_r|].
  rewrite IH, mem_addc. cbn [mem_str existsb]. fold (mem_str k l). now rewrite orb_assoc.
Qed.

Lemma solve_rowwise e kw (ds : frame T) :
  req (solve e kw ds)
      (if solve_ok kw (f_cols ds) then rowwise (solve_cols (f_cols ds)) (solve_one e kw (f_cols ds)) (f_rows ds)
       else Err AssertionError).
Proof.
  unfold solve, solve_ok.
  destruct (solve_ignored kw) as [w|]; cbn [bind is_ok andb]; [|exact I].
  eapply req_trans; [apply req_bind1, prepare_rowwise|].
  destruct (prepare_ok (f_cols ds)) eqn:PO; cbn [andb]; [|exact I].
  set (cols := f_cols ds). set (rows := f_rows ds).
  eapply (req_trans _ (d <- rowwise (prep_cols cols) (prep_row e cols) rows ;;
     if mem_str "titrant_molinity" cols
     then d2 <- rowwise (outc (prep_cols cols)) (fun r1 => d <- solve_row e kw r1 ;; Ok (put_results d r1)) (f_rows d) ;;
          rowwise (solve_cols cols) (finish_row cols) (f_rows d2)
     else Err AssertionError)).
  - apply req_bind_ok. intros ds1 E1. 
    assert (C1 : f_cols ds1 = prep_cols cols).
    { unfold rowwise in E1. destruct (mapM (prep_row e cols) rows); cbn [bind] in E1; [|discriminate]. now injection E1 as <-. }
    unfold has at 1. rewrite C1, mem_prep_cols.
    replace (mem_str "titrant_molinity" ["opt_total_borate"; "total_sulfate"; "total_borate"; "total_fluoride"; "analyte_mass"; "file_good"]) with false by reflexivity.
    rewrite orb_false_r. destruct (mem_str "titrant_molinity" cols); cbn [assert_ bind]; [|exact I].
    eapply (req_trans _ (ds2 <- (solved <- mapM (solve_row e kw) (f_rows ds1) ;; Ok (set_results solved ds1)) ;;
      if has "alkalinity_certified" ds2 then offs <- mapM offset_of (f_rows ds2) ;; Ok (set_col_list "alkalinity_offset" offs ds2) else Ok ds2)).
    + destruct (mapM (solve_row e kw) (f_rows ds1)); cbn [bind]; apply req_refl.
    + rewrite set_results_rowwise, C1.
      apply req_bind_ok. intros ds2 E2.
      assert (C2 : f_cols ds2 = outc (prep_cols cols)).
      { unfold rowwise in E2. destruct (mapM _ (f_rows ds1)); cbn [bind] in E2; [|discriminate]. now injection E2 as <-. }
      unfold has. rewrite C2, mem_outc, mem_prep_cols.
      replace (mem_str "alkalinity_certified" ["opt_total_borate"; "total_sulfate"; "total_borate"; "total_fluoride"; "analyte_mass"; "file_good"]) with false by reflexivity.
      replace (mem_str "alkalinity_certified" output_cols) with false by reflexivity.
      rewrite !orb_false_r. unfold solve_cols.
      destruct (mem_str "alkalinity_certified" cols) eqn:AC.
      * rewrite set_col_list_rowwise, C2. apply req_eq. apply rowwise_ext. intros r _. unfold finish_row. now rewrite AC.
      * apply req_eq. unfold rowwise, finish_row. rewrite AC, mapM_pure, map_id. cbn [bind]. rewrite <- C2. now destruct ds2.
  - destruct (mem_str "titrant_molinity" cols).
    + eapply req_trans; [|apply req_eq; symmetry; apply rowwise_ext; intros r _; unfold solve_one; reflexivity].
      eapply req_trans; [|apply (rowwise_comp (outc (prep_cols cols)))]. 
      eapply req_trans; [apply req_bind_ok; intros d _; apply (rowwise_comp (outc (prep_cols cols)))|].
      eapply req_trans; [apply rowwise_comp|].
      apply req_sym. eapply req_trans; [apply rowwise_comp|].
      apply req_eq. apply rowwise_ext. intros r _. destruct (prep_row e cols r); reflexivity.
    + destruct (rowwise _ _ _); exact I.
Qed.

End D.
