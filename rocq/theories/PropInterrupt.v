(* PropInterrupt.v -- C145: a call that was interrupted can be made again *)
From Coq Require Import List.
From Verif Require Import Dataset DictLemmas SpecDataset SettingsProofs PropSettings DatasetProofs RowProofs CalProofs.
From Verif Require Import Interrupt.
Import ListNotations.
Open Scope string_scope.
Open Scope list_scope.

Section P.
Context {T : Type} `{Num T}.
Notation rows := (list (row T)).

(* ------------------------------------------------------------------ *)
(** * Programs as lists of steps *)

(* a check of the columns, a column made if it is missing, or a column computed from the rows under a condition on
   the columns *)
Inductive step : Type :=
| Chk (f : list string -> res unit)
| Init (c : string) (f : row T -> val T)
| Put (w : list string -> bool) (c : string) (G : rows -> res (list (val T))).

Definition do1 (s : step) (d : frame T) : res (frame T) :=
  match s with
  | Chk f => _ <- f (f_cols d) ;; Ok d
  | Init c f => Ok (if has c d then d else set_col c f d)
  | Put w c G => if w (f_cols d) then vs <- G (f_rows d) ;; Ok (set_col_list c vs d) else Ok d
  end.

Fixpoint run (p : list step) (d : frame T) : res (frame T) :=
  match p with [] => Ok d | s :: p' => d' <- do1 s d ;; run p' d' end.

Fixpoint states (p : list step) (d : frame T) : list (frame T) :=
  match p with
  | [] => []
  | s :: p' => match do1 s d with Ok d' => d' :: states p' d' | Err _ => [] end
  end.

Lemma run_app p q d : run (p ++ q) d = (d' <- run p d ;; run q d').
Proof.
  revert d. induction p as [|s p IH]; intros d; [reflexivity|]. cbn [run app].
  destruct (do1 s d) as [d'|]; cbn [bind]; [apply IH|reflexivity].
Qed.

Lemma states_app p q d s : In s (states (p ++ q) d) <->
  In s (states p d) \/ exists d', run p d = Ok d' /\ In s (states q d').
Proof.
  revert d. induction p as [|st p IH]; intros d; cbn [states app run].
  - split; [intros I; right; eauto|]. intros [[]|(d' & E & I)]. injection E as <-. exact I.
  - destruct (do1 st d) as [d'|]; cbn [bind In].
    + rewrite IH. tauto.
    + split; [tauto|]. intros [[]|(d' & E & _)]. discriminate.
Qed.

Lemma states_prefix p d s : In s (d :: states p d) -> exists p1 p2, p = p1 ++ p2 /\ run p1 d = Ok s.
Proof.
  revert d. induction p as [|st p IH]; intros d I.
  - destruct I as [<-|[]]. exists [], []. auto.
  - destruct I as [<-|I]; [exists [], (st :: p); auto|]. cbn [states] in I.
    destruct (do1 st d) as [d'|] eqn:E; [|destruct I].
    destruct (IH d' I) as (p1 & p2 & -> & R). exists (st :: p1), p2. split; [reflexivity|].
    cbn [run]. rewrite E. exact R.
Qed.

(* a step that changes nothing, because it has been made *)
Definition fixed (d : frame T) (s : step) : Prop :=
  match s with
  | Chk f => f (f_cols d) = Ok tt
  | Init c _ => has c d = true
  | Put w c G => w (f_cols d) = false \/ (has c d = true /\ G (f_rows d) = Ok (map (cell c) (f_rows d)))
  end.

Lemma set_same c (d : frame T) : wff d -> has c d = true -> set_col_list c (map (cell c) (f_rows d)) d = d.
Proof.
  intros W Hc. unfold set_col_list. rewrite Hc.
  assert (E : map2 (fun r v => dset c v r) (f_rows d) (map (cell c) (f_rows d)) = f_rows d).
  { assert (A : forall r, In r (f_rows d) -> dset c (cell c r) r = r).
    { intros r I. apply dset_same_value. rewrite (wff_get d c r W I) in Hc. unfold cell, dmem in *.
      destruct (dget c r); [reflexivity|discriminate]. }
    revert A. generalize (f_rows d). induction l as [|r l IH]; [reflexivity|]. cbn [map map2]. intros A.
    f_equal; [apply A; now left|]. apply IH. intros r' I. apply A. now right. }
  rewrite E. now destruct d.
Qed.

Lemma fixed_noop d s : wff d -> fixed d s -> do1 s d = Ok d.
Proof.
  intros W F. destruct s as [f|c f|w c G]; cbn [do1 fixed] in *.
  - rewrite F. reflexivity.
  - rewrite F. reflexivity.
  - destruct F as [F|[Hc F]]; [rewrite F; reflexivity|]. rewrite F. cbn [bind]. rewrite (set_same c d W Hc).
    now destruct (w (f_cols d)).
Qed.

Lemma fixed_run d p : wff d -> Forall (fixed d) p -> run p d = Ok d.
Proof. intros W. induction 1 as [|s p F _ IH]; [reflexivity|]. cbn [run]. rewrite (fixed_noop d s W F). exact IH. Qed.

Lemma do1_wff s d d' : wff d -> do1 s d = Ok d' -> wff d'.
Proof.
  intros W E. destruct s as [f|c f|w c G]; cbn [do1] in E.
  - destruct (f (f_cols d)); cbn [bind] in E; [|discriminate]. now injection E as <-.
  - injection E as <-. destruct (has c d); [exact W|now apply wff_set_col].
  - destruct (w (f_cols d)); [|now injection E as <-]. destruct (G (f_rows d)); cbn [bind] in E; [|discriminate].
    injection E as <-. now apply wff_set_col_list.
Qed.
Lemma run_wff p d d' : wff d -> run p d = Ok d' -> wff d'.
Proof.
  revert d. induction p as [|s p IH]; intros d W E; cbn [run] in E; [now injection E as <-|].
  destruct (do1 s d) as [d1|] eqn:E1; cbn [bind] in E; [|discriminate]. eapply IH; [|exact E]. eapply do1_wff; eauto.
Qed.

(* ------------------------------------------------------------------ *)
(** * What a step depends on *)

Definition agree_on (K : list string) (l l' : rows) : Prop := Forall2 (fun r r' => forall k, In k K -> dget k r = dget k r') l l'.

Record sound (K : list string) (s : step) : Prop := {
  (* made once, it is made *)
  so_settles : forall d d', wff d -> do1 s d = Ok d' -> fixed d' s;
  (* it gives as many values as there are rows *)
  so_length : match s with Chk _ | Init _ _ => True | Put _ _ G => forall l vs, G l = Ok vs -> length vs = length l end;
  (* it depends on nothing but the columns K, itself included *)
  so_reads : match s with
             | Chk f => forall c cols, f cols = Ok tt -> f (addc c cols) = Ok tt
             | Init _ _ => True
             | Put w c G => In c K /\ (forall c' cols, ~ In c' K -> w cols = false -> w (addc c' cols) = false) /\
                            (forall l l', agree_on K l l' -> G l = G l')
             end
}.

Lemma map2_length {A B C} (f : A -> B -> C) l l' : length l' = length l -> length (map2 f l l') = length l.
Proof. revert l'. induction l as [|x l IH]; intros [|y l']; cbn; try discriminate; auto. Qed.

Lemma agree_set K c vs (l : rows) : ~ In c K -> length vs = length l -> agree_on K l (map2 (fun r v => dset c v r) l vs).
Proof.
  intros N. revert vs. induction l as [|r l IH]; intros [|v vs] L; try discriminate; [constructor|].
  cbn [map2]. constructor; [|apply IH; now injection L].
  intros k I. symmetry. apply dget_dset_other. intros ->. exact (N I).
Qed.

Lemma agree_cells K c l l' : In c K -> agree_on K l l' -> map (cell c) l = map (cell c) l'.
Proof. intros I. induction 1 as [|r r' l l' A _ IH]; [reflexivity|]. cbn [map]. rewrite IH. unfold cell. now rewrite (A c I). Qed.

(* setting another column *)
Lemma keep_set K s c vs (d : frame T) : sound K s -> length vs = length (f_rows d) -> ~ In c K -> fixed d s -> fixed (set_col_list c vs d) s.
Proof.
  intros S L N F. pose proof (so_reads K s S) as R. destruct s as [f|c0 f|w0 c0 G0]; cbn [fixed] in *.
  - rewrite set_col_list_cols. now apply R.
  - unfold has in *. rewrite set_col_list_cols, mem_addc, F. reflexivity.
  - destruct R as (I0 & Rw & RG). rewrite set_col_list_cols. destruct F as [F|[Hc F]]; [left; now apply Rw|right].
    split.
    + unfold has. rewrite set_col_list_cols, mem_addc. unfold has in Hc. now rewrite Hc.
    + assert (A : agree_on K (f_rows d) (f_rows (set_col_list c vs d))) by (apply agree_set; assumption).
      rewrite <- (RG _ _ A), <- (agree_cells K c0 _ _ I0 A). exact F.
Qed.

Lemma set_col_as_list c f (d : frame T) : set_col c f d = set_col_list c (map f (f_rows d)) d.
Proof.
  unfold set_col, set_col_list. f_equal. induction (f_rows d) as [|r l IH]; [reflexivity|]. cbn [map map2]. now rewrite IH.
Qed.

Lemma keep_fixed K Kj s j d d' : sound K s -> sound Kj j ->
  match j with Chk _ => True | Init c _ | Put _ c _ => ~ In c K end -> fixed d s -> do1 j d = Ok d' -> fixed d' s.
Proof.
  intros S Sj N F E. destruct j as [f|c f|w c G]; cbn [do1] in E.
  - destruct (f (f_cols d)); cbn [bind] in E; [|discriminate]. now injection E as <-.
  - injection E as <-. destruct (has c d); [exact F|]. rewrite set_col_as_list. apply (keep_set K); auto. apply map_length.
  - destruct (w (f_cols d)); [|now injection E as <-].
    destruct (G (f_rows d)) as [vs|] eqn:EG; cbn [bind] in E; [|discriminate]. injection E as <-.
    apply (keep_set K); auto. exact (so_length _ _ Sj _ _ EG).
Qed.

(* ------------------------------------------------------------------ *)
(** * Sequences in which no step undoes an earlier one *)

Definition astep : Type := (step * list string)%type.
Definition target (s : step) : option string := match s with Chk _ => None | Init c _ | Put _ c _ => Some c end.
Definition apart (j : astep) (i : astep) : bool :=
  match target (fst j) with None => true | Some c => negb (mem_str c (snd i)) end.

Inductive chain : list astep -> list astep -> Prop :=
| chain_nil done : chain done []
| chain_new done j p : sound (snd j) (fst j) -> forallb (apart j) done = true -> chain (done ++ [j]) p -> chain done (j :: p)
| chain_noop done j p : sound (snd j) (fst j) ->
    (forall d d', wff d -> Forall (fixed d) (map fst done) -> do1 (fst j) d = Ok d' -> d' = d) ->
    chain (done ++ [j]) p -> chain done (j :: p).

Lemma chain_step done j p d d' : chain done (j :: p) -> Forall (fun i => sound (snd i) (fst i)) done -> wff d ->
  Forall (fixed d) (map fst done) -> do1 (fst j) d = Ok d' ->
  Forall (fixed d') (map fst (done ++ [j])) /\ Forall (fun i => sound (snd i) (fst i)) (done ++ [j]) /\ chain (done ++ [j]) p.
Proof.
  intros C S W F E.
  assert (X : sound (snd j) (fst j) /\ chain (done ++ [j]) p /\ Forall (fixed d') (map fst done)).
  { inversion C as [|done0 j0 p0 Sj A C'|done0 j0 p0 Sj A C']; subst; split; try exact Sj; split; try exact C'.
    - rewrite Forall_forall in *. intros s I. apply in_map_iff in I. destruct I as (i & <- & I). pose proof Logic.I as I0.
      specialize (F (fst i) (in_map fst _ _ I)). specialize (S i I). rewrite forallb_forall in A. specialize (A i I).
      apply (keep_fixed (snd i) (snd j) (fst i) (fst j) d d' S Sj); auto.
      unfold apart in A. destruct (fst j) as [f|c f|w c G]; cbn [target] in A; [exact I0| |];
        now apply mem_str_false, negb_true_iff.
    - now rewrite (A d d' W F E). }
  destruct X as (Sj & C' & F'). split; [|split; [|exact C']].
  - rewrite map_app. apply Forall_app. split; [exact F'|]. constructor; [|constructor]. eapply so_settles; eassumption.
  - apply Forall_app. split; [exact S|]. constructor; [exact Sj|constructor].
Qed.

Lemma chain_run done p p1 p2 d s : chain done p -> Forall (fun i => sound (snd i) (fst i)) done -> wff d ->
  Forall (fixed d) (map fst done) -> p = p1 ++ p2 -> run (map fst p1) d = Ok s ->
  Forall (fixed s) (map fst (done ++ p1)).
Proof.
  intros C S W F E R. revert done p d C S W F E R. induction p1 as [|j p1 IH]; intros done p d C S W F E R.
  - cbn [map run] in R. injection R as <-. now rewrite app_nil_r.
  - subst p. cbn [map run] in R. destruct (do1 (fst j) d) as [d'|] eqn:Ed; cbn [bind] in R; [|discriminate].
    destruct (chain_step done j (p1 ++ p2) d d' C S W F Ed) as (F' & S' & C').
    replace (done ++ j :: p1) with ((done ++ [j]) ++ p1) by now rewrite <- app_assoc.
    exact (IH _ _ d' C' S' (do1_wff _ _ _ W Ed) F' eq_refl R).
Qed.

(* the whole sequence, run again from any table on its way, does what it would have done *)
Lemma chain_again p d s : chain [] p -> wff d -> In s (d :: states (map fst p) d) -> run (map fst p) s = run (map fst p) d.
Proof.
  intros C W I. apply states_prefix in I. destruct I as (q1 & q2 & E & R).
  assert (X : exists p1 p2, p = p1 ++ p2 /\ q1 = map fst p1 /\ q2 = map fst p2).
  { clear - E. revert q1 E. induction p as [|a p IH]; intros [|q q1] E; cbn in E; try discriminate.
    - exists [], []. cbn in *. auto.
    - exists [], (a :: p). auto.
    - injection E as <- E. destruct (IH q1 E) as (p1 & p2 & -> & -> & ->). exists (a :: p1), p2. auto. }
  destruct X as (p1 & p2 & -> & -> & ->).
  pose proof (chain_run [] (p1 ++ p2) p1 p2 d s C (Forall_nil _) W (Forall_nil _) eq_refl R) as F. cbn [app] in F.
  pose proof (fixed_run s _ (run_wff _ _ _ W R) F) as Q. unfold astep in *.
  rewrite map_app, !run_app, Q, R. reflexivity.
Qed.

(* ------------------------------------------------------------------ *)
(** * The steps of prepare, calibrate and solve *)

Lemma chain_app done p q : chain done p -> chain (done ++ p) q -> chain done (p ++ q).
Proof.
  intros C. revert q. induction C as [done|done j p S A C IH|done j p S A C IH]; intros q D.
  - rewrite app_nil_r in D. exact D.
  - cbn [app]. apply chain_new; auto. apply IH. rewrite <- app_assoc. exact D.
  - cbn [app]. apply chain_noop; auto. apply IH. rewrite <- app_assoc. exact D.
Qed.

Lemma chain_in done p : Forall (fun i => sound (snd i) (fst i)) p -> incl p done -> chain done p.
Proof.
  intros S. revert done. induction S as [|j p Sj S IH]; intros done I; [constructor|].
  apply chain_noop; [exact Sj| |].
  - intros d d' W F E. rewrite Forall_forall in F.
    rewrite (fixed_noop d (fst j) W) in E; [now injection E|]. apply F, in_map, I. now left.
  - apply IH. intros x Ix. apply in_or_app. left. apply I. now right.
Qed.

Definition yes (_ : list string) : bool := true.
Definition Row (w : list string -> bool) (c : string) (g : row T -> res (val T)) : step := Put w c (mapM g).

Lemma mapM_length {A B} (g : A -> res B) l vs : mapM g l = Ok vs -> length vs = length l.
Proof. intros E. apply mapM_Forall2 in E. induction E; cbn [length]; auto. Qed.

Lemma mapM_agree {A} K (g : row T -> res A) l l' : (forall r r', (forall k, In k K -> dget k r = dget k r') -> g r = g r') ->
  agree_on K l l' -> mapM g l = mapM g l'.
Proof. intros B. induction 1 as [|r r' l l' R _ IH]; [reflexivity|]. cbn [mapM]. now rewrite (B r r' R), IH. Qed.

Lemma row_sound K w c g : In c K -> (forall c' cols, ~ In c' K -> w cols = false -> w (addc c' cols) = false) ->
  (forall r r', (forall k, In k K -> dget k r = dget k r') -> g r = g r') ->
  (forall r v, g r = Ok v -> g (dset c v r) = Ok v) ->
  sound K (Row w c g).
Proof.
  intros I Gd R S. constructor.
  - intros d d' W E. unfold Row in *. cbn [do1 fixed] in *. destruct (w (f_cols d)) eqn:Wd.
    2:{ injection E as <-. now left. }
    right. match type of E with bind ?x _ = _ => destruct x as [vs|] eqn:M end; cbn [bind] in E; [|discriminate]. injection E as <-.
    split; [unfold has; rewrite set_col_list_cols, mem_addc, String.eqb_refl; apply orb_true_r|].
    cbn [set_col_list f_rows]. apply mapM_Forall2 in M. induction M as [|r v l vs E _ IH]; [reflexivity|].
    cbn [map2 mapM map]. rewrite (S r v E), IH, cell_dset_same. reflexivity.
  - intros l vs E. eapply mapM_length, E.
  - split; [exact I|]. split; [exact Gd|]. intros l l'. now apply mapM_agree.
Qed.

Lemma init_sound c f : sound [] (Init c f).
Proof.
  constructor; [|exact I|exact I]. intros d d' W E. cbn [do1 fixed] in *. injection E as <-. destruct (has c d) eqn:Hc; [exact Hc|].
  unfold has. rewrite set_col_cols, mem_addc, String.eqb_refl. apply orb_true_r.
Qed.

Lemma chk_sound f : (forall c cols, f cols = Ok tt -> f (addc c cols) = Ok tt) -> sound [] (Chk f).
Proof.
  intros M. constructor; [|exact I|exact M]. intros d d' W E. cbn [do1 fixed] in *.
  destruct (f (f_cols d)) as [[]|] eqn:F; cbn [bind] in E; [|discriminate]. now injection E as <-.
Qed.

Definition need (c : string) : astep := (Chk (fun cols => assert_ (mem_str c cols)), []).
Lemma need_sound c : sound (snd (need c)) (fst (need c)).
Proof.
  apply chk_sound. intros c' cols E. rewrite mem_addc. destruct (mem_str c cols); [reflexivity|discriminate].
Qed.

Definition s_borate : astep := (Row yes "opt_total_borate" (fun r => Ok (def_borate r)), ["opt_total_borate"]).
Lemma borate_sound : sound (snd s_borate) (fst s_borate).
Proof.
  apply row_sound; [now left|discriminate| |].
  - intros r r' A. unfold def_borate, cell. rewrite (A "opt_total_borate") by now left. reflexivity.
  - intros r v E. injection E as <-. f_equal. unfold def_borate. rewrite cell_dset_same.
    destruct (notnull (cell "opt_total_borate" r)) eqn:N; [now rewrite N|]. reflexivity.
Qed.

Definition s_nan (k : string) : astep := (Init k (fun _ => VNum nnan), []).
Definition s_fill (e : env T) (k : string) : astep := (Row yes k (fill_salt e k), [k; "salinity"; "opt_total_borate"]).
Lemma fill_sound e k : In k salts -> sound (snd (s_fill e k)) (fst (s_fill e k)).
Proof.
  intros Ik.
  assert (N : k <> "salinity" /\ k <> "opt_total_borate").
  { cbn in Ik. destruct Ik as [<-|[<-|[<-|[]]]]; split; discriminate. }
  apply row_sound; [now left|discriminate| |].
  - intros r r' A. unfold fill_salt, cell. rewrite (A k), (A "salinity"), (A "opt_total_borate"); [reflexivity|..]; cbn; tauto.
  - intros r v E. unfold fill_salt in *. rewrite cell_dset_same. rewrite !cell_dset_other by (apply not_eq_sym; apply N).
    destruct (notnull (cell k r)) eqn:Nk; [injection E as <-; now rewrite Nk|].
    destruct (notnull v); [reflexivity|]. exact E.
Qed.

Definition s_mass : astep :=
  (Chk (fun cols => if mem_str "analyte_mass" cols then Ok tt else assert_ (mem_str "analyte_volume" cols)), []).
Lemma mass_sound : sound (snd s_mass) (fst s_mass).
Proof.
  apply chk_sound. intros c cols E. rewrite !mem_addc.
  destruct (mem_str "analyte_mass" cols); [reflexivity|]. destruct (mem_str "analyte_volume" cols); [|discriminate].
  cbn [orb]. now destruct (String.eqb "analyte_mass" c).
Qed.

Definition s_init (c : string) (v : val T) : astep := (Init c (fun _ => v), []).

Definition unit_of (r : row T) : val T := let v := cell "titrant_amount_unit" r in if isnull v then VStr "ml" else v.
Definition s_unit : astep := (Row (mem_str "titrant_amount_unit") "titrant_amount_unit" (fun r => Ok (unit_of r)), ["titrant_amount_unit"]).
Lemma guard_other g K : In g K -> forall c' cols, ~ In c' K -> mem_str g cols = false -> mem_str g (addc c' cols) = false.
Proof. intros I c' cols N M. rewrite mem_addc, M. cbn [orb]. apply String.eqb_neq. intros ->. exact (N I). Qed.
Lemma unit_sound : sound (snd s_unit) (fst s_unit).
Proof.
  apply row_sound; [now left|apply guard_other; now left| |].
  - intros r r' A. unfold unit_of, cell. rewrite (A "titrant_amount_unit") by now left. reflexivity.
  - intros r v E. injection E as <-. f_equal. unfold unit_of. rewrite cell_dset_same.
    destruct (isnull (cell "titrant_amount_unit" r)) eqn:N; [|now rewrite N]. reflexivity.
Qed.

Definition prep_steps (e : env T) : list astep :=
  [need "salinity"; s_borate; s_nan "total_sulfate"; s_fill e "total_sulfate"; s_nan "total_borate"; s_fill e "total_borate";
   s_nan "total_fluoride"; s_fill e "total_fluoride"; s_mass; s_init "analyte_mass" (VNum nnan); need "salinity"; s_unit;
   s_init "file_good" (VBool true)].

Definition cal_reads : list string :=
  "file_name" :: "alkalinity_certified" :: "salinity" :: "file_good" :: "read_dat_method" :: keys_calibrate.
Definition s_here (e : env T) (kw : kwargs T) : astep :=
  (Row yes "titrant_molinity_here" (fun r => x <- calibrate_row e kw r ;; Ok (VNum x)), "titrant_molinity_here" :: cal_reads).
Lemma here_sound e kw : wfd kw -> sound (snd (s_here e kw)) (fst (s_here e kw)).
Proof.
  intros W. apply row_sound; [now left|discriminate| |].
  - intros r r' A. rewrite (calibrate_row_agree e kw r r' W); [reflexivity|]. intros k I. apply A. right. exact I.
  - intros r v E. rewrite <- E.
    rewrite (calibrate_row_agree e kw (dset "titrant_molinity_here" v r) r W); [reflexivity|].
    intros k I. apply dget_dset_other. intros ->. revert I. apply (proj1 (mem_str_false _ _)). reflexivity.
Qed.

Definition s_good : astep := (Init "reference_good" (fun r => VBool (notnull (cell "titrant_molinity_here" r))), []).

Definition means (l : rows) : res (list (val T)) := ms <- mapM (batch_molinity l) l ;; Ok (map VNum ms).
Definition mean_reads : list string := ["analysis_batch"; "reference_good"; "titrant_molinity_here"].
Lemma filter_agree k l l' : agree_on mean_reads l l' -> agree_on mean_reads (filter (in_batch k) l) (filter (in_batch k) l').
Proof.
  induction 1 as [|r r' l l' A _ IH]; [constructor|]. cbn [filter].
  assert (E : in_batch k r = in_batch k r') by (unfold in_batch, cell; rewrite (A "analysis_batch") by (cbn; tauto); reflexivity).
  rewrite E. destruct (in_batch k r'); [constructor; assumption|exact IH].
Qed.
Lemma good_molinities_agree l l' : agree_on mean_reads l l' -> good_molinities l = good_molinities l'.
Proof.
  induction 1 as [|r r' l l' A _ IH]; [reflexivity|]. cbn [good_molinities]. rewrite IH. unfold cell.
  rewrite (A "reference_good"), (A "titrant_molinity_here") by (cbn; tauto). reflexivity.
Qed.
Lemma means_agree l l' : agree_on mean_reads l l' -> means l = means l'.
Proof.
  intros A. unfold means.
  assert (E : mapM (batch_molinity l) l = mapM (batch_molinity l') l'); [|now rewrite E].
  assert (B : forall m m', agree_on mean_reads m m' -> mapM (batch_molinity l) m = mapM (batch_molinity l') m').
  { induction 1 as [|r r' m m' Ar _ IH]; [reflexivity|]. cbn [mapM]. rewrite IH.
    assert (Eb : batch_molinity l r = batch_molinity l' r'); [|now rewrite Eb].
    assert (Ec : cell "analysis_batch" r = cell "analysis_batch" r') by (unfold cell; now rewrite (Ar "analysis_batch") by (cbn; tauto)).
    unfold batch_molinity, get_group_calibration. rewrite Ec.
    rewrite (good_molinities_agree _ _ (filter_agree (cell "analysis_batch" r') l l' A)). reflexivity. }
  now apply B.
Qed.
Definition s_mean : astep := (Put yes "titrant_molinity" means, "titrant_molinity" :: mean_reads).
Lemma mean_length l vs : means l = Ok vs -> length vs = length l.
Proof.
  unfold means. destruct (mapM _ l) as [ms|] eqn:M; cbn [bind]; [|discriminate]. intros E. injection E as <-.
  rewrite map_length. eapply mapM_length, M.
Qed.
Lemma cells_set c vs (l : rows) : length vs = length l -> map (cell c) (map2 (fun r v => dset c v r) l vs) = vs.
Proof.
  revert vs. induction l as [|r l IH]; intros [|v vs] L; try discriminate; [reflexivity|].
  cbn [map2 map]. rewrite cell_dset_same, IH; [reflexivity|]. now injection L.
Qed.
Lemma mean_sound : sound (snd s_mean) (fst s_mean).
Proof.
  constructor.
  - intros d d' W E. unfold s_mean in *. cbn [fst do1 fixed yes] in *. right.
    destruct (means (f_rows d)) as [vs|] eqn:M; cbn [bind] in E; [|discriminate]. injection E as <-.
    pose proof (mean_length _ _ M) as L.
    split; [unfold has; rewrite set_col_list_cols, mem_addc, String.eqb_refl; apply orb_true_r|].
    cbn [set_col_list f_rows]. rewrite cells_set by exact L. rewrite <- M. symmetry. apply means_agree, agree_set; [|exact L].
    apply mem_str_false. reflexivity.
  - exact mean_length.
  - split; [now left|]. split; [discriminate|]. intros l l' A. apply means_agree. unfold agree_on in *.
    induction A as [|r r' l l' A _ IH]; constructor; [|exact IH]. intros k I. apply A. now right.
Qed.

Definition cal_steps (e : env T) (kw : kwargs T) : list astep :=
  [need "alkalinity_certified"; s_here e kw; s_init "analysis_batch" (VInt 0); s_good; s_mean].

Definition sol_reads : list string :=
  "file_name" :: "titrant_molinity" :: "salinity" :: "file_good" :: "analyte_mass" :: "read_dat_method" :: keys_solve.
Definition s_out (e : env T) (kw : kwargs T) (k : string) : astep :=
  (Row yes k (fun r => d <- solve_row e kw r ;; Ok (cell k d)), k :: sol_reads).
Lemma out_sound e kw k : wfd kw -> In k output_cols -> k <> "analyte_mass" -> sound (snd (s_out e kw k)) (fst (s_out e kw k)).
Proof.
  intros W Ik Nm. apply row_sound; [now left|discriminate| |].
  - intros r r' A. rewrite (solve_row_agree e kw r r' W); [reflexivity|]. intros k' I. apply A. right. exact I.
  - intros r v E. rewrite <- E. rewrite (solve_row_agree e kw (dset k v r) r W); [reflexivity|].
    intros k' I. apply dget_dset_other. intros ->. revert I. apply (proj1 (mem_str_false _ _)).
    clear - Ik Nm. cbn in Ik. repeat (destruct Ik as [<-|Ik]; [reflexivity || (exfalso; apply Nm; reflexivity)|]). destruct Ik.
Qed.

(* the column analyte_mass, which is there already: solve_row gives it back as it is *)
Definition s_out_mass (e : env T) (kw : kwargs T) : astep :=
  (Row (mem_str "analyte_mass") "analyte_mass" (fun r => d <- solve_row e kw r ;; Ok (cell "analyte_mass" d)), "analyte_mass" :: sol_reads).
Lemma out_mass_same e kw d d' : wff d -> do1 (fst (s_out_mass e kw)) d = Ok d' -> d' = d /\ fixed d (fst (s_out_mass e kw)).
Proof.
  intros W E. unfold s_out_mass, Row in *. cbn [fst do1 fixed] in *.
  destruct (mem_str "analyte_mass" (f_cols d)) eqn:Hm; [|injection E as <-; auto].
  match type of E with bind ?x _ = _ => destruct x as [vs|] eqn:M end; cbn [bind] in E; [|discriminate].
  assert (V : vs = map (cell "analyte_mass") (f_rows d)).
  { clear - M. apply mapM_Forall2 in M. induction M as [|r v l vs Ev _ IH]; [reflexivity|]. cbn [map]. rewrite IH. f_equal.
    destruct (solve_row e kw r) as [x|] eqn:S; cbn [bind] in Ev; [|discriminate]. injection Ev as <-.
    exact (solve_row_mass e kw r x S). }
  injection E as <-. split; [rewrite V; now apply set_same|]. right. rewrite <- V. auto.
Qed.
Lemma out_mass_sound e kw : wfd kw -> sound (snd (s_out_mass e kw)) (fst (s_out_mass e kw)).
Proof.
  intros W. constructor.
  - intros d d' Wd E. destruct (out_mass_same e kw d d' Wd E) as [-> F]. exact F.
  - intros l vs E. eapply mapM_length, E.
  - split; [now left|]. split; [apply guard_other; now left|]. intros l l'. apply mapM_agree.
    intros r r' A. rewrite (solve_row_agree e kw r r' W); [reflexivity|]. intros k' I. apply A. right. exact I.
Qed.

Definition off_reads : list string := ["alkalinity_offset"; "alkalinity"; "alkalinity_certified"].
Definition s_off : astep := (Row (mem_str "alkalinity_certified") "alkalinity_offset" offset_of, off_reads).
Lemma off_sound : sound (snd s_off) (fst s_off).
Proof.
  apply row_sound; [now left|apply guard_other; cbn; tauto| |].
  - intros r r' A. unfold offset_of, cell. rewrite (A "alkalinity"), (A "alkalinity_certified") by (cbn; tauto). reflexivity.
  - intros r v E. rewrite <- E. unfold offset_of. rewrite !cell_dset_other by discriminate. reflexivity.
Qed.

Definition s_ignored (kw : kwargs T) : astep := (Chk (fun _ => _ <- solve_ignored kw ;; Ok tt), []).
Lemma ignored_sound kw : sound (snd (s_ignored kw)) (fst (s_ignored kw)).
Proof. apply chk_sound. auto. Qed.

Definition out_steps (e : env T) (kw : kwargs T) : list astep :=
  [s_out e kw "alkalinity_npts"; s_out e kw "alkalinity_std"; s_out e kw "alkalinity"; s_out_mass e kw; s_out e kw "emf0";
   s_out e kw "gran_alkalinity"; s_out e kw "gran_emf0"; s_out e kw "pH_init"; s_out e kw "temperature_init"].

Definition sol_steps (e : env T) (kw : kwargs T) : list astep :=
  [s_ignored kw] ++ prep_steps e ++ [need "titrant_molinity"] ++ out_steps e kw ++ [s_off].

Ltac sounds :=
  first [exact (need_sound _)|exact borate_sound|exact (init_sound _ _)|apply fill_sound; cbn; tauto|exact mass_sound|exact unit_sound
        |apply here_sound; assumption|exact mean_sound|apply out_sound; [assumption|cbn; tauto|discriminate]|apply out_mass_sound; assumption
        |exact off_sound|exact (ignored_sound _)].

Lemma prep_all_sound e : Forall (fun i => sound (snd i) (fst i)) (prep_steps e).
Proof. unfold prep_steps. repeat (constructor; [sounds|]). constructor. Qed.
Lemma out_all_sound e kw : wfd kw -> Forall (fun i => sound (snd i) (fst i)) (out_steps e kw).
Proof. intros W. unfold out_steps. repeat (constructor; [sounds|]). constructor. Qed.
Lemma sol_all_sound e kw : wfd kw -> Forall (fun i => sound (snd i) (fst i)) (sol_steps e kw).
Proof.
  intros W. unfold sol_steps. apply Forall_app. split; [constructor; [sounds|constructor]|].
  apply Forall_app. split; [apply prep_all_sound|]. apply Forall_app. split; [constructor; [sounds|constructor]|].
  apply Forall_app. split; [now apply out_all_sound|]. constructor; [sounds|constructor].
Qed.

Ltac news := repeat (apply chain_new; [sounds|reflexivity|]); try apply chain_nil.

Lemma prep_chain e : chain [] (prep_steps e).
Proof. unfold prep_steps. news. Qed.
Lemma outs_chain e kw done : wfd kw -> forallb (fun k => forallb (fun i => negb (mem_str k (snd i))) done)
    ["alkalinity_npts"; "alkalinity_std"; "alkalinity"; "emf0"; "gran_alkalinity"; "gran_emf0"; "pH_init"; "temperature_init"; "alkalinity_offset"] = true ->
  chain done ([need "titrant_molinity"] ++ out_steps e kw ++ [s_off]).
Proof.
  intros W A. cbn [forallb] in A. repeat (apply andb_prop in A; destruct A as [?A A]). clear A.
  unfold out_steps. cbn [app].
  apply chain_new; [sounds|clear; induction done as [|i l IH]; [reflexivity|exact IH]|].
  Ltac outnew := apply chain_new; [sounds|rewrite ?forallb_app; repeat (apply andb_true_intro; split); (assumption || reflexivity)|].
  do 3 outnew.
  apply chain_noop; [sounds| |].
  { intros d d' Wd _ E. now destruct (out_mass_same e kw d d' Wd E). }
  do 6 outnew. apply chain_nil.
Qed.

Lemma sol_chain e kw : wfd kw -> chain [] (sol_steps e kw).
Proof.
  intros W. unfold sol_steps. apply chain_app; [news|]. apply chain_app; [unfold prep_steps; news|].
  apply outs_chain; [exact W|]. reflexivity.
Qed.

Lemma cal_chain e kw : wfd kw -> chain [] (prep_steps e ++ cal_steps e kw ++ sol_steps e kw).
Proof.
  intros W. apply chain_app; [apply prep_chain|]. apply chain_app; [unfold cal_steps; cbn [app prep_steps]; news|].
  unfold sol_steps. apply chain_app; [news|].
  apply chain_app; [apply chain_in; [apply prep_all_sound|]|].
  - intros x I. apply in_or_app. left. apply in_or_app. left. exact I.
  - apply outs_chain; [exact W|]. reflexivity.
Qed.

Lemma calk_chain e kw : wfd kw -> chain [] ((prep_steps e ++ cal_steps e kw ++ sol_steps e kw) ++ sol_steps e kw).
Proof.
  intros W. apply chain_app; [now apply cal_chain|]. apply chain_in; [now apply sol_all_sound|].
  intros x I. cbn [app]. apply in_or_app. right. apply in_or_app. right. exact I.
Qed.

(* ------------------------------------------------------------------ *)
(** * The programs of Interrupt.v are these sequences *)

Definition refines (w : W (frame T)) (p : list step) (d : frame T) : Prop :=
  (forall s, In s (fst w) -> In s (states p d)) /\ snd w = run p d.

Lemma ref_bind w k p q d : refines w p d -> (forall d', run p d = Ok d' -> refines (k d') q d') -> refines (wbind w k) (p ++ q) d.
Proof.
  intros [S E] R. unfold refines, wbind. rewrite run_app. rewrite E. destruct (run p d) as [d'|] eqn:Ep; cbn [bind fst snd].
  - destruct (R d' eq_refl) as [S' E']. split; [|exact E'].
    intros s I. apply states_app. apply in_app_or in I. destruct I as [I|I]; [left; auto|right; eauto].
  - split; [|reflexivity]. intros s I. apply states_app. left. auto.
Qed.

Lemma wbind_ok {A B} (a : A) (k : A -> @W T B) : wbind (pure (Ok a)) k = k a.
Proof. unfold wbind, pure. cbn [snd fst app]. now destruct (k a). Qed.
Lemma wbind_err {A B} x (k : A -> @W T B) : wbind (pure (Err x)) k = ([], Err x).
Proof. reflexivity. Qed.
Lemma ref_pure d : refines (pure (Ok d)) [] d.
Proof. split; [intros s []|reflexivity]. Qed.
Lemma ref_noop p d : run p d = Ok d -> refines (pure (Ok d)) p d.
Proof. intros E. split; [intros s []|now rewrite E]. Qed.
Lemma ref_put j d d' : do1 j d = Ok d' -> refines (put d') [j] d.
Proof. intros E. unfold refines, put. cbn [fst snd states run]. rewrite E. cbn [bind]. split; [intros s I; exact I|reflexivity]. Qed.

(* checks and computed values *)
Lemma ref_check {A} (r : res A) k f q d : (_ <- r ;; Ok tt) = f (f_cols d) ->
  (forall a, r = Ok a -> refines (k a) q d) -> refines (wbind (pure r) k) (Chk f :: q) d.
Proof.
  intros E R. unfold refines, wbind, pure. cbn [fst snd states run do1]. rewrite <- E. destruct r as [a|x]; cbn [bind fst snd].
  - destruct (R a eq_refl) as [S E']. split; [|exact E']. intros s I. right. auto.
  - split; [intros s []|reflexivity].
Qed.
Lemma ref_value {A} (r : res A) (h : A -> list (val T)) w c G d :
  w (f_cols d) = true -> G (f_rows d) = (a <- r ;; Ok (h a)) ->
  refines (wbind (pure r) (fun a => put (set_col_list c (h a) d))) [Put w c G] d.
Proof.
  intros Wd E. unfold refines, wbind, pure, put. cbn [fst snd states run do1]. rewrite Wd, E.
  destruct r as [a|x]; cbn [bind fst snd app]; (split; [intros s I; exact I|reflexivity]).
Qed.
Lemma ref_init c f d : refines (if has c d then pure (Ok d) else put (set_col c f d)) [Init c f] d.
Proof.
  destruct (has c d) eqn:Hc.
  - apply ref_noop. cbn [run do1]. now rewrite Hc.
  - apply ref_put. cbn [do1]. now rewrite Hc.
Qed.

Lemma do_row w c f d : w (f_cols d) = true -> do1 (Row w c (fun r => Ok (f r))) d = Ok (set_col c f d).
Proof. intros Wd. unfold Row. cbn [do1]. rewrite Wd. rewrite (mapM_pure f). cbn [bind]. now rewrite set_col_as_list. Qed.

Lemma ref_fill e k d : refines (fill_col_w e k d) (map fst [s_nan k; s_fill e k]) d.
Proof.
  unfold fill_col_w. change (map fst [s_nan k; s_fill e k]) with ([fst (s_nan k)] ++ [fst (s_fill e k)]).
  apply ref_bind; [apply ref_init|]. intros d' _. apply (ref_value (mapM (fill_salt e k) (f_rows d')) (fun vs => vs)); [reflexivity|].
  change (mapM (fill_salt e k) (f_rows d') = (a <- mapM (fill_salt e k) (f_rows d');; Ok a)).
  now destruct (mapM (fill_salt e k) (f_rows d')).
Qed.

Definition salt_steps (e : env T) : list astep :=
  [s_nan "total_sulfate"; s_fill e "total_sulfate"; s_nan "total_borate"; s_fill e "total_borate"; s_nan "total_fluoride"; s_fill e "total_fluoride"].

Lemma ref_salts e d : wff d -> refines (get_total_salts_w e d) (map fst ([need "salinity"; s_borate] ++ salt_steps e)) d.
Proof.
  intros W. unfold get_total_salts_w. cbn [map app]. apply ref_check.
  { change (mem_str "salinity" (f_cols d)) with (has "salinity" d). now destruct (has "salinity" d). }
  intros _ _.
  change (fst s_borate :: map fst (salt_steps e)) with ([fst s_borate] ++ map fst (salt_steps e)).
  pose proof (do_row yes "opt_total_borate" def_borate d eq_refl) as Eb.
  apply ref_bind; [apply ref_put; exact Eb|].
  intros d1 E1. assert (W1 : wff d1) by (eapply run_wff; eassumption). clear E1 Eb.
  destruct (forallb _ salts) eqn:F.
  - apply ref_noop. apply fixed_run; [exact W1|].
    assert (X : forall s, In s salts -> has s d1 = true /\ mapM (fill_salt e s) (f_rows d1) = Ok (map (cell s) (f_rows d1))).
    { rewrite forallb_forall in F. intros s I. specialize (F s I). apply andb_prop in F. destruct F as [Hs F]. split; [exact Hs|].
      rewrite forallb_forall in F. rewrite <- (mapM_pure (cell s)). apply mapM_ext. intros r Ir.
      unfold fill_salt. now rewrite (F r Ir). }
    unfold salt_steps. cbn [map fst s_nan s_fill].
    repeat (constructor; [first [apply X; cbn; tauto|right; apply X; cbn; tauto]|]). constructor.
  - change (map fst (salt_steps e)) with (map fst [s_nan "total_sulfate"; s_fill e "total_sulfate"] ++
      (map fst [s_nan "total_borate"; s_fill e "total_borate"] ++ (map fst [s_nan "total_fluoride"; s_fill e "total_fluoride"] ++ []))).
    unfold salts. cbn [fill_cols_w]. repeat (apply ref_bind; [apply ref_fill|intros ? _]). apply ref_pure.
Qed.

Lemma ref_prepare e d : wff d -> refines (prepare_w e d) (map fst (prep_steps e)) d.
Proof.
  intros W. unfold prepare_w.
  change (map fst (prep_steps e)) with (map fst ([need "salinity"; s_borate] ++ salt_steps e) ++
    ([fst s_mass; fst (s_init "analyte_mass" (VNum nnan))] ++ ([fst (need "salinity")] ++ ([fst s_unit] ++ [fst (s_init "file_good" (VBool true))])))).
  apply ref_bind; [now apply ref_salts|]. intros d1 _. apply ref_bind.
  { destruct (has "analyte_mass" d1) eqn:Hm.
    - apply ref_noop. unfold s_mass, s_init. cbn [fst run do1]. change (mem_str "analyte_mass" (f_cols d1)) with (has "analyte_mass" d1).
      rewrite Hm. cbn [bind]. rewrite Hm. reflexivity.
    - apply ref_check.
      + change (mem_str "analyte_mass" (f_cols d1)) with (has "analyte_mass" d1). rewrite Hm. unfold has. now destruct (mem_str "analyte_volume" (f_cols d1)).
      + intros _ _. apply ref_put. unfold s_init. cbn [fst do1]. now rewrite Hm. }
  intros d2 _. cbn [app]. apply ref_check.
  { unfold has. now destruct (mem_str "salinity" (f_cols d2)). }
  intros _ _. change [fst s_unit; fst (s_init "file_good" (VBool true))] with ([fst s_unit] ++ [fst (s_init "file_good" (VBool true))]).
  apply ref_bind.
  - destruct (has "titrant_amount_unit" d2) eqn:Hu.
    + apply ref_put. exact (do_row (mem_str "titrant_amount_unit") "titrant_amount_unit" unit_of d2 Hu).
    + apply ref_noop. unfold s_unit, Row. cbn [fst run do1]. unfold has in Hu. rewrite Hu. reflexivity.
  - intros d3 _. apply (ref_init "file_good" (fun _ => VBool true)).
Qed.

(* solve_row is asked once; asking it again after some of its results were stored would give the same *)
Definition w_out (k : string) : list string -> bool := if String.eqb k "analyte_mass" then mem_str "analyte_mass" else yes.
Lemma ref_results e kw solved ks d : wfd kw -> incl ks output_cols -> wff d -> has "analyte_mass" d = true ->
  mapM (solve_row e kw) (f_rows d) = Ok solved ->
  refines (set_results_w solved ks d) (map (fun k => Row (w_out k) k (fun r => x <- solve_row e kw r ;; Ok (cell k x))) ks) d.
Proof.
  intros Wk. revert d. induction ks as [|k ks IH]; intros d I W Hm M; cbn [set_results_w map]; [apply ref_pure|].
  set (j := Row (w_out k) k _).
  assert (Wo : w_out k (f_cols d) = true) by (unfold w_out; destruct (String.eqb k "analyte_mass"); [exact Hm|reflexivity]).
  assert (G : mapM (fun r => x <- solve_row e kw r ;; Ok (cell k x)) (f_rows d) = Ok (map (cell k) solved)).
  { clear - M. apply mapM_Forall2 in M. apply mapM_Forall2. induction M as [|r x l xs E _ IH]; constructor; [|exact IH]. now rewrite E. }
  assert (E : do1 j d = Ok (set_col_list k (map (cell k) solved) d)).
  { unfold j, Row. cbn [do1]. rewrite Wo, G. reflexivity. }
  change (j :: map (fun k => Row (w_out k) k (fun r => x <- solve_row e kw r ;; Ok (cell k x))) ks) with
    ([j] ++ map (fun k => Row (w_out k) k (fun r => x <- solve_row e kw r ;; Ok (cell k x))) ks).
  apply ref_bind; [now apply ref_put|]. intros d' E'. cbn [run] in E'. rewrite E in E'. cbn [bind] in E'. injection E' as <-.
  apply IH.
  - intros x Ix. apply I. now right.
  - now apply wff_set_col_list.
  - unfold has. rewrite set_col_list_cols, mem_addc. unfold has in Hm. now rewrite Hm.
  - destruct (String.eqb_spec k "analyte_mass") as [->|Nm].
    + assert (Es : do1 (fst (s_out_mass e kw)) d = Ok (set_col_list "analyte_mass" (map (cell "analyte_mass") solved) d)) by exact E.
      destruct (out_mass_same e kw d _ W Es) as [-> _]. exact M.
    + rewrite <- M. symmetry. apply (mapM_agree sol_reads).
      * intros r r' A. now apply solve_row_agree.
      * apply agree_set; [|rewrite map_length; eapply mapM_length, M].
        pose proof (I k (or_introl eq_refl)) as Ik. apply mem_str_false. clear - Ik Nm. cbn in Ik.
        repeat (destruct Ik as [<-|Ik]; [reflexivity || (exfalso; apply Nm; reflexivity)|]). destruct Ik.
Qed.

Lemma err_inj {A} (x y : exn) : (Err x : res A) = Err y -> x = y.
Proof. intros E. now injection E. Qed.

Lemma prep_mass e d d' : run (map fst (prep_steps e)) d = Ok d' -> wff d -> has "analyte_mass" d' = true.
Proof.
  intros E W. pose proof (chain_run [] (prep_steps e) (prep_steps e) [] d d' (prep_chain e) (Forall_nil _) W (Forall_nil _)
    (eq_sym (app_nil_r _)) E) as F. cbn [app] in F. rewrite Forall_forall in F.
  apply (F (fst (s_init "analyte_mass" (VNum nnan)))). cbn [map prep_steps In]. tauto.
Qed.

Lemma ref_solve e kw d : wfd kw -> wff d -> refines (solve_w e kw d) (map fst (sol_steps e kw)) d.
Proof.
  intros Wk W. unfold solve_w.
  change (map fst (sol_steps e kw)) with (fst (s_ignored kw) :: map fst (prep_steps e) ++
    fst (need "titrant_molinity") :: map fst (out_steps e kw) ++ [fst s_off]).
  apply ref_check; [reflexivity|]. intros _ _.
  apply ref_bind; [now apply ref_prepare|]. intros d1 E1. pose proof (run_wff _ _ _ W E1) as W1. pose proof (prep_mass e d d1 E1 W) as Hm.
  apply ref_check; [unfold has; now destruct (mem_str "titrant_molinity" (f_cols d1))|]. intros _ _.
  destruct (mapM (solve_row e kw) (f_rows d1)) as [solved|x] eqn:M.
  - rewrite wbind_ok. cbv beta.
    assert (R : refines (wbind (set_results_w solved output_cols d1)
       (fun ds2 => if has "alkalinity_certified" ds2 then
          wbind (pure (mapM offset_of (f_rows ds2))) (fun offs => put (set_col_list "alkalinity_offset" offs ds2)) else pure (Ok ds2)))
       (map fst (out_steps e kw) ++ [fst s_off]) d1).
    { apply ref_bind.
      - pose proof (ref_results e kw solved output_cols d1 Wk (incl_refl _) W1 Hm M) as R. exact R.
      - intros d2 _. destruct (has "alkalinity_certified" d2) eqn:Hc.
        + apply (ref_value (mapM offset_of (f_rows d2)) (fun vs => vs)); [exact Hc|].
          change (mapM offset_of (f_rows d2) = (a <- mapM offset_of (f_rows d2);; Ok a)). now destruct (mapM offset_of (f_rows d2)).
        + apply ref_noop. unfold s_off, Row. cbn [fst run do1]. unfold has in Hc. rewrite Hc. reflexivity. }
    exact R.
  - rewrite wbind_err. split; [intros s []|]. cbn [snd].
    unfold out_steps. cbn [map app run]. unfold s_out at 1, Row at 1. cbn [fst do1 yes].
    assert (Q : mapM (fun r => d0 <- solve_row e kw r ;; Ok (cell "alkalinity_npts" d0)) (f_rows d1) = Err x); [|rewrite Q; reflexivity].
    clear - M. revert M. generalize (f_rows d1). induction l as [|r l IH]; cbn [mapM]; [discriminate|].
    destruct (solve_row e kw r) as [y|]; cbn [bind]; [|intros E; exact (f_equal _ (err_inj _ _ E))].
    destruct (mapM (solve_row e kw) l) as [ys|]; cbn [bind]; [discriminate|]. intros E. rewrite IH; [reflexivity|exact E].
Qed.

Lemma ref_calibrate e kw d : wfd kw -> wff d ->
  refines (calibrate_w e kw d) (map fst (prep_steps e ++ cal_steps e kw ++ sol_steps e kw)) d.
Proof.
  intros Wk W. unfold calibrate_w.
  rewrite !map_app, app_assoc. apply ref_bind.
  - unfold calibrate_only_w. apply ref_bind; [now apply ref_prepare|]. intros d1 _.
    unfold cal_steps. cbn [map].
    apply ref_check; [unfold has; now destruct (mem_str "alkalinity_certified" (f_cols d1))|]. intros _ _.
    destruct (mapM (calibrate_row e kw) (f_rows d1)) as [here|x] eqn:M.
    + rewrite wbind_ok. cbv beta.
      change ([fst (s_here e kw); fst (s_init "analysis_batch" (VInt 0)); fst s_good; fst s_mean]) with
        ([fst (s_here e kw)] ++ ([fst (s_init "analysis_batch" (VInt 0))] ++ ([fst s_good] ++ [fst s_mean]))).
      apply ref_bind.
      * apply ref_put. unfold s_here, Row. cbn [fst do1 yes].
        assert (Q : mapM (fun r => x <- calibrate_row e kw r ;; Ok (VNum x)) (f_rows d1) = Ok (map VNum here)); [|rewrite Q; reflexivity].
        clear - M. apply mapM_Forall2 in M. apply mapM_Forall2. induction M as [|r x l xs E _ IH]; constructor; [|exact IH]. now rewrite E.
      * intros d2 _. apply ref_bind; [apply (ref_init "analysis_batch" (fun _ => VInt 0))|]. intros d3 _.
        apply ref_bind; [apply ref_init|]. intros d4 _.
        apply (ref_value (mapM (batch_molinity (f_rows d4)) (f_rows d4)) (map VNum)); reflexivity.
    + rewrite wbind_err. split; [intros s []|]. cbn [snd run]. unfold s_here at 1, Row at 1. cbn [fst do1 yes].
      assert (Q : mapM (fun r => z <- calibrate_row e kw r ;; Ok (VNum z)) (f_rows d1) = Err x); [|rewrite Q; reflexivity].
      clear - M. revert M. generalize (f_rows d1). induction l as [|r l IH]; cbn [mapM]; [discriminate|].
      destruct (calibrate_row e kw r) as [y|]; cbn [bind]; [|intros E; exact (f_equal _ (err_inj _ _ E))].
      destruct (mapM (calibrate_row e kw) l) as [ys|]; cbn [bind]; [discriminate|]. intros E. rewrite IH; [reflexivity|exact E].
  - intros d' E. apply ref_solve; [exact Wk|]. eapply run_wff; eassumption.
Qed.

Lemma ref_calkulate e kw d : wfd kw -> wff d ->
  refines (calkulate_w e kw d) (map fst ((prep_steps e ++ cal_steps e kw ++ sol_steps e kw) ++ sol_steps e kw)) d.
Proof.
  intros Wk W. unfold calkulate_w. rewrite map_app. apply ref_bind; [now apply ref_calibrate|].
  intros d' E. apply ref_solve; [exact Wk|]. eapply run_wff; eassumption.
Qed.

(* ------------------------------------------------------------------ *)
(** * They end as the programs of Dataset.v do *)

Lemma snd_wbind {A B} (w : @W T A) (k : A -> @W T B) : snd (wbind w k) = (a <- snd w ;; snd (k a)).
Proof. unfold wbind. now destruct (snd w). Qed.

Lemma set_set c f vs (d : frame T) : length vs = length (f_rows d) -> set_col_list c vs (set_col c f d) = set_col_list c vs d.
Proof.
  intros L. unfold set_col_list, set_col. f_equal.
  - unfold has. cbn [f_cols]. destruct (mem_str c (f_cols d)) eqn:M; [now rewrite M|].
    fold (addc c (f_cols d)). change ((f_cols d ++ [c])) with (f_cols d ++ [c])%list.
    assert (E : mem_str c (f_cols d ++ [c]) = true) by (apply mem_str_spec; apply in_or_app; right; now left). now rewrite E.
  - cbn [f_rows]. revert vs L. generalize (f_rows d). induction l as [|r l IH]; intros [|v vs] L; try discriminate; [reflexivity|].
    cbn [map map2]. rewrite dset_dset_same. f_equal. apply IH. now injection L.
Qed.

Lemma snd_fill e k d : nisnan (nnan : T) = true -> In k salts -> wff d -> snd (fill_col_w e k d) = fill_col e k d.
Proof.
  intros NN Ik W. unfold fill_col_w, fill_col. destruct (has k d) eqn:Hk.
  - rewrite wbind_ok. rewrite snd_wbind. reflexivity.
  - rewrite snd_wbind. cbn [put snd bind]. rewrite snd_wbind. cbn [pure snd].
    assert (N : "salinity" <> k /\ "opt_total_borate" <> k).
    { cbn in Ik. destruct Ik as [<-|[<-|[<-|[]]]]; split; discriminate. }
    assert (E : mapM (fill_salt e k) (f_rows (set_col k (fun _ => VNum nnan) d)) = mapM (fill_salt e k) (f_rows d)).
    { cbn [set_col f_rows].
      assert (A : forall r, In r (f_rows d) -> dget k r = None).
      { intros r I. rewrite (wff_get d k r W I) in Hk. unfold dmem in Hk. destruct (dget k r); [discriminate|reflexivity]. }
      revert A. generalize (f_rows d). induction l as [|r l IH]; intros A; [reflexivity|]. cbn [map mapM].
      rewrite IH by (intros r' I; apply A; now right). f_equal.
      unfold fill_salt. rewrite cell_dset_same, !cell_dset_other by apply N.
      replace (cell k r) with (@VNone T) by (unfold cell; now rewrite (A r (or_introl eq_refl))).
      unfold notnull, isnull. rewrite NN. reflexivity. }
    rewrite E. destruct (mapM (fill_salt e k) (f_rows d)) as [vs|] eqn:M; cbn [bind put snd]; [|reflexivity].
    f_equal. apply set_set. eapply mapM_length, M.
Qed.

Lemma fill_col_wff e k d d' : wff d -> fill_col e k d = Ok d' -> wff d'.
Proof.
  intros W E. unfold fill_col in E. destruct (mapM (fill_salt e k) (f_rows d)); cbn [bind] in E; [|discriminate].
  injection E as <-. now apply wff_set_col_list.
Qed.

Lemma bind_ext {A B} (r : res A) (k k' : A -> res B) : (forall a, r = Ok a -> k a = k' a) -> bind r k = bind r k'.
Proof. destruct r; cbn [bind]; auto. Qed.

Lemma snd_salts e d : nisnan (nnan : T) = true -> wff d -> snd (get_total_salts_w e d) = get_total_salts e d.
Proof.
  intros NN W. unfold get_total_salts_w, get_total_salts. rewrite snd_wbind. cbn [pure snd]. apply bind_ext. intros _ _.
  rewrite snd_wbind. cbn [put snd bind]. set (d1 := set_col "opt_total_borate" _ d).
  assert (W1 : wff d1) by now apply wff_set_col. clearbody d1.
  destruct (forallb _ salts); [reflexivity|].
  assert (X : forall ss d0, incl ss salts -> wff d0 -> snd (fill_cols_w e ss d0) = fill_cols e ss d0).
  { induction ss as [|k ss IH]; intros d0 I W0; [reflexivity|]. cbn [fill_cols_w fill_cols]. rewrite snd_wbind.
    rewrite (snd_fill e k d0 NN) by (try exact W0; apply I; now left). apply bind_ext. intros d2 E2.
    apply IH; [intros x Ix; apply I; now right|]. eapply fill_col_wff; eassumption. }
  apply X; [apply incl_refl|exact W1].
Qed.

Lemma snd_prepare e d : nisnan (nnan : T) = true -> wff d -> snd (prepare_w e d) = prepare e d.
Proof.
  intros NN W. unfold prepare_w, prepare. rewrite snd_wbind, (snd_salts e d NN W). apply bind_ext. intros d1 _.
  rewrite snd_wbind.
  match goal with |- bind (snd ?w) _ = bind ?r _ => assert (E : snd w = r) end.
  { destruct (has "analyte_mass" d1); [reflexivity|]. rewrite snd_wbind. reflexivity. }
  rewrite E. apply bind_ext. intros d2 _. rewrite snd_wbind. cbn [pure snd]. apply bind_ext. intros _ _.
  rewrite snd_wbind. destruct (has "titrant_amount_unit" d2); cbn [pure put snd bind].
  - destruct (has "file_good" _); reflexivity.
  - destruct (has "file_good" d2); reflexivity.
Qed.

Lemma snd_results (solved : rows) ks (d : frame T) : snd (set_results_w solved ks d) = Ok (fold_left (fun d k => set_col_list k (map (cell k) solved) d) ks d).
Proof. revert d. induction ks as [|k ks IH]; intros d; [reflexivity|]. cbn [set_results_w fold_left]. rewrite snd_wbind. cbn [put snd bind]. apply IH. Qed.

Lemma snd_solve e kw d : nisnan (nnan : T) = true -> wff d -> snd (solve_w e kw d) = solve e kw d.
Proof.
  intros NN W. unfold solve_w, solve. rewrite snd_wbind. cbn [pure snd]. apply bind_ext. intros _ _.
  rewrite snd_wbind, (snd_prepare e d NN W). apply bind_ext. intros d1 _.
  rewrite snd_wbind. cbn [pure snd]. apply bind_ext. intros _ _. rewrite snd_wbind. cbn [pure snd]. apply bind_ext. intros solved _.
  rewrite snd_wbind, snd_results. cbn [bind]. change (fold_left _ output_cols d1) with (set_results solved d1).
  destruct (has "alkalinity_certified" (set_results solved d1)); [|reflexivity]. rewrite snd_wbind. reflexivity.
Qed.

Lemma snd_calibrate_only e kw d : nisnan (nnan : T) = true -> wff d -> snd (calibrate_only_w e kw d) = calibrate_only e kw d.
Proof.
  intros NN W. unfold calibrate_only_w, calibrate_only. rewrite snd_wbind, (snd_prepare e d NN W). apply bind_ext. intros d1 _.
  rewrite snd_wbind. cbn [pure snd]. apply bind_ext. intros _ _. rewrite snd_wbind. cbn [pure snd]. apply bind_ext. intros here _.
  rewrite snd_wbind. cbn [put snd bind]. set (d2 := set_col_list _ _ d1).
  rewrite snd_wbind. destruct (has "analysis_batch" d2); cbn [pure put snd bind].
  - rewrite snd_wbind. destruct (has "reference_good" d2); cbn [pure put snd bind]; rewrite snd_wbind; reflexivity.
  - set (d3 := set_col "analysis_batch" _ d2). rewrite snd_wbind.
    destruct (has "reference_good" d3); cbn [pure put snd bind]; rewrite snd_wbind; reflexivity.
Qed.

Lemma snd_calibrate e kw d : nisnan (nnan : T) = true -> wff d -> snd (calibrate_w e kw d) = calibrate e kw d.
Proof.
  intros NN W. unfold calibrate_w, calibrate. rewrite snd_wbind, (snd_calibrate_only e kw d NN W). apply bind_ext. intros d1 E.
  apply snd_solve; [exact NN|]. now apply (wff_calibrate_only e kw d).
Qed.

Lemma snd_calkulate e kw d : nisnan (nnan : T) = true -> wff d -> snd (calkulate_w e kw d) = calkulate e kw d.
Proof.
  intros NN W. unfold calkulate_w, calkulate. rewrite snd_wbind, (snd_calibrate e kw d NN W). apply bind_ext. intros d1 E.
  apply snd_solve; [exact NN|]. apply calibrate_inv in E. destruct E as (d0 & E0 & E1).
  pose proof (wff_calibrate_only e kw d d0 W E0) as W0.
  apply (wff_solve e kw d0); assumption.
Qed.

(* ------------------------------------------------------------------ *)
(** * What is never overwritten *)

Definition kept (X : list string) (d d' : frame T) : Prop :=
  Forall2 (fun r r' => forall c v, ~ In c X -> dget c r = Some v -> notnull v = true -> dget c r' = Some v) (f_rows d) (f_rows d').

Lemma kept_refl X d : kept X d d.
Proof. apply Forall2_refl. auto. Qed.
Lemma kept_trans X d d' d'' : kept X d d' -> kept X d' d'' -> kept X d d''.
Proof.
  unfold kept. intros A. revert A. generalize (f_rows d) (f_rows d') (f_rows d''). intros l l' l'' A. revert l''.
  induction A as [|r r' l l' R _ IH]; intros l'' B; inversion B as [|? r'' ? m R' B']; subst; constructor; auto.
Qed.

Definition keeps (X : list string) (s : step) : Prop := forall d d', wff d -> do1 s d = Ok d' -> kept X d d'.

Lemma keeps_chk X f : keeps X (Chk f).
Proof. intros d d' W E. cbn [do1] in E. destruct (f (f_cols d)); cbn [bind] in E; [|discriminate]. injection E as <-. apply kept_refl. Qed.
Lemma keeps_init X c f : keeps X (Init c f).
Proof.
  intros d d' W E. cbn [do1] in E. injection E as <-. destruct (has c d) eqn:Hc; [apply kept_refl|].
  unfold kept. cbn [set_col f_rows].
  assert (A : forall r, In r (f_rows d) -> dget c r = None).
  { intros r I. rewrite (wff_get d c r W I) in Hc. unfold dmem in Hc. destruct (dget c r); [discriminate|reflexivity]. }
  revert A. generalize (f_rows d). induction l as [|r l IH]; intros A; cbn [map]; constructor.
  - intros c' v _ G _. rewrite dget_dset_other; [exact G|]. intros ->. rewrite (A r (or_introl eq_refl)) in G. discriminate.
  - apply IH. intros r' I. apply A. now right.
Qed.
Lemma keeps_in X w c G : (forall l vs, G l = Ok vs -> length vs = length l) -> In c X -> keeps X (Put w c G).
Proof.
  intros L I d d' W E. cbn [do1] in E. destruct (w (f_cols d)); [|injection E as <-; apply kept_refl].
  destruct (G (f_rows d)) as [vs|] eqn:M; cbn [bind] in E; [|discriminate]. injection E as <-. apply L in M.
  unfold kept. cbn [set_col_list f_rows]. revert vs M. generalize (f_rows d).
  induction l as [|r l IH]; intros [|v vs] M; try discriminate; cbn [map2]; constructor.
  - intros c' v' N Gc _. rewrite dget_dset_other; [exact Gc|]. intros ->. exact (N I).
  - apply IH. now injection M.
Qed.
Lemma keeps_row X w c g : (forall r v, g r = Ok v -> notnull (cell c r) = true -> v = cell c r) -> keeps X (Row w c g).
Proof.
  intros K d d' W E. unfold Row in E. cbn [do1] in E. destruct (w (f_cols d)); [|injection E as <-; apply kept_refl].
  match type of E with bind ?x _ = _ => destruct x as [vs|] eqn:M end; cbn [bind] in E; [|discriminate]. injection E as <-.
  apply mapM_Forall2 in M. unfold kept. cbn [set_col_list f_rows].
  induction M as [|r v l vs Ev _ IH]; cbn [map2]; constructor; [|exact IH].
  intros c' v' _ G Nv. destruct (String.eqb_spec c' c) as [->|N]; [|now rewrite dget_dset_other].
  rewrite dget_dset_same. f_equal. assert (Ec : cell c r = v') by (unfold cell; now rewrite G). rewrite <- Ec in Nv |- *.
  now apply K.
Qed.

Lemma states_kept X p d s : Forall (keeps X) p -> wff d -> In s (d :: states p d) -> kept X d s.
Proof.
  intros F. revert d. induction F as [|j p K F IH]; intros d W I.
  - destruct I as [<-|[]]. apply kept_refl.
  - destruct I as [<-|I]; [apply kept_refl|]. cbn [states] in I. destruct (do1 j d) as [d'|] eqn:E; [|destruct I].
    apply (kept_trans X d d'); [exact (K d d' W E)|]. apply IH; [|exact I]. eapply do1_wff; eassumption.
Qed.

Definition solve_writes : list string :=
  ["alkalinity_npts"; "alkalinity_std"; "alkalinity"; "emf0"; "gran_alkalinity"; "gran_emf0"; "pH_init"; "temperature_init"; "alkalinity_offset"].
Definition calibrate_writes : list string := "titrant_molinity_here" :: "titrant_molinity" :: solve_writes.

Lemma prep_keeps X e : Forall (keeps X) (map fst (prep_steps e)).
Proof.
  unfold prep_steps. cbn [map].
  assert (Fl : forall k, keeps X (fst (s_fill e k))).
  { intros k. apply keeps_row. intros r v E N. unfold fill_salt in E. rewrite N in E. now injection E as <-. }
  repeat (constructor; [first [apply keeps_chk|apply keeps_init|apply Fl|idtac]|]); [| |constructor].
  - apply keeps_row. intros r v E N. injection E as <-. unfold def_borate. now rewrite N.
  - apply keeps_row. intros r v E N. injection E as <-. unfold unit_of. unfold notnull in N. apply negb_true_iff in N. now rewrite N.
Qed.

Lemma sol_keeps X e kw : incl solve_writes X -> Forall (keeps X) (map fst (sol_steps e kw)).
Proof.
  intros I. unfold sol_steps. rewrite !map_app. apply Forall_app. split; [constructor; [apply keeps_chk|constructor]|].
  apply Forall_app. split; [apply prep_keeps|]. apply Forall_app. split; [constructor; [apply keeps_chk|constructor]|].
  apply Forall_app. split; [|constructor; [apply keeps_in; [intros l vs; apply mapM_length|apply I; cbn; tauto]|constructor]].
  unfold out_steps. cbn [map].
  repeat (constructor; [first [apply keeps_in; [intros l vs; apply mapM_length|apply I; cbn; tauto]|idtac]|]); [|constructor].
  apply keeps_row. intros r v E _. destruct (solve_row e kw r) as [x|] eqn:S; cbn [bind] in E; [|discriminate]. injection E as <-.
  exact (solve_row_mass e kw r x S).
Qed.

Lemma cal_keeps X e kw : incl calibrate_writes X -> Forall (keeps X) (map fst (prep_steps e ++ cal_steps e kw ++ sol_steps e kw)).
Proof.
  intros I. rewrite !map_app. apply Forall_app. split; [apply prep_keeps|]. apply Forall_app. split.
  - unfold cal_steps. cbn [map].
    constructor; [apply keeps_chk|]. constructor; [apply keeps_in; [intros l vs; apply mapM_length|apply I; cbn; tauto]|].
    constructor; [apply keeps_init|]. constructor; [apply keeps_init|]. constructor; [|constructor].
    apply keeps_in; [exact mean_length|apply I; cbn; tauto].
  - apply sol_keeps. intros x Ix. apply I. right. right. exact Ix.
Qed.

End P.

(* ------------------------------------------------------------------ *)
(** * C145 *)

Section Claims.
Context {T : Type} `{Num T}.

(* the tables the caller may be left with when the call is interrupted: the one it was called with, or the one
   after any of its assignments *)
Definition left_with (call : frame T -> @W T (frame T)) (ds s : frame T) : Prop := s = ds \/ In s (fst (call ds)).

(* the tables the caller may hold after any number of interrupted calls *)
Inductive after_interruptions (call : frame T -> @W T (frame T)) (ds : frame T) : frame T -> Prop :=
| not_yet : after_interruptions call ds ds
| once_more s s' : after_interruptions call ds s -> left_with call s s' -> after_interruptions call ds s'.

(* no value of ds outside the columns X is lost or changed in s, and no row is added or dropped *)
Definition nothing_lost (X : list string) (ds s : frame T) : Prop :=
  n_rows s = n_rows ds /\
  forall i c v, ~ In c X -> value ds i c = Some v -> notnull v = true -> value s i c = Some v.

Lemma kept_spec X ds s : kept X ds s -> nothing_lost X ds s.
Proof.
  unfold kept, nothing_lost, n_rows, value. generalize (f_rows ds) (f_rows s). induction 1 as [|r r' l l' R _ IH].
  - split; [reflexivity|]. intros [|i] c v _ E; discriminate.
  - destruct IH as [L IH]. split; [cbn [length]; now rewrite L|]. intros [|i] c v N E Nv; cbn [nth_error] in *; [now apply R|now apply IH].
Qed.

(* the stepwise programs are the programs *)
Theorem C145_same_outcome : forall (e : env T) kw ds, nisnan (nnan : T) = true -> is_table ds ->
  snd (solve_w e kw ds) = solve e kw ds /\ snd (calibrate_w e kw ds) = calibrate e kw ds /\ snd (calkulate_w e kw ds) = calkulate e kw ds.
Proof. intros e kw ds NN W. split; [now apply snd_solve|]. split; [now apply snd_calibrate|now apply snd_calkulate]. Qed.

Lemma left_states call p (ds s : frame T) : refines (call ds) p ds -> left_with call ds s -> In s (ds :: states p ds).
Proof. intros [R _] [->|I]; [now left|]. right. auto. Qed.

Lemma left_wff call p ds s : wff ds -> refines (call ds) p ds -> left_with call ds s -> wff s.
Proof.
  intros W R L. destruct (states_prefix _ _ _ (left_states call p ds s R L)) as (p1 & p2 & _ & Rn). eapply run_wff; eassumption.
Qed.

Lemma again call (prog : frame T -> res (frame T)) (p : list astep) ds s : chain [] p -> wff ds ->
  (forall d, wff d -> refines (call d) (map fst p) d) -> (forall d, wff d -> snd (call d) = prog d) ->
  after_interruptions call ds s -> wff s /\ prog s = prog ds.
Proof.
  intros C W R E A. induction A as [|s s' A [Ws IH] L]; [auto|].
  assert (Ws' : wff s') by (apply (left_wff call (map fst p) s); auto). split; [exact Ws'|]. rewrite <- IH.
  pose proof (left_states call _ s s' (R s Ws) L) as I.
  rewrite <- (E s' Ws'), <- (E s Ws), (proj2 (R s' Ws')), (proj2 (R s Ws)). now apply chain_again.
Qed.

Theorem C145_solve_again : forall (e : env T) kw ds s, nisnan (nnan : T) = true -> is_table ds -> wfd kw ->
  after_interruptions (solve_w e kw) ds s -> solve e kw s = solve e kw ds.
Proof.
  intros e kw ds s NN W Wk L. apply (again (solve_w e kw) (solve e kw) (sol_steps e kw) ds s (sol_chain e kw Wk) W); [| |exact L].
  - intros d Wd. now apply ref_solve.
  - intros d Wd. now apply snd_solve.
Qed.

Theorem C145_calibrate_again : forall (e : env T) kw ds s, nisnan (nnan : T) = true -> is_table ds -> wfd kw ->
  after_interruptions (calibrate_w e kw) ds s -> calibrate e kw s = calibrate e kw ds.
Proof.
  intros e kw ds s NN W Wk L. apply (again (calibrate_w e kw) (calibrate e kw) _ ds s (cal_chain e kw Wk) W); [| |exact L].
  - intros d Wd. now apply ref_calibrate.
  - intros d Wd. now apply snd_calibrate.
Qed.

Theorem C145_calkulate_again : forall (e : env T) kw ds s, nisnan (nnan : T) = true -> is_table ds -> wfd kw ->
  after_interruptions (calkulate_w e kw) ds s -> calkulate e kw s = calkulate e kw ds.
Proof.
  intros e kw ds s NN W Wk L. apply (again (calkulate_w e kw) (calkulate e kw) _ ds s (calk_chain e kw Wk) W); [| |exact L].
  - intros d Wd. now apply ref_calkulate.
  - intros d Wd. now apply snd_calkulate.
Qed.

Lemma lost_trans X ds s s' : nothing_lost X ds s -> nothing_lost X s s' -> nothing_lost X ds s'.
Proof. intros [L A] [L' B]. split; [congruence|]. intros i c v N V Nv. apply B; auto. Qed.

Lemma kept_again call (p : list astep) X ds s : Forall (keeps X) (map fst p) -> wff ds -> (forall d, wff d -> refines (call d) (map fst p) d) ->
  after_interruptions call ds s -> wff s /\ nothing_lost X ds s.
Proof.
  intros K W R A. induction A as [|s s' A [Ws IH] L].
  - split; [exact W|]. apply kept_spec, kept_refl.
  - split; [apply (left_wff call (map fst p) s); auto|]. apply (lost_trans X ds s s' IH), kept_spec.
    apply (states_kept X (map fst p)); [exact K|exact Ws|]. apply (left_states call); auto.
Qed.

(* the columns that hold results; nothing else that the user has entered is touched, not even on the way *)
Theorem C145_nothing_lost : forall (e : env T) kw ds s, is_table ds -> wfd kw ->
  (after_interruptions (solve_w e kw) ds s -> nothing_lost solve_writes ds s) /\
  (after_interruptions (calibrate_w e kw) ds s -> nothing_lost calibrate_writes ds s) /\
  (after_interruptions (calkulate_w e kw) ds s -> nothing_lost calibrate_writes ds s).
Proof.
  intros e kw ds s W Wk. split; [|split]; intros L.
  - apply (kept_again (solve_w e kw) (sol_steps e kw)); [apply sol_keeps, incl_refl|exact W| |exact L].
    intros d Wd. now apply ref_solve.
  - apply (kept_again (calibrate_w e kw) (prep_steps e ++ cal_steps e kw ++ sol_steps e kw)); [apply cal_keeps, incl_refl|exact W| |exact L].
    intros d Wd. now apply ref_calibrate.
  - apply (kept_again (calkulate_w e kw) ((prep_steps e ++ cal_steps e kw ++ sol_steps e kw) ++ sol_steps e kw)); [|exact W| |exact L].
    + rewrite map_app. apply Forall_app. split; [apply cal_keeps, incl_refl|apply sol_keeps].
      intros x I. right. right. exact I.
    + intros d Wd. now apply ref_calkulate.
Qed.
End Claims.

(* ------------------------------------------------------------------ *)
(** * Cases *)

From Verif Require Import SFNum PropPure PropCalHistory PropInvariance PropInstances XR PropCases.

(* nan is nan, for the extended reals and for the machine's numbers *)
Example nan_is_nan : nisnan (nnan : xr) = true /\ @nisnan sf (Num_sf flm) (@nnan sf (Num_sf flm)) = true.
Proof. split; reflexivity. Qed.

(* a calibration of two titrations in binary64, interrupted before the titrant's molinities are averaged; the second
   attempt is interrupted while the results are being stored; the third goes through *)
Definition ds145 : frame sf := ftable [kg_row; lost_row].
Definition first145 : frame sf := nth 10 (fst (calibrate_w (H := Num_sf flm) fenv [] ds145)) ds145.
Definition second145 : frame sf := nth 7 (fst (calibrate_w (H := Num_sf flm) fenv [] first145)) first145.

Example C145_nonvacuous : exists d,
  is_table ds145 /\ left_with (calibrate_w (H := Num_sf flm) fenv []) ds145 first145 /\
  left_with (calibrate_w (H := Num_sf flm) fenv []) first145 second145 /\
  map (fun c => mem_str c (f_cols first145)) ["reference_good"; "alkalinity_npts"; "temperature_init"] = [true; false; false] /\
  map (fun c => mem_str c (f_cols second145)) ["reference_good"; "alkalinity_npts"; "temperature_init"] = [true; true; false] /\
  calibrate (H := Num_sf flm) fenv [] ds145 = Ok d /\ calibrate (H := Num_sf flm) fenv [] second145 = Ok d /\
  npts_at d 0 = Some (VInt 2).
Proof.
  assert (L1 : left_with (calibrate_w (H := Num_sf flm) fenv []) ds145 first145).
  { right. apply nth_In. apply PeanoNat.Nat.ltb_lt. vm_compute. reflexivity. }
  assert (L2 : left_with (calibrate_w (H := Num_sf flm) fenv []) first145 second145).
  { right. apply nth_In. apply PeanoNat.Nat.ltb_lt. vm_compute. reflexivity. }
  destruct (calibrate (H := Num_sf flm) fenv [] ds145) as [d|] eqn:E; [|exfalso; revert E; vm_compute; discriminate].
  assert (N : after (calibrate (H := Num_sf flm) fenv [] ds145) (fun d => npts_at d 0) = Some (Some (VInt 2))) by (vm_compute; reflexivity).
  rewrite E in N. cbn [after] in N. apply some_inj in N.
  exists d. split; [exact ftable_is|]. split; [exact L1|]. split; [exact L2|].
  split; [vm_compute; reflexivity|]. split; [vm_compute; reflexivity|]. split; [reflexivity|]. split; [|exact N].
  rewrite <- E. apply (C145_calibrate_again (H := Num_sf flm)); [reflexivity|exact ftable_is|constructor|].
  apply (once_more _ _ first145); [|exact L2]. apply (once_more _ _ ds145); [constructor|exact L1].
Qed.

