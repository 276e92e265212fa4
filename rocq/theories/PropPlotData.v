(* PropPlotData.v -- C104, C105, C106: the plots of a dataset *)
From Coq Require Import List Lia Permutation Reals Lra.
From Verif Require Import Classes Plot DictLemmas SettingsProofs DatasetProofs RowProofs CalProofs PropSettings SpecDataset PropDataset.
From Verif Require Import XR XRLemmas Witness PropBatch PropTitrationWitness PlotProofs SpecPlot.
From Verif Require Export PropPlot.
Open Scope string_scope.
Open Scope list_scope.

Section Poly.
Context {T : Type} `{Num T}.

Lemma column_value (ds : frame T) c i v : is_table ds -> mem_str c (f_cols ds) = true ->
  nth_error (map (cell c) (f_rows ds)) i = Some v -> value ds i c = Some v.
Proof.
  intros W M N. unfold value. rewrite nth_error_map in N. destruct (nth_error (f_rows ds) i) as [r|] eqn:E; [|discriminate].
  cbn in N. injection N as <-. unfold cell. destruct (dget c r) eqn:G; [reflexivity|]. exfalso.
  assert (I : In c (dkeys r)) by (rewrite (proj2 W r) by (eapply nth_error_In; eassumption); now apply mem_str_spec).
  apply dget_in_keys, dmem_true_get in I. destruct I. congruence.
Qed.

Lemma plot_x_spec xvar (ds : frame T) x : is_table ds -> plot_x xvar ds = Ok x -> length x = n_rows ds /\
  forall i v, nth_error x i = Some v -> match xvar with None => v = VInt (Z.of_nat i) | Some c => value ds i c = Some v end.
Proof.
  intros W E. unfold plot_x, frame_col in E. destruct xvar as [c|].
  - destruct (has c ds) eqn:M; [|discriminate]. injection E as <-. split; [apply map_length|]. intros i v N. now apply column_value.
  - injection E as <-. rewrite map_length, seq_length. split; [reflexivity|]. intros i v N. rewrite nth_error_map in N.
    destruct (nth_error (seq 0 (length (f_rows ds))) i) as [j|] eqn:Q; [|discriminate]. injection N as <-.
    assert (i < length (f_rows ds))%nat by (rewrite <- (seq_length (length (f_rows ds)) 0); apply nth_error_Some; congruence).
    apply (nth_error_nth _ _ 0%nat) in Q. rewrite seq_nth in Q by assumption. subst j. reflexivity.
Qed.

Lemma frame_attr_spec c (ds : frame T) y : is_table ds -> frame_attr c ds = Ok y -> length y = n_rows ds /\
  forall i v, nth_error y i = Some v -> value ds i c = Some v.
Proof.
  intros W E. unfold frame_attr in E. destruct (has c ds) eqn:M; [|discriminate]. injection E as <-. split; [apply map_length|].
  intros i v N. now apply column_value.
Qed.

Lemma plot_good_spec (ds : frame T) G : is_table ds -> plot_good ds = Ok G -> good_flags ds G.
Proof.
  intros W E. unfold plot_good in E. unfold good_flags. change (mem_str "reference_good" (f_cols ds)) with (has "reference_good" ds) in *.
  destruct (has "reference_good" ds) eqn:M.
  - assert (X := mapM_ok _ _ _ E). destruct X as (L & _). split; [now rewrite L, map_length|]. intros i b N.
    apply mapM_Forall2 in E. destruct (nth_error (map (cell "reference_good") (f_rows ds)) i) as [v|] eqn:Q.
    + destruct (Forall2_nth _ _ _ _ _ E Q) as (b' & N' & B). rewrite N in N'. injection N' as <-.
      rewrite (column_value _ _ _ _ W M Q). unfold as_bool in B. destruct v; try discriminate. now injection B as ->.
    + apply nth_error_None in Q. assert (i < length G)%nat by (apply nth_error_Some; congruence). lia.
  - injection E as <-. split; [apply repeat_length|]. intros i b N. apply nth_error_In, repeat_spec in N. exact N.
Qed.

Lemma analyses_combine (ds : frame T) xvar yvar x y : is_table ds -> plot_x xvar ds = Ok x -> frame_attr yvar ds = Ok y ->
  analyses ds xvar yvar (combine x y).
Proof.
  intros W Ex Ey. destruct (plot_x_spec _ _ _ W Ex) as (Lx & Sx). destruct (frame_attr_spec _ _ _ W Ey) as (Ly & Sy).
  split; [rewrite combine_length; lia|]. intros i a b N.
  assert (Na : nth_error x i = Some a /\ nth_error y i = Some b).
  { clear - N. revert y i N. induction x as [|p x IH]; intros [|q y] [|i] N; try discriminate; cbn in *; [injection N as <- <-; auto|auto]. }
  destruct Na as (N1 & N2). split; [now apply Sy|exact (Sx i a N1)].
Qed.

Lemma scatter_good_spec show_bad (x y : list (val T)) G : length G = length x -> length y = length x ->
  scatter_good show_bad x y G =
    Used (flagged G (combine x y)) :: (if show_bad then [Unused (unflagged G (combine x y))] else []) /\
  Permutation (flagged G (combine x y) ++ unflagged G (combine x y)) (combine x y).
Proof.
  intros Lx Ly. unfold scatter_good, flagged, unflagged. rewrite <- !mask_picked, <- !mask_unpicked, !mask_combine. split; [reflexivity|].
  apply mask_split. rewrite combine_length. lia.
Qed.

(* every analysis is drawn exactly once: filled if it is a good reference, as a cross (unless show_bad=False) if not *)
Theorem C104_every_analysis_drawn_once : forall (ds : frame T) xvar show_bad show_batches f, is_table ds ->
  (plot_titrant_molinity ds xvar show_bad show_batches = Ok f ->
     exists pts G rest, analyses ds xvar "titrant_molinity_here" pts /\ good_flags ds G /\
       fig_marks f = Used (flagged G pts) :: (if show_bad then [Unused (unflagged G pts)] else []) ++ rest /\
       Permutation (flagged G pts ++ unflagged G pts) pts /\
       (forall m, In m rest -> exists l, m = Line l) /\ (show_batches = false -> rest = [])) /\
  (plot_alkalinity_offset ds xvar show_bad show_batches = Ok f ->
     exists pts G, analyses ds xvar "alkalinity_offset" pts /\ good_flags ds G /\
       fig_marks f = Used (flagged G pts) :: (if show_bad then [Unused (unflagged G pts)] else []) ++ [HLine (VInt 0)] /\
       Permutation (flagged G pts ++ unflagged G pts) pts).
Proof.
  intros ds xvar show_bad show_batches f W. split.
  - intros E. unfold plot_titrant_molinity in E.
    destruct (plot_x xvar ds) as [x|] eqn:Ex; cbn [bind] in E; [|discriminate]. destruct (plot_good ds) as [G|] eqn:EG; cbn [bind] in E; [|discriminate].
    destruct (frame_attr "titrant_molinity_here" ds) as [y|] eqn:Ey; cbn [bind] in E; [|discriminate].
    match type of E with bind ?l _ = _ => destruct l as [lines|] eqn:El; cbn [bind] in E; [|discriminate] end.
    apply (f_equal (fun z => match z with Ok q => q | Err _ => f end)) in E. cbv beta iota in E. subst f.
    pose proof (plot_good_spec _ _ W EG) as SG. destruct (plot_x_spec _ _ _ W Ex) as (Lx & _). destruct (frame_attr_spec _ _ _ W Ey) as (Ly & _).
    destruct (scatter_good_spec show_bad x y G) as (S & P); [rewrite (proj1 SG); auto|congruence|].
    exists (combine x y), G, lines. split; [now apply analyses_combine|]. split; [exact SG|]. cbn [fig_marks]. rewrite S.
    split; [reflexivity|]. split; [exact P|]. destruct show_batches.
    + split; [|discriminate]. intros m I. destruct (batch_index ds) as [ks|]; cbn [bind] in El; [|discriminate].
      match type of El with bind ?l _ = _ => destruct l as [ms|]; cbn [bind] in El; [|discriminate] end.
      injection El as <-. apply in_map_iff in I. destruct I as (k & <- & _). eauto.
    + injection El as <-. split; [intros m []|reflexivity].
  - intros E. unfold plot_alkalinity_offset in E.
    destruct (plot_x xvar ds) as [x|] eqn:Ex; cbn [bind] in E; [|discriminate]. destruct (plot_good ds) as [G|] eqn:EG; cbn [bind] in E; [|discriminate].
    match type of E with bind ?l _ = _ => destruct l as [[]|] eqn:El; cbn [bind] in E; [|discriminate] end.
    destruct (frame_attr "alkalinity_offset" ds) as [y|] eqn:Ey; cbn [bind] in E; [|discriminate].
    apply (f_equal (fun z => match z with Ok q => q | Err _ => f end)) in E. cbv beta iota in E. subst f.
    pose proof (plot_good_spec _ _ W EG) as SG. destruct (plot_x_spec _ _ _ W Ex) as (Lx & _). destruct (frame_attr_spec _ _ _ W Ey) as (Ly & _).
    destruct (scatter_good_spec show_bad x y G) as (S & P); [rewrite (proj1 SG); auto|congruence|].
    exists (combine x y), G. split; [now apply analyses_combine|]. split; [exact SG|]. cbn [fig_marks]. rewrite S. auto.
Qed.

(* ------------------------------------------------------------------ *)
(** * C106: without a reference_good column *)

Theorem C106_without_flags_partial : forall (ds : frame T) xvar show_bad, is_table ds -> ~ In "reference_good" (f_cols ds) ->
  (forall c, xvar = Some c -> In c (f_cols ds)) ->
  (In "titrant_molinity_here" (f_cols ds) -> can_draw (plot_titrant_molinity ds xvar show_bad false)) /\
  (In "alkalinity_offset" (f_cols ds) -> can_draw (plot_alkalinity_offset ds xvar show_bad false)).
Proof.
  intros ds xvar show_bad W N X.
  assert (Hx : exists x, plot_x xvar ds = Ok x).
  { unfold plot_x, frame_col, has. destruct xvar as [c|]; [|eauto]. pose proof (X c eq_refl) as I. apply mem_str_spec in I. rewrite I. eauto. }
  destruct Hx as (x & Ex).
  assert (EG : plot_good ds = Ok (repeat true (length (f_rows ds)))).
  { unfold plot_good, has. destruct (mem_str "reference_good" (f_cols ds)) eqn:M; [apply mem_str_spec in M; contradiction|reflexivity]. }
  assert (Hy : forall c, In c (f_cols ds) -> exists y, frame_attr c ds = Ok y).
  { intros c I. unfold frame_attr, has. apply mem_str_spec in I. rewrite I. eauto. }
  split; intros I; destruct (Hy _ I) as (y & Ey); eexists; [unfold plot_titrant_molinity|unfold plot_alkalinity_offset];
    rewrite Ex, EG; cbn [bind]; rewrite Ey; cbn [bind]; reflexivity.
Qed.

(* with show_batches=True, its default, the plots stop although they have defaults for the missing flags *)
Theorem C106_batches_need_flags : forall (ds : frame T) xvar show_bad, ~ In "reference_good" (f_cols ds) ->
  cannot_draw (plot_titrant_molinity ds xvar show_bad true) /\ cannot_draw (plot_alkalinity_offset ds xvar show_bad true).
Proof.
  intros ds xvar show_bad N.
  assert (B : exists e, batch_index ds = Err e).
  { unfold batch_index, frame_col. destruct (has "analysis_batch" ds); cbn [bind]; [|eauto]. destruct (has "titrant_molinity_here" ds); cbn [bind]; [|eauto].
    unfold has. destruct (mem_str "reference_good" (f_cols ds)) eqn:M; [apply mem_str_spec in M; contradiction|]. cbn [bind]. eauto. }
  destruct B as (e & B).
  split; unfold cannot_draw; [unfold plot_titrant_molinity|unfold plot_alkalinity_offset].
  - destruct (plot_x xvar ds); cbn [bind]; [|eauto]. destruct (plot_good ds); cbn [bind]; [|eauto]. destruct (frame_attr _ ds); cbn [bind]; [|eauto]. rewrite B. cbn [bind]. eauto.
  - destruct (plot_x xvar ds); cbn [bind]; [|eauto]. destruct (plot_good ds); cbn [bind]; [|eauto]. rewrite B. cbn [bind]. eauto.
Qed.
End Poly.

(* ------------------------------------------------------------------ *)
(** * C105: the batch lines *)

Section XRpart.
Implicit Types a b k : val xr.

Definition proper (k : val xr) : Prop := key_eqb k k = true.
Lemma key_sym a b : key_eqb a b = true -> key_eqb b a = true.
Proof.
  intros E. destruct (as_num_key a b E) as [(s & -> & ->)|(x & y & Ea & Eb & X)]; [exact E|].
  apply x_eqb_sub in X as Y. subst y. rewrite (key_eqb_num b a x Ea), Eb. exact X.
Qed.
Lemma batch_proper (rows : list (row xr)) r m : batch_molinity rows r = Ok m -> proper (cell "analysis_batch" r).
Proof.
  intros E. destruct (batch_molinity_inv _ _ _ E) as (N & _). unfold batch_molinity in E. cbv zeta in E. set (k := cell "analysis_batch" r) in *.
  unfold proper. destruct k as [|x|x|x|x|x|x]; try discriminate N; try discriminate E; cbn in *.
  - apply reqb_spec. reflexivity.
  - apply reqb_spec. reflexivity.
  - destruct x; try discriminate N; cbn; [now apply reqb_spec|reflexivity..].
  - apply String.eqb_refl.
Qed.

Fixpoint apart (ks : list (val xr)) : Prop :=
  match ks with [] => True | k :: ks => (forall k', In k' ks -> key_eqb k' k = false) /\ apart ks end.

Lemma distinct_spec l : forall seen, (forall k, In k l -> proper k) ->
  apart (distinct seen l) /\ (forall k, In k (distinct seen l) -> In k l /\ isnull k = false /\ existsb (key_eqb k) seen = false) /\
  (forall k, In k l -> isnull k = false -> existsb (key_eqb k) seen = true \/ existsb (key_eqb k) (distinct seen l) = true).
Proof.
  induction l as [|k l IH]; intros seen P; cbn [distinct]; [split; [exact I|split; intros k0 []]|].
  destruct (isnull k || existsb (key_eqb k) seen) eqn:B.
  - destruct (IH seen) as (A & S & C); [intros; apply P; now right|]. split; [exact A|]. split.
    + intros k' I. destruct (S k' I) as (? & ?). split; [now right|assumption].
    + intros k' [<-|I] N; [|auto]. rewrite N in B. now left.
  - apply orb_false_iff in B. destruct B as (Nk & Sk). destruct (IH (k :: seen)) as (A & S & C); [intros; apply P; now right|]. cbn [existsb] in *.
    split; [|split].
    + cbn. split; [|exact A]. intros k' I. destruct (S k' I) as (_ & _ & X). now apply orb_false_iff in X.
    + intros k' [<-|I]; [repeat split; auto; now left|]. destruct (S k' I) as (? & ? & X). apply orb_false_iff in X. repeat split; try tauto. now right.
    + intros k' [<-|I] N.
      * right. assert (Pk : proper k) by (apply P; now left). unfold proper in Pk. now rewrite Pk.
      * destruct (C k' I N) as [X|X]; [|right; rewrite X; apply orb_true_r]. apply orb_true_iff in X. destruct X as [X|X]; [right; now rewrite X|now left].
Qed.

Lemma split_filter {A} (p q : A -> bool) l : (forall x, In x l -> p x = true -> q x = false) ->
  Permutation (filter p l ++ filter q l) (filter (fun x => p x || q x) l).
Proof.
  induction l as [|x l IH]; intros D; [constructor|]. cbn [filter]. specialize (IH (fun y I => D y (or_intror I))).
  destruct (p x) eqn:Px; [rewrite (D x (or_introl eq_refl) Px); cbn; now constructor|]. cbn [orb]. destruct (q x); [|exact IH].
  etransitivity; [symmetry; apply Permutation_middle|]. now constructor.
Qed.

Lemma lines_partition {A} (L : list (val xr * A)) ks : apart ks ->
  Permutation (List.concat (map (fun k => map snd (filter (fun kp => key_eqb (fst kp) k) L)) ks))
              (map snd (filter (fun kp => existsb (key_eqb (fst kp)) ks) L)).
Proof.
  induction ks as [|k ks IH]; intros Ap.
  - cbn. induction L; [constructor|exact IHL].
  - destruct Ap as (Ap & Ar). cbn [map List.concat existsb]. etransitivity; [apply Permutation_app_head; now apply IH|].
    rewrite <- map_app. apply Permutation_map. apply (split_filter (fun kp => key_eqb (fst kp) k) (fun kp => existsb (key_eqb (fst kp)) ks)).
    intros (a & p) _ E. cbn [fst] in *. destruct (existsb (key_eqb a) ks) eqn:X; [|reflexivity]. exfalso.
    apply existsb_exists in X. destruct X as (k' & I & X). assert (key_eqb k' k = true) by (rewrite <- (key_eqb_sub a k k' E); now apply key_sym).
    rewrite (Ap k' I) in *. discriminate.
Qed.

Lemma mask_rows {A} (g : row xr -> bool) rows : forall pts : list A, 
  mask (map g rows) pts = map snd (filter (fun rp => g (fst rp)) (combine rows pts)).
Proof.
  induction rows as [|r rows IH]; intros [|p pts]; try reflexivity; cbn [map mask combine filter fst].
  destruct (g r); cbn [map snd]; [f_equal|]; apply IH.
Qed.

Lemma refs_of_batch (ds : frame xr) a b : key_eqb a b = true -> batch_references ds a = batch_references ds b.
Proof.
  intros E. unfold batch_references. apply flat_map_ext. intros r. unfold good_reference.
  destruct (dget "analysis_batch" r) as [b'|]; [|reflexivity]. destruct (dget "reference_good" r) as [[]|]; try reflexivity.
  now rewrite (key_eqb_sub a b b' E).
Qed.

Lemma calibrated_table (e : env xr) kw ds ds' : is_table ds -> calibrate e kw ds = Ok ds' -> is_table ds'.
Proof.
  intros W E. apply calibrate_inv in E. destruct E as (ds1 & E1 & E2). apply (wff_solve e kw ds1); [|exact E2]. now apply (wff_calibrate_only e kw ds).
Qed.

(* after calibrate: each batch is a horizontal line at the mean of its good references, and each analysis is on exactly
   one of the lines *)
Theorem C105_batch_lines : forall (e : env xr) kw ds ds' xvar show_bad f, is_table ds ->
  all_cells ds "reference_good" (fun v => is_null v \/ exists g : bool, v = VBool g) ->
  calibrate e kw ds = Ok ds' -> plot_titrant_molinity ds' xvar show_bad true = Ok f ->
  exists points lines pts, fig_marks f = points ++ map Line lines /\ (forall m, In m points -> forall l, m <> Line l) /\
    (forall line, In line lines -> line <> [] /\
       exists b, ~ is_null b /\ forall x y, In (x, y) line -> y = VNum (nmean (batch_references ds' b))) /\
    analyses ds' xvar "titrant_molinity" pts /\ Permutation (List.concat lines) pts.
Proof.
  intros e kw ds ds' xvar show_bad f W F Ec E. pose proof (calibrated_table e kw ds ds' W Ec) as W'.
  pose proof (C53_batch_mean e kw ds ds' eq_refl W F Ec) as BM.
  assert (Pr : forall r, In r (f_rows ds') -> proper (cell "analysis_batch" r)).
  { destruct (calibrate_stages e kw ds ds' W Ec) as (rows & _ & G). intros r I. destruct (Forall2_in_r _ _ _ _ G I) as (rr & I' & m & Bm & _ & _ & A).
    unfold cell. rewrite (A "analysis_batch") by (cbn; tauto). exact (batch_proper _ _ _ Bm). }
  unfold plot_titrant_molinity in E.
  destruct (plot_x xvar ds') as [x|] eqn:Ex; cbn [bind] in E; [|discriminate]. destruct (plot_good ds') as [G|] eqn:EG; cbn [bind] in E; [|discriminate].
  destruct (frame_attr "titrant_molinity_here" ds') as [y|] eqn:Ey; cbn [bind] in E; [|discriminate].
  destruct (batch_index ds') as [ks|] eqn:Ek; cbn [bind] in E; [|discriminate].
  assert (Eks : ks = distinct [] (map (cell "analysis_batch") (f_rows ds'))).
  { unfold batch_index, frame_col in Ek. repeat match type of Ek with context [if ?c then _ else _] => destruct c; cbn [bind] in Ek; [|discriminate] end.
    destruct (mapM _ _); cbn [bind] in Ek; [|discriminate]. now injection Ek as <-. }
  destruct (distinct_spec (map (cell "analysis_batch") (f_rows ds')) []) as (Ap & Sk & Cov).
  { intros k I. apply in_map_iff in I. destruct I as (r & <- & I). now apply Pr. }
  rewrite <- Eks in Ap, Sk, Cov.
  destruct (match ks with [] => Ok [] | _ => frame_attr "titrant_molinity" ds' end) as [m|] eqn:Em; cbn [bind] in E; [|discriminate].
  apply (f_equal (fun z => match z with Ok q => q | Err _ => f end)) in E. cbv beta iota in E. subst f. cbn [fig_marks].
  destruct (plot_x_spec _ _ _ W' Ex) as (Lx & Sx).
  assert (NK : forall r, In r (f_rows ds') -> isnull (cell "analysis_batch" r) = false).
  { intros r I. destruct (In_nth_error _ _ I) as (i & N). destruct (BM i) as (b & Vb & Nb & _); [unfold n_rows; apply nth_error_Some; congruence|].
    unfold value in Vb. rewrite N in Vb. unfold cell. rewrite Vb. unfold is_null in Nb. now destruct (isnull b). }
  (* the molinity column *)
  assert (Hm : length m = n_rows ds' /\ forall i v, nth_error m i = Some v -> value ds' i "titrant_molinity" = Some v).
  { destruct ks as [|k0 ks0] eqn:Q; [|now apply frame_attr_spec]. injection Em as <-.
    destruct (f_rows ds') as [|r rows] eqn:R; [split; [unfold n_rows; now rewrite R|intros [|i] v; discriminate]|]. exfalso.
    destruct (Cov (cell "analysis_batch" r)) as [X|X]; [now left|apply NK; now left|discriminate X|discriminate X]. }
  destruct Hm as (Lm & Sm).
  exists (scatter_good show_bad x y G), (map (fun k => combine (mask (in_this_batch k ds') x) (mask (in_this_batch k ds') m)) ks), (combine x m).
  split; [now rewrite map_map|]. split; [intros q I l ->; unfold scatter_good in I; destruct I as [I|I]; [discriminate|destruct show_bad; [destruct I as [I|[]]; discriminate|destruct I]]|].
  set (L := combine (map (cell "analysis_batch") (f_rows ds')) (combine x m)).
  assert (Eline : forall k, combine (mask (in_this_batch k ds') x) (mask (in_this_batch k ds') m) = map snd (filter (fun kp => key_eqb (fst kp) k) L)).
  { intros k. rewrite mask_combine. unfold in_this_batch. rewrite mask_rows. unfold L. generalize (combine x m). clear. intros pts. revert pts.
    induction (f_rows ds') as [|r rows IH]; intros [|p pts]; try reflexivity. cbn [map combine filter fst]. unfold in_batch at 1.
    destruct (key_eqb _ k); cbn [map snd]; [f_equal|]; apply IH. }
  assert (LL : length (combine x m) = length (f_rows ds')) by (rewrite combine_length; unfold n_rows in *; lia).
  split; [|split].
  - intros line I. apply in_map_iff in I. destruct I as (k & <- & Ik). rewrite Eline. destruct (Sk k Ik) as (Il & Nk & _). split.
    + apply in_map_iff in Il. destruct Il as (r & Er & Ir). destruct (In_nth_error _ _ Ir) as (i & N).
      assert (Np : exists p, nth_error (combine x m) i = Some p).
      { destruct (nth_error (combine x m) i) eqn:Z; [eauto|]. apply nth_error_None in Z. assert (i < length (f_rows ds'))%nat by (apply nth_error_Some; congruence). lia. }
      destruct Np as (p & Np).
      assert (IL : In (cell "analysis_batch" r, p) L).
      { unfold L. clear - N Np. revert i N Np. generalize (combine x m). induction (f_rows ds') as [|q rows IH]; intros [|a l] [|i] N Np; try discriminate; cbn in *.
        - injection N as ->. injection Np as ->. now left.
        - right. eapply IH; eassumption. }
      intros Z. assert (IF : In (cell "analysis_batch" r, p) (filter (fun kp => key_eqb (fst kp) k) L)).
      { apply filter_In. split; [exact IL|]. cbn [fst]. rewrite Er. pose proof (Pr r Ir) as X. rewrite Er in X. exact X. }
      apply (in_map snd) in IF. rewrite Z in IF. destruct IF.
    + exists k. split; [unfold is_null; rewrite Nk; discriminate|]. intros a b I. apply in_map_iff in I. destruct I as ((kk & p) & Ep & I). cbn [snd] in Ep. subst p.
      apply filter_In in I. destruct I as (I & Kk). cbn [fst] in Kk.
      assert (X : exists i r, nth_error (f_rows ds') i = Some r /\ kk = cell "analysis_batch" r /\ nth_error m i = Some b).
      { unfold L in I. clear - I. revert x m I. induction (f_rows ds') as [|q rows IH]; intros [|a' x] [|b' m] I; try destruct I; cbn in *.
        - injection H as <- <- <-. exists 0%nat, q. auto.
        - destruct (IH x m H) as (i & r & ? & ? & ?). exists (S i), r. auto. }
      destruct X as (i & r & Nr & -> & Nm). destruct (BM i) as (b0 & Vb & _ & Vm); [unfold n_rows; apply nth_error_Some; congruence|].
      rewrite (Sm _ _ Nm) in Vm. injection Vm as ->. unfold value in Vb. rewrite Nr in Vb. unfold cell in Kk. rewrite Vb in Kk. now rewrite (refs_of_batch ds' _ _ Kk).
  - split; [exact (eq_trans LL eq_refl)|]. intros i a b N.
    assert (Na : nth_error x i = Some a /\ nth_error m i = Some b).
    { clear - N. revert m i N. induction x as [|p x IH]; intros [|q m] [|i] N; try discriminate; cbn in *; [injection N as <- <-; auto|auto]. }
    destruct Na as (N1 & N2). split; [now apply Sm|exact (Sx i a N1)].
  - assert (EM : map (fun k => combine (mask (in_this_batch k ds') x) (mask (in_this_batch k ds') m)) ks = map (fun k => map snd (filter (fun kp => key_eqb (fst kp) k) L)) ks)
      by (apply map_ext; exact Eline).
    rewrite EM. etransitivity; [now apply lines_partition|].
    assert (AL : filter (fun kp => existsb (key_eqb (fst kp)) ks) L = L).
    { assert (Q : forall kp, In kp L -> existsb (key_eqb (fst kp)) ks = true).
      { intros (k & p) I. unfold L in I. apply in_combine_l in I. cbn [fst]. destruct (Cov k I) as [X|X]; [|discriminate X|exact X].
        apply in_map_iff in I. destruct I as (r & <- & I). now apply NK. }
      clear - Q. induction L as [|a l IH]; [reflexivity|]. cbn [filter]. rewrite (Q a) by now left. f_equal. apply IH. intros kp I. apply Q. now right. }
    rewrite AL. assert (SL : map snd L = combine x m).
    { unfold L. clear - LL. revert LL. generalize (combine x m). induction (f_rows ds') as [|r rows IH]; intros [|p l] Q; try discriminate; [reflexivity|]. cbn. f_equal. apply IH. now injection Q. }
    rewrite SL. apply Permutation_refl.
Qed.

Lemma calibrated_columns (e : env xr) kw ds ds' c : calibrate e kw ds = Ok ds' ->
  In c ["analysis_batch"; "reference_good"; "titrant_molinity_here"; "titrant_molinity"; "alkalinity_offset"] -> mem_str c (f_cols ds') = true.
Proof.
  intros E I. apply calibrate_inv in E. destruct E as (ds1 & E1 & E2). apply calibrate_only_inv in E1. destruct E1 as (O & C1 & _).
  apply solve_inv in E2. destruct E2 as (_ & C2 & _). rewrite C2, C1. unfold calibrate_ok in O. apply andb_true_iff in O. destruct O as (_ & O).
  unfold ref_cols. rewrite mem_solve_cols, !mem_prep_cols, !mem_addc, !mem_prep_cols, O.
  each_key I; cbn [String.eqb Ascii.eqb Bool.eqb]; rewrite ?orb_true_r; reflexivity.
Qed.

(* after calibrate the plots of the dataset can be drawn *)
Theorem C105_can_draw_after_calibrate : forall (e : env xr) kw ds ds' show_bad show_batches, is_table ds ->
  all_cells ds "reference_good" (fun v => exists g, v = VBool g) -> calibrate e kw ds = Ok ds' ->
  can_draw (plot_titrant_molinity ds' None show_bad show_batches) /\ can_draw (plot_alkalinity_offset ds' None show_bad show_batches).
Proof.
  intros e kw ds ds' show_bad show_batches W F Ec.
  assert (F' : all_cells ds "reference_good" (fun v => is_null v \/ exists g, v = VBool g)) by (intros r v I G; right; eapply F; eassumption).
  destruct (calibrate_stages e kw ds ds' W Ec) as (rows & Er & G). apply mapM_Forall2 in Er.
  assert (Q : forall r2, In r2 (f_rows ds') -> (exists x, dget "titrant_molinity_here" r2 = Some (VNum x)) /\
     (exists k, dget "analysis_batch" r2 = Some k) /\ (exists g, dget "reference_good" r2 = Some (VBool g))).
  { intros r2 I. destruct (Forall2_in_r _ _ _ _ G I) as (rr & I' & m & _ & _ & X & A).
    destruct (Forall2_in_r _ _ _ _ Er I') as (r0 & I0 & R0).
    destruct (ref_one_flags e kw (f_cols ds) r0 rr (proj2 W r0 I0) R0) as (B & C); [intros v Gv; exact (F' r0 v I0 Gv)|].
    rewrite !A by (cbn; tauto). split; [exact X|]. split; [exact B|].
    destruct (ref_one_inv _ _ _ _ _ R0) as (r1 & x & P & _ & Eq). 
    destruct (dget "reference_good" r0) as [v|] eqn:Gv.
    - destruct (F r0 v I0 Gv) as (g & ->). exists g. rewrite Eq. unfold flag_row.
      assert (M : mem_str "reference_good" (f_cols ds) = true).
      { rewrite <- (proj2 W r0 I0). apply mem_str_spec, dget_in_keys. unfold dmem. now rewrite Gv. }
      rewrite M. cbv zeta. assert (G1 : dget "reference_good" r1 = Some (VBool g)) by (rewrite (prep_row_get e (f_cols ds) r0 r1 _ P); [exact Gv|cbn; intuition discriminate]).
      destruct (mem_str "analysis_batch" (f_cols ds)); repeat rewrite dget_dset_other by discriminate; exact G1.
    - rewrite Eq. unfold flag_row.
      assert (M : mem_str "reference_good" (f_cols ds) = false).
      { rewrite <- (proj2 W r0 I0). destruct (mem_str "reference_good" (dkeys r0)) eqn:M; [|reflexivity]. apply mem_str_spec, dget_in_keys, dmem_true_get in M. destruct M. congruence. }
      rewrite M. cbv zeta. eexists. apply dget_dset_same. }
  assert (HM : forall c, In c ["analysis_batch"; "reference_good"; "titrant_molinity_here"; "titrant_molinity"; "alkalinity_offset"] -> has c ds' = true)
    by (intros c I; exact (calibrated_columns e kw ds ds' c Ec I)).
  assert (HG : exists GG, plot_good ds' = Ok GG).
  { unfold plot_good. rewrite HM by (cbn; tauto). apply mapM_total. intros v I. apply in_map_iff in I. destruct I as (r & <- & I).
    destruct (Q r I) as (_ & _ & g & Gg). unfold cell. rewrite Gg. cbn. eauto. }
  destruct HG as (GG & HG).
  assert (HB : exists ks, batch_index ds' = Ok ks).
  { unfold batch_index, frame_col. rewrite !HM by (cbn; tauto). cbn [bind].
    assert (X : exists l, mapM (fun k => get_group_calibration (filter (in_batch k) (f_rows ds'))) (distinct [] (map (cell "analysis_batch") (f_rows ds'))) = Ok l).
    { apply mapM_total. intros k _. unfold get_group_calibration. assert (NN : nisnan (nnan : xr) = true) by reflexivity. rewrite (good_molinities_spec (f_rows ds') (f_rows ds') k NN); [cbn [bind]; eauto|].
      apply CalProofs.Forall2_refl. intros r I. destruct (Q r I) as (A & B & g & C). split; [exact A|]. split; [exact B|]. split; [exists (VBool g); split; [exact C|right; eauto]|]. auto. }
    destruct X as (l & X). rewrite X. cbn [bind]. eauto. }
  destruct HB as (ks & HB).
  split; unfold can_draw; [unfold plot_titrant_molinity|unfold plot_alkalinity_offset]; unfold plot_x, frame_attr; cbn [bind]; rewrite HG; cbn [bind].
  - rewrite !HM by (cbn; tauto). cbn [bind]. destruct show_batches; [|eexists; reflexivity]. rewrite HB. cbn [bind]. destruct ks; eexists; reflexivity.
  - rewrite !HM by (cbn; tauto). destruct show_batches; [rewrite HB|]; cbn [bind]; eexists; reflexivity.
Qed.

(* three analyses in three batches, and the plot with its three lines *)
Example C105_nonvacuous : exists ds' f, calibrate tiny_env [] (ref_table [VInt 1; VInt 2; VStr "b"]) = Ok ds' /\
  is_table (ref_table [VInt 1; VInt 2; VStr "b"]) /\ n_rows ds' = 3%nat /\
  all_cells (ref_table [VInt 1; VInt 2; VStr "b"]) "reference_good" (fun v => exists g, v = VBool g) /\
  plot_titrant_molinity ds' None true true = Ok f.
Proof.
  destruct C53_nonvacuous as (ds' & E & N & _).
  assert (F : all_cells (ref_table [VInt 1; VInt 2; VStr "b"]) "reference_good" (fun v => exists g, v = VBool g)).
  { apply ref_cells. intros b v I G. cbn in G. discriminate G. }
  destruct (C105_can_draw_after_calibrate tiny_env [] _ ds' true true (ref_is_table _) F E) as ((f & Ef) & _).
  exists ds', f. split; [exact E|]. split; [apply ref_is_table|]. auto.
Qed.

(* a table without the column, after every other one is there *)
Theorem C106_default_call_refuted : exists (ds : frame xr), is_table ds /\ n_rows ds = 1%nat /\
  (forall c, In c ["analysis_batch"; "titrant_molinity_here"; "titrant_molinity"; "alkalinity_offset"] -> In c (f_cols ds)) /\
  can_draw (plot_titrant_molinity ds None true false) /\ plot_titrant_molinity ds None true true = Err (KeyError "reference_good") /\
  can_draw (plot_alkalinity_offset ds None true false) /\ plot_alkalinity_offset ds None true true = Err (KeyError "reference_good").
Proof.
  set (r := [("analysis_batch", VInt 0); ("titrant_molinity_here", VNum (Fin 1)); ("titrant_molinity", VNum (Fin 1)); ("alkalinity_offset", VNum (Fin 0))] : row xr).
  exists {| f_cols := dkeys r; f_rows := [r] |}.
  assert (W : is_table {| f_cols := dkeys r; f_rows := [r] |}).
  { split; [repeat constructor; cbn; intuition discriminate|]. intros q [<-|[]]. reflexivity. }
  split; [exact W|]. split; [reflexivity|]. split; [cbn; tauto|].
  destruct (C106_without_flags_partial {| f_cols := dkeys r; f_rows := [r] |} None true W) as (A & B).
  { cbn. intuition discriminate. } { discriminate. }
  split; [apply A; cbn; tauto|]. split; [reflexivity|]. split; [apply B; cbn; tauto|reflexivity].
Qed.
End XRpart.

Print Assumptions C104_every_analysis_drawn_once.
Print Assumptions C105_batch_lines.
Print Assumptions C105_can_draw_after_calibrate.
Print Assumptions C106_without_flags_partial.
Print Assumptions C106_batches_need_flags.
Print Assumptions C106_default_call_refuted.
