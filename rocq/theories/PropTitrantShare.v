(* PropTitrantShare.v -- C110: what the titrant itself brings into the solution *)
From Coq Require Import Reals Lra Lia Permutation.
From Verif Require Import Classes DictLemmas SettingsProofs DatasetProofs TableProofs PropSupplied PropReference SFNum PropPure.
From Verif Require Import SpecDataset RowProofs CalProofs PropDataset PropHistory PropIgnored Witness.
Open Scope string_scope.
Open Scope list_scope.

Section P.
Context {T : Type} `{Num T}.

(* the totals that a titrant can bring *)
Definition titrant_can_bring : list string := ["total_sulfate"; "total_phosphate"; "total_fluoride"].

(* the same settings, but nothing comes with the titrant *)
Definition plain_titrant (kw kw0 : kwargs T) : Prop :=
  (forall k, In k titrant_can_bring -> dget ("titrant_" ++ k)%string kw0 = None) /\
  (forall k, ~ In k (map (fun k => "titrant_" ++ k)%string titrant_can_bring) -> dget k kw0 = dget k kw).

Lemma filter_nil_iff {A} (p : A -> bool) l : (forall x, In x l -> p x = false) -> filter p l = [].
Proof. induction l as [|x l IH]; intros P; [reflexivity|]. cbn. rewrite (P x) by now left. apply IH. intros y I. apply P. now right. Qed.

Definition loading_keys : list string := keys_read_dat ++ keys_cau ++ keys_totals_ks ++ ["file_path"].

Lemma dget_only_out k keys (kw : kwargs T) : ~ In k keys -> dget k (only keys kw) = None.
Proof.
  intros N. unfold only. rewrite (dget_filter (fun k => mem_str k keys)).
  destruct (mem_str k keys) eqn:M; [|reflexivity]. apply mem_str_spec in M. contradiction.
Qed.

Lemma load_plain e f s (kw kw0 : kwargs T) : plain_titrant kw kw0 -> load e f s (without_mode kw0) = load e f s (without_mode kw).
Proof.
  intros [_ P]. rewrite <- (load_only e f s loading_keys (without_mode kw0)), <- (load_only e f s loading_keys (without_mode kw)) by apply incl_refl.
  apply load_deq. intros k. destruct (in_dec string_dec k loading_keys) as [I|N].
  - rewrite !dget_only by assumption.
    assert (Nm : k <> "solve_mode") by (intros ->; revert I; apply mem_str_false; reflexivity).
    rewrite !dget_wm by assumption. apply P. intros I'. revert I. apply mem_str_false. cbn [map titrant_can_bring append] in I'.
    cbn in I'. destruct I' as [<-|[<-|[<-|[]]]]; reflexivity.
  - now rewrite !dget_only_out.
Qed.

Lemma drop8_inj k k' : In k keys_titrant_totals -> In k' keys_titrant_totals -> sdrop 8 k = sdrop 8 k' -> k = k'.
Proof. cbn. intros I I'. destruct I as [<-|[<-|[<-|[]]]], I' as [<-|[<-|[<-|[]]]]; cbn; congruence. Qed.

Lemma att_named tt : forall (t t' : dict (nd T)) tm M c p k f, wfd tt -> incl (dkeys tt) keys_titrant_totals ->
  add_titrant_totals t tm M c p tt = (t', Ok Datatypes.tt) -> dget k tt = Some f ->
  exists v v' x, dget (sdrop 8 k) t = Some v /\ as_num f = Ok x /\
    nd_iadd v (titrant_addition tm M c p x) = Ok v' /\ dget (sdrop 8 k) t' = Some v'.
Proof.
  induction tt as [|[a g] tt IH]; intros t t' tm M c p k f W I E G; [discriminate|].
  inversion W as [|? ? W1 W2]; subst. cbn [add_titrant_totals] in E.
  match type of E with (match ?x with _ => _ end) = _ => destruct x as [v'|] eqn:X end; [|discriminate].
  destruct (assert_ _); cbn [bind] in X; [|discriminate].
  destruct (dgetE (sdrop 8 a) t) as [v|] eqn:Gv; cbn [bind] in X; [|discriminate].
  destruct (as_num g) as [x|] eqn:An; cbn [bind] in X; [|discriminate].
  unfold dgetE, of_opt in Gv. destruct (dget (sdrop 8 a) t) as [v0|] eqn:Gv0; [|discriminate]. injection Gv as ->.
  cbn [dget] in G. destruct (String.eqb_spec k a) as [->|N].
  - injection G as <-. exists v, v', x. split; [assumption|]. split; [assumption|]. split; [assumption|].
    rewrite (att_other _ _ _ _ _ _ _ _ _ E); [apply dget_dset_same|]. intros k' Ik Q. apply W1.
    replace a with k'; [exact Ik|]. apply drop8_inj; [apply I; now right|apply I; now left|exact Q].
  - assert (Ik : In k (dkeys tt)). { apply dget_in_keys. unfold dmem. now rewrite G. }
    destruct (IH _ _ _ _ _ _ k f W2 (fun z Z => I z (or_intror Z)) E G) as (u & u' & y & G1 & G2 & G3 & G4).
    exists u, u', y. split; [|auto]. rewrite dget_dset_other in G1; [exact G1|]. intros Q. apply N.
    apply drop8_inj; [apply I; now right|apply I; now left|exact Q].
Qed.

(* a total that is there is one number per titration point *)
Lemma totals_arrays (e : env T) cv kw totals ks k v : totals_ks e cv kw = Ok (totals, ks) -> dget k totals = Some v ->
  exists l, v = NdA l /\ length l = length (cv_titrant_mass cv).
Proof.
  unfold totals_ks. intros E G. cbv zeta in E.
  destruct (get_totals _ _ _) as [[t0 tp0]|] eqn:G0; cbn [bind] in E; [|discriminate].
  destruct (dilute_totals _ _ _) as [t1|] eqn:D; cbn [bind] in E; [|discriminate].
  match type of E with bind ?x _ = _ => destruct x as [tp|]; cbn [bind] in E; [|discriminate E] end.
  destruct (get_k_constants _ _ _ _) as [k1|] eqn:K; cbn [bind] in E; [|discriminate].
  assert (E1 : t1 = totals) by congruence. subst t1. clear E.
  apply dmapM_spec in D. destruct D as [Dk D].
  destruct (dget k t0) as [x|] eqn:X.
  - destruct (D k (NdS x)) as (y & Gy & Q); [rewrite (dget_dmap NdS), X; reflexivity|]. cbn [nd_map2] in Q. injection Q as <-.
    rewrite G in Gy. injection Gy as ->. eexists. split; [reflexivity|]. rewrite map_length. unfold dilution_factors. apply map_length.
  - exfalso. assert (I : In k (dkeys totals)) by (apply dget_in_keys; unfold dmem; now rewrite G).
    rewrite Dk, (dkeys_dmap NdS) in I. apply dget_in_keys in I. unfold dmem in I. now rewrite X in I.
Qed.

(* What comes with the titrant is added to what is there without it, point by point:
   mass of titrant x molinity x factor / total mass.  Everything else is the same. *)
Theorem C110_titrant_share_partial (e : env T) f c s kw kw0 sr sr0 : wfd kw -> plain_titrant kw kw0 ->
  files_solve e f c s kw = Ok sr -> files_solve e f c s kw0 = Ok sr0 ->
  sr_titrant_mass sr = sr_titrant_mass sr0 /\ sr_analyte_mass sr = sr_analyte_mass sr0 /\ sr_k_constants sr = sr_k_constants sr0 /\
  (forall k, ~ In k titrant_can_bring -> dget k (sr_totals sr) = dget k (sr_totals sr0)) /\
  (forall k, In k titrant_can_bring -> dget ("titrant_" ++ k)%string kw = None -> dget k (sr_totals sr) = dget k (sr_totals sr0)) /\
  (forall k v, In k titrant_can_bring -> dget ("titrant_" ++ k)%string kw = Some v ->
     exists factor molinity plain at_points,
       as_num v = Ok factor /\ as_num c = Ok molinity /\
       dget k (sr_totals sr0) = Some (NdA plain) /\ dget k (sr_totals sr) = Some (NdA at_points) /\
       length plain = length (sr_titrant_mass sr) /\ length at_points = length (sr_titrant_mass sr) /\
       forall i m y, nth_error (sr_titrant_mass sr) i = Some m -> nth_error plain i = Some y ->
         nth_error at_points i = Some (y ⊕ m ⊗ (molinity ⊖ n0) ⊗ factor ⊘ (m ⊕ sr_analyte_mass sr))).
Proof.
  intros W P E E0. pose proof (load_plain e f s kw kw0 P) as L.
  assert (tt0 : get_kwargs_for keys_titrant_totals (without_mode kw0) None = []).
  { destruct P as [P _]. unfold get_kwargs_for. apply filter_nil_iff. intros [k v] I. cbn [fst].
    destruct (mem_str k keys_titrant_totals) eqn:M; [|reflexivity]. exfalso. apply mem_str_spec in M.
    assert (Nm : k <> "solve_mode") by (intros ->; revert M; apply mem_str_false; reflexivity).
    assert (In k (dkeys (without_mode kw0))) by exact (in_map fst _ _ I).
    apply dget_in_keys in H0. unfold dmem in H0. rewrite dget_wm in H0 by assumption.
    cbn in M. destruct M as [<-|[<-|[<-|[]]]].
    - pose proof (P "total_sulfate") as Q. cbn [append] in Q. rewrite Q in H0; [discriminate|cbn; tauto].
    - pose proof (P "total_phosphate") as Q. cbn [append] in Q. rewrite Q in H0; [discriminate|cbn; tauto].
    - pose proof (P "total_fluoride") as Q. cbn [append] in Q. rewrite Q in H0; [discriminate|cbn; tauto]. }
  apply files_inv in E. destruct E as (fn & dd & cv & t & ks & c' & t' & n & F1 & F2 & F3 & F4 & F5 & F6 & _ & (S1 & _ & S3 & S4 & S5 & _)).
  apply files_inv in E0. destruct E0 as (fn0 & dd0 & cv0 & t0 & ks0 & c0 & t0' & n' & G1 & G2 & G3 & G4 & G5 & G6 & _ & (R1 & _ & R3 & R4 & R5 & _)).
  rewrite tt0 in G6. cbn [add_titrant_totals] in G6. injection G6 as <-.
  unfold load in L. rewrite F1, G1 in L. cbn [bind] in L. rewrite F2, G2 in L. cbn [bind] in L. rewrite F3, G3 in L. cbn [bind] in L. rewrite F4, G4 in L. cbn [bind] in L.
  injection L as -> -> ->. rewrite S1, S3, S4, S5, R1, R3, R4, R5.
  assert (Wt : wfd (get_kwargs_for keys_titrant_totals (without_mode kw) None)).
  { unfold get_kwargs_for. apply wfd_filter. unfold without_mode. now apply wfd_filter. }
  assert (It : incl (dkeys (get_kwargs_for keys_titrant_totals (without_mode kw) None)) keys_titrant_totals).
  { intros k I. apply in_map_iff in I as ([k' v] & <- & I). unfold get_kwargs_for in I. apply filter_In in I as [_ I]. now apply mem_str_spec in I. }
  split; [reflexivity|]. split; [reflexivity|]. split; [reflexivity|]. split; [|split].
  - intros k N. apply (att_other _ _ _ _ _ _ _ _ k F6). intros k' I <-. apply N. apply It in I. cbn in I. destruct I as [<-|[<-|[<-|[]]]]; cbn; tauto.
  - intros k I Nk. apply (att_other _ _ _ _ _ _ _ _ k F6). intros k' I' Q. pose proof (It _ I') as J.
    assert (k' = ("titrant_" ++ k)%string). { apply drop8_inj; [exact J| |rewrite Q; cbn in I; destruct I as [<-|[<-|[<-|[]]]]; reflexivity]. cbn in I. destruct I as [<-|[<-|[<-|[]]]]; cbn; tauto. }
    subst k'. apply dget_in_keys in I'. unfold dmem in I'. rewrite dget_gkf in I' by exact J.
    rewrite dget_wm in I' by (intros X; rewrite X in J; revert J; apply mem_str_false; reflexivity). now rewrite Nk in I'.
  - intros k v I G.
    assert (J : In ("titrant_" ++ k)%string keys_titrant_totals) by (cbn in I; destruct I as [<-|[<-|[<-|[]]]]; cbn; tauto).
    assert (D8 : sdrop 8 ("titrant_" ++ k)%string = k) by (cbn in I; destruct I as [<-|[<-|[<-|[]]]]; reflexivity).
    destruct (att_named _ _ _ _ _ _ _ ("titrant_" ++ k)%string v Wt It F6) as (u & u' & x & H1 & H2 & H3 & H4).
    { rewrite dget_gkf by exact J. rewrite dget_wm by (intros X; rewrite X in J; revert J; apply mem_str_false; reflexivity). exact G. }
    rewrite D8 in H1, H4. destruct (totals_arrays _ _ _ _ _ _ _ F4 H1) as (l & -> & Ll).
    cbn [nd_iadd] in H3. assert (La : length (titrant_addition (cv_titrant_mass cv) (cv_analyte_mass cv) c' n0 x) = length (cv_titrant_mass cv)) by apply map_length.
    rewrite La, Ll, Nat.eqb_refl in H3. injection H3 as <-.
    exists x, c', l, (map2 nadd l (titrant_addition (cv_titrant_mass cv) (cv_analyte_mass cv) c' n0 x)).
    split; [exact H2|]. split; [exact F5|]. split; [exact H1|]. split; [exact H4|]. split; [exact Ll|]. split; [rewrite map2_length; lia|].
    intros i m y Hm Hy. erewrite nth_error_map2; [reflexivity|exact Hy|]. unfold titrant_addition. rewrite nth_error_map, Hm. reflexivity.
Qed.

(* ------------------------------------------------------------------ *)
(** * Phosphate in the titrant but not in the sample *)

Lemma no_phosphate_total (e : env T) s kw t tp x : get_totals e s kw = Ok (t, tp) ->
  as_num (kwarg "total_phosphate" (VInt 0) kw) = Ok x -> ngtb x n0 = false -> dget "total_phosphate" t = None.
Proof.
  unfold get_totals. intros E Hx Hp. rewrite Hx in E. inv_binds E.
  apply (f_equal (fun z => match z with Ok y => fst y | Err _ => t end)) in E. cbn [fst] in E. subst t.
  match goal with A : copy_if_pos _ "total_ammonia" _ _ _ = Ok ?d1, B : copy_if_pos _ "total_silicate" _ _ _ = Ok ?d2,
     C : copy_if_pos _ "total_phosphate" _ _ _ = Ok ?d3, D : copy_if_pos _ "total_sulfide" _ _ _ = Ok ?d4 |- _ =>
    rewrite !dget_dset_other by discriminate; rewrite (copy_other _ _ _ _ _ _ _ D) by discriminate;
    unfold copy_if_pos in C; rewrite Hp in C; injection C as <-;
    rewrite (copy_other _ _ _ _ _ _ _ B) by discriminate; rewrite (copy_other _ _ _ _ _ _ _ A) by discriminate
  end.
  unfold dset_if. repeat match goal with |- context [if ?b then _ else _] => destruct b end; reflexivity.
Qed.

Lemma att_absent tt : forall (t t' : dict (nd T)) tm M c p k f r, wfd tt -> incl (dkeys tt) keys_titrant_totals ->
  add_titrant_totals t tm M c p tt = (t', r) -> dget k tt = Some f -> dget (sdrop 8 k) t = None -> exists x, r = Err x.
Proof.
  intros t t' tm M c p k f r W I E G N. destruct r as [[]|x]; [|now exists x]. exfalso.
  destruct (att_named tt _ _ _ _ _ _ k f W I E G) as (v & _ & _ & G1 & _). congruence.
Qed.

(* if the sample's total_phosphate is not positive, which is the default, a titrant_total_phosphate makes every solve fail *)
Theorem C110_absent_phosphate_raises (e : env T) f c s kw v x : wfd kw ->
  dget "titrant_total_phosphate" kw = Some v ->
  as_num (kwarg "total_phosphate" (VInt 0) kw) = Ok x -> nltb n0 x = false ->
  exists err, files_solve e f c s kw = Err err.
Proof.
  intros W G Hx Hp. destruct (files_solve e f c s kw) as [sr|err] eqn:E; [|now exists err]. exfalso.
  apply files_inv in E. destruct E as (fn & dd & cv & t & ks & c' & t' & n & _ & _ & _ & F4 & _ & F6 & _).
  assert (Nt : dget "total_phosphate" t = None).
  { unfold totals_ks in F4. cbv zeta in F4.
    destruct (get_totals _ _ _) as [[t0 tp0]|] eqn:G0; cbn [bind] in F4; [|discriminate].
    destruct (dilute_totals _ _ _) as [t1|] eqn:D; cbn [bind] in F4; [|discriminate].
    match type of F4 with bind ?x _ = _ => destruct x as [tp|]; cbn [bind] in F4; [|discriminate F4] end.
    destruct (get_k_constants _ _ _ _) as [k1|] eqn:K; cbn [bind] in F4; [|discriminate].
    assert (E1 : t1 = t) by congruence. subst t1.
    pose proof (no_phosphate_total _ _ _ _ _ x G0) as Z.
    apply dmapM_spec in D. destruct D as [Dk _].
    destruct (dget "total_phosphate" t) eqn:Q; [|reflexivity]. exfalso.
    assert (I : In "total_phosphate" (dkeys t)) by (apply dget_in_keys; unfold dmem; now rewrite Q).
    rewrite Dk, (dkeys_dmap NdS) in I. apply dget_in_keys in I. unfold dmem in I. rewrite Z in I; [discriminate| |exact Hp].
    rewrite <- Hx. f_equal. unfold kwarg. rewrite dget_filter_in by (cbn; tauto). rewrite dget_gkf by (cbn; tauto). now rewrite dget_wm by discriminate. }
  set (tt0 := get_kwargs_for keys_titrant_totals (without_mode kw) None) in F6.
  assert (Wt : wfd tt0) by (apply wfd_filter, wfd_filter; exact W).
  assert (It : incl (dkeys tt0) keys_titrant_totals).
  { intros k I. apply in_map_iff in I. destruct I as (y & <- & I). apply filter_In in I. now apply mem_str_spec. }
  assert (Gt : dget "titrant_total_phosphate" tt0 = Some v).
  { unfold tt0. rewrite dget_gkf by (cbn; tauto). rewrite dget_wm by discriminate. exact G. }
  destruct (att_absent _ _ _ _ _ _ _ _ _ _ Wt It F6 Gt Nt) as (z & Z). discriminate Z.
Qed.

End P.

(* ------------------------------------------------------------------ *)
(** * Cases, in binary64 *)

Example C110_nonvacuous :
  let kw := fkw in let kw0 := filter (fun kv => negb (String.eqb (fst kv) "titrant_total_sulfate")) fkw in
  wfd kw /\ plain_titrant kw kw0 /\
  (exists sr, files_solve (H := Num_sf flm) fenv (VStr "gen.dat") (VInt 1) (VInt 35) kw = Ok sr) /\
  (exists sr, files_solve (H := Num_sf flm) fenv (VStr "gen.dat") (VInt 1) (VInt 35) kw0 = Ok sr) /\
  dget "titrant_total_sulfate" kw = Some (VInt 3).
Proof.
  cbv zeta. split; [repeat constructor; cbn; intuition discriminate|]. split.
  - split.
    + intros k I. cbn in I. destruct I as [<-|[<-|[<-|[]]]]; reflexivity.
    + intros k N. cbn -[String.eqb]. cbn [filter fkw fst negb String.eqb Ascii.eqb Bool.eqb dget].
      destruct (String.eqb k "analyte_mass"); [reflexivity|]. destruct (String.eqb k "titrant_amount_unit"); [reflexivity|].
      destruct (String.eqb k "solve_mode"); [reflexivity|].
      destruct (String.eqb_spec k "titrant_total_sulfate") as [->|]; [|reflexivity]. exfalso. apply N. cbn. tauto.
  - split; [eexists; vm_compute; reflexivity|]. split; [eexists; vm_compute; reflexivity|]. reflexivity.
Qed.

(* the titration solves; with phosphate in the titrant it does not *)
Theorem C110_phosphate_refuted : exists (e : env sf) kw sr err,
  wfd kw /\ files_solve (H := Num_sf flm) e (VStr "gen.dat") (VInt 1) (VInt 35) kw = Ok sr /\
  files_solve (H := Num_sf flm) e (VStr "gen.dat") (VInt 1) (VInt 35) (("titrant_total_phosphate", VInt 1) :: kw) = Err err.
Proof.
  exists fenv, fkw. eexists. eexists. split; [repeat constructor; cbn; intuition discriminate|].
  split; [vm_compute; reflexivity|]. vm_compute. reflexivity.
Qed.

Print Assumptions C110_titrant_share_partial.
Print Assumptions C110_absent_phosphate_raises.
Print Assumptions C110_phosphate_refuted.
