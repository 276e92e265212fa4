(* PropSupplied.v -- C88: the totals and equilibrium constants that the user supplies reach the solver *)
From Coq Require Import Floats.SpecFloat.
From Verif Require Import Classes DictLemmas SettingsProofs DatasetProofs TableProofs SFNum PropPure.
Open Scope list_scope.
Open Scope string_scope.
Open Scope list_scope.

Section Spec.
Context {T : Type} `{Num T}.

(* What is assumed of PyCO2SYS: salts.assemble returns the totals that it is given, and nutrients in mol/kg;
   equilibria.assemble returns the constants that it is given. *)
Definition salts_keep (e : env T) : Prop :=
  forall s si po4 nh3 h2s o1 o2 given tp, e_salts e s si po4 nh3 h2s o1 o2 given = Ok tp ->
    (forall k x, dget k given = Some x -> dget k tp = Some x) /\
    (dget "TSi" given = None -> dget "TSi" tp = Some (si ⊗ nofQ 0.000001)) /\
    (dget "TPO4" given = None -> dget "TPO4" tp = Some (po4 ⊗ nofQ 0.000001)) /\
    (dget "TNH3" given = None -> dget "TNH3" tp = Some (nh3 ⊗ nofQ 0.000001)) /\
    (dget "TH2S" given = None -> dget "TH2S" tp = Some (h2s ⊗ nofQ 0.000001)).
Definition equil_keep (e : env T) : Prop :=
  forall t totals o1 o2 o3 o4 given kp, e_equil e t totals o1 o2 o3 o4 given = Ok kp ->
    forall k x, dget k given = Some x -> dget k kp = Some (NdS x).

(* the user supplies x micromol/kg of a substance; salts are supplied if the cell is not empty, the others
   if the value is above zero *)
Inductive supplied (kw : kwargs T) : string -> T -> Prop :=
| supplied_dic v x : dget "dic" kw = Some v -> as_num v = Ok x -> supplied kw "dic" x
| supplied_salt k v x : In k ["total_borate"; "total_fluoride"; "total_sulfate"] ->
    dget k kw = Some v -> isnull v = false -> as_num v = Ok x -> supplied kw k x
| supplied_other k v x : In k ["total_alpha"; "total_beta"; "total_ammonia"; "total_silicate"; "total_phosphate"; "total_sulfide"] ->
    dget k kw = Some v -> as_num v = Ok x -> nltb n0 x = true -> supplied kw k x.

Definition constant_names : list string :=
  ["k_alpha"; "k_ammonia"; "k_beta"; "k_bisulfate"; "k_borate"; "k_carbonic_1"; "k_carbonic_2"; "k_fluoride";
   "k_phosphoric_1"; "k_phosphoric_2"; "k_phosphoric_3"; "k_silicate"; "k_sulfide"; "k_water"].
Inductive supplied_k (kw : kwargs T) : string -> T -> Prop :=
| supplied_k_ k v x : In k constant_names -> dget k kw = Some v -> isnull v = false -> as_num v = Ok x -> supplied_k kw k x.
End Spec.

Section P.
Context {T : Type} `{Num T}.

Lemma set_given_other (f : T -> T) k k' v d d' : set_given f k v d = Ok d' -> k' <> k -> dget k' d' = dget k' d.
Proof.
  unfold set_given. intros E N. destruct (isnull v); [now injection E as <-|]. destruct (as_num v); cbn [bind] in E; [|discriminate].
  injection E as <-. now apply dget_dset_other.
Qed.
Lemma set_given_same (f : T -> T) k v d d' x : set_given f k v d = Ok d' -> isnull v = false -> as_num v = Ok x -> dget k d' = Some (f x).
Proof. unfold set_given. intros E N A. rewrite N, A in E. cbn [bind] in E. injection E as <-. apply dget_dset_same. Qed.
Lemma copy_other (x : T) k p tp d d' k' : copy_if_pos x k p tp d = Ok d' -> k' <> k -> dget k' d' = dget k' d.
Proof.
  unfold copy_if_pos. intros E N. destruct (ngtb x n0); [|now injection E as <-]. destruct (dgetE p tp); cbn [bind] in E; [|discriminate].
  injection E as <-. now apply dget_dset_other.
Qed.
Lemma copy_same (x : T) k p tp d d' v : copy_if_pos x k p tp d = Ok d' -> nltb n0 x = true -> dget p tp = Some v -> dget k d' = Some v.
Proof.
  unfold copy_if_pos, ngtb. intros E N G. rewrite N in E. unfold dgetE, of_opt in E. rewrite G in E. cbn [bind] in E. injection E as <-. apply dget_dset_same.
Qed.
Lemma dset_if_other {A} b k (v : A) d k' : k' <> k -> dget k' (dset_if b k v d) = dget k' d.
Proof. intros N. destruct b; [now apply dget_dset_other|reflexivity]. Qed.
Lemma dgetE_some {A} k (d : dict A) x v : dgetE k d = Ok x -> dget k d = Some v -> x = v.
Proof. unfold dgetE, of_opt. intros E G. rewrite G in E. congruence. Qed.
Lemma kwarg_some k d (kw : kwargs T) v : dget k kw = Some v -> kwarg k d kw = v.
Proof. unfold kwarg. now intros ->. Qed.

Lemma get_totals_gives (e : env T) s kw t tp k x : salts_keep e -> get_totals e s kw = Ok (t, tp) -> supplied kw k x ->
  dget k t = Some (x ⊗ nofQ 0.000001).
Proof.
  intros SK E Sp. unfold get_totals in E. inv_binds E. injection E as <- <-.
  assert (Ka : forall z p d, kwarg z d kw = p -> p = p) by reflexivity. clear Ka.
  destruct (SK _ _ _ _ _ _ _ _ _ ltac:(eassumption)) as (K & Ksi & Kpo & Knh & Khs). clear SK.
  match goal with A : set_given _ "TB" _ _ = Ok ?d1, B : set_given _ "TF" _ ?d1 = Ok ?d2, C : set_given _ "TSO4" _ ?d2 = Ok ?d3 |- _ =>
    assert (GB : forall v y, kwarg "total_borate" VNone kw = v -> isnull v = false -> as_num v = Ok y -> dget "TB" d3 = Some (y ⊗ nofQ 0.000001))
      by (intros v y Q N V; rewrite Q in A; rewrite (set_given_other _ _ _ _ _ _ C), (set_given_other _ _ _ _ _ _ B) by discriminate;
          exact (set_given_same _ _ _ _ _ _ A N V));
    assert (GF : forall v y, kwarg "total_fluoride" VNone kw = v -> isnull v = false -> as_num v = Ok y -> dget "TF" d3 = Some (y ⊗ nofQ 0.000001))
      by (intros v y Q N V; rewrite Q in B; rewrite (set_given_other _ _ _ _ _ _ C) by discriminate; exact (set_given_same _ _ _ _ _ _ B N V));
    assert (GS : forall v y, kwarg "total_sulfate" VNone kw = v -> isnull v = false -> as_num v = Ok y -> dget "TSO4" d3 = Some (y ⊗ nofQ 0.000001))
      by (intros v y Q N V; rewrite Q in C; exact (set_given_same _ _ _ _ _ _ C N V));
    assert (No : forall k', In k' ["TSi"; "TPO4"; "TNH3"; "TH2S"] -> dget k' d3 = None)
      by (intros k' I; cbn in I; repeat (destruct I as [<-|I];
            [rewrite (set_given_other _ _ _ _ _ _ C), (set_given_other _ _ _ _ _ _ B), (set_given_other _ _ _ _ _ _ A), !dset_if_other by discriminate; reflexivity|]); destruct I)
  end.
  specialize (Ksi (No "TSi" ltac:(cbn; tauto))). specialize (Kpo (No "TPO4" ltac:(cbn; tauto))).
  specialize (Knh (No "TNH3" ltac:(cbn; tauto))). specialize (Khs (No "TH2S" ltac:(cbn; tauto))). clear No.
  match goal with A : copy_if_pos _ "total_ammonia" _ _ _ = Ok ?d1, B : copy_if_pos _ "total_silicate" _ _ _ = Ok ?d2,
     C : copy_if_pos _ "total_phosphate" _ _ _ = Ok ?d3, D : copy_if_pos _ "total_sulfide" _ _ _ = Ok ?d4 |- _ =>
    rename A into C1; rename B into C2; rename C into C3; rename D into C4 end.
  destruct Sp as [v x G V|k v x I G N V|k v x I G V P]; [|cbn [In] in I|cbn [In] in I].
  - repeat (rewrite dget_dset_other by discriminate).
    rewrite (copy_other _ _ _ _ _ _ _ C4), (copy_other _ _ _ _ _ _ _ C3), (copy_other _ _ _ _ _ _ _ C2), (copy_other _ _ _ _ _ _ _ C1) by discriminate.
    rewrite !dset_if_other by discriminate. rewrite dget_dset_same. rewrite (kwarg_some _ _ _ _ G) in *. congruence.
  - apply kwarg_some with (d := VNone) in G.
    destruct I as [<-|[<-|[<-|[]]]]; repeat (rewrite dget_dset_other by discriminate); rewrite dget_dset_same; f_equal.
    + eapply dgetE_some; [eassumption|]. eauto.
    + eapply dgetE_some; [eassumption|]. eauto.
    + eapply dgetE_some; [eassumption|]. eauto.
  - apply kwarg_some with (d := VInt 0) in G.
    repeat (destruct I as [<-|I]; [repeat (rewrite dget_dset_other by discriminate)|]); [..|destruct I].
    + rewrite (copy_other _ _ _ _ _ _ _ C4), (copy_other _ _ _ _ _ _ _ C3), (copy_other _ _ _ _ _ _ _ C2), (copy_other _ _ _ _ _ _ _ C1) by discriminate.
      rewrite dset_if_other by discriminate. rewrite G, V in *.
      match goal with A : Ok x = Ok ?y |- _ => injection A as <- end. unfold ngtb. rewrite P. cbn [dset_if]. apply dget_dset_same.
    + rewrite (copy_other _ _ _ _ _ _ _ C4), (copy_other _ _ _ _ _ _ _ C3), (copy_other _ _ _ _ _ _ _ C2), (copy_other _ _ _ _ _ _ _ C1) by discriminate.
      rewrite G, V in *.
      match goal with A : Ok x = Ok ?y |- _ => injection A as <- end. unfold ngtb. rewrite P. cbn [dset_if]. apply dget_dset_same.
    + rewrite (copy_other _ _ _ _ _ _ _ C4), (copy_other _ _ _ _ _ _ _ C3), (copy_other _ _ _ _ _ _ _ C2) by discriminate.
      rewrite G, V in *. match goal with A : Ok x = Ok ?y |- _ => injection A as <- end. exact (copy_same _ _ _ _ _ _ _ C1 P Knh).
    + rewrite (copy_other _ _ _ _ _ _ _ C4), (copy_other _ _ _ _ _ _ _ C3) by discriminate.
      rewrite G, V in *. match goal with A : Ok x = Ok ?y |- _ => injection A as <- end. exact (copy_same _ _ _ _ _ _ _ C2 P Ksi).
    + rewrite (copy_other _ _ _ _ _ _ _ C4) by discriminate.
      rewrite G, V in *. match goal with A : Ok x = Ok ?y |- _ => injection A as <- end. exact (copy_same _ _ _ _ _ _ _ C3 P Kpo).
    + rewrite G, V in *. match goal with A : Ok x = Ok ?y |- _ => injection A as <- end. exact (copy_same _ _ _ _ _ _ _ C4 P Khs).
Qed.

(* what is given to PyCO2SYS *)
Lemma given_fold (kw : kwargs T) table : NoDup (map snd table) -> forall d0 d k K v x,
  fold_left (fun acc cp => d <- acc ;; set_given (fun x => x) (snd cp) (kwarg (fst cp) VNone kw) d) table (Ok d0) = Ok d ->
  (In (k, K) table -> kwarg k VNone kw = v -> isnull v = false -> as_num v = Ok x -> dget K d = Some x) /\
  (~ In K (map snd table) -> dget K d = dget K d0).
Proof.
  induction table as [|[a b] table IH]; intros ND d0 d k K v x E; cbn [fold_left fst snd map bind] in *.
  - injection E as <-. split; [intros []|reflexivity].
  - apply NoDup_cons_iff in ND. destruct ND as [NI ND].
    destruct (set_given _ b _ d0) as [d1|er] eqn:S.
    + destruct (IH ND d1 d k K v x E) as [I1 I2]. split.
      * intros [Q|I] G N V; [|now apply I1]. injection Q as -> ->. rewrite (proj2 (IH ND d1 d k K v x E) NI). rewrite G in S.
        exact (set_given_same _ _ _ _ _ _ S N V).
      * intros NK. rewrite I2 by (intros ?; apply NK; now right). eapply set_given_other; [exact S|]. intros ->. apply NK. now left.
    + exfalso. clear -E. induction table as [|cp table IH]; cbn [fold_left bind] in E; [discriminate|auto].
Qed.

Lemma select_fold (kp : dict (nd T)) table : NoDup (map fst table) -> forall d0 k K v,
  (In (k, K) table -> dget K kp = Some v ->
   dget k (fold_left (fun acc cp => match dget (snd cp) kp with Some v => dset (fst cp) v acc | None => acc end) table d0) = Some v) /\
  (~ In k (map fst table) ->
   dget k (fold_left (fun acc cp => match dget (snd cp) kp with Some v => dset (fst cp) v acc | None => acc end) table d0) = dget k d0).
Proof.
  induction table as [|[a b] table IH]; intros ND d0 k K v; cbn [fold_left fst snd map] in *; [split; [intros []|reflexivity]|].
  apply NoDup_cons_iff in ND. destruct ND as [NI ND]. split.
  - intros [Q|I] G.
    + injection Q as -> ->. rewrite G. rewrite (proj2 (IH ND _ k K v) NI). apply dget_dset_same.
    + now apply (IH ND _ k K v).
  - intros NK. rewrite (proj2 (IH ND _ k K v)) by (intros ?; apply NK; now right).
    destruct (dget b kp); [|reflexivity]. apply dget_dset_other. intros ->. apply NK. now left.
Qed.

Lemma table_nodup : NoDup (map fst calk_to_pyco2__k_constants) /\ NoDup (map snd calk_to_pyco2__k_constants).
Proof. split; cbn; repeat constructor; cbn; intuition discriminate. Qed.
Lemma constants_table k : In k constant_names -> exists K, In (k, K) calk_to_pyco2__k_constants /\ K <> "RGas".
Proof. intros I. cbn in I. repeat (destruct I as [<-|I]; [eexists; split; [cbn; tauto|discriminate]|]). destruct I. Qed.

Lemma constants_keys k : In k constant_names -> In k keys_kwargs_k_constants /\ In k keys_totals_ks.
Proof. intros I. cbn in I. repeat (destruct I as [<-|I]; [cbn; tauto|]). destruct I. Qed.

Lemma get_ks_gives (e : env T) tp temps kw ks k x : equil_keep e -> get_k_constants e tp temps kw = Ok ks -> supplied_k kw k x ->
  (k <> "k_fluoride" \/ val_eq_int (kwarg "opt_pH_scale" (VInt 3) kw) 1 = false) -> dget k ks = Some (NdS x).
Proof.
  intros EK E Sp Nk. destruct Sp as [k v x I G N V]. unfold get_k_constants in E.
  destruct (check_kwargs _ _); cbn [bind] in E; [|discriminate].
  destruct (given_ks kw) as [given|] eqn:Gi; cbn [bind] in E; [|discriminate]. cbv zeta in E.
  destruct (e_equil _ _ _ _ _ _ _ _) as [kp|] eqn:Q; cbn [bind] in E; [|discriminate].
  destruct (constants_table k I) as (K & IK & _). unfold given_ks in Gi.
  pose proof (proj1 (given_fold kw _ (proj2 table_nodup) _ _ k K v x Gi) IK (kwarg_some _ _ _ _ G) N V) as GK.
  pose proof (EK _ _ _ _ _ _ _ _ Q K x GK) as KK.
  pose proof (proj1 (select_fold kp _ (proj1 table_nodup) [] k K _) IK KK) as SS. fold (select_ks kp) in SS.
  destruct (val_eq_int _ 1) eqn:Sc; [|injection E as <-; exact SS].
  destruct Nk as [Nk|Nk]; [|discriminate].
  destruct (dget "TSO4" tp); [|injection E as <-; exact SS].
  inv_binds E. injection E as <-. now rewrite dget_dset_other.
Qed.

Lemma dget_filter_in k keys (kw : kwargs T) : In k keys -> dget k (filter (fun kv => mem_str (fst kv) keys) kw) = dget k kw.
Proof. intros I. rewrite (dget_filter (fun k => mem_str k keys)). apply mem_str_spec in I. now rewrite I. Qed.
Lemma dget_gkf k keys (kw : kwargs T) : In k keys -> dget k (get_kwargs_for keys kw None) = dget k kw.
Proof. exact (dget_filter_in k keys kw). Qed.

Lemma supplied_sub (kw kw' : kwargs T) k x : supplied kw k x -> 
  (forall k, In k ["dic"; "total_alpha"; "total_beta"; "total_ammonia"; "total_phosphate"; "total_silicate";
   "total_sulfide"; "total_borate"; "total_fluoride"; "total_sulfate"] -> dget k kw' = dget k kw) -> supplied kw' k x.
Proof.
  intros S D. destruct S as [v x G V|k v x I G N V|k v x I G V P].
  - eapply supplied_dic; [|exact V]. rewrite D; [exact G|cbn; tauto].
  - eapply supplied_salt; [exact I| |exact N|exact V]. rewrite D; [exact G|cbn in *; tauto].
  - eapply supplied_other; [exact I| |exact V|exact P]. rewrite D; [exact G|cbn in *; tauto].
Qed.
Lemma supplied_k_sub (kw kw' : kwargs T) k x : supplied_k kw k x -> (forall k, In k constant_names -> dget k kw' = dget k kw) -> supplied_k kw' k x.
Proof. intros S D. destruct S as [k v x I G N V]. econstructor; try eassumption. now rewrite D. Qed.

Lemma totals_ks_gives (e : env T) cv kw totals ks : totals_ks e cv kw = Ok (totals, ks) ->
  (salts_keep e -> forall k x, supplied kw k x ->
     dget k totals = Some (NdA (map (fun m => x ⊗ nofQ 0.000001 ⊗ (cv_analyte_mass cv ⊘ (m ⊕ cv_analyte_mass cv))) (cv_titrant_mass cv)))) /\
  (equil_keep e -> forall k x, supplied_k kw k x -> (k <> "k_fluoride" \/ val_eq_int (kwarg "opt_pH_scale" (VInt 3) kw) 1 = false) ->
     dget k ks = Some (NdS x)).
Proof.
  unfold totals_ks. intros E. cbv zeta in E.
  destruct (get_totals _ _ _) as [[t0 tp0]|] eqn:G; cbn [bind] in E; [|discriminate].
  destruct (dilute_totals _ _ _) as [t1|] eqn:D; cbn [bind] in E; [|discriminate].
  match type of E with bind ?x _ = _ => destruct x as [tp|]; cbn [bind] in E; [|discriminate E] end.
  destruct (get_k_constants _ _ _ _) as [k1|] eqn:K; cbn [bind] in E; [|discriminate]. injection E as <- <-. split.
  - intros SK k x Sp.
    assert (S' : supplied (filter (fun kv => mem_str (fst kv) keys_kwargs_totals) kw) k x).
    { eapply supplied_sub; [exact Sp|]. intros k' I. apply dget_filter_in. cbn in *. tauto. }
    pose proof (get_totals_gives _ _ _ _ _ _ _ SK G S') as G0. clear S'.
    apply dmapM_spec in D. destruct D as [_ D]. 
    destruct (D k (NdS (x ⊗ nofQ 0.000001))) as (y & Gy & Q); [rewrite (dget_dmap NdS), G0; reflexivity|].
    cbn [nd_map2] in Q. injection Q as <-. rewrite Gy.
    unfold dilution_factors. rewrite map_map. reflexivity.
  - intros EK k x Sp Nk. eapply get_ks_gives; [exact EK|exact K| |].
    + eapply supplied_k_sub; [exact Sp|]. intros k' I. apply dget_filter_in. now apply constants_keys.
    + destruct Nk as [Nk|Nk]; [now left|right]. unfold kwarg in Nk |- *. rewrite dget_filter_in by (cbn; tauto). exact Nk.
Qed.

Lemma att_other tt : forall (t t' : dict (nd T)) tm M c p r k, add_titrant_totals t tm M c p tt = (t', r) ->
  (forall k', In k' (dkeys tt) -> sdrop 8 k' <> k) -> dget k t' = dget k t.
Proof.
  induction tt as [|[a f] tt IH]; intros t t' tm M c p r k E N; cbn [add_titrant_totals] in E; [now injection E as <- <-|].
  match type of E with (match ?x with _ => _ end) = _ => destruct x as [v'|] end.
  - rewrite (IH _ _ _ _ _ _ _ _ E) by (intros k' I; apply N; now right). apply dget_dset_other. intros Q. apply (N a); [now left|congruence].
  - now injection E as <- <-.
Qed.

Lemma dget_wm k (kw : kwargs T) : k <> "solve_mode" -> dget k (without_mode kw) = dget k kw.
Proof.
  intros N. unfold without_mode. rewrite (dget_filter (fun k => negb (String.eqb k "solve_mode"))).
  destruct (String.eqb_spec k "solve_mode"); [contradiction|reflexivity].
Qed.

(* A supplied total, in every mode: at each point the solver has it in mol/kg, diluted with the titrant. *)
Theorem C88_supplied_totals_reach_solver (e : env T) f c s kw sr k x :
  salts_keep e ->
  files_solve e f c s kw = Ok sr ->
  supplied kw k x ->
  dget ("titrant_" ++ k)%string kw = None ->
  exists at_points, dget k (sr_totals sr) = Some (NdA at_points) /\
    length at_points = length (sr_titrant_mass sr) /\
    forall i m, nth_error (sr_titrant_mass sr) i = Some m ->
      nth_error at_points i = Some (x ⊗ nofQ 0.000001 ⊗ (sr_analyte_mass sr ⊘ (m ⊕ sr_analyte_mass sr))).
Proof.
  intros SK E Sp NT. destruct (files_inv _ _ _ _ _ _ E) as (fname & dd & cv & t0 & ks & c' & t & n & _ & _ & _ & TK & _ & AT & _ & HO).
  destruct HO as (-> & _ & -> & _ & -> & _).
  assert (Nm : forall k', In k' ["dic"; "total_alpha"; "total_beta"; "total_ammonia"; "total_phosphate"; "total_silicate";
     "total_sulfide"; "total_borate"; "total_fluoride"; "total_sulfate"] -> k' <> "solve_mode")
    by (intros k' I ->; cbn in I; repeat (destruct I as [I|I]; [discriminate|]); destruct I).
  rewrite (att_other _ _ _ _ _ _ _ _ k AT).
  - eexists. split; [apply (totals_ks_gives _ _ _ _ _ TK); [exact SK|]|].
    + eapply supplied_sub; [exact Sp|]. intros k' I. rewrite dget_gkf by (cbn in *; tauto). apply dget_wm. auto.
    + split; [apply map_length|]. intros i m G. rewrite nth_error_map, G. reflexivity.
  - intros k' I Q. subst k. apply dget_in_keys in I. unfold dmem in I. unfold get_kwargs_for in I.
    rewrite (dget_filter (fun k => mem_str k keys_titrant_totals)) in I. 
    destruct (mem_str k' keys_titrant_totals) eqn:Mk; [|discriminate]. apply mem_str_spec in Mk. cbn in Mk.
    repeat (destruct Mk as [<-|Mk]; [rewrite dget_wm in I by discriminate; cbn [sdrop String.append] in NT; rewrite NT in I; discriminate|]). destruct Mk.
Qed.

(* A supplied equilibrium constant, in every mode; k_fluoride only if the constants are not asked for on the
   Total scale. *)
Theorem C88_supplied_constants_reach_solver (e : env T) f c s kw sr k x :
  equil_keep e ->
  files_solve e f c s kw = Ok sr ->
  supplied_k kw k x ->
  k <> "k_fluoride" \/ val_eq_int (kwarg "opt_pH_scale" (VInt 3) kw) 1 = false ->
  dget k (sr_k_constants sr) = Some (NdS x).
Proof.
  intros EK E Sp Nk. destruct (files_inv _ _ _ _ _ _ E) as (fname & dd & cv & t0 & ks & c' & t & n & _ & _ & _ & TK & _ & AT & _ & HO).
  destruct HO as (_ & _ & _ & -> & _). apply (totals_ks_gives _ _ _ _ _ TK); [exact EK| |].
  - eapply supplied_k_sub; [exact Sp|]. intros k' I. rewrite dget_gkf by (now apply constants_keys). apply dget_wm.
    intros ->. cbn in I. repeat (destruct I as [I|I]; [discriminate|]). destruct I.
  - destruct Nk as [Nk|Nk]; [now left|right]. unfold kwarg in Nk |- *. rewrite dget_gkf, dget_wm; [exact Nk|discriminate|cbn; tauto].
Qed.
End P.

(* ------------------------------------------------------------------ *)
(* A PyCO2SYS that keeps what it is given, in binary64 *)
Lemma dget_app_l {A} k (d d' : dict A) v : dget k d = Some v -> dget k (d ++ d') = Some v.
Proof. induction d as [|[a b] d IH]; [discriminate|]. cbn [dget app]. destruct (String.eqb k a); auto. Qed.
Lemma dget_app_r {A} k (d d' : dict A) : dget k d = None -> dget k (d ++ d') = dget k d'.
Proof. induction d as [|[a b] d IH]; [reflexivity|]. cbn [dget app]. destruct (String.eqb k a); auto; discriminate. Qed.

Definition keep_env : env sf := {|
  e_file := e_file fenv;
  e_excel := fun _ => None;
  e_salts := fun _ si po4 nh3 h2s _ _ given =>
    let um x := nmul (Num := Num_sf flm) x (nofQ (Num := Num_sf flm) 0.000001) in
    Ok (given ++ [("TSi", um si); ("TPO4", um po4); ("TNH3", um nh3); ("TH2S", um h2s); ("TB", fone); ("TF", fone); ("TSO4", fone)]);
  e_equil := fun _ _ _ _ _ _ given =>
    Ok (dmap NdS given ++ map (fun k => (k, NdS fone)) ["K1"; "K2"; "KB"; "KF"; "KSO4"; "KW"; "KP1"; "KP2"; "KP3"]);
  e_sys_salt := fun s _ _ => s;
  e_strat := e_strat fenv
|}.
Lemma keep_salts : salts_keep (H := Num_sf flm) keep_env.
Proof.
  intros s si po4 nh3 h2s o1 o2 given tp E. cbn [e_salts keep_env] in E. injection E as <-.
  split; [intros k x G; now apply dget_app_l|]. repeat split; intros N; rewrite (dget_app_r _ _ _ N); reflexivity.
Qed.
Lemma keep_equil : equil_keep keep_env.
Proof.
  intros t totals o1 o2 o3 o4 given kp E k x G. cbn [e_equil keep_env] in E. injection E as <-.
  apply dget_app_l. rewrite (dget_dmap NdS), G. reflexivity.
Qed.

Definition keep_kw (scale : Z) : kwargs sf :=
  [("analyte_mass", VInt 1); ("titrant_amount_unit", VStr "kg"); ("solve_mode", VStr "pH"); ("titrant_total_sulfate", VInt 3);
   ("total_phosphate", VInt 7); ("total_borate", VInt 400); ("k_fluoride", VInt 2); ("k_water", VInt 5); ("opt_pH_scale", VInt scale)].

(* a phosphate and a borate total, k_water and k_fluoride are supplied; the titration solves *)
Example C88_nonvacuous :
  salts_keep (H := Num_sf flm) keep_env /\ equil_keep keep_env /\
  (exists sr, files_solve (H := Num_sf flm) keep_env (VStr "gen.dat") (VInt 1) (VInt 35) (keep_kw 3) = Ok sr) /\
  supplied (H := Num_sf flm) (keep_kw 3) "total_phosphate" (sf_ofZ 7) /\ supplied (H := Num_sf flm) (keep_kw 3) "total_borate" (sf_ofZ 400) /\
  supplied_k (H := Num_sf flm) (keep_kw 3) "k_water" (sf_ofZ 5) /\ supplied_k (H := Num_sf flm) (keep_kw 3) "k_fluoride" (sf_ofZ 2) /\
  val_eq_int (H := Num_sf flm) (kwarg "opt_pH_scale" (VInt 3) (keep_kw 3)) 1 = false.
Proof.
  split; [exact keep_salts|]. split; [exact keep_equil|]. split; [eexists; vm_compute; reflexivity|].
  split; [eapply supplied_other; [cbn; tauto|reflexivity..]|].
  split; [eapply supplied_salt; [cbn; tauto|reflexivity..]|].
  split; [econstructor; [cbn; tauto|reflexivity..]|].
  split; [econstructor; [cbn; tauto|reflexivity..]|]. reflexivity.
Qed.

(* Counterexample to the claim for k_fluoride on the Total scale (opt_pH_scale = 1): PyCO2SYS keeps the
   supplied value, and calkulate then multiplies it by 1 + TSO4 / k_bisulfate, so the solver has 4 instead of 2. *)
Theorem C88_k_fluoride_total_scale_refuted :
  exists (e : env sf) kw sr,
    salts_keep (H := Num_sf flm) e /\ equil_keep e /\
    files_solve (H := Num_sf flm) e (VStr "gen.dat") (VInt 1) (VInt 35) kw = Ok sr /\
    supplied_k (H := Num_sf flm) kw "k_fluoride" (sf_ofZ 2) /\
    dget "k_fluoride" (sr_k_constants sr) = Some (NdS (sf_ofZ 4)).
Proof.
  exists keep_env, (keep_kw 1). eexists. split; [exact keep_salts|]. split; [exact keep_equil|].
  split; [vm_compute; reflexivity|]. split; [econstructor; [cbn; tauto|reflexivity..]|]. vm_compute. reflexivity.
Qed.

Print Assumptions C88_supplied_totals_reach_solver.
Print Assumptions C88_supplied_constants_reach_solver.
Print Assumptions C88_k_fluoride_total_scale_refuted.
