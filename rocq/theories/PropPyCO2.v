(* PropPyCO2.v -- C93: what the user does not supply is what PyCO2SYS gives for the titration's salinity,
   temperature and options, under the corresponding name *)
From Coq Require Import Floats.SpecFloat.
From Verif Require Import Classes DictLemmas SettingsProofs DatasetProofs TableProofs SFNum PropPure PropSupplied.
Open Scope list_scope.
Open Scope string_scope.
Open Scope list_scope.

Section Spec.
Context {T : Type} `{Num T}.

(* what PyCO2SYS calls the constants: PyCO2SYS.equilibria *)
Inductive pyco2_constant : string -> string -> Prop :=
| py_k1 : pyco2_constant "k_carbonic_1" "K1" | py_k2 : pyco2_constant "k_carbonic_2" "K2"
| py_kw : pyco2_constant "k_water" "KW" | py_kb : pyco2_constant "k_borate" "KB"
| py_kso4 : pyco2_constant "k_bisulfate" "KSO4" | py_kf : pyco2_constant "k_fluoride" "KF"
| py_kp1 : pyco2_constant "k_phosphoric_1" "KP1" | py_kp2 : pyco2_constant "k_phosphoric_2" "KP2"
| py_kp3 : pyco2_constant "k_phosphoric_3" "KP3" | py_ksi : pyco2_constant "k_silicate" "KSi"
| py_knh3 : pyco2_constant "k_ammonia" "KNH3" | py_kh2s : pyco2_constant "k_sulfide" "KH2S"
| py_ka : pyco2_constant "k_alpha" "k_alpha" | py_kbeta : pyco2_constant "k_beta" "k_beta".

(* the totals that every titration has *)
Inductive pyco2_salt : string -> string -> Prop :=
| py_tb : pyco2_salt "total_borate" "TB" | py_tf : pyco2_salt "total_fluoride" "TF" | py_tso4 : pyco2_salt "total_sulfate" "TSO4".

(* what is handed to PyCO2SYS: exactly the constants that the user supplied, and RGas = 30 *)
Definition handed_constants (kw : kwargs T) (given : dict T) : Prop :=
  (forall k K x, pyco2_constant k K -> (dget K given = Some x <-> supplied_k kw k x)) /\
  dget "RGas" given = Some (nofQ 30) /\
  (forall K x, dget K given = Some x -> K = "RGas" \/ exists k, pyco2_constant k K).

(* ... and exactly the salts and extra acids that the user supplied, in mol/kg *)
Inductive pyco2_given : string -> string -> Prop :=
| py_salt k K : pyco2_salt k K -> pyco2_given k K
| py_alpha : pyco2_given "total_alpha" "alpha" | py_beta : pyco2_given "total_beta" "beta".
Definition handed_totals (kw : kwargs T) (given : dict T) : Prop :=
  (forall k K y, pyco2_given k K -> (dget K given = Some y <-> exists x, supplied kw k x /\ y = x ⊗ nofQ 0.000001)) /\
  (forall K y, dget K given = Some y -> exists k, pyco2_given k K).

Definition option (kw : kwargs T) (name : string) (default : Z) : val T := kwarg name (VInt default) kw.
Definition number (kw : kwargs T) (name : string) (x : T) : Prop := as_num (kwarg name (VInt 0) kw) = Ok x.
End Spec.

Section P.
Context {T : Type} `{Num T}.

Lemma table_spec k K : In (k, K) calk_to_pyco2__k_constants <-> pyco2_constant k K.
Proof.
  split.
  - intros I. cbn in I. repeat (destruct I as [Q|I]; [injection Q as <- <-; constructor|]). destruct I.
  - intros []; cbn; tauto.
Qed.
Lemma constant_named k K : pyco2_constant k K -> In k constant_names.
Proof. intros []; cbn; tauto. Qed.

Lemma kwarg_supplied (kw : kwargs T) k x : In k constant_names ->
  (isnull (kwarg k VNone kw) = false /\ as_num (kwarg k VNone kw) = Ok x) <-> supplied_k kw k x.
Proof.
  intros I. unfold kwarg. split.
  - intros [N A]. destruct (dget k kw) as [v|] eqn:G; [|discriminate]. now econstructor; eauto.
  - intros [k' v x' _ G N A]. rewrite G. auto.
Qed.

Lemma given_exact (kw : kwargs T) table : NoDup (map snd table) -> forall d0 d,
  fold_left (fun acc cp => d <- acc ;; set_given (fun x => x) (snd cp) (kwarg (fst cp) VNone kw) d) table (Ok d0) = Ok d ->
  (forall k K x, In (k, K) table -> dget K d0 = None ->
     (dget K d = Some x <-> isnull (kwarg k VNone kw) = false /\ as_num (kwarg k VNone kw) = Ok x)) /\
  (forall K, ~ In K (map snd table) -> dget K d = dget K d0).
Proof.
  induction table as [|[a b] table IH]; intros ND d0 d E; cbn [fold_left fst snd map bind] in *.
  - injection E as <-. split; [intros ? ? ? []|reflexivity].
  - apply NoDup_cons_iff in ND. destruct ND as [NI ND].
    destruct (set_given _ b _ d0) as [d1|er] eqn:S.
    + destruct (IH ND d1 d E) as [I1 I2]. split.
      * intros k K x [Q|I] G0.
        -- injection Q as -> ->. rewrite (I2 K NI). unfold set_given in S.
           destruct (isnull (kwarg k VNone kw)) eqn:N.
           ++ injection S as <-. rewrite G0. split; [discriminate|intros [? _]; discriminate].
           ++ destruct (as_num (kwarg k VNone kw)) as [y|] eqn:A; cbn [bind] in S; [|discriminate]. injection S as <-.
              rewrite dget_dset_same. split; [intros Q; injection Q as <-; auto|intros [_ Q]; congruence].
        -- apply I1; [exact I|]. rewrite (set_given_other _ _ K _ _ _ S); [exact G0|].
           intros ->. apply NI. apply in_map_iff. exists (k, b). auto.
      * intros K NK. rewrite I2 by (intros ?; apply NK; now right). eapply set_given_other; [exact S|]. intros ->. apply NK. now left.
    + exfalso. clear -E. induction table as [|cp table IH]; cbn [fold_left bind] in E; [discriminate|auto].
Qed.

Lemma dget_in_map_snd (K : string) : In K (map snd calk_to_pyco2__k_constants) -> exists k, pyco2_constant k K.
Proof. intros I. apply in_map_iff in I. destruct I as [[k K'] [Q I]]. cbn in Q. subst. exists k. now apply table_spec. Qed.

Lemma given_spec (kw : kwargs T) given : given_ks kw = Ok given -> handed_constants kw given.
Proof.
  intros E. destruct (given_exact kw _ (proj2 table_nodup) _ _ E) as [I1 I2]. split; [|split].
  - intros k K x P. rewrite <- (kwarg_supplied kw k x (constant_named k K P)). apply I1; [now apply table_spec|].
    destruct P; reflexivity.
  - rewrite I2; [reflexivity|]. apply mem_str_false. reflexivity.
  - intros K x G. destruct (in_dec string_dec K (map snd calk_to_pyco2__k_constants)) as [I|N]; [right; now apply dget_in_map_snd|].
    rewrite (I2 K N) in G. cbn [dget] in G. left. destruct (String.eqb_spec K "RGas"); [auto|discriminate].
Qed.

Lemma select_none (kp : dict (nd T)) table : NoDup (map fst table) -> forall d0 k K, In (k, K) table -> dget K kp = None -> dget k d0 = None ->
   dget k (fold_left (fun acc cp => match dget (snd cp) kp with Some v => dset (fst cp) v acc | None => acc end) table d0) = None.
Proof.
  induction table as [|[a b] table IH]; intros ND d0 k K I G D; cbn [fold_left fst snd map] in *; [destruct I|].
  apply NoDup_cons_iff in ND. destruct ND as [NI ND]. destruct I as [Q|I].
  - injection Q as -> ->. rewrite G. rewrite (proj2 (select_fold kp table ND d0 k K (NdS n0)) NI). exact D.
  - apply (IH ND _ k K I G). destruct (dget b kp); [|exact D]. rewrite dget_dset_other; [exact D|].
    intros ->. apply NI. apply in_map_iff. exists (a, K). auto.
Qed.
Lemma select_spec (kp : dict (nd T)) k K : pyco2_constant k K -> dget k (select_ks kp) = dget K kp.
Proof.
  intros P. apply table_spec in P. unfold select_ks. destruct (dget K kp) as [v|] eqn:G.
  - exact (proj1 (select_fold kp _ (proj1 table_nodup) [] k K v) P G).
  - now apply (select_none kp _ (proj1 table_nodup) [] k K).
Qed.

Lemma handed_sub (kw kw' : kwargs T) given : handed_constants kw' given -> (forall k, In k constant_names -> dget k kw' = dget k kw) -> handed_constants kw given.
Proof.
  intros (A & B & C) D. split; [|split; assumption]. intros k K x P. rewrite (A k K x P). pose proof (constant_named _ _ P) as I.
  split; intros S; inversion S; subst; econstructor; try eassumption; rewrite D in * by exact I; assumption.
Qed.

Lemma nd_map2_map (f : T -> T -> T) (g : T -> T) (a b : nd T) : nd_map2 f a (nd_map g b) = nd_map2 (fun x y => f x (g y)) a b.
Proof.
  destruct a as [x|xs], b as [y|ys]; cbn [nd_map nd_map2]; try reflexivity.
  - now rewrite map_map.
  - rewrite map_length. destruct (Nat.eqb _ _).
    + f_equal. f_equal. revert ys. induction xs as [|x xs IH]; intros [|y ys]; try reflexivity. cbn [map map2]. f_equal. apply IH.
    + destruct xs as [|x [|x' xs]]; destruct ys as [|y [|y' ys]]; cbn [map]; try reflexivity; now rewrite map_map.
Qed.

Lemma ks_keys_sub k : In k keys_get_k_constants -> In k keys_kwargs_k_constants /\ In k keys_totals_ks /\ k <> "solve_mode".
Proof.
  intros I. assert (B : forallb (fun k => mem_str k keys_kwargs_k_constants && mem_str k keys_totals_ks && negb (String.eqb k "solve_mode")) keys_get_k_constants = true) by reflexivity.
  rewrite forallb_forall in B. specialize (B k I). apply andb_prop in B. destruct B as [B B3]. apply andb_prop in B. destruct B as [B1 B2].
  apply mem_str_spec in B1. apply mem_str_spec in B2. split; [exact B1|]. split; [exact B2|]. intros ->. discriminate.
Qed.
Lemma names_keys k : In k constant_names -> In k keys_get_k_constants.
Proof.
  intros I. assert (B : forallb (fun k => mem_str k keys_get_k_constants) constant_names = true) by reflexivity.
  rewrite forallb_forall in B. now apply mem_str_spec, B.
Qed.

Lemma kwarg_sub k d (kw kw' : kwargs T) : dget k kw' = dget k kw -> kwarg k d kw' = kwarg k d kw.
Proof. unfold kwarg. now intros ->. Qed.

(* The equilibrium constants of a solved titration, in every mode, are those of one call of PyCO2SYS with the
   titration's temperatures, the options that were set (or the defaults) and the constants that the user
   supplied, each under the name that PyCO2SYS has for it.  On the Total scale k_fluoride is converted with
   PyCO2SYS's own sulfate and bisulfate. *)
Theorem C93_constants_come_from_pyco2 (e : env T) f c s kw sr :
  files_solve e f c s kw = Ok sr ->
  exists totals given kp,
    handed_constants kw given /\
    e_equil e (sr_temperature sr) totals (option kw "opt_pH_scale" 3) (option kw "opt_k_carbonic" 10)
      (option kw "opt_k_bisulfate" 1) (option kw "opt_k_fluoride" 1) given = Ok kp /\
    (forall k K, pyco2_constant k K -> k <> "k_fluoride" -> dget k (sr_k_constants sr) = dget K kp) /\
    (val_eq_int (option kw "opt_pH_scale" 3) 1 = false -> dget "k_fluoride" (sr_k_constants sr) = dget "KF" kp) /\
    (val_eq_int (option kw "opt_pH_scale" 3) 1 = true -> forall tso4, dget "TSO4" totals = Some tso4 ->
       exists kso4 kf q kf', dget "KSO4" kp = Some kso4 /\ dget "KF" kp = Some kf /\
         nd_map2 (fun t k => t ⊘ k) tso4 kso4 = Ok q /\
         nd_map2 (fun k r => k ⊗ (nofQ 1 ⊕ r)) kf q = Ok kf' /\
         dget "k_fluoride" (sr_k_constants sr) = Some kf').
Proof.
  intros E. destruct (files_inv _ _ _ _ _ _ E) as (fname & dd & cv & t0 & ks & c' & t & n & _ & _ & _ & TK & _ & _ & _ & HO).
  destruct HO as (_ & -> & _ & -> & _).
  unfold totals_ks in TK. cbv zeta in TK.
  destruct (get_totals _ _ _) as [[t1 tp0]|] eqn:G; cbn [bind] in TK; [|discriminate].
  destruct (dilute_totals _ _ _) as [t2|] eqn:D; cbn [bind] in TK; [|discriminate].
  match type of TK with bind ?x _ = _ => destruct x as [tp|]; cbn [bind] in TK; [|discriminate TK] end.
  destruct (get_k_constants _ _ _ _) as [k1|] eqn:K; cbn [bind] in TK; [|discriminate]. injection TK as <- ->.
  unfold get_k_constants in K.
  destruct (check_kwargs _ _); cbn [bind] in K; [|discriminate].
  destruct (given_ks _) as [given|] eqn:Gi; cbn [bind] in K; [|discriminate]. cbv zeta in K.
  assert (Sub : forall k', In k' keys_get_k_constants ->
     dget k' (filter (fun kv => mem_str (fst kv) keys_kwargs_k_constants) (get_kwargs_for keys_totals_ks (without_mode kw) None)) = dget k' kw).
  { intros k' I. destruct (ks_keys_sub k' I) as (I1 & I2 & I3). rewrite dget_filter_in by exact I1. rewrite dget_gkf by exact I2. now apply dget_wm. }
  apply given_spec in Gi. apply handed_sub with (kw := kw) in Gi; [|intros k' I; apply Sub; now apply names_keys].
  rewrite !(kwarg_sub _ _ _ _ (Sub "opt_pH_scale" ltac:(cbn; tauto))) in K.
  rewrite (kwarg_sub _ _ _ _ (Sub "opt_k_carbonic" ltac:(cbn; tauto))), (kwarg_sub _ _ _ _ (Sub "opt_k_bisulfate" ltac:(cbn; tauto))),
    (kwarg_sub _ _ _ _ (Sub "opt_k_fluoride" ltac:(cbn; tauto))) in K.
  destruct (e_equil _ _ _ _ _ _ _ _) as [kp|] eqn:Q; cbn [bind] in K; [|discriminate].
  exists tp, given, kp. split; [exact Gi|]. split; [exact Q|]. unfold option in *.
  destruct (val_eq_int (kwarg "opt_pH_scale" (VInt 3) kw) 1) eqn:Sc; cycle 1.
  { injection K as <-. split; [intros k K' P _; now apply select_spec|]. split; [|discriminate].
    intros _. apply select_spec. constructor. }
  destruct (dget "TSO4" tp) as [tso4|] eqn:TS; cycle 1.
  { injection K as <-. split; [intros k K' P _; now apply select_spec|]. split; [discriminate|discriminate]. }
  unfold dgetE in K. rewrite (select_spec kp "k_bisulfate" "KSO4") in K by constructor.
  destruct (dget "KSO4" kp) as [kso4|] eqn:KS; cbn [bind of_opt] in K; [|discriminate].
  destruct (nd_map2 ndiv tso4 kso4) as [q|] eqn:Dq; cbn [bind] in K; [|discriminate].
  rewrite (select_spec kp "k_fluoride" "KF") in K by constructor.
  destruct (dget "KF" kp) as [kf|] eqn:KF; cbn [bind of_opt] in K; [|discriminate].
  destruct (nd_map2 nmul kf _) as [kf'|] eqn:Mf; cbn [bind] in K; [|discriminate]. injection K as <-.
  split; [intros k K' P N; rewrite dget_dset_other by exact N; now apply select_spec|].
  split; [discriminate|]. intros _ ? Q0. injection Q0 as <-.
  exists kso4, kf, q, kf'. split; [reflexivity|]. split; [reflexivity|]. split; [exact Dq|]. split; [|apply dget_dset_same].
  rewrite <- Mf. symmetry. exact (nd_map2_map nmul (fun x => nofQ 1 ⊕ x) kf q).
Qed.

Lemma set_given_get (f : T -> T) k v d d' y : set_given f k v d = Ok d' -> dget k d = None ->
  (dget k d' = Some y <-> exists x, isnull v = false /\ as_num v = Ok x /\ y = f x).
Proof.
  unfold set_given. intros E N. destruct (isnull v) eqn:I.
  - injection E as <-. rewrite N. split; [discriminate|intros (x & ? & _); discriminate].
  - destruct (as_num v) as [x|] eqn:A; cbn [bind] in E; [|discriminate]. injection E as <-. rewrite dget_dset_same.
    split; [intros Q; injection Q as <-; eauto|intros (x' & _ & Q & ->); congruence].
Qed.
Lemma dset_if_get {A} b k (v : A) d y : dget k d = None -> (dget k (dset_if b k v d) = Some y <-> b = true /\ y = v).
Proof.
  intros N. destruct b; cbn [dset_if].
  - rewrite dget_dset_same. split; [intros Q; injection Q as <-; auto|intros [_ ->]; reflexivity].
  - rewrite N. split; [discriminate|intros [? _]; discriminate].
Qed.

Lemma supplied_salt_iff (kw : kwargs T) k x : In k ["total_borate"; "total_fluoride"; "total_sulfate"] ->
  (supplied kw k x <-> isnull (kwarg k VNone kw) = false /\ as_num (kwarg k VNone kw) = Ok x).
Proof.
  intros I. unfold kwarg. split.
  - intros S. destruct S as [v x G V|k v x I' G N V|k v x I' G V P].
    + exfalso. cbn in I. repeat (destruct I as [I|I]; [discriminate|]). destruct I.
    + rewrite G. auto.
    + exfalso. cbn in I. repeat (destruct I as [<-|I]; [cbn in I'; repeat (destruct I' as [I'|I']; [discriminate|]); destruct I'|]). destruct I.
  - intros [N V]. destruct (dget k kw) as [v|] eqn:G; [|discriminate]. eapply supplied_salt; eauto.
Qed.
Lemma supplied_acid_iff (kw : kwargs T) k x y : In k ["total_alpha"; "total_beta"] -> as_num (kwarg k (VInt 0) kw) = Ok x ->
  nltb n0 n0 = false ->
  (supplied kw k y <-> nltb n0 x = true /\ y = x).
Proof.
  intros I A Z. unfold kwarg in A. split.
  - intros S. destruct S as [v z G V|k v z I' G N V|k v z I' G V P].
    + exfalso. cbn in I. repeat (destruct I as [I|I]; [discriminate|]). destruct I.
    + exfalso. cbn in I. repeat (destruct I as [<-|I]; [cbn in I'; repeat (destruct I' as [I'|I']; [discriminate|]); destruct I'|]). destruct I.
    + rewrite G in A. assert (z = x) by congruence. subst. auto.
  - intros [P ->]. destruct (dget k kw) as [v|] eqn:G; [eapply supplied_other; [cbn in *; tauto|eauto..]|].
    exfalso. cbn in A. injection A as <-. fold n0 in P. congruence.
Qed.

Lemma supplied_more (kw kw' : kwargs T) k x : (forall k, In k ["dic"; "total_alpha"; "total_beta"; "total_ammonia"; "total_phosphate"; "total_silicate";
   "total_sulfide"; "total_borate"; "total_fluoride"; "total_sulfate"] -> dget k kw' = dget k kw) -> (supplied kw' k x <-> supplied kw k x).
Proof. intros D. split; intros S; eapply supplied_sub; try exact S; intros; [symmetry|]; now apply D. Qed.

Lemma totals_keys_sub k : In k keys_get_totals -> In k keys_kwargs_totals /\ In k keys_totals_ks /\ k <> "solve_mode".
Proof.
  intros I. assert (B : forallb (fun k => mem_str k keys_kwargs_totals && mem_str k keys_totals_ks && negb (String.eqb k "solve_mode")) keys_get_totals = true) by reflexivity.
  rewrite forallb_forall in B. specialize (B k I). apply andb_prop in B. destruct B as [B B3]. apply andb_prop in B. destruct B as [B1 B2].
  apply mem_str_spec in B1. apply mem_str_spec in B2. split; [exact B1|]. split; [exact B2|]. intros ->. discriminate.
Qed.

(* get_totals in terms of the call of PyCO2SYS; 0 > 0 is false *)
Lemma get_totals_spec (e : env T) s kw t tp : nltb n0 n0 = false -> get_totals e s kw = Ok (t, tp) ->
  exists given sal si po4 nh3 h2s, handed_totals kw given /\ as_num s = Ok sal /\
    number kw "total_silicate" si /\ number kw "total_phosphate" po4 /\ number kw "total_ammonia" nh3 /\ number kw "total_sulfide" h2s /\
    e_salts e sal si po4 nh3 h2s (option kw "opt_k_carbonic" 10) (option kw "opt_total_borate" 1) given = Ok tp /\
    (forall k K, pyco2_salt k K -> exists y, dget K tp = Some y /\ dget k t = Some y).
Proof.
  intros Z E. unfold get_totals in E.
  destruct (check_kwargs _ _); cbn [bind] in E; [|discriminate].
  destruct (as_num (kwarg "total_alpha" _ _)) as [ta|] eqn:Ea; cbn [bind] in E; [|discriminate].
  destruct (as_num (kwarg "total_beta" _ _)) as [tb|] eqn:Eb; cbn [bind] in E; [|discriminate].
  destruct (as_num (kwarg "total_ammonia" _ _)) as [nh3|] eqn:Enh; cbn [bind] in E; [|discriminate].
  destruct (as_num (kwarg "total_phosphate" _ _)) as [po4|] eqn:Epo; cbn [bind] in E; [|discriminate].
  destruct (as_num (kwarg "total_silicate" _ _)) as [si|] eqn:Esi; cbn [bind] in E; [|discriminate].
  destruct (as_num (kwarg "total_sulfide" _ _)) as [h2s|] eqn:Ehs; cbn [bind] in E; [|discriminate].
  destruct (as_num (kwarg "dic" _ _)) as [dic|] eqn:Edi; cbn [bind] in E; [|discriminate].
  destruct (as_num s) as [sal|] eqn:Es; cbn [bind] in E; [|discriminate]. cbv zeta in E.
  destruct (set_given _ "TB" _ _) as [d1|] eqn:S1; cbn [bind] in E; [|discriminate].
  destruct (set_given _ "TF" _ _) as [d2|] eqn:S2; cbn [bind] in E; [|discriminate].
  destruct (set_given _ "TSO4" _ _) as [d3|] eqn:S3; cbn [bind] in E; [|discriminate].
  destruct (e_salts _ _ _ _ _ _ _ _ _) as [tp'|] eqn:Q; cbn [bind] in E; [|discriminate].
  destruct (copy_if_pos _ "total_ammonia" _ _ _) as [c1|]; cbn [bind] in E; [|discriminate].
  destruct (copy_if_pos _ "total_silicate" _ _ _) as [c2|]; cbn [bind] in E; [|discriminate].
  destruct (copy_if_pos _ "total_phosphate" _ _ _) as [c3|]; cbn [bind] in E; [|discriminate].
  destruct (copy_if_pos _ "total_sulfide" _ _ _) as [c4|]; cbn [bind] in E; [|discriminate].
  destruct (dgetE "TB" tp') as [xb|] eqn:GB; cbn [bind] in E; [|discriminate].
  destruct (dgetE "TF" tp') as [xf|] eqn:GF; cbn [bind] in E; [|discriminate].
  destruct (dgetE "TSO4" tp') as [xs|] eqn:GS; cbn [bind] in E; [|discriminate].
  injection E as <- ->.
  unfold dgetE in GB, GF, GS.
  destruct (dget "TB" tp) as [yb|] eqn:GB'; cbn [of_opt] in GB; [|discriminate]. injection GB as ->.
  destruct (dget "TF" tp) as [yf|] eqn:GF'; cbn [of_opt] in GF; [|discriminate]. injection GF as ->.
  destruct (dget "TSO4" tp) as [ys|] eqn:GS'; cbn [of_opt] in GS; [|discriminate]. injection GS as ->.
  exists d3, sal, si, po4, nh3, h2s. unfold number, option. split; [|split; [reflexivity|]; repeat (split; [assumption|])].
  2: { intros k K P. destruct P; eexists; split; try eassumption;
       repeat (rewrite dget_dset_other by discriminate); apply dget_dset_same. }
  set (a1 := dset_if _ "beta" _ _) in S1. set (a0 := dset_if (ngtb ta n0) "alpha" _ []) in a1.
  assert (O1 : forall k, k <> "TB" -> k <> "TF" -> k <> "TSO4" -> dget k d3 = dget k a1)
    by (intros k N1 N2 N3; rewrite (set_given_other _ _ _ _ _ _ S3), (set_given_other _ _ _ _ _ _ S2), (set_given_other _ _ _ _ _ _ S1) by assumption; reflexivity).
  split.
  - intros k K y P. destruct P as [k K P| |]; [destruct P| |].
    + rewrite (set_given_other _ _ _ _ _ _ S3), (set_given_other _ _ _ _ _ _ S2) by discriminate.
      rewrite (set_given_get _ _ _ _ _ y S1) by (unfold a1, a0; rewrite !dset_if_other by discriminate; reflexivity).
      split; [intros (x & N & A & ->)|intros (x & S & ->); apply (supplied_salt_iff kw) in S; [|cbn; tauto]; exists x; tauto].
      exists x. split; [|reflexivity]. apply supplied_salt_iff; [cbn; tauto|auto].
    + rewrite (set_given_other _ _ _ _ _ _ S3) by discriminate.
      rewrite (set_given_get _ _ _ _ _ y S2)
        by (rewrite (set_given_other _ _ _ _ _ _ S1) by discriminate; unfold a1, a0; rewrite !dset_if_other by discriminate; reflexivity).
      split; [intros (x & N & A & ->)|intros (x & S & ->); apply (supplied_salt_iff kw) in S; [|cbn; tauto]; exists x; tauto].
      exists x. split; [|reflexivity]. apply supplied_salt_iff; [cbn; tauto|auto].
    + rewrite (set_given_get _ _ _ _ _ y S3)
        by (rewrite (set_given_other _ _ _ _ _ _ S2), (set_given_other _ _ _ _ _ _ S1) by discriminate; unfold a1, a0; rewrite !dset_if_other by discriminate; reflexivity).
      split; [intros (x & N & A & ->)|intros (x & S & ->); apply (supplied_salt_iff kw) in S; [|cbn; tauto]; exists x; tauto].
      exists x. split; [|reflexivity]. apply supplied_salt_iff; [cbn; tauto|auto].
    + rewrite O1 by discriminate. unfold a1. rewrite dset_if_other by discriminate. unfold a0. rewrite dset_if_get by reflexivity. unfold ngtb.
      split; [intros [L ->]; exists ta; split; [apply (supplied_acid_iff kw "total_alpha" ta ta ltac:(cbn; tauto) Ea Z)|]; auto|].
      intros (x & S & ->). apply (supplied_acid_iff kw "total_alpha" ta x ltac:(cbn; tauto) Ea Z) in S. destruct S as [? ->]. auto.
    + rewrite O1 by discriminate. unfold a1. rewrite dset_if_get by (unfold a0; rewrite dset_if_other by discriminate; reflexivity). unfold ngtb.
      split; [intros [L ->]; exists tb; split; [apply (supplied_acid_iff kw "total_beta" tb tb ltac:(cbn; tauto) Eb Z)|]; auto|].
      intros (x & S & ->). apply (supplied_acid_iff kw "total_beta" tb x ltac:(cbn; tauto) Eb Z) in S. destruct S as [? ->]. auto.
  - intros K y G.
    destruct (string_dec K "TB") as [->|N1]; [exists "total_borate"; do 2 constructor|].
    destruct (string_dec K "TF") as [->|N2]; [exists "total_fluoride"; do 2 constructor|].
    destruct (string_dec K "TSO4") as [->|N3]; [exists "total_sulfate"; do 2 constructor|].
    destruct (string_dec K "alpha") as [->|N4]; [exists "total_alpha"; exact py_alpha|].
    destruct (string_dec K "beta") as [->|N5]; [exists "total_beta"; exact py_beta|].
    rewrite O1 in G by assumption. unfold a1, a0 in G. rewrite !dset_if_other in G by assumption. discriminate.
Qed.

(* The borate, fluoride and sulfate of a solved titration, in every mode, are those of one call of PyCO2SYS with
   the titration's salinity, nutrients and options and the salts that the user supplied, diluted at every point;
   and unless dilute_totals_for_ks is set, those undiluted salts are what the equilibrium constants are for. *)
Theorem C93_salts_come_from_pyco2 (e : env T) f c s kw sr :
  nltb n0 n0 = false ->
  files_solve e f c s kw = Ok sr ->
  exists given sal si po4 nh3 h2s tp,
    handed_totals kw given /\ as_num s = Ok sal /\
    number kw "total_silicate" si /\ number kw "total_phosphate" po4 /\ number kw "total_ammonia" nh3 /\ number kw "total_sulfide" h2s /\
    e_salts e sal si po4 nh3 h2s (option kw "opt_k_carbonic" 10) (option kw "opt_total_borate" 1) given = Ok tp /\
    (forall k K, pyco2_salt k K -> dget ("titrant_" ++ k)%string kw = None ->
       exists y at_points, dget K tp = Some y /\ dget k (sr_totals sr) = Some (NdA at_points) /\
         length at_points = length (sr_titrant_mass sr) /\
         forall i m, nth_error (sr_titrant_mass sr) i = Some m ->
           nth_error at_points i = Some (y ⊗ (sr_analyte_mass sr ⊘ (m ⊕ sr_analyte_mass sr)))) /\
    (truthy (kwarg "dilute_totals_for_ks" (VBool false) kw) = false ->
       exists given_ks kp,
         e_equil e (sr_temperature sr) (dmap NdS tp) (option kw "opt_pH_scale" 3) (option kw "opt_k_carbonic" 10)
           (option kw "opt_k_bisulfate" 1) (option kw "opt_k_fluoride" 1) given_ks = Ok kp /\
         handed_constants kw given_ks).
Proof.
  intros Z E. destruct (files_inv _ _ _ _ _ _ E) as (fname & dd & cv & t0 & ks & c' & t & n & _ & _ & CV & TK & _ & AT & _ & HO).
  destruct HO as (-> & -> & -> & _ & -> & _).
  assert (Sal : cv_salinity cv = s).
  { destruct dd as [dd|]; cbn [amount_units_dat] in CV; [|discriminate]. unfold amount_units in CV. inv_binds CV. now injection CV as <-. }
  unfold totals_ks in TK. cbv zeta in TK. rewrite Sal in TK.
  destruct (get_totals _ _ _) as [[t1 tp0]|] eqn:G; cbn [bind] in TK; [|discriminate].
  destruct (dilute_totals _ _ _) as [t2|] eqn:D; cbn [bind] in TK; [|discriminate].
  match type of TK with bind ?x _ = _ => destruct x as [tp|] eqn:DK; cbn [bind] in TK; [|discriminate TK] end.
  destruct (get_k_constants _ _ _ _) as [k1|] eqn:K; cbn [bind] in TK; [|discriminate]. injection TK as -> ->.
  assert (Sub : forall k', In k' keys_get_totals ->
     dget k' (filter (fun kv => mem_str (fst kv) keys_kwargs_totals) (get_kwargs_for keys_totals_ks (without_mode kw) None)) = dget k' kw).
  { intros k' I. destruct (totals_keys_sub k' I) as (I1 & I2 & I3). rewrite dget_filter_in by exact I1. rewrite dget_gkf by exact I2. now apply dget_wm. }
  destruct (get_totals_spec _ _ _ _ _ Z G) as (given & sal & si & po4 & nh3 & h2s & HT & Es & Nsi & Npo & Nnh & Nhs & Q & Salts).
  unfold number, option in *.
  rewrite (kwarg_sub _ _ _ _ (Sub "total_silicate" ltac:(cbn; tauto))) in Nsi.
  rewrite (kwarg_sub _ _ _ _ (Sub "total_phosphate" ltac:(cbn; tauto))) in Npo.
  rewrite (kwarg_sub _ _ _ _ (Sub "total_ammonia" ltac:(cbn; tauto))) in Nnh.
  rewrite (kwarg_sub _ _ _ _ (Sub "total_sulfide" ltac:(cbn; tauto))) in Nhs.
  rewrite (kwarg_sub _ _ _ _ (Sub "opt_k_carbonic" ltac:(cbn; tauto))), (kwarg_sub _ _ _ _ (Sub "opt_total_borate" ltac:(cbn; tauto))) in Q.
  exists given, sal, si, po4, nh3, h2s, tp0. split.
  { destruct HT as [H1 H2]. split; [|exact H2]. intros k K' y P. rewrite (H1 k K' y P).
    assert (M : forall x, supplied _ k x <-> supplied kw k x) by (intros x; apply supplied_more; intros k' I; apply Sub; cbn in *; tauto).
    split; intros (x & S & ->); exists x; (split; [now apply M|reflexivity]). }
  split; [exact Es|]. do 4 (split; [assumption|]). split; [exact Q|]. split.
  - intros k K' P NT. destruct (Salts k K' P) as (y & Gy & Gt).
    apply dmapM_spec in D. destruct D as [_ D].
    destruct (D k (NdS y)) as (z & Gz & Qz); [rewrite (dget_dmap NdS), Gt; reflexivity|]. cbn [nd_map2] in Qz. injection Qz as <-.
    exists y. eexists. split; [exact Gy|]. split.
    + rewrite (att_other _ _ _ _ _ _ _ _ k AT); [exact Gz|].
      intros k' I Qk. subst k. apply dget_in_keys in I. unfold dmem in I. unfold get_kwargs_for in I.
      rewrite (dget_filter (fun k => mem_str k keys_titrant_totals)) in I.
      destruct (mem_str k' keys_titrant_totals) eqn:Mk; [|discriminate]. apply mem_str_spec in Mk. cbn in Mk.
      repeat (destruct Mk as [<-|Mk]; [rewrite dget_wm in I by discriminate; cbn [sdrop String.append] in NT; rewrite NT in I; discriminate|]). destruct Mk.
    + unfold dilution_factors. rewrite map_map, map_length. split; [reflexivity|]. intros i m Gi. rewrite nth_error_map, Gi. reflexivity.
  - intros Nd. 
    assert (DK' : tp = dmap NdS tp0).
    { rewrite dget_gkf, dget_wm in DK by (discriminate || (apply mem_str_spec; reflexivity)). unfold kwarg in Nd.
      destruct (dget "dilute_totals_for_ks" kw) as [v|]; [rewrite Nd in DK|]; now injection DK as <-. }
    subst tp. clear DK.
    assert (Sub2 : forall k', In k' keys_get_k_constants ->
       dget k' (filter (fun kv => mem_str (fst kv) keys_kwargs_k_constants) (get_kwargs_for keys_totals_ks (without_mode kw) None)) = dget k' kw).
    { intros k' I. destruct (ks_keys_sub k' I) as (I1 & I2 & I3). rewrite dget_filter_in by exact I1. rewrite dget_gkf by exact I2. now apply dget_wm. }
    unfold get_k_constants in K.
    destruct (check_kwargs _ _); cbn [bind] in K; [|discriminate].
    destruct (given_ks _) as [gk|] eqn:Gi; cbn [bind] in K; [|discriminate]. cbv zeta in K.
    apply given_spec in Gi. apply handed_sub with (kw := kw) in Gi; [|intros k' I; apply Sub2; now apply names_keys].
    rewrite !(kwarg_sub _ _ _ _ (Sub2 "opt_pH_scale" ltac:(cbn; tauto))) in K.
    rewrite (kwarg_sub _ _ _ _ (Sub2 "opt_k_carbonic" ltac:(cbn; tauto))), (kwarg_sub _ _ _ _ (Sub2 "opt_k_bisulfate" ltac:(cbn; tauto))),
      (kwarg_sub _ _ _ _ (Sub2 "opt_k_fluoride" ltac:(cbn; tauto))) in K.
    destruct (e_equil _ _ _ _ _ _ _ _) as [kp|] eqn:Qe; cbn [bind] in K; [|discriminate].
    exists gk, kp. split; [exact Qe|exact Gi].
Qed.
End P.

(* a titration that solves, with some supplied constants and totals, on the Free and on the Total scale; the
   totals and constants of this PyCO2SYS depend on the salinity and the temperatures *)
Definition picky_env : env sf := {|
  e_file := e_file fenv;
  e_excel := fun _ => None;
  e_salts := fun s si po4 nh3 h2s _ _ given => Ok (given ++ [("TSi", si); ("TPO4", po4); ("TNH3", nh3); ("TH2S", h2s); ("TB", s); ("TF", fone); ("TSO4", fone)]);
  e_equil := fun ts _ _ _ _ _ given =>
    Ok (dmap NdS given ++ [("K1", NdA ts)] ++ map (fun k => (k, NdS fone)) ["K2"; "KB"; "KF"; "KSO4"; "KW"; "KP1"; "KP2"; "KP3"]);
  e_sys_salt := fun s _ _ => s;
  e_strat := e_strat fenv
|}.
Example C93_nonvacuous :
  nltb (Num := Num_sf flm) (@n0 _ (Num_sf flm)) (@n0 _ (Num_sf flm)) = false /\
  (exists sr, files_solve (H := Num_sf flm) picky_env (VStr "gen.dat") (VInt 1) (VInt 35) (keep_kw 3) = Ok sr) /\
  (exists sr, files_solve (H := Num_sf flm) picky_env (VStr "gen.dat") (VInt 1) (VInt 35) (keep_kw 1) = Ok sr) /\
  truthy (H := Num_sf flm) (kwarg "dilute_totals_for_ks" (VBool false) (keep_kw 3)) = false.
Proof. split; [reflexivity|]. split; [eexists; vm_compute; reflexivity|]. split; [eexists; vm_compute; reflexivity|]. reflexivity. Qed.

Print Assumptions C93_constants_come_from_pyco2.
Print Assumptions C93_salts_come_from_pyco2.
