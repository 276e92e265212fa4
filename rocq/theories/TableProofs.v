(* TableProofs.v -- lemmas about the table of a Titration object *)
From Verif Require Import Classes DictLemmas SettingsProofs DatasetProofs PropTitration.
Open Scope list_scope.
Open Scope string_scope.

Ltac inv_binds E := cbv zeta in E;
  repeat match type of E with
  | (if ?b then Err _ else _) = Ok _ => destruct b; [discriminate E|]
  | bind ?x _ = Ok _ => let A := fresh "A" in destruct x as [?|] eqn:A; cbn [bind] in E; [|discriminate E]
  end.

Section P.
Context {T : Type} `{Num T}.

(* what the solvers hand on to the caller *)
Definition handed_on (sr : solve_result T) c tm temps M totals ks n : Prop :=
  sr_titrant_mass sr = tm /\ sr_temperature sr = temps /\ sr_totals sr = totals /\ sr_k_constants sr = ks /\
  sr_analyte_mass sr = M /\
  match sr_all sr with Some l => alkalinity_all (sr_pH sr) tm M c n totals ks = Ok l | None => True end.

Lemma once_inv st c tm emf temps M totals ks ai ei lg p q n (s : emf_result T) :
  solve_emf_once st c tm emf temps M totals ks ai ei lg p q n = Ok s ->
  handed_on (SrEmf s) c tm temps M totals ks n.
Proof.
  unfold solve_emf_once. intros E.
  inv_binds E.
  injection E as <-. repeat split; cbn [sr_all sr_pH se_pH se_alkalinity_all]; assumption.
Qed.

Lemma emf_inv st c tm emf temps M totals ks ai db ei lg p q n (s : emf_result T) :
  solve_emf st c tm emf temps M totals ks ai db ei lg p q n = Ok s ->
  handed_on (SrEmf s) c tm temps M totals ks n.
Proof.
  unfold solve_emf. intros E. destruct (solve_emf_once _ _ _ _ _ _ _ _ _ _ _ _ _ _) as [x|] eqn:A in E; cbn [bind] in E; [|discriminate].
  destruct db; [|injection E as <-]; eapply once_inv; eassumption.
Qed.

Lemma ph_inv c tm pH temps M totals ks p q n (s : ph_result T) :
  solve_pH c tm pH temps M totals ks p q n = Ok s -> handed_on (SrPh s) c tm temps M totals ks n.
Proof.
  unfold solve_pH. intros E. destruct (negb _); [discriminate|].
  inv_binds E.
  injection E as <-. repeat split; cbn [sr_all sr_pH sp_pH sp_alkalinity_all]; assumption.
Qed.

Lemma phgran_inv c tm pH temps M totals ks p q n (s : phgran_result T) :
  solve_pH_gran c tm pH temps M totals ks p q n = Ok s -> handed_on (SrPhGran s) c tm temps M totals ks n.
Proof.
  unfold solve_pH_gran. intros E. 
  inv_binds E.
  injection E as <-. repeat split.
Qed.

Lemma kwarg_gkf keys k d (kw : kwargs T) : In k keys -> kwarg k d (get_kwargs_for keys kw None) = kwarg k d kw.
Proof.
  intros I. unfold kwarg, get_kwargs_for. rewrite (dget_filter (fun k => mem_str k keys)).
  apply mem_str_spec in I. now rewrite I.
Qed.
Lemma kwarg_wm k d (kw : kwargs T) : k <> "solve_mode" -> kwarg k d (without_mode kw) = kwarg k d kw.
Proof.
  intros I. unfold kwarg, without_mode. rewrite (dget_filter (fun k => negb (String.eqb k "solve_mode"))).
  destruct (String.eqb_spec k "solve_mode"); [contradiction|reflexivity].
Qed.

Lemma dispatch_inv (e : env T) m c cv totals ks kw sr :
  dispatch_solve e m c cv totals ks kw = Ok sr ->
  exists n, as_num (kwarg "titrant_normality" (VInt 1) kw) = Ok n /\
    handed_on sr c (cv_titrant_mass cv) (cv_temperature cv) (cv_analyte_mass cv) totals ks n.
Proof.
  unfold dispatch_solve. intros E. destruct (as_str m) as [m'|]; cbn [bind] in E; [|discriminate].
  destruct (String.eqb (lower m') "emf"); [|destruct (String.eqb (lower m') "ph_adjust"); [|destruct (String.eqb (lower m') "ph"); [|destruct (String.eqb (lower m') "ph_gran"); [|discriminate]]]].
  - destruct (call_solve_emf _ _ _ _ _ _ _ _ _) as [s|] eqn:C in E; cbn [bind] in E; [|discriminate]. injection E as <-.
    unfold call_solve_emf in C. inv_binds C.
    match goal with A : as_num (kwarg "titrant_normality" _ _) = Ok ?n |- _ => exists n; split; [rewrite kwarg_gkf in A by (cbn; tauto); exact A|] end.
    eapply emf_inv; eassumption.
  - destruct (call_solve_emf _ _ _ _ _ _ _ _ _) as [s|] eqn:C in E; cbn [bind] in E; [|discriminate]. injection E as <-.
    unfold call_solve_emf in C. inv_binds C.
    match goal with A : as_num (kwarg "titrant_normality" _ _) = Ok ?n |- _ => exists n; split; [|eapply emf_inv; eassumption] end.
    match goal with A : as_num (kwarg "titrant_normality" _ _) = Ok ?n |- as_num ?z = _ =>
      replace z with (kwarg "titrant_normality" (VInt 1) (dset "emf0_init" (VInt 0) (get_kwargs_for keys_solve_emf kw None))); [exact A|] end.
    unfold kwarg at 1. rewrite dget_dset_other by discriminate.
    exact (kwarg_gkf keys_solve_emf "titrant_normality" (VInt 1) kw ltac:(cbn; tauto)).
  - destruct (call_solve_pH _ _ _ _ _ _ _ _) as [s|] eqn:C in E; cbn [bind] in E; [|discriminate]. injection E as <-.
    unfold call_solve_pH in C. inv_binds C.
    match goal with A : as_num (kwarg "titrant_normality" _ _) = Ok ?n |- _ => exists n; split; [rewrite kwarg_gkf in A by (cbn; tauto); exact A|] end.
    eapply ph_inv; eassumption.
  - destruct (call_solve_pH_gran _ _ _ _ _ _ _ _) as [s|] eqn:C in E; cbn [bind] in E; [|discriminate]. injection E as <-.
    unfold call_solve_pH_gran in C. inv_binds C.
    match goal with A : as_num (kwarg "titrant_normality" _ _) = Ok ?n |- _ => exists n; split; [rewrite kwarg_gkf in A by (cbn; tauto); exact A|] end.
    eapply phgran_inv; eassumption.
Qed.

Lemma files_inv (e : env T) f c s kw0 sr (kw := without_mode kw0) : files_solve e f c s kw0 = Ok sr ->
  exists fname dd cv totals0 ks c' totals n,
    full_name f kw = Ok fname /\
    read_dat e fname (get_kwargs_for keys_read_dat kw None) = Ok dd /\
    amount_units_dat dd s (get_kwargs_for keys_cau kw None) = Ok cv /\
    totals_ks e cv (get_kwargs_for keys_totals_ks kw None) = Ok (totals0, ks) /\
    as_num c = Ok c' /\
    add_titrant_totals totals0 (cv_titrant_mass cv) (cv_analyte_mass cv) c' n0 (get_kwargs_for keys_titrant_totals kw None) = (totals, Ok tt) /\
    as_num (kwarg "titrant_normality" (VInt 1) kw) = Ok n /\
    handed_on sr c' (cv_titrant_mass cv) (cv_temperature cv) (cv_analyte_mass cv) totals ks n.
Proof.
  unfold files_solve, load. fold kw. intros E.
  destruct (full_name f kw) as [fname|] eqn:E1; cbn [bind] in E; [|discriminate].
  destruct (read_dat e fname _) as [dd|] eqn:E2; cbn [bind] in E; [|discriminate].
  destruct (amount_units_dat dd s _) as [cv|] eqn:E3; cbn [bind] in E; [|discriminate].
  destruct (totals_ks e cv _) as [[totals0 ks]|] eqn:E4; cbn [bind] in E; [|discriminate].
  destruct (as_num c) as [c'|] eqn:E5; cbn [bind] in E; [|discriminate].
  destruct (add_titrant_totals _ _ _ _ _ _) as [totals r] eqn:E6.
  destruct r as [[]|]; cbn [bind] in E; [|discriminate].
  destruct (dispatch_inv _ _ _ _ _ _ _ _ E) as (n & N & Hn).
  exists fname, dd, cv, totals0, ks, c', totals, n. auto 12.
Qed.

(* ------------------------------------------------------------------ *)
(** * Names of the totals and constants *)

Definition named {A} (l : list string) (d : dict A) : Prop := wfd d /\ incl (dkeys d) l.

Lemma named_dset {A} l k (v : A) d : named l d -> In k l -> named l (dset k v d).
Proof.
  intros [W I] K. split; [now apply wfd_dset|]. rewrite dkeys_dset. unfold addc.
  destruct (mem_str k (dkeys d)); [exact I|]. intros x X. apply in_app_or in X. destruct X as [X|[<-|[]]]; auto.
Qed.
Lemma named_dset_if {A} l b k (v : A) d : named l d -> In k l -> named l (dset_if b k v d).
Proof. intros N K. destruct b; [now apply named_dset|exact N]. Qed.
Lemma named_copy l x k p tp (d d' : dict T) : named l d -> In k l -> copy_if_pos x k p tp d = Ok d' -> named l d'.
Proof.
  unfold copy_if_pos. intros N K E. destruct (ngtb x n0); [|now injection E as <-].
  destruct (dgetE p tp); cbn [bind] in E; [|discriminate]. injection E as <-. now apply named_dset.
Qed.

Definition totals_names : list string := "dic" :: co2sys_totals.
Definition ks_names : list string := map fst calk_to_pyco2__k_constants.

Lemma get_totals_named (e : env T) s kw t tp : get_totals e s kw = Ok (t, tp) -> named totals_names t /\ dmem "dic" t = true.
Proof.
  unfold get_totals. intros E.
  destruct (check_kwargs _ _); cbn [bind] in E; [|discriminate]. cbv zeta in E.
  do 8 (match type of E with bind ?x _ = _ => destruct x; cbn [bind] in E; [|discriminate E] end).
  do 3 (match type of E with bind ?x _ = _ => destruct x; cbn [bind] in E; [|discriminate E] end).
  match type of E with bind ?x _ = _ => destruct x; cbn [bind] in E; [|discriminate E] end.
  do 4 (match type of E with bind ?x _ = _ => let A := fresh "A" in destruct x eqn:A; cbn [bind] in E; [|discriminate E] end).
  do 3 (match type of E with bind ?x _ = _ => destruct x; cbn [bind] in E; [|discriminate E] end).
  injection E as <- <-.
  assert (D : forall x k p tp (d d' : dict T), copy_if_pos x k p tp d = Ok d' -> dmem "dic" d = true -> dmem "dic" d' = true).
  { clear. intros x k p tp d d' E M. unfold copy_if_pos in E. destruct (ngtb x n0); [|now injection E as <-].
    destruct (dgetE p tp); cbn [bind] in E; [|discriminate]. injection E as <-. rewrite dmem_dset, M. apply Bool.orb_true_r. }
  split.
  - repeat (apply named_dset; [|cbn; tauto]).
    eapply named_copy; [| |eassumption]; [|cbn; tauto]. eapply named_copy; [| |eassumption]; [|cbn; tauto].
    eapply named_copy; [| |eassumption]; [|cbn; tauto]. eapply named_copy; [| |eassumption]; [|cbn; tauto].
    apply named_dset_if; [|cbn; tauto]. apply named_dset_if; [|cbn; tauto]. apply named_dset; [|cbn; tauto].
    split; [constructor|intros x []].
  - rewrite !dmem_dset. replace (dmem "dic" _) with true; [now rewrite !Bool.orb_true_r|]. symmetry.
    do 4 (eapply D; [eassumption|]). unfold dset_if.
    repeat match goal with |- context [if ?b then _ else _] => destruct b end; reflexivity.
Qed.

Lemma select_named (kp : dict (nd T)) : named ks_names (select_ks kp).
Proof.
  unfold select_ks. assert (I : incl (map fst calk_to_pyco2__k_constants) ks_names) by (intros x; auto).
  assert (N : named ks_names (@nil (string * nd T))) by (split; [constructor|intros x []]).
  revert N. generalize (@nil (string * nd T)). revert I. generalize calk_to_pyco2__k_constants.
  induction l as [|[a b] l IH]; intros I d N; cbn [fold_left fst snd]; [exact N|].
  apply IH; [intros x X; apply I; now right|]. destruct (dget b kp); [apply named_dset; [exact N|apply I; now left]|exact N].
Qed.

Lemma get_ks_named (e : env T) tp temps kw ks : get_k_constants e tp temps kw = Ok ks -> named ks_names ks.
Proof.
  unfold get_k_constants. intros E. inv_binds E.
  destruct (val_eq_int _ 1); [|injection E as <-; apply select_named].
  destruct (dget "TSO4" tp); [|injection E as <-; apply select_named].
  inv_binds E. injection E as <-. apply named_dset; [apply select_named|]. cbn. tauto.
Qed.

Lemma totals_ks_named (e : env T) cv kw totals ks : totals_ks e cv kw = Ok (totals, ks) ->
  named totals_names totals /\ dmem "dic" totals = true /\ named ks_names ks.
Proof.
  unfold totals_ks. intros E. cbv zeta in E.
  destruct (get_totals _ _ _) as [[t0 tp0]|] eqn:G; cbn [bind] in E; [|discriminate].
  destruct (dilute_totals _ _ _) as [t1|] eqn:D; cbn [bind] in E; [|discriminate].
  match type of E with bind ?x _ = _ => destruct x as [tp|]; cbn [bind] in E; [|discriminate E] end.
  destruct (get_k_constants _ _ _ _) as [k1|] eqn:K; cbn [bind] in E; [|discriminate]. injection E as <- <-.
  apply get_ks_named in K. apply get_totals_named in G. destruct G as [[W I] M].
  apply dmapM_spec in D. destruct D as [D D'].
  assert (Dk : dkeys t1 = dkeys t0) by (rewrite D; apply (dkeys_dmap NdS)).
  split; [split|split; auto].
  - unfold wfd in *. change (NoDup (dkeys t1)). now rewrite Dk.
  - now rewrite Dk.
  - apply dget_in_keys. rewrite Dk. now apply dget_in_keys.
Qed.

Lemma att_keys tt : forall (t t' : dict (nd T)) tm M c p r, add_titrant_totals t tm M c p tt = (t', r) -> dkeys t' = dkeys t.
Proof.
  induction tt as [|[k f] tt IH]; intros t t' tm M c p r E; cbn [add_titrant_totals] in E.
  - now injection E as <- <-.
  - match type of E with (match ?x with _ => _ end) = _ => destruct x as [v'|] eqn:X end.
    + rewrite (IH _ _ _ _ _ _ _ E). apply dkeys_dset_mem.
      destruct (assert_ _); cbn [bind] in X; [|discriminate].
      destruct (dgetE (sdrop 8 k) t) eqn:G; cbn [bind] in X; [|discriminate]. unfold dgetE, of_opt in G. unfold dmem.
      destruct (dget (sdrop 8 k) t); [reflexivity|discriminate].
    + now injection E as <- <-.
Qed.

Lemma sr_named (e : env T) f c s kw sr : files_solve e f c s kw = Ok sr ->
  named totals_names (sr_totals sr) /\ dmem "dic" (sr_totals sr) = true /\ named ks_names (sr_k_constants sr).
Proof.
  intros E. apply files_inv in E. destruct E as (fn & dd & cv & t0 & ks & c' & t & n & _ & _ & _ & K & _ & A & _ & (_ & _ & -> & -> & _)).
  apply totals_ks_named in K. destruct K as ((W & I) & M & N). apply att_keys in A.
  split; [split|split; auto].
  - unfold wfd in *. change (NoDup (dkeys t)). now rewrite A.
  - now rewrite A.
  - apply dget_in_keys. rewrite A. now apply dget_in_keys.
Qed.

(* ------------------------------------------------------------------ *)
(** * The table *)

Lemma frame_get n (d : dict (nd T)) st : data_frame n d = Ok st ->
  forall k, match dget k d with
            | Some v => exists l, dget k st = Some l /\ column n v = Ok l
            | None => dget k st = None
            end.
Proof.
  intros E k. unfold data_frame in E.
  destruct (mapM_dict (fun kv => l <- column n (snd kv) ;; Ok (fst kv, l)) d st) as [K G]; [|exact E|].
  { intros [a v] kv' X. cbn [fst snd] in *. destruct (column n v); cbn [bind] in X; [|discriminate]. now injection X as <-. }
  destruct (dget k d) as [v|] eqn:Z.
  - destruct (G k v Z) as (l & Gl & X). exists l. split; [exact Gl|]. cbn [fst snd] in X.
    destruct (column n v); cbn [bind] in X; [|discriminate]. now injection X as <-.
  - exact (dget_keys_none k d st K Z).
Qed.

Lemma column_at n (v : nd T) l : column n v = Ok l -> length l = n /\
  (forall i, (i < n)%nat -> nth_error l i = Some (nd_at v i)).
Proof.
  destruct v as [x|w]; cbn [column]; intros E.
  - injection E as <-. rewrite repeat_length. split; [reflexivity|]. intros i L. rewrite nth_error_repeat; auto.
  - destruct (Nat.eqb_spec (length w) n) as [L|]; [|discriminate]. injection E as <-. split; [exact L|].
    intros i Li. destruct (nth_error w i) as [x|] eqn:Z.
    + symmetry. f_equal. now apply nd_at_nth.
    + apply nth_error_None in Z. exfalso. apply (Nat.lt_irrefl i). eapply Nat.lt_le_trans; [exact Li|]. now rewrite <- L.
Qed.

Lemma table_get (sr : solve_result T) k : named totals_names (sr_totals sr) -> named ks_names (sr_k_constants sr) ->
  (In k ks_names -> dget k (table_dict sr) = match dget k (sr_k_constants sr) with Some v => Some v | None => dget k (sr_totals sr) end) /\
  (In k totals_names -> dget k (table_dict sr) = dget k (sr_totals sr)) /\
  (k = "titrant_mass" -> dget k (table_dict sr) = Some (NdA (sr_titrant_mass sr))) /\
  (k = "temperature" -> dget k (table_dict sr) = Some (NdA (sr_temperature sr))) /\
  (k = "pH" -> dget k (table_dict sr) = Some (NdA (sr_pH sr))).
Proof.
  intros [Wt It] [Wk Ik]. unfold table_dict. rewrite !dget_dupdate by assumption.
  assert (NT : ~ In k totals_names -> dget k (sr_totals sr) = None).
  { intros N. destruct (dget k (sr_totals sr)) eqn:G; [|reflexivity]. exfalso. apply N, It, dget_in_keys. unfold dmem. now rewrite G. }
  assert (NK : ~ In k ks_names -> dget k (sr_k_constants sr) = None).
  { intros N. destruct (dget k (sr_k_constants sr)) eqn:G; [|reflexivity]. exfalso. apply N, Ik, dget_in_keys. unfold dmem. now rewrite G. }
  assert (Base : forall x, In x (ks_names ++ totals_names) -> dget x (match sr with
            | SrEmf s => dupdate [("titrant_mass", NdA (sr_titrant_mass sr)); ("temperature", NdA (sr_temperature sr)); ("pH", NdA (sr_pH sr))]
               [("emf", NdA (se_emf s)); ("gran_func", NdA (ga_gfunc (gg_ga (se_ggr s)))); ("gran_emf0", NdA (gg_emf0s (se_ggr s))); ("gran_pH", NdA (gg_pH (se_ggr s)))]
            | SrPh _ => [("titrant_mass", NdA (sr_titrant_mass sr)); ("temperature", NdA (sr_temperature sr)); ("pH", NdA (sr_pH sr))]
            | SrPhGran s => dupdate [("titrant_mass", NdA (sr_titrant_mass sr)); ("temperature", NdA (sr_temperature sr)); ("pH", NdA (sr_pH sr))] [("gran_func", NdA (sg_gfunc s))]
            end) = None).
  { intros x X. apply in_app_or in X.
    assert (P : forallb (fun x => negb (mem_str x ["titrant_mass"; "temperature"; "pH"; "emf"; "gran_func"; "gran_emf0"; "gran_pH"])) (ks_names ++ totals_names) = true) by reflexivity.
    rewrite forallb_forall in P. specialize (P x (in_or_app _ _ _ X)). apply Bool.negb_true_iff, mem_str_false in P.
    cbn [In] in P. destruct sr; rewrite ?dget_dupdate by (repeat constructor; cbn; intuition discriminate);
      cbn [dget sr_titrant_mass sr_temperature sr_pH];
      repeat match goal with |- context [String.eqb ?a ?b] => destruct (String.eqb_spec a b); [exfalso; intuition congruence|] end; reflexivity. }
  split; [|split; [|split; [|split]]].
  - intros I. destruct (dget k (sr_k_constants sr)) eqn:G; [reflexivity|]. destruct (dget k (sr_totals sr)); [reflexivity|].
    apply Base. apply in_or_app. now left.
  - intros I. rewrite NK. { destruct (dget k (sr_totals sr)); [reflexivity|]. apply Base. apply in_or_app. now right. }
    assert (P : forallb (fun x => negb (mem_str x ks_names)) totals_names = true) by reflexivity.
    rewrite forallb_forall in P. specialize (P k I). now apply Bool.negb_true_iff, mem_str_false in P.
  - intros ->. rewrite NK, NT by (cbn; intuition discriminate). destruct sr; reflexivity.
  - intros ->. rewrite NK, NT by (cbn; intuition discriminate). destruct sr; reflexivity.
  - intros ->. rewrite NK, NT by (cbn; intuition discriminate). destruct sr; reflexivity.
Qed.

(* storing results leaves the other columns alone *)
Lemma store_get n f name result results (st st' : ttable T) : store n f name result results st = Ok st' ->
  (forall k, k <> name -> dget k st' = dget k st) /\
  exists v l, dget result results = Some v /\ column n (nd_map f v) = Ok l /\ dget name st' = Some l.
Proof.
  unfold store, dgetE, of_opt. intros E. destruct (dget result results) as [v|]; cbn [bind] in E; [|discriminate].
  destruct (column n (nd_map f v)) as [l|] eqn:C; cbn [bind] in E; [|discriminate]. injection E as <-.
  split; [intros k N; now apply dget_dset_other|]. exists v, l. repeat split; auto. apply dget_dset_same.
Qed.
Lemma species_get names n results : forall (st st' : ttable T), store_species n names results st = Ok st' ->
  forall k, ~ In k names -> dget k st' = dget k st.
Proof.
  induction names as [|x names IH]; intros st st' E k N; cbn [store_species] in E; [now injection E as <-|].
  destruct (store _ _ _ _ _ st) as [st1|] eqn:S; cbn [bind] in E; [|discriminate].
  rewrite (IH _ _ E); [|intros I; apply N; now right]. apply store_get in S. apply S. intros ->. apply N. now left.
Qed.

Lemma co2sys_inv (sys : co2sys_t T) (r : row T) (st0 st' : ttable T) : do_CO2SYS sys r st0 = Ok st' ->
  exists tm M dic pH s temps results alk afp c,
    dget "titrant_mass" st0 = Some tm /\
    match dget "analyte_mass" r with Some v => as_num v = Ok M | None => False end /\
    dget "dic" st0 = Some dic /\ dget "pH" st0 = Some pH /\
    match dget "salinity" r with Some v => as_num v = Ok s | None => False end /\
    dget "temperature" st0 = Some temps /\
    sys ([("par1", NdA (map (fun x => x ⊗ nofQ 1000000) dic)); ("par2", NdA pH); ("par1_type", NdS (nofZ 2));
          ("par2_type", NdS (nofZ 3)); ("opt_pH_scale", NdS (nofZ 3)); ("salinity", NdS s);
          ("temperature", NdA temps)] ++ totals_for_sys (dset "dilution_factor" (map (fun m => get_dilution_factor m M) tm) st0)
             ++ ks_for_sys (dset "dilution_factor" (map (fun m => get_dilution_factor m M) tm) st0))%list = Ok results /\
    dget "alkalinity" results = Some alk /\ column (length tm) (nd_map from_umol alk) = Ok afp /\
    match dget "titrant_molinity" r with Some v => as_num v = Ok c | None => False end /\
    dget "dilution_factor" st' = Some (map (fun m => get_dilution_factor m M) tm) /\
    dget "alkalinity_from_acid" st' = dget "alkalinity_from_acid" st0 /\
    dget "alkalinity_estimate" st' = Some (map3 (fun a m d => estimate M c a m d) afp tm (map (fun m => get_dilution_factor m M) tm)).
Proof.
  unfold do_CO2SYS, col, attr. intros E.
  destruct (dget "titrant_mass" st0) as [tm|]; cbn [of_opt bind] in E; [|discriminate].
  destruct (dget "analyte_mass" r) as [vM|]; cbn [of_opt bind] in E; [|discriminate].
  destruct (as_num vM) as [M|] eqn:EM; cbn [bind] in E; [|discriminate]. cbv zeta in E.
  rewrite (dget_dset_other "dic" "dilution_factor") in E by discriminate.
  rewrite (dget_dset_other "pH" "dilution_factor") in E by discriminate.
  rewrite (dget_dset_other "temperature" "dilution_factor") in E by discriminate.
  destruct (dget "dic" st0) as [dic|]; cbn [of_opt bind] in E; [|discriminate].
  destruct (dget "pH" st0) as [pH|]; cbn [of_opt bind] in E; [|discriminate].
  destruct (dget "salinity" r) as [vs|]; cbn [of_opt bind] in E; [|discriminate].
  destruct (as_num vs) as [s|] eqn:Es; cbn [bind] in E; [|discriminate].
  destruct (dget "temperature" st0) as [temps|]; cbn [of_opt bind] in E; [|discriminate].
  match type of E with bind ?x _ = _ => destruct x as [results|] eqn:R; cbn [bind] in E; [|discriminate E] end.
  match type of E with bind ?x _ = _ => destruct x as [st1|] eqn:S1; cbn [bind] in E; [|discriminate E] end.
  match type of E with bind ?x _ = _ => destruct x as [st2|] eqn:S2; cbn [bind] in E; [|discriminate E] end.
  match type of E with bind ?x _ = _ => destruct x as [st3|] eqn:S3; cbn [bind] in E; [|discriminate E] end.
  match type of E with bind ?x _ = _ => destruct x as [st5|] eqn:S5; cbn [bind] in E; [|discriminate E] end.
  match type of E with bind ?x _ = _ => destruct x as [st6|] eqn:S6; cbn [bind] in E; [|discriminate E] end.
  match type of E with bind ?x _ = _ => destruct x as [afp|] eqn:S7; cbn [bind] in E; [|discriminate E] end.
  destruct (dget "titrant_molinity" r) as [vc|]; cbn [of_opt bind] in E; [|discriminate].
  destruct (as_num vc) as [c|] eqn:Ec; cbn [bind] in E; [|discriminate].
  match type of E with bind ?x _ = _ => destruct x as [df|] eqn:S8; cbn [bind] in E; [|discriminate E] end.
  injection E as <-.
  apply store_get in S1. destruct S1 as (O1 & alk & l & G1 & C1 & N1).
  apply store_get in S2. destruct S2 as (O2 & _). pose proof (species_get _ _ _ _ _ S3) as O3.
  apply store_get in S5. destruct S5 as (O5 & _). apply store_get in S6. destruct S6 as (O6 & _).
  assert (Keep : forall k, ~ In k (["alkalinity_from_pH"; "k_CO2"; "H"; "alk_alpha"; "alk_beta"] ++ species) ->
            dget k st6 = dget k (dset "dilution_factor" (map (fun m => get_dilution_factor m M) tm) st0)).
  { intros k N. rewrite O6, O5, dget_dset_other, O3, O2, O1; auto; try (intros ->; apply N; cbn; tauto).
    intros I. apply N. apply in_or_app. now right. }
  assert (Df : df = map (fun m => get_dilution_factor m M) tm).
  { rewrite Keep in S8 by (cbn; intuition discriminate). rewrite dget_dset_same in S8. cbn [of_opt] in S8. now injection S8 as <-. }
  assert (Af : afp = l).
  { rewrite O6, O5, dget_dset_other, O3, O2, N1 in S7 by (try discriminate; cbn; intuition discriminate). cbn [of_opt] in S7. now injection S7 as <-. }
  subst df afp.
  exists tm, M, dic, pH, s, temps, results, alk, l, c.
  split; [reflexivity|]. split; [reflexivity|]. split; [reflexivity|]. split; [reflexivity|]. split; [reflexivity|].
  split; [reflexivity|]. split; [exact R|]. split; [exact G1|]. split; [exact C1|]. split; [reflexivity|].
  split; [|split].
  - rewrite dget_dset_other by discriminate. rewrite Keep by (cbn; intuition discriminate). apply dget_dset_same.
  - rewrite dget_dset_other by discriminate. rewrite Keep by (cbn; intuition discriminate). now apply dget_dset_other.
  - apply dget_dset_same.
Qed.

(* ------------------------------------------------------------------ *)
(** * simulate.alkalinity depends on the values of its named arguments only *)

Lemma components_ext pH (t t' k k' : dict T) sc : (forall x, In x totals_names -> dget x t = dget x t') ->
  (forall x, In x ks_names -> dget x k = dget x k') -> alkalinity_components pH t k sc = alkalinity_components pH t' k' sc.
Proof.
  intros Ht Hk. unfold alkalinity_components, dgetE.
  rewrite (Ht "dic"), (Ht "total_borate"), (Ht "total_phosphate"), (Ht "total_silicate"), (Ht "total_ammonia"),
    (Ht "total_sulfide"), (Ht "total_sulfate"), (Ht "total_fluoride"), (Ht "total_alpha"), (Ht "total_beta") by (cbn; tauto).
  rewrite (Hk "k_water"), (Hk "k_carbonic_1"), (Hk "k_carbonic_2"), (Hk "k_borate"), (Hk "k_phosphoric_1"), (Hk "k_phosphoric_2"),
    (Hk "k_phosphoric_3"), (Hk "k_silicate"), (Hk "k_ammonia"), (Hk "k_sulfide"), (Hk "k_bisulfate"), (Hk "k_fluoride"),
    (Hk "k_alpha"), (Hk "k_beta") by (cbn; tauto).
  reflexivity.
Qed.

Lemma arr_ext (pH : list T) t t' k k' sc l : (0 < length pH)%nat ->
  alkalinity_arr pH t k sc = Ok l -> all_fit (length pH) t' = true -> all_fit (length pH) k' = true ->
  (forall i x, (i < length pH)%nat -> In x totals_names -> dget x (slice_at t i) = dget x (slice_at t' i)) ->
  (forall i x, (i < length pH)%nat -> In x ks_names -> dget x (slice_at k i) = dget x (slice_at k' i)) ->
  alkalinity_arr pH t' k' sc = Ok l.
Proof.
  intros P E Ft Fk Ht Hk. unfold alkalinity_arr in *. rewrite Ft, Fk. cbn [andb].
  destruct (all_fit (length pH) t && all_fit (length pH) k)%bool; [|discriminate].
  assert (X : forall i p, In (i, p) (combine (seq 0 (length pH)) pH) ->
     alkalinity p (slice_at t i) (slice_at k i) sc = alkalinity p (slice_at t' i) (slice_at k' i) sc).
  { intros i p I. apply in_combine_l, in_seq in I. destruct I as [_ I]. unfold alkalinity.
    rewrite (components_ext p (slice_at t i) (slice_at t' i) (slice_at k i) (slice_at k' i)); auto. }
  destruct pH as [|p pH]; [inversion P|]. cbn [bind] in *. rewrite <- E. apply mapM_ext.
  intros [i q] I. cbn [fst snd]. symmetry. now apply X.
Qed.

Lemma asr_other (sr : solve_result T) c : ~ In c solved_columns -> forall x, dget c (add_solve_results x sr) = dget c x.
Proof.
  intros N.
  assert (SI : forall p t (x : row T), dget c (set_inits p t x) = dget c x).
  { intros p t x. unfold set_inits. destruct (nth_error p 0); [|reflexivity].
    destruct (nth_error t 0); rewrite ?dget_dset_other; auto; intros ->; apply N; cbn; tauto. }
  intros x. destruct sr; cbn [add_solve_results]; rewrite SI; rewrite !dget_dset_other; auto; intros ->; apply N; cbn; tauto.
Qed.

(* ------------------------------------------------------------------ *)
(** * When a Titration can be made *)

Definition fits (n : nat) (v : nd T) : Prop := match v with NdS _ => True | NdA l => length l = n end.
Definition all_fits (n : nat) (d : dict (nd T)) : Prop := Forall (fun kv => fits n (snd kv)) d.

Lemma fits_column n v : fits n v -> exists l, column n v = Ok l.
Proof. destruct v as [x|l]; cbn [fits column]; intros F; [eauto|]. rewrite F, Nat.eqb_refl. eauto. Qed.
Lemma fits_map n f v : fits n v -> fits n (nd_map f v).
Proof. destruct v; cbn [fits nd_map]; [auto|]. now rewrite map_length. Qed.
Lemma all_fits_dset n k v d : all_fits n d -> fits n v -> all_fits n (dset k v d).
Proof.
  intros A F. induction d as [|[x w] d IH]; cbn [dset]; [now repeat constructor|].
  apply Forall_cons_iff in A. destruct A as (A1 & A2).
  destruct (String.eqb k x); constructor; cbn [snd]; auto. now apply IH.
Qed.
Lemma all_fits_dupdate n d' : forall d, all_fits n d -> all_fits n d' -> all_fits n (dupdate d d').
Proof.
  unfold dupdate. induction d' as [|[x w] d' IH]; intros d A B; cbn [fold_left fst snd]; [exact A|].
  apply Forall_cons_iff in B. destruct B as (B1 & B2). apply IH; [now apply all_fits_dset|exact B2].
Qed.
Lemma frame_total n d : all_fits n d -> exists st, data_frame n d = Ok st.
Proof.
  intros A. unfold data_frame. apply mapM_total. intros [k v] I. apply (proj1 (Forall_forall _ _) A) in I. rename I into A0.
  destruct (fits_column n v A0) as (l & E). cbn [fst snd] in *. rewrite E. cbn [bind]. eauto.
Qed.

(* arrays of a result as long as the titrant mass *)
Definition shaped_result (sr : solve_result T) : Prop :=
  let n := length (sr_titrant_mass sr) in
  (0 < n)%nat /\ length (sr_pH sr) = n /\ length (sr_temperature sr) = n /\
  all_fits n (sr_totals sr) /\ all_fits n (sr_k_constants sr) /\
  match sr with
  | SrEmf s => length (se_emf s) = n /\ length (ga_gfunc (gg_ga (se_ggr s))) = n /\ length (gg_emf0s (se_ggr s)) = n /\ length (gg_pH (se_ggr s)) = n
  | SrPh _ => True
  | SrPhGran s => length (sg_gfunc s) = n
  end.

Definition result_names : list string := ["alkalinity"; "k_CO2"; "alkalinity_alpha"; "alkalinity_beta"] ++ species.
(* every result has the shape of the pH *)
Definition good_results (n : nat) (results : dict (nd T)) : Prop :=
  forall k, In k result_names -> exists v, dget k results = Some v /\ fits n v.
(* the keyword arguments of the call of PyCO2SYS *)
Definition sys_args (dic pH : list T) (s : T) (temperature : list T) (st : ttable T) : dict (nd T) :=
  ([("par1", NdA (map (fun x => x ⊗ nofQ 1000000) dic)); ("par2", NdA pH); ("par1_type", NdS (nofZ 2));
    ("par2_type", NdS (nofZ 3)); ("opt_pH_scale", NdS (nofZ 3)); ("salinity", NdS s); ("temperature", NdA temperature)] ++
   totals_for_sys st ++ ks_for_sys st)%list.
(* the table that the call is made from *)
Definition same_names (st st2 : ttable T) : Prop := forall k, In k (totals_names ++ ks_names)%list -> dget k st2 = dget k st.
Definition columns_of (n : nat) (st : ttable T) : Prop := Forall (fun kv => length (snd kv) = n) st.

Lemma columns_dset n k l (st : ttable T) : columns_of n st -> length l = n -> columns_of n (dset k l st).
Proof.
  intros A F. induction st as [|[x w] st IH]; cbn [dset]; [now repeat constructor|].
  apply Forall_cons_iff in A. destruct A as (A1 & A2).
  destruct (String.eqb k x); constructor; cbn [snd]; auto. now apply IH.
Qed.
Lemma frame_columns n (d : dict (nd T)) st : data_frame n d = Ok st -> columns_of n st.
Proof.
  unfold data_frame. revert st. induction d as [|[k v] d IH]; intros st E; cbn [mapM] in E; [injection E as <-; constructor|].
  cbn [fst snd] in E. destruct (column n v) as [l|] eqn:C; cbn [bind] in E; [|discriminate].
  destruct (mapM _ d) as [st'|]; cbn [bind] in E; [|discriminate]. injection E as <-. constructor; [|now apply IH].
  cbn [snd]. now apply (column_at n v).
Qed.

Lemma store_total n f name result results (st : ttable T) v : dget result results = Some v -> fits n v ->
  exists st', store n f name result results st = Ok st'.
Proof.
  intros G F. unfold store, dgetE, of_opt. rewrite G. cbn [bind].
  destruct (fits_column n (nd_map f v)) as (l & E); [now apply fits_map|]. rewrite E. cbn [bind]. eauto.
Qed.
Lemma species_total n names results : (forall k, In k names -> exists v, dget k results = Some v /\ fits n v) ->
  forall st : ttable T, exists st', store_species n names results st = Ok st'.
Proof.
  induction names as [|k names IH]; intros A st; cbn [store_species]; [eauto|].
  destruct (A k) as (v & G & F); [now left|]. destruct (store_total n from_umol k k results st v G F) as (st1 & E).
  rewrite E. cbn [bind]. apply IH. intros k' I. apply A. now right.
Qed.

Definition numeric_at (k : string) (r : row T) : Prop := exists v x, dget k r = Some v /\ as_num v = Ok x.

Lemma asr_alkalinity (sr : solve_result T) x : numeric_at "alkalinity" (add_solve_results x sr).
Proof.
  assert (SI : forall p t (x : row T), dget "alkalinity" (set_inits p t x) = dget "alkalinity" x).
  { clear. intros p t x. unfold set_inits. destruct (nth_error p 0); [|reflexivity].
    destruct (nth_error t 0); rewrite ?dget_dset_other; auto; discriminate. }
  unfold numeric_at. destruct sr; cbn [add_solve_results]; rewrite SI; repeat rewrite dget_dset_other by discriminate;
    rewrite dget_dset_same; eexists _, _; split; reflexivity.
Qed.

Lemma titration_total (e : env T) (sys : co2sys_t T) (r : row T) kw kw1 sr :
  (forall st st2 dic s temperature, data_frame (length (sr_titrant_mass sr)) (table_dict sr) = Ok st -> 
     dget "dic" st = Some dic -> same_names st st2 -> columns_of (length (sr_titrant_mass sr)) st2 -> 
     exists results, sys (sys_args dic (sr_pH sr) s temperature st2) = Ok results /\ good_results (length (sr_titrant_mass sr)) results) ->
  backcompat kw r = Ok kw1 -> solve_named e (dupdate r kw1) = Ok sr -> shaped_result sr ->
  numeric_at "analyte_mass" (dupdate r kw1) -> numeric_at "salinity" (dupdate r kw1) -> 
  exists t, Titration e sys r kw = Ok t /\ ti_sr t = sr.
Proof.
  intros An B SN (Ln & LpH & Lt & Ft & Fk & Sh) NM NS. unfold Titration. rewrite B. cbn [bind]. rewrite SN. cbn [bind].
  assert (P0 : exists p, nth_error (sr_pH sr) 0 = Some p) by (destruct (sr_pH sr); [rewrite <- LpH in Ln; inversion Ln|cbn; eauto]).
  assert (T0 : exists p, nth_error (sr_temperature sr) 0 = Some p) by (destruct (sr_temperature sr); [rewrite <- Lt in Ln; inversion Ln|cbn; eauto]).
  destruct P0 as (p0 & ->). destruct T0 as (t0 & ->). cbn [of_opt bind].
  assert (AF : all_fits (length (sr_titrant_mass sr)) (table_dict sr)).
  { unfold table_dict. cbv zeta. apply all_fits_dupdate; [apply all_fits_dupdate; [|exact Ft]|exact Fk].
    destruct sr as [s|s|s]; [| |].
    - destruct Sh as (S1 & S2 & S3 & S4). apply all_fits_dupdate; repeat constructor; assumption.
    - repeat constructor; assumption.
    - apply all_fits_dupdate; repeat constructor; assumption. }
  destruct (frame_total _ _ AF) as (st & DF). rewrite DF. cbn [bind].
  pose proof (frame_get _ _ _ DF) as TG.
  destruct (solve_named_inv e _ _ SN) as (f & c & s & Gf & Gc & Gs & FS).
  pose proof (sr_named _ _ _ _ _ _ FS) as (Nt & Dm & Nk).
  apply files_inv in FS. destruct FS as (fn & dd & cv & tt0 & ks & c' & tt1 & n & _ & _ & _ & _ & Ec & _).
  set (r' := add_solve_results (dupdate r kw1) sr).
  assert (Keep : forall k, ~ In k solved_columns -> dget k r' = dget k (dupdate r kw1)) by (intros k N; now apply asr_other).
  assert (Ctm : dget "titrant_mass" st = Some (sr_titrant_mass sr)).
  { pose proof (TG "titrant_mass") as X. destruct (table_get sr "titrant_mass" Nt Nk) as (_ & _ & Y & _). rewrite Y in X by reflexivity.
    destruct X as (l & Gl & Cl). cbn [column] in Cl. rewrite Nat.eqb_refl in Cl. now injection Cl as <-. }
  assert (CpH : dget "pH" st = Some (sr_pH sr)).
  { pose proof (TG "pH") as X. destruct (table_get sr "pH" Nt Nk) as (_ & _ & _ & _ & Y). rewrite Y in X by reflexivity.
    destruct X as (l & Gl & Cl). cbn [column] in Cl. rewrite LpH, Nat.eqb_refl in Cl. now injection Cl as <-. }
  assert (Cte : dget "temperature" st = Some (sr_temperature sr)).
  { pose proof (TG "temperature") as X. destruct (table_get sr "temperature" Nt Nk) as (_ & _ & _ & Y & _). rewrite Y in X by reflexivity.
    destruct X as (l & Gl & Cl). cbn [column] in Cl. rewrite Lt, Nat.eqb_refl in Cl. now injection Cl as <-. }
  assert (Cdic : exists dic, dget "dic" st = Some dic).
  { pose proof (TG "dic") as X. destruct (table_get sr "dic" Nt Nk) as (_ & Y & _). rewrite Y in X by (cbn; tauto).
    unfold dmem in Dm. destruct (dget "dic" (sr_totals sr)); [|discriminate]. destruct X as (l & Gl & _). eauto. }
  destruct Cdic as (dic & Cdic).
  destruct NM as (vM & M & GM & EM). destruct NS as (vs & s' & Gs' & Es'). rewrite Gs in Gs'. injection Gs' as <-.
  destruct (asr_alkalinity sr (dupdate r kw1)) as (va & a & Ga & Ea). fold r' in Ga.
  (* the alkalinity from the acid *)
  unfold get_alkalinity_from_acid, attr, col. rewrite Ga, (Keep "analyte_mass"), GM, (Keep "titrant_molinity"), Gc by (cbn; intuition discriminate).
  cbn [of_opt bind]. rewrite Ea. cbn [bind]. rewrite EM. cbn [bind]. rewrite Ec. cbn [bind]. rewrite Ctm. cbn [of_opt bind].
  (* PyCO2SYS *)
  unfold do_CO2SYS, col, attr. rewrite !(dget_dset_other "titrant_mass" "alkalinity_from_acid") by discriminate. rewrite Ctm. cbn [of_opt bind].
  rewrite (Keep "analyte_mass"), GM by (cbn; intuition discriminate). cbn [of_opt bind]. rewrite EM. cbn [bind]. cbv zeta.
  rewrite !(dget_dset_other "dic") by discriminate. rewrite Cdic. cbn [of_opt bind].
  rewrite !(dget_dset_other "pH") by discriminate. rewrite CpH. cbn [of_opt bind].
  rewrite (Keep "salinity"), Gs by (cbn; intuition discriminate). cbn [of_opt bind]. rewrite Es'. cbn [bind].
  rewrite !(dget_dset_other "temperature") by discriminate. rewrite Cte. cbn [of_opt bind].
  match goal with |- context [totals_for_sys ?x] => set (st2 := x) end.
  destruct (An st st2 dic s' (sr_temperature sr) DF Cdic) as (results & R & RN).
  { intros k I. unfold st2. assert (P : forallb (fun x => negb (mem_str x ["dilution_factor"; "alkalinity_from_acid"])) (totals_names ++ ks_names)%list = true) by reflexivity.
    rewrite forallb_forall in P. specialize (P k I). apply Bool.negb_true_iff, mem_str_false in P.
    rewrite !dget_dset_other; auto; intros ->; apply P; cbn; tauto. }
  { unfold st2. apply columns_dset; [apply columns_dset; [exact (frame_columns _ _ _ DF)|]|]; now rewrite map_length. }
  unfold sys_args in R. rewrite R. clear R. cbn [bind]. unfold good_results in RN. unfold st2. clear st2.
  set (n' := length (sr_titrant_mass sr)) in *.
  destruct (RN "alkalinity") as (v1 & G1 & F1); [cbn; tauto|].
  destruct (RN "k_CO2") as (v2 & G2 & F2); [cbn; tauto|].
  destruct (RN "alkalinity_alpha") as (v3 & G3 & F3); [cbn; tauto|].
  destruct (RN "alkalinity_beta") as (v4 & G4 & F4); [cbn; tauto|].
  match goal with |- context [store n' from_umol "alkalinity_from_pH" "alkalinity" results ?x] =>
    destruct (store_total n' from_umol "alkalinity_from_pH" "alkalinity" results x v1 G1 F1) as (st1 & S1); rewrite S1 end. cbn [bind].
  destruct (store_total n' (fun x => x) "k_CO2" "k_CO2" results st1 v2 G2 F2) as (st2 & S2). rewrite S2. cbn [bind].
  destruct (species_total n' species results ltac:(intros k I; apply RN; apply in_or_app; now right) st2) as (st3 & S3). rewrite S3. cbn [bind].
  match goal with |- context [store n' from_umol "alk_alpha" "alkalinity_alpha" results ?x] =>
    destruct (store_total n' from_umol "alk_alpha" "alkalinity_alpha" results x v3 G3 F3) as (st5 & S5); rewrite S5 end. cbn [bind].
  destruct (store_total n' from_umol "alk_beta" "alkalinity_beta" results st5 v4 G4 F4) as (st6 & S6). rewrite S6. cbn [bind].
  apply store_get in S1. destruct S1 as (O1 & alk & l & _ & _ & N1).
  apply store_get in S2. destruct S2 as (O2 & _). pose proof (species_get _ _ _ _ _ S3) as O3.
  apply store_get in S5. destruct S5 as (O5 & _). apply store_get in S6. destruct S6 as (O6 & _).
  rewrite O6, O5, dget_dset_other, O3, O2, N1 by (try discriminate; cbn; intuition discriminate). cbn [of_opt bind].
  rewrite (Keep "titrant_molinity"), Gc by (cbn; intuition discriminate). cbn [of_opt bind]. rewrite Ec. cbn [bind].
  rewrite O6, O5, dget_dset_other, O3, O2, O1, dget_dset_same by (try discriminate; cbn; intuition discriminate). cbn [of_opt bind].
  eexists. split; reflexivity.
Qed.

End P.
