(* PlotProofs.v -- lemmas about the table of a Titration that the plots read *)
From Coq Require Import List Lia Permutation.
From Verif Require Import Classes Plot DictLemmas SettingsProofs DatasetProofs PropTitration TableProofs PropTable.
Open Scope list_scope.
Open Scope string_scope.

Section P.
Context {T : Type} `{Num T}.

Definition first_columns : list string := ["titrant_mass"; "temperature"; "pH"; "emf"; "gran_func"; "gran_emf0"; "gran_pH"].
Definition first_dict (sr : solve_result T) : dict (nd T) :=
  match sr with
  | SrEmf s => [("titrant_mass", NdA (sr_titrant_mass sr)); ("temperature", NdA (sr_temperature sr)); ("pH", NdA (sr_pH sr));
                ("emf", NdA (se_emf s)); ("gran_func", NdA (ga_gfunc (gg_ga (se_ggr s)))); ("gran_emf0", NdA (gg_emf0s (se_ggr s)));
                ("gran_pH", NdA (gg_pH (se_ggr s)))]
  | SrPh _ => [("titrant_mass", NdA (sr_titrant_mass sr)); ("temperature", NdA (sr_temperature sr)); ("pH", NdA (sr_pH sr))]
  | SrPhGran s => [("titrant_mass", NdA (sr_titrant_mass sr)); ("temperature", NdA (sr_temperature sr)); ("pH", NdA (sr_pH sr));
                   ("gran_func", NdA (sg_gfunc s))]
  end.

Lemma first_get (sr : solve_result T) k : named totals_names (sr_totals sr) -> named ks_names (sr_k_constants sr) ->
  In k first_columns -> dget k (table_dict sr) = dget k (first_dict sr).
Proof.
  intros [Wt It] [Wk Ik] K. unfold table_dict. rewrite !dget_dupdate by assumption.
  assert (P : forallb (fun x => negb (mem_str x (ks_names ++ totals_names))) first_columns = true) by reflexivity.
  rewrite forallb_forall in P. specialize (P k K). apply Bool.negb_true_iff, mem_str_false in P.
  assert (NT : dget k (sr_totals sr) = None).
  { destruct (dget k (sr_totals sr)) eqn:G; [|reflexivity]. exfalso. apply P, in_or_app. right. apply It, dget_in_keys. unfold dmem. now rewrite G. }
  assert (NK : dget k (sr_k_constants sr) = None).
  { destruct (dget k (sr_k_constants sr)) eqn:G; [|reflexivity]. exfalso. apply P, in_or_app. left. apply Ik, dget_in_keys. unfold dmem. now rewrite G. }
  rewrite NK, NT. now destruct sr.
Qed.

(* every column of the first table, and the columns of the final one *)
Lemma store_columns n f name result results (st st' : ttable T) : store n f name result results st = Ok st' ->
  columns_of n st -> columns_of n st'.
Proof.
  unfold store. intros E C. destruct (dgetE result results) as [v|]; cbn [bind] in E; [|discriminate].
  destruct (column n (nd_map f v)) as [l|] eqn:L; cbn [bind] in E; [|discriminate]. injection E as <-.
  apply columns_dset; [exact C|]. now apply (column_at n (nd_map f v)).
Qed.
Lemma species_columns names n results : forall (st st' : ttable T), store_species n names results st = Ok st' ->
  columns_of n st -> columns_of n st'.
Proof.
  induction names as [|x names IH]; intros st st' E C; cbn [store_species] in E; [now injection E as <-|].
  destruct (store _ _ _ _ _ st) as [st1|] eqn:S; cbn [bind] in E; [|discriminate].
  eapply IH; [exact E|]. eapply store_columns; eassumption.
Qed.
Lemma columns_get n k l (st : ttable T) : columns_of n st -> dget k st = Some l -> length l = n.
Proof.
  intros C G. induction st as [|[x w] st IH]; cbn [dget] in G; [discriminate|]. apply Forall_cons_iff in C. destruct C as [C1 C2].
  destruct (String.eqb k x); [injection G as <-; exact C1|auto].
Qed.
Lemma species_stored names n results : forall (st st' : ttable T), NoDup names -> store_species n names results st = Ok st' ->
  forall k, In k names -> dget k st' <> None.
Proof.
  induction names as [|x names IH]; intros st st' ND E k I; [destruct I|]. cbn [store_species] in E.
  destruct (store _ _ _ _ _ st) as [st1|] eqn:S; cbn [bind] in E; [|discriminate]. inversion ND; subst.
  destruct I as [<-|I]; [|eapply IH; eassumption].
  rewrite (species_get _ _ _ _ _ E) by assumption. apply store_get in S. destruct S as (_ & v & l & _ & _ & ->). discriminate.
Qed.

Definition added_columns : list string :=
  ["dilution_factor"; "alkalinity_from_pH"; "k_CO2"; "H"; "alk_alpha"; "alk_beta"; "alkalinity_estimate"] ++ species.

Lemma map3_len {A B C D} (f : A -> B -> C -> D) n : forall a b c, length a = n -> length b = n -> length c = n -> length (map3 f a b c) = n.
Proof.
  induction n as [|n IH]; intros [|x a] [|y b] [|z c] La Lb Lc; try discriminate; [reflexivity|].
  cbn in *. f_equal. apply IH; lia.
Qed.

Lemma co2sys_columns (sys : co2sys_t T) (r : row T) (st0 st' : ttable T) n : do_CO2SYS sys r st0 = Ok st' -> columns_of n st0 ->
  columns_of n st' /\ (forall k, ~ In k added_columns -> dget k st' = dget k st0) /\ (forall k, In k plotted -> dget k st' <> None).
Proof.
  unfold do_CO2SYS, col. intros E C0.
  destruct (dget "titrant_mass" st0) as [tm|] eqn:Gtm; cbn [of_opt bind] in E; [|discriminate].
  assert (Ln : length tm = n) by (eapply columns_get; eassumption). rewrite Ln in E.
  destruct (attr "analyte_mass" r) as [vM|]; cbn [of_opt bind] in E; [|discriminate].
  destruct (as_num vM) as [M|]; cbn [bind] in E; [|discriminate]. cbv zeta in E.
  set (st := dset "dilution_factor" (map (fun m => get_dilution_factor m M) tm) st0) in *.
  assert (C1 : columns_of n st) by (apply columns_dset; [assumption|now rewrite map_length]).
  match type of E with bind ?x _ = _ => destruct x as [dic|]; cbn [bind] in E; [|discriminate E] end.
  match type of E with bind ?x _ = _ => destruct x as [pH|] eqn:GpH; cbn [bind] in E; [|discriminate E] end.
  match type of E with bind ?x _ = _ => destruct x as [vs|]; cbn [bind] in E; [|discriminate E] end.
  match type of E with bind ?x _ = _ => destruct x as [s|]; cbn [bind] in E; [|discriminate E] end.
  match type of E with bind ?x _ = _ => destruct x as [temps|]; cbn [bind] in E; [|discriminate E] end.
  match type of E with bind ?x _ = _ => destruct x as [results|]; cbn [bind] in E; [|discriminate E] end.
  match type of E with bind ?x _ = _ => destruct x as [st1|] eqn:S1; cbn [bind] in E; [|discriminate E] end.
  match type of E with bind ?x _ = _ => destruct x as [st2|] eqn:S2; cbn [bind] in E; [|discriminate E] end.
  match type of E with bind ?x _ = _ => destruct x as [st3|] eqn:S3; cbn [bind] in E; [|discriminate E] end.
  match type of E with bind ?x _ = _ => destruct x as [st5|] eqn:S5; cbn [bind] in E; [|discriminate E] end.
  match type of E with bind ?x _ = _ => destruct x as [st6|] eqn:S6; cbn [bind] in E; [|discriminate E] end.
  match type of E with bind ?x _ = _ => destruct x as [afp|] eqn:S7; cbn [bind] in E; [|discriminate E] end.
  match type of E with bind ?x _ = _ => destruct x as [vc|]; cbn [bind] in E; [|discriminate E] end.
  match type of E with bind ?x _ = _ => destruct x as [c|]; cbn [bind] in E; [|discriminate E] end.
  match type of E with bind ?x _ = _ => destruct x as [df|] eqn:S8; cbn [bind] in E; [|discriminate E] end.
  injection E as <-.
  assert (LpH : length pH = n) by (destruct (dget "pH" st) eqn:G; cbn in GpH; [|discriminate]; injection GpH as <-; eapply columns_get; eassumption).
  assert (C2 : columns_of n st2) by (eapply store_columns; [exact S2|]; eapply store_columns; eassumption).
  assert (C3 : columns_of n st3) by (eapply species_columns; eassumption).
  assert (C6 : columns_of n st6).
  { eapply store_columns; [exact S6|]; eapply store_columns; [exact S5|]. apply columns_dset; [exact C3|now rewrite map_length]. }
  assert (La : length afp = n) by (destruct (dget "alkalinity_from_pH" st6) eqn:G; cbn in S7; [|discriminate]; injection S7 as <-; eapply columns_get; eassumption).
  assert (Ld : length df = n) by (destruct (dget "dilution_factor" st6) eqn:G; cbn in S8; [|discriminate]; injection S8 as <-; eapply columns_get; eassumption).
  split; [|split].
  - apply columns_dset; [exact C6|]. now apply map3_len.
  - apply store_get in S1. destruct S1 as (O1 & _). apply store_get in S2. destruct S2 as (O2 & _).
    pose proof (species_get _ _ _ _ _ S3) as O3. apply store_get in S5. destruct S5 as (O5 & _). apply store_get in S6. destruct S6 as (O6 & _).
    intros k N.
    assert (Ne : forall x, In x added_columns -> k <> x) by (intros x I ->; contradiction).
    rewrite dget_dset_other by (apply Ne; cbn; tauto). rewrite O6, O5 by (apply Ne; cbn; tauto).
    rewrite dget_dset_other by (apply Ne; cbn; tauto). rewrite O3 by (intros I; apply N, in_or_app; now right).
    rewrite O2, O1 by (apply Ne; cbn; tauto). unfold st. apply dget_dset_other. apply Ne; cbn; tauto.
  - intros k I. assert (ND : NoDup species) by (repeat constructor; cbn; intuition discriminate).
    pose proof (species_stored _ _ _ _ _ ND S3) as Sp.
    destruct (String.eqb_spec k "alkalinity_estimate") as [->|N1]; [rewrite dget_dset_same; discriminate|].
    rewrite dget_dset_other by assumption.
    destruct (String.eqb_spec k "alk_beta") as [->|N2].
    { apply store_get in S6. destruct S6 as (_ & v & l & _ & _ & ->). discriminate. }
    apply store_get in S6. destruct S6 as (O6 & _). rewrite O6 by assumption.
    destruct (String.eqb_spec k "alk_alpha") as [->|N3].
    { apply store_get in S5. destruct S5 as (_ & v & l & _ & _ & ->). discriminate. }
    apply store_get in S5. destruct S5 as (O5 & _). rewrite O5 by assumption.
    destruct (String.eqb_spec k "H") as [->|N4]; [rewrite dget_dset_same; discriminate|].
    rewrite dget_dset_other by assumption. apply Sp. cbn in I |- *. intuition congruence.
Qed.

(* the columns that a plot can find *)
Record plot_table (t : titration T) : Prop := {
  pt_len : columns_of (length (sr_titrant_mass (ti_sr t))) (ti_table t);
  pt_mass : dget "titrant_mass" (ti_table t) = Some (sr_titrant_mass (ti_sr t));
  pt_pH : dget "pH" (ti_table t) = Some (sr_pH (ti_sr t));
  pt_lpH : length (sr_pH (ti_sr t)) = length (sr_titrant_mass (ti_sr t));
  pt_ltemp : length (sr_temperature (ti_sr t)) = length (sr_titrant_mass (ti_sr t));
  pt_plotted : forall k, In k plotted -> exists l, dget k (ti_table t) = Some l /\ length l = length (sr_titrant_mass (ti_sr t));
  pt_gran : match ti_sr t with
            | SrEmf s => dget "emf" (ti_table t) = Some (se_emf s) /\ dget "gran_func" (ti_table t) = Some (ga_gfunc (gg_ga (se_ggr s))) /\
                dget "gran_emf0" (ti_table t) = Some (gg_emf0s (se_ggr s)) /\ dget "gran_pH" (ti_table t) = Some (gg_pH (se_ggr s))
            | SrPh _ => dget "emf" (ti_table t) = None /\ dget "gran_func" (ti_table t) = None /\ dget "gran_emf0" (ti_table t) = None /\ dget "gran_pH" (ti_table t) = None
            | SrPhGran s => dget "emf" (ti_table t) = None /\ dget "gran_func" (ti_table t) = Some (sg_gfunc s) /\ dget "gran_emf0" (ti_table t) = None /\ dget "gran_pH" (ti_table t) = None
            end
}.

Lemma plot_columns (e : env T) sys r kw t : Titration e sys r kw = Ok t -> plot_table t.
Proof.
  intros E. destruct (titration_facts e sys r kw t E) as (R & st & st1 & f & c & s & _ & _ & _ & _ & FS & DF & FA & CS).
  pose proof (sr_named _ _ _ _ _ _ FS) as (Nt & _ & Nk).
  pose proof (frame_columns _ _ _ DF) as C0. pose proof (frame_get _ _ _ DF) as TG.
  apply from_acid_inv in FA. destruct FA as (a & M & c' & tm & _ & _ & _ & Gtm & ->).
  set (n := length (sr_titrant_mass (ti_sr t))) in *.
  assert (C1 : columns_of n (dset "alkalinity_from_acid" (map (fun m => (nofQ 0.000001 ⊗ a ⊗ M ⊖ m ⊗ c') ⊘ (M ⊕ m)) tm) st)).
  { apply columns_dset; [exact C0|]. rewrite map_length. eapply columns_get; eassumption. }
  destruct (co2sys_columns _ _ _ _ _ CS C1) as (C2 & Keep & Has).
  assert (Get : forall k, In k first_columns ->
     match dget k (first_dict (ti_sr t)) with
     | Some (NdA l) => dget k (ti_table t) = Some l /\ length l = n
     | Some (NdS _) => True
     | None => dget k (ti_table t) = None
     end).
  { intros k I. assert (P : forallb (fun x => negb (mem_str x ("alkalinity_from_acid" :: added_columns))) first_columns = true) by reflexivity.
    rewrite forallb_forall in P. specialize (P k I). apply Bool.negb_true_iff, mem_str_false in P. cbn [In] in P.
    rewrite Keep by tauto. rewrite dget_dset_other by (intros ->; apply P; now left).
    specialize (TG k). rewrite (first_get _ _ Nt Nk I) in TG.
    destruct (dget k (first_dict (ti_sr t))) as [[x|l]|]; [exact Logic.I| |exact TG].
    destruct TG as (l' & G & Cl). cbn [column] in Cl. destruct (Nat.eqb_spec (length l) n) as [L|]; [|discriminate]. now injection Cl as <-. }
  pose proof (Get "titrant_mass" ltac:(cbn; tauto)) as G1. pose proof (Get "pH" ltac:(cbn; tauto)) as G2.
  pose proof (Get "temperature" ltac:(cbn; tauto)) as G3. pose proof (Get "emf" ltac:(cbn; tauto)) as G4.
  pose proof (Get "gran_func" ltac:(cbn; tauto)) as G5. pose proof (Get "gran_emf0" ltac:(cbn; tauto)) as G6.
  pose proof (Get "gran_pH" ltac:(cbn; tauto)) as G7.
  assert (D : forall k, dget k (first_dict (ti_sr t)) = match ti_sr t with SrEmf s => dget k (first_dict (SrEmf s)) | SrPh s => dget k (first_dict (SrPh s)) | SrPhGran s => dget k (first_dict (SrPhGran s)) end) by (intros k; now destruct (ti_sr t)).
  assert (L1 : dget "titrant_mass" (first_dict (ti_sr t)) = Some (NdA (sr_titrant_mass (ti_sr t)))) by (now destruct (ti_sr t)).
  assert (L2 : dget "pH" (first_dict (ti_sr t)) = Some (NdA (sr_pH (ti_sr t)))) by (now destruct (ti_sr t)).
  assert (L3 : dget "temperature" (first_dict (ti_sr t)) = Some (NdA (sr_temperature (ti_sr t)))) by (now destruct (ti_sr t)).
  rewrite L1 in G1. rewrite L2 in G2. rewrite L3 in G3. clear L1 L2 L3.
  constructor.
  - exact C2.
  - apply G1.
  - apply G2.
  - apply G2.
  - apply G3.
  - intros k I. destruct (dget k (ti_table t)) as [l|] eqn:G; [|destruct (Has k I G)]. exists l. split; [reflexivity|]. eapply columns_get; eassumption.
  - rewrite D in G4, G5, G6, G7. destruct (ti_sr t); cbn [first_dict dget] in G4, G5, G6, G7; cbn in G4, G5, G6, G7; intuition.
Qed.

(* ------------------------------------------------------------------ *)
(** * The flags are as long as the data *)

Lemma map2_len {A B C} (f : A -> B -> C) n : forall a b, length a = n -> length b = n -> length (map2 f a b) = n.
Proof.
  induction n as [|n IH]; intros [|x a] [|y b] La Lb; try discriminate; [reflexivity|]. cbn in *. f_equal. apply IH; lia.
Qed.
Lemma used_from_len fs : forall u, used_from_first fs = Some u -> length u = length fs.
Proof.
  induction fs as [|[] fs IH]; intros u E; cbn in E; [discriminate|injection E as <-; cbn; now rewrite map_length|].
  destruct (used_from_first fs); [|discriminate]. injection E as <-. cbn. now rewrite (IH l).
Qed.
Lemma gran_used_len lg (g : list T) u : gran_used lg g = Ok u -> length u = length g.
Proof.
  unfold gran_used. destruct (String.eqb lg "v23.7+").
  - destruct (nmax g) as [mx|]; cbn [bind]; [|discriminate]. destruct (used_from_first _) eqn:U; cbn [of_opt]; [|discriminate].
    intros [= <-]. apply used_from_len in U. now rewrite map_length in U.
  - destruct (String.eqb lg "legacy"); [|discriminate]. destruct (nmax g); cbn [bind]; [|discriminate]. intros [= <-]. apply map_length.
Qed.

Definition flags_fit (sr : solve_result T) : Prop :=
  length (sr_used sr) = length (sr_titrant_mass sr) /\
  match sr with SrEmf s => length (ga_used (gg_ga (se_ggr s))) = length (se_titrant_mass s) | _ => True end.

Lemma guesses_len tm emf temps M c n lg g : gran_guesses tm emf temps M c n lg = Ok g ->
  length emf = length tm /\ length temps = length tm /\ length (gg_pH g) = length tm /\ length (ga_used (gg_ga g)) = length tm.
Proof.
  unfold gran_guesses, gran_alkalinity. intros E. unfold same_len in E.
  destruct (Nat.eqb_spec (length emf) (length tm)) as [Le|]; [|discriminate].
  destruct (Nat.eqb_spec (length temps) (length tm)) as [Lt|]; [|discriminate]. cbn [andb negb] in E.
  destruct (gran_used lg _) as [u|] eqn:U; cbn [bind] in E; [|discriminate].
  destruct (linregress _ _) as [lr|]; cbn [bind] in E; [|discriminate]. cbv zeta in E.
  injection E as <-. cbn [gg_pH gg_ga ga_used]. repeat split; auto.
  - unfold emf_to_pH_arr. now apply map2_len.
  - apply gran_used_len in U. rewrite U. now apply map3_len.
Qed.

Lemma once_flags st c tm emf temps M totals ks ai ei lg p q n (s : emf_result T) :
  solve_emf_once st c tm emf temps M totals ks ai ei lg p q n = Ok s -> flags_fit (SrEmf s).
Proof.
  unfold solve_emf_once. intros E.
  destruct (gran_guesses _ _ _ _ _ _ _) as [g|] eqn:G; cbn [bind] in E; [|discriminate].
  apply guesses_len in G. destruct G as (Le & Lt & Lp & Lu).
  inv_binds E. injection E as <-. split; cbn [sr_used sr_titrant_mass se_used se_titrant_mass se_ggr]; [|exact Lu].
  unfold in_window. rewrite map_length. destruct ei; [unfold emf_to_pH_arr; now apply map2_len|exact Lp].
Qed.
Lemma emf_flags st c tm emf temps M totals ks ai db ei lg p q n (s : emf_result T) :
  solve_emf st c tm emf temps M totals ks ai db ei lg p q n = Ok s -> flags_fit (SrEmf s).
Proof.
  unfold solve_emf. intros E. destruct (solve_emf_once _ _ _ _ _ _ _ _ _ _ _ _ _ _) as [x|] eqn:A in E; cbn [bind] in E; [|discriminate].
  destruct db; [|injection E as <-]; eapply once_flags; eassumption.
Qed.
Lemma ph_flags c tm pH temps M totals ks p q n (s : ph_result T) :
  solve_pH c tm pH temps M totals ks p q n = Ok s -> sp_used s = in_window p q (sp_pH s).
Proof.
  unfold solve_pH. intros E. destruct (negb _); [discriminate|]. inv_binds E. now injection E as <-.
Qed.
Lemma phgran_flags c tm pH temps M totals ks p q n (s : phgran_result T) :
  solve_pH_gran c tm pH temps M totals ks p q n = Ok s -> sg_used s = in_window p q (sg_pH s).
Proof. unfold solve_pH_gran. intros E. inv_binds E. now injection E as <-. Qed.

Lemma dispatch_flags (e : env T) m c cv totals ks kw sr : dispatch_solve e m c cv totals ks kw = Ok sr ->
  length (sr_pH sr) = length (sr_titrant_mass sr) -> flags_fit sr.
Proof.
  unfold dispatch_solve. intros E L. destruct (as_str m) as [m'|]; cbn [bind] in E; [|discriminate].
  destruct (String.eqb (lower m') "emf"); [|destruct (String.eqb (lower m') "ph_adjust"); [|destruct (String.eqb (lower m') "ph"); [|destruct (String.eqb (lower m') "ph_gran"); [|discriminate]]]].
  - destruct (call_solve_emf _ _ _ _ _ _ _ _ _) as [s|] eqn:C in E; cbn [bind] in E; [|discriminate]. injection E as <-.
    unfold call_solve_emf in C. inv_binds C. eapply emf_flags; eassumption.
  - destruct (call_solve_emf _ _ _ _ _ _ _ _ _) as [s|] eqn:C in E; cbn [bind] in E; [|discriminate]. injection E as <-.
    unfold call_solve_emf in C. inv_binds C. eapply emf_flags; eassumption.
  - destruct (call_solve_pH _ _ _ _ _ _ _ _) as [s|] eqn:C in E; cbn [bind] in E; [|discriminate]. injection E as <-.
    unfold call_solve_pH in C. inv_binds C. split; [|exact I]. cbn [sr_used]. erewrite ph_flags by eassumption.
    unfold in_window. rewrite map_length. exact L.
  - destruct (call_solve_pH_gran _ _ _ _ _ _ _ _) as [s|] eqn:C in E; cbn [bind] in E; [|discriminate]. injection E as <-.
    unfold call_solve_pH_gran in C. inv_binds C. split; [|exact I]. cbn [sr_used]. erewrite phgran_flags by eassumption.
    unfold in_window. rewrite map_length. exact L.
Qed.

Lemma files_flags (e : env T) f c s kw sr : files_solve e f c s kw = Ok sr ->
  length (sr_pH sr) = length (sr_titrant_mass sr) -> flags_fit sr.
Proof.
  unfold files_solve. intros E. destruct (load e f s _) as [[cv [totals ks]]|]; cbn [bind] in E; [|discriminate].
  destruct (as_num c) as [mol|]; cbn [bind] in E; [|discriminate].
  destruct (add_titrant_totals _ _ _ _ _ _) as [t' [[]|]]; cbn [bind] in E; [|discriminate].
  eapply dispatch_flags; eassumption.
Qed.

Lemma plot_flags (e : env T) sys r kw t : Titration e sys r kw = Ok t -> flags_fit (ti_sr t).
Proof.
  intros E. pose proof (plot_columns _ _ _ _ _ E) as P.
  destruct (titration_facts e sys r kw t E) as (R & st & st1 & f & c & s & _ & _ & _ & _ & FS & _).
  eapply files_flags; [exact FS|apply P].
Qed.

End P.

(* ------------------------------------------------------------------ *)
(** * Splitting points by flags *)

Lemma mask_combine {A B} G : forall (x : list A) (y : list B), combine (mask G x) (mask G y) = mask G (combine x y).
Proof.
  induction G as [|g G IH]; intros [|a x] [|b y]; try reflexivity.
  - change (mask (g :: G) (@nil B)) with (@nil B). destruct (mask (g :: G) (a :: x)); reflexivity.
  - cbn [combine mask]. destruct g; cbn [combine]; [f_equal|]; apply IH.
Qed.
Lemma mask_split {A} G : forall l : list A, length G = length l -> Permutation (mask G l ++ mask (map negb G) l) l.
Proof.
  induction G as [|[] G IH]; intros [|x l] L; try discriminate; [apply perm_nil| |].
  - cbn [map negb mask app]. apply perm_skip, IH. now injection L.
  - cbn [map negb mask]. eapply perm_trans; [apply Permutation_sym, Permutation_middle|]. apply perm_skip, IH. now injection L.
Qed.
Lemma mask_picked {A} G : forall l : list A, mask G l = map snd (filter (fun gp => fst gp) (combine G l)).
Proof. induction G as [|[] G IH]; intros [|x l]; try reflexivity; cbn; [f_equal|]; apply IH. Qed.
Lemma mask_unpicked {A} G : forall l : list A, mask (map negb G) l = map snd (filter (fun gp => negb (fst gp)) (combine G l)).
Proof. induction G as [|[] G IH]; intros [|x l]; try reflexivity; cbn; [|f_equal]; apply IH. Qed.
