(* SimProofs.v -- closed forms for Simulate.v (used by the proofs of C15-C24) *)
From Coq Require Import Reals Qreals Lra Ranalysis.
From Verif Require Export Simulate XRLemmas DictLemmas.
Open Scope list_scope.
Open Scope R_scope.

(* the equilibrating substances in the order in which the code treats them *)
Inductive subst := DIC | Borate | Phosphate | Silicate | Ammonia | Sulfide | Alpha | Beta | Fluoride | Sulfate.

Definition s_name (s : subst) : string :=
  match s with
  | DIC => "dic" | Borate => "total_borate" | Phosphate => "total_phosphate"
  | Silicate => "total_silicate" | Ammonia => "total_ammonia" | Sulfide => "total_sulfide"
  | Alpha => "total_alpha" | Beta => "total_beta" | Fluoride => "total_fluoride"
  | Sulfate => "total_sulfate"
  end.

Definition s_ks (s : subst) : list string :=
  match s with
  | DIC => ["k_carbonic_1"; "k_carbonic_2"] | Borate => ["k_borate"]
  | Phosphate => ["k_phosphoric_1"; "k_phosphoric_2"; "k_phosphoric_3"]
  | Silicate => ["k_silicate"] | Ammonia => ["k_ammonia"] | Sulfide => ["k_sulfide"]
  | Alpha => ["k_alpha"] | Beta => ["k_beta"] | Fluoride => ["k_fluoride"] | Sulfate => ["k_bisulfate"]
  end.

Definition s_species (s : subst) : list string :=
  match s with
  | DIC => ["CO2"; "HCO3"; "CO3"] | Borate => ["BOH4"] | Phosphate => ["H3PO4"; "HPO4"; "PO4"]
  | Silicate => ["H3SiO4"] | Ammonia => ["NH3"] | Sulfide => ["HS"]
  | Alpha => ["alk_alpha"] | Beta => ["alk_beta"] | Fluoride => ["HF"] | Sulfate => ["HSO4"]
  end.

Definition substs (scale : Z) : list subst :=
  ([DIC; Borate; Phosphate; Silicate; Ammonia; Sulfide; Alpha; Beta]
     ++ (if existsb (Z.eqb scale) [1; 3]%Z then [Fluoride] else [])
     ++ (if Z.eqb scale 3 then [Sulfate] else []))%list.

Section Closed.
Context {T : Type} `{Num T}.

Definition s_out (s : subst) (h tot : T) (kk : list T) : dict T :=
  match s, kk with
  | DIC, [K1; K2] =>
      let CO2 := (tot ⊘ (nofQ 1 ⊕ K1 ⊘ h ⊕ K1 ⊗ K2 ⊘ npow h 2))%num in
      let HCO3 := (K1 ⊗ CO2 ⊘ h)%num in
      let CO3 := (K2 ⊗ HCO3 ⊘ h)%num in
      [("CO2", CO2); ("HCO3", HCO3); ("CO3", CO3)]
  | Phosphate, [KP1; KP2; KP3] =>
      let denom := (npow h 3 ⊕ KP1 ⊗ npow h 2 ⊕ KP1 ⊗ KP2 ⊗ h ⊕ KP1 ⊗ KP2 ⊗ KP3)%num in
      [("H3PO4", tot ⊗ npow h 3 ⊘ denom); ("HPO4", tot ⊗ KP1 ⊗ KP2 ⊗ h ⊘ denom);
       ("PO4", tot ⊗ KP1 ⊗ KP2 ⊗ KP3 ⊘ denom)]%num
  | Borate, [k] => [("BOH4", base_form tot k h)]
  | Silicate, [k] => [("H3SiO4", base_form tot k h)]
  | Ammonia, [k] => [("NH3", base_form tot k h)]
  | Sulfide, [k] => [("HS", base_form tot k h)]
  | Alpha, [k] => [("alk_alpha", zlp_form tot k h)]
  | Beta, [k] => [("alk_beta", zlp_form tot k h)]
  | Fluoride, [k] => [("HF", acid_form tot k h)]
  | Sulfate, [k] => [("HSO4", acid_form tot k h)]
  | _, _ => []
  end.

Definition get_ks (s : subst) (ks : dict T) : res (list T) := mapM (fun k => dgetE k ks) (s_ks s).

Definition run_subst (h : T) (totals ks : dict T) (c : dict T) (s : subst) : res (dict T) :=
  match dget (s_name s) totals with
  | None => Ok c
  | Some t => kk <- get_ks s ks ;; Ok (dupdate c (s_out s h t kk))
  end.

Fixpoint run_all (h : T) (totals ks : dict T) (l : list subst) (c : dict T) : res (dict T) :=
  match l with
  | [] => Ok c
  | s :: l' => c' <- run_subst h totals ks c s ;; run_all h totals ks l' c'
  end.

Definition start (h : T) (ks : dict T) : dict T :=
  ([("H", h)] ++ match dget "k_water" ks with Some kw => [("OH", kw ⊘ h)]%num | None => [] end)%list.

Lemma bind_assoc {A B C} (r : res A) (f : A -> res B) (g : B -> res C) :
  bind (bind r f) g = bind r (fun a => bind (f a) g).
Proof. destruct r; reflexivity. Qed.

Lemma bind_ext {A B} (r r' : res A) (f g : A -> res B) :
  r = r' -> (forall a, f a = g a) -> bind r f = bind r' g.
Proof. intros -> Hfg. destruct r'; cbn; auto. Qed.

Lemma bind_ret {A} (r : res A) : bind r Ok = r.
Proof. destruct r; reflexivity. Qed.

Ltac one_subst :=
  unfold run_subst, get_ks; cbn [s_name s_ks mapM];
  match goal with |- context [dget ?k ?t] => destruct (dget k t) end;
  [|reflexivity];
  repeat (match goal with |- context [dgetE ?k ?t] => destruct (dgetE k t) end; cbn [bind]; [|reflexivity]);
  reflexivity.

Lemma components_run pH totals ks scale :
  alkalinity_components pH totals ks scale =
  (_ <- assert_ (existsb (Z.eqb scale) [1; 2; 3]%Z) ;;
   run_all (npow10 (nopp pH)) totals ks (substs scale) (start (npow10 (nopp pH)) ks)).
Proof.
  unfold alkalinity_components. apply bind_ext; [reflexivity|intros _].
  set (h := npow10 (nopp pH)).
  assert (Hstart : match dget "k_water" ks with Some kw => dset "OH" (kw ⊘ h)%num [("H", h)] | None => [("H", h)] end
                   = start h ks).
  { unfold start. destruct (dget "k_water" ks); reflexivity. }
  rewrite Hstart. unfold substs. cbn [app run_all].
  apply bind_ext; [one_subst|intros c2].
  apply bind_ext; [one_subst|intros c3].
  apply bind_ext; [one_subst|intros c4].
  apply bind_ext; [one_subst|intros c5].
  apply bind_ext; [one_subst|intros c6].
  apply bind_ext; [one_subst|intros c7].
  apply bind_ext; [one_subst|intros c8].
  apply bind_ext; [one_subst|intros c9].
  destruct (existsb (Z.eqb scale) [1; 3]%Z).
  - cbn [app run_all]. apply bind_ext; [one_subst|intros c10].
    destruct (Z.eqb scale 3); cbn [run_all]; [|reflexivity].
    rewrite bind_ret. one_subst.
  - cbn [app bind run_all]. destruct (Z.eqb scale 3); cbn [run_all]; [|reflexivity].
    rewrite bind_ret. one_subst.
Qed.

(* the species actually produced for one substance *)
Definition out_of (h : T) (totals ks : dict T) (s : subst) : dict T :=
  match dget (s_name s) totals with
  | None => []
  | Some t => match get_ks s ks with Ok kk => s_out s h t kk | Err _ => [] end
  end.

Lemma get_ks_length s ks kk : get_ks s ks = Ok kk -> length kk = length (s_ks s).
Proof. intros E. apply mapM_ok in E as [E _]. exact E. Qed.

Lemma s_out_keys s h t kk : length kk = length (s_ks s) -> dkeys (s_out s h t kk) = s_species s.
Proof.
  destruct s; cbn [s_ks length]; intros E;
    repeat (destruct kk as [|? kk]; try discriminate E); reflexivity.
Qed.

Lemma out_of_keys h totals ks s k : In k (dkeys (out_of h totals ks s)) -> In k (s_species s).
Proof.
  unfold out_of. destruct (dget (s_name s) totals); [|intros []].
  destruct (get_ks s ks) eqn:E; [|intros []].
  rewrite s_out_keys by (eapply get_ks_length; eassumption). auto.
Qed.

Lemma dupdate_fresh {A} (c d : dict A) :
  NoDup (dkeys d) -> (forall k, In k (dkeys d) -> ~ In k (dkeys c)) -> dupdate c d = (c ++ d)%list.
Proof.
  unfold dupdate. revert c; induction d as [|[k v] d IH]; intros c Hnd Hf; cbn; [rewrite app_nil_r; reflexivity|].
  inversion Hnd as [|? ? Hni Hnd']; subst.
  assert (E : dset k v c = (c ++ [(k, v)])%list).
  { assert (Hk : ~ In k (dkeys c)) by (apply Hf; left; reflexivity). clear -Hk.
    induction c as [|[k' v'] c IH]; cbn; [reflexivity|].
    destruct (String.eqb_spec k k') as [->|Hn]; [exfalso; apply Hk; left; reflexivity|].
    rewrite IH; [reflexivity|]. intros Hin; apply Hk; right; assumption. }
  rewrite E. rewrite IH; [rewrite <- app_assoc; reflexivity|assumption|].
  intros k' Hk' Hin. unfold dkeys in Hin. rewrite map_app, in_app_iff in Hin. cbn in Hin.
  destruct Hin as [Hin|[<-|[]]]; [|contradiction]. apply (Hf k'); [right|]; assumption.
Qed.

Lemma nodup_app_split {A} (l l' : list A) :
  NoDup (l ++ l') -> NoDup l /\ NoDup l' /\ (forall x, In x l' -> ~ In x l).
Proof.
  induction l as [|x l IH]; cbn; intros Hn; [repeat split; auto; constructor|].
  inversion Hn as [|? ? Hni Hn']; subst. apply IH in Hn' as [H1 [H2 H3]].
  rewrite in_app_iff in Hni. repeat split; [constructor; tauto|assumption|].
  intros y Hy [<-|Hin]; [tauto|]. exact (H3 y Hy Hin).
Qed.

Lemma nodup_drop_mid {A} (l m r : list A) : NoDup (l ++ (m ++ r)) -> NoDup (l ++ r).
Proof.
  induction m as [|x m IH]; cbn; [auto|]. intros Hn. apply IH. eapply NoDup_remove_1. eassumption.
Qed.

Lemma run_all_closed h totals ks l c c' :
  NoDup (dkeys c ++ flat_map s_species l) ->
  run_all h totals ks l c = Ok c' ->
  c' = (c ++ flat_map (out_of h totals ks) l)%list.
Proof.
  revert c; induction l as [|s l IH]; intros c Hnd; cbn.
  - intros [= <-]. rewrite app_nil_r. reflexivity.
  - cbn in Hnd. unfold run_subst. unfold out_of at 1. destruct (dget (s_name s) totals) as [t|].
    + destruct (get_ks s ks) as [kk|] eqn:E; cbn [bind]; [|discriminate].
      pose proof (s_out_keys s h t kk (get_ks_length _ _ _ E)) as Hsk.
      pose proof Hnd as Hnd0.
      apply nodup_app_split in Hnd as [H1 [H2 H3]].
      apply nodup_app_split in H2 as [H4 [H5 H6]].
      rewrite dupdate_fresh; [|rewrite Hsk; assumption|].
      2:{ intros k. rewrite Hsk. intros Hk. apply H3. rewrite in_app_iff. auto. }
      intros Hr. apply IH in Hr; [rewrite Hr, app_assoc; reflexivity|].
      unfold dkeys. rewrite map_app. fold (dkeys c) (dkeys (s_out s h t kk)). rewrite Hsk.
      rewrite <- app_assoc. assumption.
    + cbn [bind app]. intros Hr. apply IH in Hr; [assumption|]. eapply nodup_drop_mid; eassumption.
Qed.

Lemma start_keys h ks : incl (dkeys (start h ks)) ["H"; "OH"].
Proof. unfold start. destruct (dget "k_water" ks); cbn; intros k Hk; cbn in *; tauto. Qed.

Lemma all_names_nodup h ks scale : NoDup (dkeys (start h ks) ++ flat_map s_species (substs scale)).
Proof.
  unfold start, substs. destruct (dget "k_water" ks);
    destruct (existsb (Z.eqb scale) [1; 3]%Z); destruct (Z.eqb scale 3); cbn;
    repeat constructor; cbn; intuition discriminate.
Qed.

Lemma components_closed pH totals ks scale c :
  alkalinity_components pH totals ks scale = Ok c ->
  c = (start (npow10 (nopp pH)) ks
         ++ flat_map (out_of (npow10 (nopp pH)) totals ks) (substs scale))%list.
Proof.
  rewrite components_run. destruct (existsb (Z.eqb scale) [1; 2; 3]%Z); cbn [assert_ bind]; [|discriminate].
  intros Hr. eapply run_all_closed; [|eassumption]. apply all_names_nodup.
Qed.

(* success *)
Definition ks_present (totals ks : dict T) (s : subst) : Prop :=
  dmem (s_name s) totals = true -> forall k, In k (s_ks s) -> dmem k ks = true.

Lemma get_ks_ok s (ks : dict T) : (exists kk, get_ks s ks = Ok kk) <-> forall k, In k (s_ks s) -> dmem k ks = true.
Proof.
  unfold get_ks. split.
  - intros [kk E] k Hk. apply mapM_ok in E as [_ E]. apply In_nth_error in Hk as [i Hi].
    destruct (E _ _ Hi) as [y [_ Ey]]. unfold dgetE in Ey. unfold dmem. destruct (dget k ks); [reflexivity|discriminate].
  - intros Hp. apply mapM_total. intros k Hk. specialize (Hp k Hk). unfold dmem in Hp. unfold dgetE.
    destruct (dget k ks); [cbn; eauto|discriminate].
Qed.

Lemma run_all_ok h totals ks l c :
  (exists c', run_all h totals ks l c = Ok c') <-> forall s, In s l -> ks_present totals ks s.
Proof.
  revert c; induction l as [|s l IH]; intros c; cbn.
  - split; [intros _ s []|eauto].
  - unfold run_subst at 1. split.
    + intros [c' Hr] s' [<-|Hs'].
      * unfold ks_present, dmem. destruct (dget (s_name s) totals) as [t|]; [|discriminate].
        intros _. destruct (get_ks s ks) eqn:E; cbn in Hr; [|discriminate].
        apply get_ks_ok. eauto.
      * destruct (dget (s_name s) totals) as [t|]; cbn [bind] in Hr.
        -- destruct (get_ks s ks); cbn [bind] in Hr; [|discriminate]. eapply IH; eauto.
        -- eapply IH; eauto.
    + intros Hall. destruct (dget (s_name s) totals) as [t|] eqn:Et; cbn [bind].
      * destruct (proj2 (get_ks_ok s ks)) as [kk Ekk].
        { apply (Hall s (or_introl eq_refl)). unfold dmem. rewrite Et. reflexivity. }
        rewrite Ekk. cbn [bind]. apply IH. exact (fun s' Hs' => Hall s' (or_intror Hs')).
      * apply IH. exact (fun s' Hs' => Hall s' (or_intror Hs')).
Qed.

Lemma mult_known s k : In k (s_species s) -> exists m, dget k component_multipliers = Some m.
Proof. destruct s; cbn; intuition (subst; cbn; eauto). Qed.

Lemma weighted_sum_total (d : dict T) :
  (forall k, In k (dkeys d) -> exists m, dget k component_multipliers = Some m) ->
  exists a, weighted_sum d = Ok a.
Proof.
  intros Hk. unfold weighted_sum.
  destruct (mapM_total (fun kv => m <- dgetE (fst kv) component_multipliers ;; Ok (snd kv ⊗ nofZ m)%num) d) as [l ->].
  - intros [k v] Hin. cbn [fst snd]. destruct (Hk k) as [m Hm].
    { unfold dkeys. apply in_map_iff. exists (k, v). auto. }
    unfold dgetE. rewrite Hm. cbn. eauto.
  - cbn. eauto.
Qed.

Lemma components_keys_known pH totals ks scale c k :
  alkalinity_components pH totals ks scale = Ok c -> In k (dkeys c) ->
  exists m, dget k component_multipliers = Some m.
Proof.
  intros Hc. apply components_closed in Hc. subst c.
  unfold dkeys. rewrite map_app, in_app_iff. intros [Hk|Hk].
  - apply start_keys in Hk. cbn in Hk. destruct Hk as [<-|[<-|[]]]; cbn; eauto.
  - apply in_map_iff in Hk as [[k' v] [E Hk]]. cbn in E; subst k'. apply in_flat_map in Hk as [s [Hs Hk]].
    eapply mult_known. eapply (out_of_keys (npow10 (nopp pH)) totals ks s). unfold dkeys. apply in_map_iff. exists (k, v). auto.
Qed.

(* looking up a species in the result *)
Lemma dget_app {A} k (d d' : dict A) :
  dget k (d ++ d')%list = match dget k d with Some v => Some v | None => dget k d' end.
Proof.
  induction d as [|[k' v'] d IH]; cbn; [reflexivity|]. destruct (String.eqb k k'); auto.
Qed.

Lemma dget_notin {A} k (d : dict A) : ~ In k (dkeys d) -> dget k d = None.
Proof. intros Hk. apply dmem_false_get. destruct (dmem k d) eqn:E; [|reflexivity]. apply dget_in_keys in E. contradiction. Qed.

Lemma s_species_inj s s' k : In k (s_species s) -> In k (s_species s') -> s = s'.
Proof. destruct s, s'; cbn; intuition (subst; discriminate || reflexivity). Qed.

Lemma species_not_HOH s k : In k (s_species s) -> ~ In k ["H"; "OH"].
Proof. destruct s; cbn; intuition (subst; discriminate). Qed.

Lemma components_get pH totals ks scale c s k :
  alkalinity_components pH totals ks scale = Ok c -> In s (substs scale) -> In k (s_species s) ->
  dget k c = dget k (out_of (npow10 (nopp pH)) totals ks s).
Proof.
  intros Hc Hs Hk. apply components_closed in Hc. subst c. set (h := npow10 (nopp pH)).
  rewrite dget_app. rewrite (dget_notin k (start h ks)).
  2:{ intros Hin. apply start_keys in Hin. exact (species_not_HOH s k Hk Hin). }
  revert Hs. induction (substs scale) as [|s' l IH]; [intros []|].
  cbn [flat_map]. rewrite dget_app. intros Hin.
  assert (Hdec : s = s' \/ s <> s') by (destruct s, s'; (left; reflexivity) || (right; discriminate)).
  destruct Hdec as [<-|Hne].
  - destruct (dget k (out_of h totals ks s)) eqn:E; [reflexivity|].
    destruct (in_dec (fun a b : subst => ltac:(decide equality)) s l) as [Hin'|Hni].
    + exact (IH Hin').
    + apply dget_notin. intros Hc. unfold dkeys in Hc. apply in_map_iff in Hc as [[k' v] [E' Hc]]. cbn in E'; subst k'.
      apply in_flat_map in Hc as [s'' [Hs'' Hc]].
      assert (In k (s_species s'')).
      { eapply (out_of_keys h totals ks s''). unfold dkeys. apply in_map_iff. exists (k, v); auto. }
      assert (s = s'') by (eapply s_species_inj; eassumption). subst s''. contradiction.
  - destruct Hin as [<-|Hin]; [contradiction|].
    rewrite (dget_notin k (out_of h totals ks s')); [apply IH; assumption|].
    intros Hc. apply out_of_keys in Hc. apply Hne. eapply s_species_inj; eassumption.
Qed.

Lemma components_H pH totals ks scale c :
  alkalinity_components pH totals ks scale = Ok c -> dget "H" c = Some (npow10 (nopp pH)).
Proof. intros Hc. apply components_closed in Hc. subst c. reflexivity. Qed.

Lemma components_OH pH totals ks scale c :
  alkalinity_components pH totals ks scale = Ok c ->
  dget "OH" c = match dget "k_water" ks with Some kw => Some (kw ⊘ npow10 (nopp pH))%num | None => None end.
Proof.
  intros Hc. apply components_closed in Hc. subst c. rewrite dget_app. unfold start.
  destruct (dget "k_water" ks) eqn:E; [reflexivity|]. cbn [app dget String.eqb Ascii.eqb Bool.eqb].
  apply dget_notin. intros Hc. unfold dkeys in Hc. apply in_map_iff in Hc as [[k' v] [E' Hc]]. cbn in E'; subst k'.
  apply in_flat_map in Hc as [s [Hs Hc]].
  assert (In "OH" (s_species s)).
  { eapply (out_of_keys (npow10 (nopp pH)) totals ks s). unfold dkeys. apply in_map_iff. exists ("OH", v); auto. }
  eapply species_not_HOH; [eassumption|]. cbn. auto.
Qed.

Lemma components_nothing_else pH totals ks scale c k :
  alkalinity_components pH totals ks scale = Ok c -> dmem k c = true ->
  k = "H" \/ k = "OH" \/ exists s, In s (substs scale) /\ dmem (s_name s) totals = true /\ In k (s_species s).
Proof.
  intros Hc Hk. apply components_closed in Hc. subst c. apply dget_in_keys in Hk.
  unfold dkeys in Hk. rewrite map_app, in_app_iff in Hk. destruct Hk as [Hk|Hk].
  - apply start_keys in Hk. cbn in Hk. tauto || (destruct Hk as [<-|[<-|[]]]; auto).
  - apply in_map_iff in Hk as [[k' v] [E Hk]]. cbn in E; subst k'. apply in_flat_map in Hk as [s [Hs Hk]].
    right; right. exists s. split; [assumption|].
    assert (Hin : In k (dkeys (out_of (npow10 (nopp pH)) totals ks s))).
    { unfold dkeys. apply in_map_iff. exists (k, v). auto. }
    split; [|apply out_of_keys in Hin; assumption].
    unfold out_of in Hin. unfold dmem. destruct (dget (s_name s) totals); [reflexivity|destruct Hin].
Qed.

End Closed.

(* ------------------------------------------------------------------ *)
(** * on finite numbers *)

Definition pK_low (k : R) : bool := if Rle_dec (- log10R k) 4.5 then true else false.

(* contribution of one substance to alkalinity, as a function of h *)
Definition contrR (s : subst) (t : R) (kk : list R) (h : R) : R :=
  match s, kk with
  | DIC, [k1; k2] => t * (k1 * h + 2 * (k1 * k2)) / (h ^ 2 + k1 * h + k1 * k2)
  | Phosphate, [a; b; c] =>
      t * (- h ^ 3 + a * b * h + 2 * (a * b * c)) / (h ^ 3 + a * h ^ 2 + a * b * h + a * b * c)
  | (Borate | Silicate | Ammonia | Sulfide), [k] => t * k / (k + h)
  | (Alpha | Beta), [k] => if pK_low k then - (t * h / (k + h)) else t * k / (k + h)
  | (Fluoride | Sulfate), [k] => - (t * h / (k + h))
  | _, _ => 0
  end.

(* species of one substance, as reals *)
Definition outR (s : subst) (t : R) (kk : list R) (h : R) : list (string * R) :=
  match s, kk with
  | DIC, [k1; k2] =>
      let d := h ^ 2 + k1 * h + k1 * k2 in
      [("CO2", t * h ^ 2 / d); ("HCO3", t * k1 * h / d); ("CO3", t * k1 * k2 / d)]
  | Phosphate, [a; b; c] =>
      let d := h ^ 3 + a * h ^ 2 + a * b * h + a * b * c in
      [("H3PO4", t * h ^ 3 / d); ("HPO4", t * a * b * h / d); ("PO4", t * a * b * c / d)]
  | Borate, [k] => [("BOH4", t * k / (k + h))]
  | Silicate, [k] => [("H3SiO4", t * k / (k + h))]
  | Ammonia, [k] => [("NH3", t * k / (k + h))]
  | Sulfide, [k] => [("HS", t * k / (k + h))]
  | Alpha, [k] => [("alk_alpha", if pK_low k then - (t - t * k / (k + h)) else t * k / (k + h))]
  | Beta, [k] => [("alk_beta", if pK_low k then - (t - t * k / (k + h)) else t * k / (k + h))]
  | Fluoride, [k] => [("HF", t * h / (k + h))]
  | Sulfate, [k] => [("HSO4", t * h / (k + h))]
  | _, _ => []
  end.

Lemma zlp_form_fin t k h : 0 < k -> 0 < h ->
  zlp_form (Fin t) (Fin k) (Fin h) = Fin (if pK_low k then - (t - t * k / (k + h)) else t * k / (k + h)).
Proof.
  intros Hk Hh. unfold zlp_form, zlp. xsimp. rewrite fin_div by lra. rewrite fin_log10 by assumption. xsimp.
  unfold pK_low. destruct (Rle_dec (- log10R k) 4.5) as [Hle|Hgt].
  - rewrite x_leb_fin_t; [reflexivity|]. exact Hle.
  - rewrite x_leb_fin_f; [reflexivity|]. apply Rnot_le_lt. exact Hgt.
Qed.

Lemma base_form_fin t k h : 0 < k -> 0 < h -> base_form (Fin t) (Fin k) (Fin h) = Fin (t * k / (k + h)).
Proof. intros Hk Hh. unfold base_form. xsimp. rewrite fin_div by lra. reflexivity. Qed.
Lemma acid_form_fin t k h : 0 < k -> 0 < h -> acid_form (Fin t) (Fin k) (Fin h) = Fin (t * h / (k + h)).
Proof. intros Hk Hh. unfold acid_form. xsimp. rewrite fin_div by lra. reflexivity. Qed.

Lemma dic_denom_pos k1 k2 h : 0 < k1 -> 0 < k2 -> 0 < h -> 0 < h ^ 2 + k1 * h + k1 * k2.
Proof.
  intros. assert (0 < h ^ 2) by (apply pow_lt; assumption). assert (0 < k1 * h) by nra.
  assert (0 < k1 * k2) by nra. lra.
Qed.
Lemma po4_denom_pos a b c h : 0 < a -> 0 < b -> 0 < c -> 0 < h ->
  0 < h ^ 3 + a * h ^ 2 + a * b * h + a * b * c.
Proof.
  intros. assert (0 < h ^ 3) by (apply pow_lt; assumption). assert (0 < h ^ 2) by (apply pow_lt; assumption).
  assert (0 < a * h ^ 2) by nra. assert (0 < a * b) by nra. assert (0 < a * b * h) by nra.
  assert (0 < a * b * c) by nra. lra.
Qed.

Lemma s_out_fin s t kk h : 0 < h -> Forall (fun k => 0 < k) kk -> length kk = length (s_ks s) ->
  s_out s (Fin h) (Fin t) (map Fin kk) = dmap Fin (outR s t kk h).
Proof.
  intros Hh Hkk Hlen.
  destruct s; cbn [s_ks length] in Hlen;
    repeat (destruct kk as [|? kk]; try discriminate Hlen);
    repeat match goal with H : Forall _ (_ :: _) |- _ => inversion H; clear H; subst end;
    cbn [map s_out outR dmap fst snd];
    try (rewrite base_form_fin by assumption; reflexivity);
    try (rewrite zlp_form_fin by assumption; reflexivity);
    try (rewrite acid_form_fin by assumption; reflexivity).
  - (* DIC *)
    pose proof (dic_denom_pos r r0 h) as Hd. specialize (Hd ltac:(assumption) ltac:(assumption) Hh).
    assert (Hh2 : h ^ 2 <> 0) by (apply pow_nonzero; lra).
    xsimp. rewrite !fin_div by lra. xsimp.
    assert (E : Q2R 1 + r / h + r * r0 / h ^ 2 = (h ^ 2 + r * h + r * r0) / h ^ 2) by (q2r; field; lra).
    rewrite E.
    assert (Hne : (h ^ 2 + r * h + r * r0) / h ^ 2 <> 0).
    { apply Rmult_integral_contrapositive_currified; [lra|]. apply Rinv_neq_0_compat. assumption. }
    rewrite !fin_div by assumption. xsimp. rewrite !fin_div by lra. xsimp. rewrite !fin_div by lra.
    assert (L : forall a b c a' b' c', a = a' -> b = b' -> c = c' ->
              [("CO2", Fin a); ("HCO3", Fin b); ("CO3", Fin c)] = [("CO2", Fin a'); ("HCO3", Fin b'); ("CO3", Fin c')])
      by (intros; congruence).
    unfold dmap; cbn [map fst snd]. apply L; field; lra.
  - (* phosphate *)
    pose proof (po4_denom_pos r r0 r1 h) as Hd.
    specialize (Hd ltac:(assumption) ltac:(assumption) ltac:(assumption) Hh).
    xsimp. rewrite !fin_div by lra. reflexivity.
Qed.

(* Σ multiplier × content *)
Definition mult (k : string) : R := match dget k component_multipliers with Some m => IZR m | None => 0 end.
Definition wsumR (d : list (string * R)) : R := Rsum (map (fun kv => snd kv * mult (fst kv)) d).

Lemma wsumR_app d d' : wsumR (d ++ d') = wsumR d + wsumR d'.
Proof. unfold wsumR. rewrite map_app. apply Rsum_app. Qed.

Lemma weighted_sum_fin d :
  (forall k, In k (dkeys d) -> exists m, dget k component_multipliers = Some m) ->
  weighted_sum (dmap Fin d) = Ok (Fin (wsumR d)).
Proof.
  intros Hk. unfold weighted_sum.
  rewrite (mapM_map _ (fun kv : string * xr => (snd kv ⊗ nofZ (match dget (fst kv) component_multipliers with Some m => m | None => 0%Z end))%num)).
  - cbn [bind]. f_equal. unfold wsumR. rewrite <- nsum_fin. f_equal. unfold dmap. rewrite !map_map.
    apply map_ext. intros [k v]. cbn [fst snd]. rewrite fin_Z, fin_mul. unfold mult.
    destruct (dget k component_multipliers); reflexivity.
  - intros [k v] Hin. cbn [fst snd]. destruct (Hk k) as [m Hm].
    { rewrite <- (dkeys_dmap Fin). unfold dkeys. apply in_map_iff. exists (k, v); auto. }
    unfold dgetE. rewrite Hm. reflexivity.
Qed.

Lemma wsumR_outR s t kk h : 0 < h -> Forall (fun k => 0 < k) kk -> length kk = length (s_ks s) ->
  wsumR (outR s t kk h) = contrR s t kk h.
Proof.
  intros Hh Hkk Hlen.
  destruct s; cbn [s_ks length] in Hlen;
    repeat (destruct kk as [|? kk]; try discriminate Hlen);
    repeat match goal with H : Forall _ (_ :: _) |- _ => inversion H; clear H; subst end;
    unfold wsumR, mult; cbn -[Rplus Rmult Rdiv IZR pow pK_low].
  - pose proof (dic_denom_pos r r0 h) as Hd. specialize (Hd ltac:(assumption) ltac:(assumption) Hh).
    field. lra.
  - field. lra.
  - pose proof (po4_denom_pos r r0 r1 h) as Hd.
    specialize (Hd ltac:(assumption) ltac:(assumption) ltac:(assumption) Hh). field. lra.
  - field. lra.
  - field. lra.
  - field. lra.
  - destruct (pK_low r); field; lra.
  - destruct (pK_low r); field; lra.
  - field. lra.
  - field. lra.
Qed.

(* real-valued view of totals and constants *)
Definition tot_ok (totals : dict xr) : Prop := forall s v, dget (s_name s) totals = Some v -> exists r, v = Fin r.
Definition ks_ok (ks : dict xr) : Prop :=
  (forall s k v, In k (s_ks s) -> dget k ks = Some v -> exists r, v = Fin r /\ 0 < r) /\
  (forall v, dget "k_water" ks = Some v -> exists r, v = Fin r /\ 0 < r).

Definition unfin (x : xr) : R := match x with Fin r => r | _ => 0 end.

Definition contr (totals ks : dict xr) (s : subst) (h : R) : R :=
  match dget (s_name s) totals with
  | None => 0
  | Some t => match get_ks s ks with
              | Ok kk => contrR s (unfin t) (map unfin kk) h
              | Err _ => 0
              end
  end.

Definition waterR (ks : dict xr) (h : R) : R :=
  match dget "k_water" ks with Some kw => unfin kw / h | None => 0 end.

(* total alkalinity as a real function of h *)
Definition alkR (totals ks : dict xr) (scale : Z) (h : R) : R :=
  - h + waterR ks h + Rsum (map (fun s => contr totals ks s h) (substs scale)).

Lemma get_ks_fin s ks kk : ks_ok ks -> get_ks s ks = Ok kk ->
  kk = map Fin (map unfin kk) /\ Forall (fun k => 0 < k) (map unfin kk).
Proof.
  intros [Hks _] E. unfold get_ks in E. apply mapM_ok in E as [Hlen E].
  assert (Hall : forall v, In v kk -> exists r, v = Fin r /\ 0 < r).
  { intros v Hv. apply In_nth_error in Hv as [i Hi].
    destruct (nth_error (s_ks s) i) as [k|] eqn:Ek.
    - destruct (E _ _ Ek) as [y [Hy Ey]]. assert (y = v) by congruence. subst y.
      unfold dgetE in Ey. destruct (dget k ks) as [w|] eqn:Ew; [|discriminate]. injection Ey as ->.
      eapply Hks; [|eassumption]. eapply nth_error_In; eassumption.
    - apply nth_error_None in Ek. assert (nth_error kk i <> None) by congruence.
      apply nth_error_Some in H. lia. }
  clear E Hlen. split.
  - induction kk as [|v kk IH]; [reflexivity|]. cbn. destruct (Hall v (or_introl eq_refl)) as [r [-> _]]. cbn.
    f_equal. apply IH. intros; apply Hall; right; assumption.
  - apply Forall_forall. intros r Hr. apply in_map_iff in Hr as [v [<- Hv]].
    destruct (Hall v Hv) as [r [-> Hr]]. assumption.
Qed.

Definition outsR (totals ks : dict xr) (h : R) (s : subst) : list (string * R) :=
  match dget (s_name s) totals with
  | None => []
  | Some t => match get_ks s ks with Ok kk => outR s (unfin t) (map unfin kk) h | Err _ => [] end
  end.

Lemma out_of_fin totals ks s h : tot_ok totals -> ks_ok ks -> 0 < h ->
  out_of (Fin h) totals ks s = dmap Fin (outsR totals ks h s) /\
  wsumR (outsR totals ks h s) = contr totals ks s h.
Proof.
  intros Ht Hk Hh. unfold out_of, outsR, contr. destruct (dget (s_name s) totals) as [t|] eqn:Et; [|split; reflexivity].
  destruct (get_ks s ks) as [kk|] eqn:Ek; [|split; reflexivity].
  destruct (Ht s t Et) as [r ->]. cbn [unfin].
  destruct (get_ks_fin s ks kk Hk Ek) as [E Hpos].
  assert (Hlen : length (map unfin kk) = length (s_ks s))
    by (rewrite map_length; eapply get_ks_length; eassumption).
  split.
  - rewrite E at 1. apply s_out_fin; assumption.
  - apply wsumR_outR; assumption.
Qed.

Lemma alkalinity_fin p totals ks scale c :
  tot_ok totals -> ks_ok ks -> alkalinity_components (Fin p) totals ks scale = Ok c ->
  alkalinity (Fin p) totals ks scale = Ok (Fin (alkR totals ks scale (pow10R (- p)))).
Proof.
  intros Ht Hk Hc. unfold alkalinity. rewrite Hc. cbn [bind].
  assert (Hknown : forall k, In k (dkeys c) -> exists m, dget k component_multipliers = Some m).
  { intros k. eapply components_keys_known. eassumption. }
  apply components_closed in Hc. rewrite fin_opp, fin_pow10 in Hc.
  set (h := pow10R (- p)) in *. assert (Hh : 0 < h) by apply pow10R_pos.
  set (st := ([("H", h)] ++ match dget "k_water" ks with Some kw => [("OH", unfin kw / h)] | None => [] end)%list : list (string * R)).
  assert (Hst : start (Fin h) ks = dmap Fin st).
  { unfold start, st. destruct (dget "k_water" ks) as [kw|] eqn:Ekw; [|reflexivity].
    destruct (proj2 Hk kw Ekw) as [r [-> Hr]]. cbn [unfin app dmap map fst snd].
    rewrite fin_div by lra. reflexivity. }
  assert (Hfl : flat_map (out_of (Fin h) totals ks) (substs scale)
                = dmap Fin (flat_map (outsR totals ks h) (substs scale)) /\
                wsumR (flat_map (outsR totals ks h) (substs scale))
                = Rsum (map (fun s => contr totals ks s h) (substs scale))).
  { clear Hc. induction (substs scale) as [|s l [IH1 IH2]]; [split; reflexivity|]. cbn [flat_map map].
    destruct (out_of_fin totals ks s h Ht Hk Hh) as [E1 E2]. split.
    - rewrite E1, IH1. unfold dmap. rewrite map_app. reflexivity.
    - rewrite wsumR_app, E2, IH2, Rsum_cons. reflexivity. }
  destruct Hfl as [Hfl Hws]. rewrite Hst, Hfl in Hc.
  assert (Ec : c = dmap Fin (st ++ flat_map (outsR totals ks h) (substs scale))).
  { rewrite Hc. unfold dmap. rewrite map_app. reflexivity. }
  rewrite Ec in *. rewrite weighted_sum_fin.
  2:{ intros k Hin. apply Hknown. rewrite dkeys_dmap. assumption. }
  do 2 f_equal. rewrite wsumR_app, Hws. unfold alkR. f_equal.
  unfold st, waterR. destruct (dget "k_water" ks); unfold wsumR, mult; cbn -[Rplus Rmult Rdiv IZR]; lra.
Qed.
