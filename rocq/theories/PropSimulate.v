(* PropSimulate.v -- C15-C24: speciation and the alkalinity equation *)
From Coq Require Import Reals Qreals Lra.
From Verif Require Import SimMono SpecSimulate.
Open Scope list_scope.
Open Scope R_scope.

(* ------------------------------------------------------------------ *)
(* glue between the specification and the closed forms *)
Lemma h_of_pow p : h_of p = pow10R (- p).
Proof. reflexivity. Qed.
Lemma h_of_pos p : 0 < h_of p.
Proof. apply pow10R_pos. Qed.
Lemma nonneg_nn totals : nonneg_totals totals -> tot_nn totals.
Proof. intros Hn s v E. eauto. Qed.
Lemma pos_ok ks : pos_constants ks -> ks_ok ks.
Proof. intros Hp. split; [intros s k v _ E; eauto|intros v E; eauto]. Qed.

Lemma npow10_h p : npow10 (nopp (Fin p)) = Fin (h_of p).
Proof. reflexivity. Qed.

Lemma needs_substs scale : needs scale = map (fun s => (s_name s, s_ks s)) (substs scale).
Proof. unfold needs, substs. cbn [existsb]. rewrite orb_false_r.
  destruct (scale =? 1)%Z, (scale =? 3)%Z; reflexivity. Qed.

Lemma scale_ok pH totals ks scale (c : dict xr) :
  alkalinity_components pH totals ks scale = Ok c -> In scale [1; 2; 3]%Z.
Proof.
  unfold alkalinity_components. destruct (existsb (Z.eqb scale) [1; 2; 3]%Z) eqn:E; cbn [assert_ bind]; [|discriminate].
  intros _. apply existsb_exists in E as [x [Hx E]]. apply Z.eqb_eq in E. subst. assumption.
Qed.

(* a substance that the chosen scale takes into account *)
Lemma basic_subst scale s : In s [DIC; Borate; Phosphate; Silicate; Ammonia; Sulfide; Alpha; Beta] ->
  In s (substs scale).
Proof. intros Hs. unfold substs. apply in_or_app. left. assumption. Qed.

Lemma get_out pH totals ks scale c s t kk k :
  alkalinity_components (Fin pH) totals ks scale = Ok c ->
  In s (substs scale) -> dget (s_name s) totals = Some (Fin t) ->
  get_ks s ks = Ok (map Fin kk) -> Forall (fun k => 0 < k) kk -> In k (s_species s) ->
  dget k c = dget k (dmap Fin (outR s t kk (h_of pH))).
Proof.
  intros Hc Hs Ht Hk Hpos Hin. rewrite (components_get _ _ _ _ _ s k Hc Hs Hin).
  rewrite npow10_h. unfold out_of. rewrite Ht, Hk. f_equal. apply s_out_fin; [apply h_of_pos|assumption|].
  apply get_ks_length in Hk. rewrite map_length in Hk. assumption.
Qed.

Ltac solve_ks :=
  unfold get_ks; cbn [s_ks mapM dgetE];
  repeat match goal with H : dget ?k ?ks = Some _ |- context [dget ?k ?ks] => rewrite H end;
  reflexivity.

(* ------------------------------------------------------------------ *)
(** * C15 carbonate system *)

Theorem C15_carbonate_speciation : forall pH totals ks scale c dic k1 k2,
  alkalinity_components (Fin pH) totals ks scale = Ok c ->
  dget "dic" totals = Some (Fin dic) ->
  dget "k_carbonic_1" ks = Some (Fin k1) -> dget "k_carbonic_2" ks = Some (Fin k2) -> 0 < k1 -> 0 < k2 ->
  exists co2 hco3 co3,
    dget "H" c = Some (Fin (h_of pH)) /\
    dget "CO2" c = Some (Fin co2) /\ dget "HCO3" c = Some (Fin hco3) /\ dget "CO3" c = Some (Fin co3) /\
    co2 + hco3 + co3 = dic /\
    h_of pH * hco3 = k1 * co2 /\ h_of pH * co3 = k2 * hco3.
Proof.
  intros pH totals ks scale c dic k1 k2 Hc Hd H1 H2 Hp1 Hp2.
  set (h := h_of pH). assert (Hh : 0 < h) by apply h_of_pos.
  pose proof (dic_denom_pos k1 k2 h Hp1 Hp2 Hh) as Hden.
  assert (Hk : get_ks DIC ks = Ok (map Fin [k1; k2])).
  { unfold get_ks. cbn [s_ks mapM]. unfold dgetE. rewrite H1, H2. reflexivity. }
  assert (Hg := fun k => get_out pH totals ks scale c DIC dic [k1; k2] k Hc
                           (basic_subst scale DIC ltac:(cbn; tauto)) Hd Hk ltac:(repeat constructor; assumption)).
  exists (dic * h ^ 2 / (h ^ 2 + k1 * h + k1 * k2)), (dic * k1 * h / (h ^ 2 + k1 * h + k1 * k2)),
         (dic * k1 * k2 / (h ^ 2 + k1 * h + k1 * k2)).
  split; [exact (components_H _ _ _ _ _ Hc)|].
  split; [rewrite Hg by (cbn; tauto); reflexivity|].
  split; [rewrite Hg by (cbn; tauto); reflexivity|].
  split; [rewrite Hg by (cbn; tauto); reflexivity|].
  repeat split; field; lra.
Qed.
Print Assumptions C15_carbonate_speciation.

(* a solution with everything in it, used for the non-vacuity examples *)
Definition ex_totals : dict xr :=
  [("dic", Fin 0.002); ("total_borate", Fin 0.0004); ("total_phosphate", Fin 0.00001);
   ("total_silicate", Fin 0.00002); ("total_ammonia", Fin 0); ("total_sulfide", Fin 0.000001);
   ("total_alpha", Fin 0.00001); ("total_beta", Fin 0.00001);
   ("total_fluoride", Fin 0.00007); ("total_sulfate", Fin 0.028)]%R.
Definition ex_ks : dict xr :=
  [("k_water", Fin 0.0001); ("k_carbonic_1", Fin 0.01); ("k_carbonic_2", Fin 0.001); ("k_borate", Fin 0.002);
   ("k_phosphoric_1", Fin 0.02); ("k_phosphoric_2", Fin 0.01); ("k_phosphoric_3", Fin 0.001);
   ("k_silicate", Fin 0.001); ("k_ammonia", Fin 0.003); ("k_sulfide", Fin 0.004);
   ("k_alpha", Fin 0.1); ("k_beta", Fin 0.01);
   ("k_fluoride", Fin 0.005); ("k_bisulfate", Fin 0.1)]%R.

Lemma dget_forall {A} (P : A -> Prop) (d : dict A) :
  Forall (fun kv => P (snd kv)) d -> forall k v, dget k d = Some v -> P v.
Proof.
  intros HF k v E. apply dget_in in E. rewrite Forall_forall in HF. apply (HF (k, v) E).
Qed.

Lemma ex_totals_nonneg : nonneg_totals ex_totals.
Proof.
  intros k v E. revert E. apply (dget_forall (fun v => exists r, v = Fin r /\ 0 <= r)).
  repeat (constructor; [cbn [snd]; eexists; split; [reflexivity|q2r; lra]|]). constructor.
Qed.
Lemma ex_ks_pos : pos_constants ex_ks.
Proof.
  intros k v E. revert E. apply (dget_forall (fun v => exists r, v = Fin r /\ 0 < r)).
  repeat (constructor; [cbn [snd]; eexists; split; [reflexivity|q2r; lra]|]). constructor.
Qed.

Example C15_nonvacuous : exists c,
  alkalinity_components (Fin 5) ex_totals ex_ks 3 = Ok c /\
  dget "dic" ex_totals = Some (Fin 0.002) /\ dget "k_carbonic_1" ex_ks = Some (Fin 0.01) /\ 0 < 0.01.
Proof. eexists. repeat split; try reflexivity. q2r; lra. Qed.

(* ------------------------------------------------------------------ *)
(** * C23 when alkalinity raises *)

Section C23.
Context {T : Type} `{Num T}.

(* for any number type: alkalinity succeeds exactly when the scale is one of
   1, 2, 3 and every substance present has its constants *)
Theorem C23_raises_exactly_when : forall (pH : T) totals ks scale,
  (exists a, alkalinity pH totals ks scale = Ok a) <->
  (In scale [1; 2; 3]%Z /\
   forall subst constants, In (subst, constants) (needs scale) -> dmem subst totals = true ->
     forall k, In k constants -> dmem k ks = true).
Proof.
  intros pH totals ks scale. unfold alkalinity. rewrite components_run.
  assert (Hneeds : (forall s, In s (substs scale) -> ks_present totals ks s) <->
                   (forall subst constants, In (subst, constants) (needs scale) -> dmem subst totals = true ->
                      forall k, In k constants -> dmem k ks = true)).
  { rewrite needs_substs. split.
    - intros Hp n cs Hin. apply in_map_iff in Hin as [s [E Hs]]. injection E as <- <-. exact (Hp s Hs).
    - intros Hp s Hs. unfold ks_present. apply Hp. apply in_map_iff. exists s. auto. }
  split.
  - intros [a Ha]. destruct (existsb (Z.eqb scale) [1; 2; 3]%Z) eqn:Es; cbn [assert_ bind] in Ha; [|discriminate].
    split.
    + apply existsb_exists in Es as [x [Hx E]]. apply Z.eqb_eq in E. subst. assumption.
    + apply Hneeds. apply (run_all_ok (npow10 (nopp pH)) totals ks (substs scale) (start (npow10 (nopp pH)) ks)).
      destruct (run_all _ _ _ _ _); cbn in Ha; [eauto|discriminate].
  - intros [Hs Hn]. assert (Es : existsb (Z.eqb scale) [1; 2; 3]%Z = true).
    { apply existsb_exists. exists scale. split; [assumption|apply Z.eqb_refl]. }
    rewrite Es. cbn [assert_ bind].
    pose proof (proj2 Hneeds Hn) as Hn'. clear Hn. rename Hn' into Hn.
    destruct (proj2 (run_all_ok (npow10 (nopp pH)) totals ks (substs scale) (start (npow10 (nopp pH)) ks)) Hn) as [c Hc].
    rewrite Hc. cbn [bind]. apply weighted_sum_total.
    intros k Hk. eapply (components_keys_known pH totals ks scale c); [|eassumption].
    rewrite components_run, Es. exact Hc.
Qed.

(* the sum itself never lacks a multiplier *)
Theorem C23_multipliers_complete : forall (pH : T) totals ks scale c,
  alkalinity_components pH totals ks scale = Ok c ->
  (exists a, alkalinity pH totals ks scale = Ok a) /\
  (forall k, dmem k c = true -> dmem k component_multipliers = true).
Proof.
  intros pH totals ks scale c Hc. split.
  - unfold alkalinity. rewrite Hc. cbn [bind]. apply weighted_sum_total.
    intros k Hk. eapply components_keys_known; eassumption.
  - intros k Hk. apply dget_in_keys in Hk. destruct (components_keys_known _ _ _ _ _ _ Hc Hk) as [m Hm].
    unfold dmem. rewrite Hm. reflexivity.
Qed.

(* and the exception is the documented one *)
Theorem C23_which_exception : forall (pH : T) totals ks scale e,
  alkalinity pH totals ks scale = Err e ->
  (~ In scale [1; 2; 3]%Z /\ e = AssertionError) \/
  (In scale [1; 2; 3]%Z /\ exists subst constants k,
     In (subst, constants) (needs scale) /\ dmem subst totals = true /\ In k constants /\
     dmem k ks = false /\ e = KeyError k).
Proof.
  intros pH totals ks scale e. unfold alkalinity.
  destruct (alkalinity_components pH totals ks scale) as [c|e'] eqn:Hc; cbn [bind].
  - intros He. destruct (C23_multipliers_complete _ _ _ _ _ Hc) as [[a Ha] _].
    unfold alkalinity in Ha. rewrite Hc in Ha. cbn [bind] in Ha. congruence.
  - intros [= <-]. revert Hc. rewrite components_run.
    destruct (existsb (Z.eqb scale) [1; 2; 3]%Z) eqn:Es; cbn [assert_ bind].
    + intros Hr. right. split.
      { apply existsb_exists in Es as [x [Hx E]]. apply Z.eqb_eq in E. subst. assumption. }
      rewrite needs_substs. revert Hr. generalize (start (npow10 (nopp pH)) ks).
      induction (substs scale) as [|s l IH]; intros c0; cbn; [discriminate|].
      unfold run_subst. destruct (dget (s_name s) totals) as [t|] eqn:Et; cbn [bind].
      * destruct (get_ks s ks) as [kk|ek] eqn:Ek; cbn [bind].
        { intros Hr. apply IH in Hr as [n [cs [k [Hin Hrest]]]]. exists n, cs, k. split; [right|]; assumption. }
        { intros [= <-]. clear IH.
          assert (Hk : exists k, In k (s_ks s) /\ dmem k ks = false /\ ek = KeyError k).
          { unfold get_ks in Ek. induction (s_ks s) as [|k ksl IHk]; cbn in Ek; [discriminate|].
            destruct (dgetE k ks) eqn:Eg; cbn [bind] in Ek.
            - destruct (mapM (fun k0 => dgetE k0 ks) ksl) eqn:Em; cbn [bind] in Ek; [discriminate|]. injection Ek as <-.
              destruct (IHk eq_refl) as [k' [Hk' Hr]]. exists k'. split; [right|]; assumption.
            - injection Ek as <-. exists k. split; [left; reflexivity|]. unfold dgetE in Eg. unfold dmem.
              destruct (dget k ks); cbn in Eg; [discriminate|]. injection Eg as <-. auto. }
          destruct Hk as [k [Hk [Hf ->]]]. exists (s_name s), (s_ks s), k.
          repeat split; auto. unfold dmem. rewrite Et. reflexivity. }
      * intros Hr. apply IH in Hr as [n [cs [k [Hin Hrest]]]]. exists n, cs, k. split; [right|]; assumption.
    + intros [= <-]. left. split; [|reflexivity]. intros Hin.
      assert (existsb (Z.eqb scale) [1; 2; 3]%Z = true); [|congruence].
      apply existsb_exists. exists scale. split; [assumption|apply Z.eqb_refl].
Qed.
End C23.
Print Assumptions C23_raises_exactly_when.
Print Assumptions C23_multipliers_complete.
Print Assumptions C23_which_exception.

Example C23_nonvacuous_ok : exists a, alkalinity (Fin 5) ex_totals ex_ks 3 = Ok a.
Proof. eexists. reflexivity. Qed.
Example C23_nonvacuous_scale : alkalinity (Fin 5) ex_totals ex_ks 4 = Err AssertionError.
Proof. reflexivity. Qed.
Example C23_nonvacuous_key :
  alkalinity (Fin 5) [("total_borate", Fin 1)] [("k_water", Fin 1)] 3 = Err (KeyError "k_borate").
Proof. reflexivity. Qed.

(* ------------------------------------------------------------------ *)
(** * C16 species between 0 and their total *)

Lemma frac_bounds t n d : 0 <= t -> 0 <= n -> n <= d -> 0 < d -> 0 <= t * n / d <= t.
Proof.
  intros. apply div_bound; [assumption| |].
  - rewrite Rmult_0_l. apply Rmult_le_pos; assumption.
  - apply Rmult_le_compat_l; assumption.
Qed.

Lemma in_dec_subst (s : subst) l : {In s l} + {~ In s l}.
Proof. apply in_dec. decide equality. Qed.

Lemma pow_pos2 h : 0 < h -> 0 < h ^ 2. Proof. intros; apply pow_lt; assumption. Qed.
Lemma pow_pos3 h : 0 < h -> 0 < h ^ 3. Proof. intros; apply pow_lt; assumption. Qed.

Definition charged_alk (s : subst) : bool := match s with Alpha | Beta => true | _ => false end.

Lemma outR_bounds s t kk h k v : 0 <= t -> Forall (fun k => 0 < k) kk -> length kk = length (s_ks s) -> 0 < h ->
  charged_alk s = false -> dget k (outR s t kk h) = Some v -> 0 <= v <= t.
Proof.
  intros Ht Hkk Hlen Hh Hs.
  destruct s; try discriminate Hs; cbn [s_ks length] in Hlen;
    repeat (destruct kk as [|? kk]; try discriminate Hlen);
    repeat match goal with H : Forall _ (_ :: _) |- _ => inversion H; clear H; subst end;
    cbn [outR dget]; intros E;
    repeat match type of E with (if ?b then _ else _) = _ => destruct b; [injection E as <-|] end;
    try discriminate E;
    try (apply frac_bounds; lra).
  - pose proof (dic_denom_pos r r0 h ltac:(assumption) ltac:(assumption) Hh). pose proof (pow_pos2 h Hh).
    assert (0 < r * h) by nra. assert (0 < r * r0) by nra. apply frac_bounds; lra.
  - pose proof (dic_denom_pos r r0 h ltac:(assumption) ltac:(assumption) Hh). pose proof (pow_pos2 h Hh).
    assert (0 < r * h) by nra. assert (0 < r * r0) by nra. rewrite Rmult_assoc. apply frac_bounds; lra.
  - pose proof (dic_denom_pos r r0 h ltac:(assumption) ltac:(assumption) Hh). pose proof (pow_pos2 h Hh).
    assert (0 < r * h) by nra. assert (0 < r * r0) by nra. rewrite Rmult_assoc. apply frac_bounds; lra.
  - pose proof (po4_denom_pos r r0 r1 h ltac:(assumption) ltac:(assumption) ltac:(assumption) Hh).
    pose proof (pow_pos2 h Hh). pose proof (pow_pos3 h Hh).
    assert (0 < r * h ^ 2) by nra. assert (0 < r * r0) by nra. assert (0 < r * r0 * h) by nra.
    assert (0 < r * r0 * r1) by nra. apply frac_bounds; lra.
  - pose proof (po4_denom_pos r r0 r1 h ltac:(assumption) ltac:(assumption) ltac:(assumption) Hh).
    pose proof (pow_pos2 h Hh). pose proof (pow_pos3 h Hh).
    assert (0 < r * h ^ 2) by nra. assert (0 < r * r0) by nra. assert (0 < r * r0 * h) by nra.
    assert (0 < r * r0 * r1) by nra.
    replace (t * r * r0 * h) with (t * (r * r0 * h)) by ring. apply frac_bounds; lra.
  - pose proof (po4_denom_pos r r0 r1 h ltac:(assumption) ltac:(assumption) ltac:(assumption) Hh).
    pose proof (pow_pos2 h Hh). pose proof (pow_pos3 h Hh).
    assert (0 < r * h ^ 2) by nra. assert (0 < r * r0) by nra. assert (0 < r * r0 * h) by nra.
    assert (0 < r * r0 * r1) by nra.
    replace (t * r * r0 * r1) with (t * (r * r0 * r1)) by ring. apply frac_bounds; lra.
Qed.

Lemma species_subst sp tot : In (sp, tot) species_of ->
  exists s, s_name s = tot /\ In sp (s_species s) /\ charged_alk s = false.
Proof.
  cbn. intros Hin.
  repeat (destruct Hin as [E|Hin]; [injection E as <- <-|]); [..|destruct Hin].
  - exists DIC; cbn; tauto. - exists DIC; cbn; tauto. - exists DIC; cbn; tauto. - exists Borate; cbn; tauto.
  - exists Phosphate; cbn; tauto. - exists Phosphate; cbn; tauto. - exists Phosphate; cbn; tauto.
  - exists Silicate; cbn; tauto. - exists Ammonia; cbn; tauto. - exists Sulfide; cbn; tauto.
  - exists Fluoride; cbn; tauto. - exists Sulfate; cbn; tauto.
Qed.

Theorem C16_species_bounds : forall pH totals ks scale c,
  nonneg_totals totals -> pos_constants ks ->
  alkalinity_components (Fin pH) totals ks scale = Ok c ->
  (exists h, dget "H" c = Some (Fin h) /\ 0 < h) /\
  (dmem "OH" c = dmem "k_water" ks) /\
  (forall v, dget "OH" c = Some v -> exists r, v = Fin r /\ 0 < r) /\
  (forall sp tot v, In (sp, tot) species_of -> dget sp c = Some v ->
     exists r t, v = Fin r /\ dget tot totals = Some (Fin t) /\ 0 <= r <= t).
Proof.
  intros pH totals ks scale c Ht Hk Hc.
  pose proof (components_OH _ _ _ _ _ Hc) as HOH. rewrite npow10_h in HOH.
  split; [exists (h_of pH); split; [exact (components_H _ _ _ _ _ Hc)|apply h_of_pos]|].
  split.
  { unfold dmem. rewrite HOH. destruct (dget "k_water" ks); reflexivity. }
  split.
  { intros v E. rewrite HOH in E. destruct (dget "k_water" ks) as [kw|] eqn:Ekw; [|discriminate].
    injection E as <-. destruct (Hk _ _ Ekw) as [r [-> Hr]]. pose proof (h_of_pos pH).
    exists (r / h_of pH). split; [apply fin_div; lra|]. apply Rdiv_lt_0_compat; assumption. }
  intros sp tot v Hsp E. destruct (species_subst sp tot Hsp) as [s [<- [Hin Hch]]].
  assert (Hs : In s (substs scale)).
  { assert (Hm : dmem sp c = true) by (unfold dmem; rewrite E; reflexivity).
    destruct (components_nothing_else _ _ _ _ _ _ Hc Hm) as [->|[->|[s' [Hs' [_ Hin']]]]].
    - exfalso. eapply species_not_HOH; [eassumption|cbn; tauto].
    - exfalso. eapply species_not_HOH; [eassumption|cbn; tauto].
    - assert (s = s') by (eapply s_species_inj; eassumption). subst. assumption. }
  rewrite (components_get _ _ _ _ _ s sp Hc Hs Hin), npow10_h in E.
  destruct (out_of_fin totals ks s (h_of pH) (tot_nn_ok _ (nonneg_nn _ Ht)) (pos_ok _ Hk) (h_of_pos pH)) as [Eo _].
  rewrite Eo in E. unfold outsR in E.
  destruct (dget (s_name s) totals) as [t0|] eqn:Et; [|discriminate].
  destruct (Ht _ _ Et) as [t [-> Hnn]]. cbn [unfin] in E.
  destruct (get_ks s ks) as [kk|] eqn:Ek; [|discriminate].
  destruct (get_ks_fin s ks kk (pos_ok _ Hk) Ek) as [_ Hpos].
  rewrite dget_dmap in E. destruct (dget sp (outR s t (map unfin kk) (h_of pH))) as [r|] eqn:Er; [|discriminate].
  cbn in E. injection E as <-. exists r, t. split; [reflexivity|]. split; [reflexivity|].
  apply (outR_bounds s t (map unfin kk) (h_of pH) sp r); auto using h_of_pos.
  rewrite map_length. eapply get_ks_length; eassumption.
Qed.
Print Assumptions C16_species_bounds.

Example C16_nonvacuous :
  nonneg_totals ex_totals /\ pos_constants ex_ks /\
  exists c v, alkalinity_components (Fin 5) ex_totals ex_ks 3 = Ok c /\ dget "HSO4" c = Some v.
Proof. split; [exact ex_totals_nonneg|]. split; [exact ex_ks_pos|]. do 2 eexists. split; reflexivity. Qed.

(* ------------------------------------------------------------------ *)
(** * C17 mass action and mass balance *)

Lemma mono_subst sp b tot kn scs : In (sp, b, tot, kn, scs) monoprotic ->
  exists s, s_name s = tot /\ s_ks s = [kn] /\ s_species s = [sp] /\
    (forall scale, In scale scs -> In s (substs scale)) /\
    (forall t k h, outR s t [k] h = [(sp, if b then t * k / (k + h) else t * h / (k + h))]).
Proof.
  cbn. intros Hin.
  repeat (destruct Hin as [E|Hin]; [injection E as <- <- <- <- <-|]); [..|destruct Hin].
  - exists Borate. repeat split. intros; apply basic_subst; cbn; tauto.
  - exists Silicate. repeat split. intros; apply basic_subst; cbn; tauto.
  - exists Ammonia. repeat split. intros; apply basic_subst; cbn; tauto.
  - exists Sulfide. repeat split. intros; apply basic_subst; cbn; tauto.
  - exists Fluoride. repeat split. cbn; intros scale [<-|[<-|[]]]; cbn; tauto.
  - exists Sulfate. repeat split. cbn; intros scale [<-|[]]; cbn; tauto.
Qed.

Theorem C17_monoprotic : forall pH totals ks scale c sp base tot kn scales t k,
  In (sp, base, tot, kn, scales) monoprotic -> In scale scales ->
  alkalinity_components (Fin pH) totals ks scale = Ok c ->
  dget tot totals = Some (Fin t) -> dget kn ks = Some (Fin k) -> 0 < k ->
  exists x y,        (* base form, acid form *)
    dget sp c = Some (Fin (if base : bool then x else y)) /\
    x + y = t /\ h_of pH * x = k * y /\
    (forall x' y', x' + y' = t -> h_of pH * x' = k * y' -> x' = x /\ y' = y).
Proof.
  intros pH totals ks scale c sp b tot kn scs t k Hin Hsc Hc Ht Hkn Hk.
  destruct (mono_subst _ _ _ _ _ Hin) as [s [<- [Hks [Hsp [Hs Hout]]]]].
  set (h := h_of pH). assert (Hh : 0 < h) by apply h_of_pos.
  assert (Hgk : get_ks s ks = Ok (map Fin [k])).
  { unfold get_ks. rewrite Hks. cbn [mapM]. unfold dgetE. rewrite Hkn. reflexivity. }
  exists (t * k / (k + h)), (t * h / (k + h)). repeat split.
  - rewrite (get_out pH totals ks scale c s t [k] sp Hc (Hs _ Hsc) Ht Hgk); [|repeat constructor; assumption|rewrite Hsp; left; reflexivity].
    fold h. rewrite Hout. unfold dmap. cbn [map dget fst snd]. rewrite String.eqb_refl. destruct b; reflexivity.
  - field. lra.
  - field. lra.
  - assert (x' * (k + h) = t * k) by (replace y' with (t - x') in * by lra; nra).
    apply (Rmult_eq_reg_r (k + h)); [|lra]. rewrite H1. field. lra.
  - assert (y' * (k + h) = t * h) by (replace x' with (t - y') in * by lra; nra).
    apply (Rmult_eq_reg_r (k + h)); [|lra]. rewrite H1. field. lra.
Qed.
Print Assumptions C17_monoprotic.

Example C17_monoprotic_nonvacuous : exists c,
  In ("HSO4", false, "total_sulfate", "k_bisulfate", [3]%Z) monoprotic /\
  alkalinity_components (Fin 5) ex_totals ex_ks 3 = Ok c /\
  dget "total_sulfate" ex_totals = Some (Fin 0.028) /\ dget "k_bisulfate" ex_ks = Some (Fin 0.1) /\ 0 < 0.1.
Proof. eexists. split; [cbn; tauto|]. repeat split; try reflexivity. q2r; lra. Qed.

Theorem C17_phosphate : forall pH totals ks scale c t k1 k2 k3,
  alkalinity_components (Fin pH) totals ks scale = Ok c ->
  dget "total_phosphate" totals = Some (Fin t) ->
  dget "k_phosphoric_1" ks = Some (Fin k1) -> dget "k_phosphoric_2" ks = Some (Fin k2) ->
  dget "k_phosphoric_3" ks = Some (Fin k3) -> 0 < k1 -> 0 < k2 -> 0 < k3 ->
  exists a3 a2 a1 a0,   (* H3PO4, H2PO4-, HPO4--, PO4--- *)
    dget "H3PO4" c = Some (Fin a3) /\ dget "HPO4" c = Some (Fin a1) /\ dget "PO4" c = Some (Fin a0) /\
    a3 + a2 + a1 + a0 = t /\
    h_of pH * a2 = k1 * a3 /\ h_of pH * a1 = k2 * a2 /\ h_of pH * a0 = k3 * a1 /\
    (forall b3 b2 b1 b0, b3 + b2 + b1 + b0 = t ->
       h_of pH * b2 = k1 * b3 -> h_of pH * b1 = k2 * b2 -> h_of pH * b0 = k3 * b1 ->
       b3 = a3 /\ b2 = a2 /\ b1 = a1 /\ b0 = a0).
Proof.
  intros pH totals ks scale c t k1 k2 k3 Hc Ht H1 H2 H3 Hp1 Hp2 Hp3.
  set (h := h_of pH). assert (Hh : 0 < h) by apply h_of_pos.
  pose proof (po4_denom_pos k1 k2 k3 h Hp1 Hp2 Hp3 Hh) as Hden.
  assert (Hk : get_ks Phosphate ks = Ok (map Fin [k1; k2; k3])).
  { unfold get_ks. cbn [s_ks mapM]. unfold dgetE. rewrite H1, H2, H3. reflexivity. }
  assert (Hg := fun k => get_out pH totals ks scale c Phosphate t [k1; k2; k3] k Hc
                           (basic_subst scale Phosphate ltac:(cbn; tauto)) Ht Hk ltac:(repeat constructor; assumption)).
  set (d := h ^ 3 + k1 * h ^ 2 + k1 * k2 * h + k1 * k2 * k3) in *.
  exists (t * h ^ 3 / d), (t * (k1 * h ^ 2) / d), (t * k1 * k2 * h / d), (t * k1 * k2 * k3 / d).
  split; [rewrite Hg by (cbn; tauto); reflexivity|].
  split; [rewrite Hg by (cbn; tauto); reflexivity|].
  split; [rewrite Hg by (cbn; tauto); reflexivity|].
  split; [unfold d; field; fold d; lra|].
  split; [unfold d; field; fold d; lra|].
  split; [unfold d; field; fold d; lra|].
  split; [unfold d; field; fold d; lra|].
  intros b3 b2 b1 b0 Hsum E2 E1 E0.
  assert (X2 : b2 = k1 * b3 / h) by (apply (Rmult_eq_reg_l h); [rewrite E2; field|]; lra).
  assert (X1 : b1 = k1 * k2 * b3 / h ^ 2).
  { apply (Rmult_eq_reg_l h); [rewrite E1, X2; field|]; lra. }
  assert (X0 : b0 = k1 * k2 * k3 * b3 / h ^ 3).
  { apply (Rmult_eq_reg_l h); [rewrite E0, X1; field|]; lra. }
  assert (X3 : b3 = t * h ^ 3 / d).
  { apply (Rmult_eq_reg_r d); [|lra]. replace (t * h ^ 3 / d * d) with (t * h ^ 3) by (field; lra).
    rewrite <- Hsum, X2, X1, X0. unfold d. field. lra. }
  repeat split; [assumption| | |]; rewrite ?X2, ?X1, ?X0, X3; field; lra.
Qed.
Print Assumptions C17_phosphate.

Example C17_phosphate_nonvacuous : exists c,
  alkalinity_components (Fin 5) ex_totals ex_ks 1 = Ok c /\
  dget "total_phosphate" ex_totals = Some (Fin 0.00001) /\ dget "k_phosphoric_1" ex_ks = Some (Fin 0.02).
Proof. eexists. repeat split; reflexivity. Qed.

(* ------------------------------------------------------------------ *)
(** * C18 monotone in pH *)

Theorem C18_alkalinity_increases_with_pH : forall totals ks scale pH1 pH2 a1 a2,
  nonneg_totals totals -> pos_constants ks ->
  alkalinity (Fin pH1) totals ks scale = Ok a1 ->
  alkalinity (Fin pH2) totals ks scale = Ok a2 ->
  pH1 < pH2 ->
  exists r1 r2, a1 = Fin r1 /\ a2 = Fin r2 /\ r1 < r2.
Proof.
  intros totals ks scale p1 p2 a1 a2 Ht Hk H1 H2 Hlt.
  assert (Hc : forall p a, alkalinity (Fin p) totals ks scale = Ok a ->
               a = Fin (alkR totals ks scale (pow10R (- p)))).
  { intros p a Ha. unfold alkalinity in Ha.
    destruct (alkalinity_components (Fin p) totals ks scale) as [c|] eqn:E; cbn in Ha; [|discriminate].
    pose proof (alkalinity_fin p totals ks scale c (tot_nn_ok _ (nonneg_nn _ Ht)) (pos_ok _ Hk) E) as Hf.
    unfold alkalinity in Hf. rewrite E in Hf. cbn in Hf. congruence. }
  exists (alkR totals ks scale (pow10R (- p1))), (alkR totals ks scale (pow10R (- p2))).
  split; [auto|]. split; [auto|].
  apply alkR_mono; [apply nonneg_nn; assumption|apply pos_ok; assumption|apply pow10R_pos|].
  apply pow10R_inc. lra.
Qed.
Print Assumptions C18_alkalinity_increases_with_pH.

Example C18_nonvacuous : exists a1 a2,
  nonneg_totals ex_totals /\ pos_constants ex_ks /\
  alkalinity (Fin 3) ex_totals ex_ks 3 = Ok a1 /\ alkalinity (Fin 8) ex_totals ex_ks 3 = Ok a2.
Proof. do 2 eexists. split; [exact ex_totals_nonneg|]. split; [exact ex_ks_pos|]. split; reflexivity. Qed.

(* ------------------------------------------------------------------ *)
(** * C19 exactly one pH for every alkalinity *)

Theorem C19_unique_pH : forall totals ks scale target,
  nonneg_totals totals -> pos_constants ks -> dmem "k_water" ks = true ->
  (exists a, alkalinity (Fin 7) totals ks scale = Ok a) ->     (* no constant is missing (see C23) *)
  exists! pH, alkalinity (Fin pH) totals ks scale = Ok (Fin target).
Proof.
  intros totals ks scale A Ht Hk Hw [a7 Ha7].
  assert (Hcomp : forall p, exists c, alkalinity_components (Fin p) totals ks scale = Ok c).
  { intros p. assert (Hex : exists a, alkalinity (Fin p) totals ks scale = Ok a).
    { apply C23_raises_exactly_when. apply (C23_raises_exactly_when (Fin 7)). eauto. }
    destruct Hex as [a Ha]. unfold alkalinity in Ha.
    destruct (alkalinity_components (Fin p) totals ks scale); [eauto|discriminate]. }
  assert (Hval : forall p, alkalinity (Fin p) totals ks scale = Ok (Fin (alkR totals ks scale (pow10R (- p))))).
  { intros p. destruct (Hcomp p) as [c Hc]. eapply alkalinity_fin; [|apply pos_ok; assumption|exact Hc].
    apply tot_nn_ok, nonneg_nn; assumption. }
  apply dmem_true_get in Hw as [w Ew]. destruct (Hk _ _ Ew) as [kw [-> _]].
  destruct (alkR_surj totals ks (nonneg_nn _ Ht) (pos_ok _ Hk) scale kw A Ew) as [p Hp].
  exists p. split; [rewrite Hval, Hp; reflexivity|].
  intros p' Hp'. rewrite Hval in Hp'. injection Hp' as Hp'.
  destruct (Rtotal_order p p') as [Hlt|[->|Hgt]]; [exfalso|reflexivity|exfalso].
  - pose proof (alkR_mono totals ks (nonneg_nn _ Ht) (pos_ok _ Hk) scale (pow10R (- p')) (pow10R (- p))
      (pow10R_pos _) ltac:(apply pow10R_inc; lra)). lra.
  - pose proof (alkR_mono totals ks (nonneg_nn _ Ht) (pos_ok _ Hk) scale (pow10R (- p)) (pow10R (- p'))
      (pow10R_pos _) ltac:(apply pow10R_inc; lra)). lra.
Qed.
Print Assumptions C19_unique_pH.

Example C19_nonvacuous :
  nonneg_totals ex_totals /\ pos_constants ex_ks /\ dmem "k_water" ex_ks = true /\
  exists a, alkalinity (Fin 7) ex_totals ex_ks 3 = Ok a.
Proof. split; [exact ex_totals_nonneg|]. split; [exact ex_ks_pos|]. split; [reflexivity|]. eexists; reflexivity. Qed.

(* ------------------------------------------------------------------ *)
(** * C22 dropping zero totals *)

(* totals without the substances named in Z *)
Definition without (Z : list string) (totals : dict xr) : dict xr :=
  filter (fun kv => negb (mem_str (fst kv) Z)) totals.

Lemma dget_without Z totals k :
  dget k (without Z totals) = if mem_str k Z then None else dget k totals.
Proof.
  unfold without. induction totals as [|[k' v] d IH]; cbn [filter dget].
  - destruct (mem_str k Z); reflexivity.
  - cbn [fst]. destruct (mem_str k' Z) eqn:E'; cbn [negb].
    + rewrite IH. destruct (mem_str k Z) eqn:E; [reflexivity|].
      destruct (String.eqb_spec k k') as [->|Hn]; [congruence|reflexivity].
    + cbn [dget]. rewrite IH. destruct (mem_str k Z) eqn:E; [|reflexivity].
      destruct (String.eqb_spec k k') as [->|Hn]; [congruence|reflexivity].
Qed.

Theorem C22_zero_totals_can_be_dropped : forall Z pH totals ks scale a,
  (forall k v, dget k totals = Some v -> exists r, v = Fin r) -> pos_constants ks ->
  (forall z, In z Z -> dmem z totals = true -> dget z totals = Some (Fin 0)) ->
  alkalinity (Fin pH) totals ks scale = Ok a ->
  alkalinity (Fin pH) (without Z totals) ks scale = Ok a.
Proof.
  intros Z pH totals ks scale a Ht Hk Hz Ha.
  assert (Ht1 : tot_ok totals) by (intros s v E; eauto).
  assert (Ht2 : tot_ok (without Z totals)).
  { intros s v E. rewrite dget_without in E. destruct (mem_str (s_name s) Z); [discriminate|eauto]. }
  assert (Hex : exists a', alkalinity (Fin pH) (without Z totals) ks scale = Ok a').
  { assert (Hex : exists a, alkalinity (Fin pH) totals ks scale = Ok a) by eauto.
    apply C23_raises_exactly_when in Hex as [Hs Hn]. apply C23_raises_exactly_when. split; [assumption|].
    intros n cs Hin Hm. apply (Hn n cs Hin). unfold dmem in *. rewrite dget_without in Hm.
    destruct (mem_str n Z); [discriminate|assumption]. }
  destruct Hex as [a' Ha']. rewrite Ha'. f_equal.
  assert (Hval : forall t b, tot_ok t -> alkalinity (Fin pH) t ks scale = Ok b ->
            b = Fin (alkR t ks scale (pow10R (- pH)))).
  { intros t b Hok Hb. unfold alkalinity in Hb.
    destruct (alkalinity_components (Fin pH) t ks scale) as [c|] eqn:E; cbn in Hb; [|discriminate].
    pose proof (alkalinity_fin pH t ks scale c Hok (pos_ok _ Hk) E) as Hf.
    unfold alkalinity in Hf. rewrite E in Hf. cbn in Hf. congruence. }
  rewrite (Hval _ _ Ht1 Ha), (Hval _ _ Ht2 Ha'). f_equal. unfold alkR. f_equal. f_equal.
  apply map_ext. intros s. unfold contr. rewrite dget_without.
  destruct (mem_str (s_name s) Z) eqn:E; [|reflexivity].
  apply mem_str_spec in E.
  destruct (dget (s_name s) totals) as [v|] eqn:Ev; [|reflexivity].
  assert (Hv : dget (s_name s) totals = Some (Fin 0)) by (apply Hz; [assumption|unfold dmem; rewrite Ev; reflexivity]).
  assert (v = Fin 0) by congruence. subst v. cbn [unfin].
  destruct (get_ks s ks); [|reflexivity]. symmetry. apply contrR_zero.
Qed.
Print Assumptions C22_zero_totals_can_be_dropped.

Example C22_nonvacuous : exists a,
  dget "total_ammonia" ex_totals = Some (Fin 0) /\
  alkalinity (Fin 5) ex_totals ex_ks 3 = Ok a /\
  dmem "total_ammonia" (without ["total_ammonia"; "total_nonsense"] ex_totals) = false.
Proof. eexists. repeat split; try reflexivity. Qed.

(* ------------------------------------------------------------------ *)
(** * C24 zero level of protons *)

Theorem C24_extra_acids : forall which pH totals ks scale c t k,
  In which ["alpha"; "beta"] ->
  alkalinity_components (Fin pH) totals ks scale = Ok c ->
  dget (String.append "total_" which) totals = Some (Fin t) ->
  dget (String.append "k_" which) ks = Some (Fin k) -> 0 < k ->
  exists dep prot,     (* deprotonated and protonated form *)
    dep + prot = t /\ h_of pH * dep = k * prot /\
    (- (ln k / ln 10) > 4.5 -> dget (String.append "alk_" which) c = Some (Fin dep)) /\
    (- (ln k / ln 10) <= 4.5 -> dget (String.append "alk_" which) c = Some (Fin (- prot))).
Proof.
  intros w pH totals ks scale c t k Hw Hc Ht Hkn Hk.
  set (h := h_of pH). assert (Hh : 0 < h) by apply h_of_pos.
  assert (Hs : exists s, In s (substs scale) /\ s_name s = String.append "total_" w /\
                 s_ks s = [String.append "k_" w] /\ s_species s = [String.append "alk_" w] /\
                 (forall t k h, outR s t [k] h = [(String.append "alk_" w, if pK_low k then - (t - t * k / (k + h)) else t * k / (k + h))])).
  { destruct Hw as [<-|[<-|[]]]; [exists Alpha|exists Beta]; (split; [apply basic_subst; cbn; tauto|]); repeat split. }
  destruct Hs as [s [Hs [Hn [Hks [Hsp Hout]]]]].
  assert (Hgk : get_ks s ks = Ok (map Fin [k])).
  { unfold get_ks. rewrite Hks. cbn [mapM]. unfold dgetE. rewrite Hkn. reflexivity. }
  rewrite <- Hn in Ht.
  assert (Hg := get_out pH totals ks scale c s t [k] (String.append "alk_" w) Hc Hs Ht Hgk
                  ltac:(repeat constructor; assumption) ltac:(rewrite Hsp; left; reflexivity)).
  fold h in Hg. rewrite Hout in Hg. unfold dmap in Hg. cbn [map dget fst snd] in Hg. rewrite String.eqb_refl in Hg.
  exists (t * k / (k + h)), (t - t * k / (k + h)).
  split; [lra|]. split; [field; lra|].
  unfold pK_low, log10R in Hg. split; intros Hpk; rewrite Hg; destruct (Rle_dec (- (ln k / ln 10)) 4.5); try reflexivity; lra.
Qed.
Print Assumptions C24_extra_acids.

Example C24_nonvacuous : exists c,
  alkalinity_components (Fin 5) ex_totals ex_ks 3 = Ok c /\
  dget "total_alpha" ex_totals = Some (Fin 0.00001) /\ dget "k_alpha" ex_ks = Some (Fin 0.1).
Proof. eexists. repeat split; reflexivity. Qed.

(* ------------------------------------------------------------------ *)
(** * C20, C21, C89 pH scales *)

(* constants re-expressed on a scale whose [H+] is f times as large *)
Definition rescale (f : R) (ks : dict xr) : dict xr := dmap (fun k => nmul (Fin f) k) ks.
Definition rescale_pH (f pH : R) : R := pH - ln f / ln 10.

Lemma h_of_rescale f pH : 0 < f -> h_of (rescale_pH f pH) = f * h_of pH.
Proof.
  intros Hf. rewrite !h_of_pow. unfold rescale_pH.
  replace (- (pH - ln f / ln 10)) with (log10R f + - pH) by (unfold log10R; ring).
  rewrite pow10R_add, pow10_log10 by assumption. reflexivity.
Qed.

Lemma rescale_pos f ks : 0 < f -> pos_constants ks -> pos_constants (rescale f ks).
Proof.
  intros Hf Hk k v E. unfold rescale in E. rewrite dget_dmap in E.
  destruct (dget k ks) as [w|] eqn:Ew; [|discriminate]. cbn in E. injection E as <-.
  destruct (Hk _ _ Ew) as [r [-> Hr]]. exists (f * r). split; [reflexivity|nra].
Qed.

Lemma get_ks_rescale f s ks : get_ks s (rescale f ks) = (kk <- get_ks s ks ;; Ok (map (fun k => nmul (Fin f) k) kk)).
Proof.
  unfold get_ks, rescale. induction (s_ks s) as [|k l IH]; [reflexivity|]. cbn [mapM].
  rewrite IH. clear IH.
  assert (E : dgetE k (dmap (fun k0 => nmul (Fin f) k0) ks) = (v <- dgetE k ks ;; Ok (nmul (Fin f) v))).
  { unfold dgetE. rewrite dget_dmap. destruct (dget k ks); reflexivity. }
  rewrite E. destruct (dgetE k ks); cbn [bind]; [|reflexivity].
  destruct (mapM (fun k0 => dgetE k0 ks) l); reflexivity.
Qed.

Definition same_side (f k : R) : Prop := pK_low (f * k) = pK_low k.

Lemma outR_rescale f s t kk h : 0 < f -> 0 < h -> Forall (fun k => 0 < k) kk ->
  (charged_alk s = true -> Forall (same_side f) kk) ->
  outR s t (map (fun k => f * k) kk) (f * h) = outR s t kk h.
Proof.
  intros Hf Hh Hkk Hside.
  assert (Hb : forall k, 0 < k -> t * (f * k) / (f * k + f * h) = t * k / (k + h)) by (intros; field; nra).
  assert (Ha : forall k, 0 < k -> t * (f * h) / (f * k + f * h) = t * h / (k + h)) by (intros; field; nra).
  destruct s; destruct kk as [|k1 [|k2 [|k3 [|k4 kk]]]]; cbn [map outR]; try reflexivity;
    repeat match goal with H : Forall _ (_ :: _) |- _ => inversion H; clear H; subst end;
    rewrite ?Hb, ?Ha by assumption; try reflexivity.
  - assert (E : (f * h) ^ 2 + f * k1 * (f * h) + f * k1 * (f * k2) = f ^ 2 * (h ^ 2 + k1 * h + k1 * k2)) by ring.
    rewrite E. pose proof (dic_denom_pos k1 k2 h ltac:(assumption) ltac:(assumption) Hh).
    assert (L : forall a b c a' b' c' : R, a = a' -> b = b' -> c = c' ->
              [("CO2", a); ("HCO3", b); ("CO3", c)] = [("CO2", a'); ("HCO3", b'); ("CO3", c')])
      by (intros; congruence).
    apply L; field; lra.
  - assert (E : (f * h) ^ 3 + f * k1 * (f * h) ^ 2 + f * k1 * (f * k2) * (f * h) + f * k1 * (f * k2) * (f * k3)
                = f ^ 3 * (h ^ 3 + k1 * h ^ 2 + k1 * k2 * h + k1 * k2 * k3)) by ring.
    rewrite E. pose proof (po4_denom_pos k1 k2 k3 h ltac:(assumption) ltac:(assumption) ltac:(assumption) Hh).
    assert (L : forall a b c a' b' c' : R, a = a' -> b = b' -> c = c' ->
              [("H3PO4", a); ("HPO4", b); ("PO4", c)] = [("H3PO4", a'); ("HPO4", b'); ("PO4", c')])
      by (intros; congruence).
    apply L; field; lra.
  - specialize (Hside eq_refl). inversion Hside as [|? ? Hs _]; subst. unfold same_side in Hs. rewrite Hs. reflexivity.
  - specialize (Hside eq_refl). inversion Hside as [|? ? Hs _]; subst. unfold same_side in Hs. rewrite Hs. reflexivity.
Qed.

Lemma outsR_rescale f totals ks s h : 0 < f -> 0 < h -> ks_ok ks ->
  (charged_alk s = true -> forall kk, get_ks s ks = Ok kk -> Forall (same_side f) (map unfin kk)) ->
  outsR totals (rescale f ks) (f * h) s = outsR totals ks h s.
Proof.
  intros Hf Hh Hk Hside. unfold outsR. destruct (dget (s_name s) totals) as [t|]; [|reflexivity].
  rewrite get_ks_rescale. destruct (get_ks s ks) as [kk|] eqn:Ek; cbn [bind]; [|reflexivity].
  destruct (get_ks_fin s ks kk Hk Ek) as [E Hpos].
  assert (Em : map unfin (map (fun k => nmul (Fin f) k) kk) = map (fun k => f * k) (map unfin kk)).
  { rewrite E at 1. rewrite !map_map. reflexivity. }
  rewrite Em. apply outR_rescale; auto.
Qed.

(* the extra acids' pK stays on the same side of 4.5 (or there is no such acid) *)
Definition extra_acid_side_kept (f : R) (ks : dict xr) : Prop :=
  forall kn k, In kn ["k_alpha"; "k_beta"] -> dget kn ks = Some (Fin k) ->
    (- (ln (f * k) / ln 10) <= 4.5 <-> - (ln k / ln 10) <= 4.5).

Lemma side_kept f ks s kk : ks_ok ks -> extra_acid_side_kept f ks -> charged_alk s = true ->
  get_ks s ks = Ok kk -> Forall (same_side f) (map unfin kk).
Proof.
  intros Hk Hs Hch Ek.
  assert (Hn : exists kn, s_ks s = [kn] /\ In kn ["k_alpha"; "k_beta"]).
  { destruct s; try discriminate Hch; eexists; (split; [reflexivity|cbn; tauto]). }
  destruct Hn as [kn [Hn Hin]]. unfold get_ks in Ek. rewrite Hn in Ek. cbn [mapM] in Ek.
  unfold dgetE in Ek. destruct (dget kn ks) as [v|] eqn:Ev; cbn in Ek; [|discriminate]. injection Ek as <-.
  assert (Hkn : exists r, v = Fin r /\ 0 < r).
  { apply (proj1 Hk s kn v); [rewrite Hn; left; reflexivity|assumption]. }
  destruct Hkn as [r [-> _]]. cbn. constructor; [|constructor]. unfold same_side, pK_low, log10R.
  specialize (Hs kn r Hin Ev). destruct (Rle_dec (- (ln (f * r) / ln 10)) 4.5), (Rle_dec (- (ln r / ln 10)) 4.5); tauto.
Qed.

Lemma dget_dmap_fin_inj {k d d'} : dget k (dmap Fin d) = dget k (dmap Fin d') <-> dget k d = dget k d'.
Proof. rewrite !dget_dmap. destruct (dget k d), (dget k d'); cbn; split; congruence. Qed.

Lemma rescaled_component f pH totals ks scale c c' s k :
  0 < f -> tot_ok totals -> pos_constants ks ->
  alkalinity_components (Fin pH) totals ks scale = Ok c ->
  alkalinity_components (Fin (rescale_pH f pH)) totals (rescale f ks) scale = Ok c' ->
  In s (substs scale) -> In k (s_species s) ->
  (charged_alk s = true -> extra_acid_side_kept f ks) ->
  dget k c' = dget k c.
Proof.
  intros Hf Ht Hk Hc Hc' Hs Hin Hside.
  rewrite (components_get _ _ _ _ _ s k Hc Hs Hin), (components_get _ _ _ _ _ s k Hc' Hs Hin).
  rewrite !npow10_h, h_of_rescale by assumption.
  pose proof (h_of_pos pH) as Hh.
  assert (0 < f * h_of pH) by nra.
  rewrite (proj1 (out_of_fin totals ks s (h_of pH) Ht (pos_ok _ Hk) Hh)).
  rewrite (proj1 (out_of_fin totals (rescale f ks) s (f * h_of pH) Ht (pos_ok _ (rescale_pos f ks Hf Hk)) H)).
  rewrite outsR_rescale; auto using pos_ok. intros Hch kk Ek. eapply side_kept; eauto using pos_ok.
Qed.

Theorem C20_components_do_not_depend_on_scale : forall f pH totals ks scale c c',
  0 < f ->
  (forall k v, dget k totals = Some v -> exists r, v = Fin r) -> pos_constants ks ->
  alkalinity_components (Fin pH) totals ks scale = Ok c ->
  alkalinity_components (Fin (rescale_pH f pH)) totals (rescale f ks) scale = Ok c' ->
  (exists h, dget "H" c = Some (Fin h) /\ dget "H" c' = Some (Fin (f * h))) /\
  (forall k, ~ In k ["H"; "alk_alpha"; "alk_beta"] -> dget k c' = dget k c) /\
  (extra_acid_side_kept f ks -> forall k, k <> "H" -> dget k c' = dget k c).
Proof.
  intros f pH totals ks scale c c' Hf Ht Hk Hc Hc'.
  assert (Ht1 : tot_ok totals) by (intros s v E; eauto).
  pose proof (h_of_pos pH) as Hh.
  assert (HOH : dget "OH" c' = dget "OH" c).
  { rewrite (components_OH _ _ _ _ _ Hc), (components_OH _ _ _ _ _ Hc').
    rewrite !npow10_h, h_of_rescale by assumption.
    unfold rescale. rewrite dget_dmap. destruct (dget "k_water" ks) as [w|] eqn:Ew; [|reflexivity]. cbn [option_map].
    destruct (Hk _ _ Ew) as [r [-> Hr]]. rewrite fin_mul, !fin_div by nra. do 2 f_equal. field. nra. }
  assert (Hgen : forall k, k <> "H" -> (In k ["alk_alpha"; "alk_beta"] -> extra_acid_side_kept f ks) -> dget k c' = dget k c).
  { intros k Hne Hside.
    destruct (dmem k c) eqn:Em.
    - destruct (components_nothing_else _ _ _ _ _ _ Hc Em) as [->|[->|[s [Hs [_ Hin]]]]]; [congruence|assumption|].
      apply (rescaled_component f pH totals ks scale c c' s k); try assumption. intros Hch. apply Hside. destruct s; try discriminate Hch; cbn in Hin |- *; tauto.
    - destruct (dmem k c') eqn:Em'; [|].
      + destruct (components_nothing_else _ _ _ _ _ _ Hc' Em') as [->|[->|[s [Hs [_ Hin]]]]]; [congruence|assumption|].
        apply (rescaled_component f pH totals ks scale c c' s k); try assumption. intros Hch. apply Hside. destruct s; try discriminate Hch; cbn in Hin |- *; tauto.
      + apply dmem_false_get in Em, Em'. congruence. }
  split; [|split].
  - exists (h_of pH). rewrite (components_H _ _ _ _ _ Hc), (components_H _ _ _ _ _ Hc'), !npow10_h, h_of_rescale by assumption.
    split; reflexivity.
  - intros k Hk'. apply Hgen; [intros ->; apply Hk'; cbn; tauto|]. intros Hin. exfalso. apply Hk'. cbn in *. tauto.
  - intros Hside k Hne. apply Hgen; auto.
Qed.
Print Assumptions C20_components_do_not_depend_on_scale.

Example C20_nonvacuous : exists c c',
  alkalinity_components (Fin 5) ex_totals ex_ks 3 = Ok c /\
  alkalinity_components (Fin (rescale_pH 1.3 5)) ex_totals (rescale 1.3 ex_ks) 3 = Ok c' /\
  dmem "HSO4" c = true /\ 0 < 1.3.
Proof. do 2 eexists. repeat split; try reflexivity. q2r; lra. Qed.

(* C89: but the extra acids can flip sides: with pK = 4.5 on one scale and
   4.5 + 1 on the other, the reported contribution changes *)
Theorem C89_extra_acid_depends_on_scale_refuted : exists f pH totals ks c c' v v',
  0 < f /\ nonneg_totals totals /\ pos_constants ks /\
  alkalinity_components (Fin pH) totals ks 3 = Ok c /\
  alkalinity_components (Fin (rescale_pH f pH)) totals (rescale f ks) 3 = Ok c' /\
  dget "alk_alpha" c = Some v /\ dget "alk_alpha" c' = Some v' /\ v <> v'.
Proof.
  set (k := pow10R (-4.5)). assert (Hk : 0 < k) by apply pow10R_pos.
  set (tot := [("total_alpha", Fin 1)] : dict xr). set (ks := [("k_alpha", Fin k)] : dict xr).
  assert (Hl10 := ln10_pos).
  assert (Hf : 0 < pow10R (-1)) by apply pow10R_pos.
  assert (Hnn : nonneg_totals tot).
  { intros n v E. unfold tot in E. cbn in E. destruct (String.eqb n "total_alpha"); [|discriminate].
    injection E as <-. exists 1. split; [reflexivity|lra]. }
  assert (Hp : pos_constants ks).
  { intros n v E. unfold ks in E. cbn in E. destruct (String.eqb n "k_alpha"); [|discriminate].
    injection E as <-. exists k. auto. }
  assert (Hp' := rescale_pos (pow10R (-1)) ks Hf Hp).
  exists (pow10R (-1)), 7, tot, ks.
  assert (Hc : exists c, alkalinity_components (Fin 7) tot ks 3 = Ok c) by (eexists; reflexivity).
  assert (Hc' : exists c, alkalinity_components (Fin (rescale_pH (pow10R (-1)) 7)) tot (rescale (pow10R (-1)) ks) 3 = Ok c)
    by (eexists; reflexivity).
  destruct Hc as [c Hc], Hc' as [c' Hc'].
  destruct (C24_extra_acids "alpha" _ _ _ _ _ 1 k ltac:(cbn; tauto) Hc eq_refl eq_refl Hk) as [d [p [Hs [Hm [_ Hlow]]]]].
  destruct (C24_extra_acids "alpha" _ _ _ _ _ 1 (pow10R (-1) * k) ltac:(cbn; tauto) Hc' eq_refl eq_refl ltac:(nra)) as [d' [p' [Hs' [Hm' [Hhigh _]]]]].
  assert (E : - (ln k / ln 10) <= 4.5).
  { change (ln k / ln 10) with (log10R k). unfold k. rewrite log10_pow10. q2r; lra. }
  assert (E' : - (ln (pow10R (-1) * k) / ln 10) > 4.5).
  { change (ln (pow10R (-1) * k) / ln 10) with (log10R (pow10R (-1) * k)). unfold k. rewrite <- pow10R_add, log10_pow10. q2r; lra. }
  exists c, c', (Fin (- p)), (Fin d').
  split; [exact Hf|]. split; [exact Hnn|]. split; [exact Hp|]. split; [exact Hc|]. split; [exact Hc'|].
  split; [exact (Hlow E)|]. split; [exact (Hhigh E')|].
  intros Heq. injection Heq as Heq. pose proof (h_of_pos 7). pose proof (h_of_pos (rescale_pH (pow10R (-1)) 7)).
  assert (Hd' : 0 < d').
  { set (h' := h_of (rescale_pH (pow10R (-1)) 7)) in *. set (k' := pow10R (-1) * k) in *. assert (0 < k') by (unfold k'; nra).
    assert (d' * (h' + k') = k') by (replace p' with (1 - d') in Hm' by lra; lra). destruct (Rlt_le_dec 0 d'); [assumption|exfalso; nra]. }
  assert (Hp0 : 0 < p).
  { set (h := h_of 7) in *. assert (p * (h + k) = h) by (replace d with (1 - p) in Hm by lra; lra). destruct (Rlt_le_dec 0 p); [assumption|exfalso; nra]. }
  lra.
Qed.
Print Assumptions C89_extra_acid_depends_on_scale_refuted.

(* C21: the same solution on the Total scale.  [H+]total = [H+]free (1 + SO4/KHSO4).
   What the code computes with opt_pH_scale = 1 differs from the Free-scale value by
   exactly SO4 h^2 / (K (K + h)): the Total-scale equation uses [H+]total in place of
   [H+]free + [HSO4-]. *)
Theorem C21_scale_difference_partial : forall pH totals ks so4 k a3 a1,
  (forall n v, dget n totals = Some v -> exists r, v = Fin r) -> pos_constants ks ->
  dget "total_sulfate" totals = Some (Fin so4) -> 0 <= so4 -> dget "k_bisulfate" ks = Some (Fin k) ->
  let f := 1 + so4 / k in
  extra_acid_side_kept f ks ->
  alkalinity (Fin pH) totals ks 3 = Ok a3 ->
  alkalinity (Fin (rescale_pH f pH)) totals (rescale f ks) 1 = Ok a1 ->
  exists r3 r1, a3 = Fin r3 /\ a1 = Fin r1 /\
    r3 - r1 = so4 * h_of pH ^ 2 / (k * (k + h_of pH)) /\
    0 <= r3 - r1 <= so4 * (h_of pH / k) ^ 2.
Proof.
  intros pH totals ks so4 k a3 a1 Ht Hk Hso Hnn Hkb f Hside H3 H1.
  assert (Ht1 : tot_ok totals) by (intros s v E; eauto).
  assert (Hkp : 0 < k). { destruct (Hk _ _ Hkb) as [r [[= <-] Hr]]. assumption. }
  assert (Hf : 0 < f). { unfold f. assert (0 <= so4 / k) by (apply Rmult_le_pos; [assumption|left; apply Rinv_0_lt_compat; assumption]). lra. }
  pose proof (h_of_pos pH) as Hh. assert (Hfh : 0 < f * h_of pH) by nra.
  assert (Hval : forall p t q scale b, tot_ok t -> ks_ok q -> alkalinity (Fin p) t q scale = Ok b ->
            b = Fin (alkR t q scale (h_of p))).
  { intros p t q scale b Hok Hq Hb. unfold alkalinity in Hb.
    destruct (alkalinity_components (Fin p) t q scale) as [c|] eqn:E; cbn in Hb; [|discriminate].
    pose proof (alkalinity_fin p t q scale c Hok Hq E) as Hfi.
    unfold alkalinity in Hfi. rewrite E in Hfi. cbn in Hfi. rewrite h_of_pow. congruence. }
  assert (Hk' := pos_ok _ (rescale_pos f ks Hf Hk)). assert (Hk0 := pos_ok _ Hk).
  apply Hval in H3; [|assumption..]. apply Hval in H1; [|assumption..]. rewrite h_of_rescale in H1 by assumption.
  set (h := h_of pH) in *.
  exists (alkR totals ks 3 h), (alkR totals (rescale f ks) 1 (f * h)). split; [assumption|]. split; [assumption|].
  assert (Hc : forall s, contr totals (rescale f ks) s (f * h) = contr totals ks s h).
  { intros s. rewrite <- (proj2 (out_of_fin totals ks s h Ht1 Hk0 Hh)).
    rewrite <- (proj2 (out_of_fin totals (rescale f ks) s (f * h) Ht1 Hk' Hfh)). f_equal.
    apply outsR_rescale; auto. intros Hch kk Ek. eapply side_kept; eauto. }
  assert (Hw : waterR (rescale f ks) (f * h) = waterR ks h).
  { unfold waterR, rescale. rewrite dget_dmap. destruct (dget "k_water" ks) as [w|] eqn:Ew; [|reflexivity]. cbn [option_map].
    destruct (Hk _ _ Ew) as [r [-> Hr]]. cbn. field. lra. }
  assert (Hsul : contr totals ks Sulfate h = - (so4 * h / (k + h))).
  { unfold contr, get_ks. cbn [s_name s_ks mapM]. rewrite Hso. unfold dgetE. rewrite Hkb. reflexivity. }
  assert (Hdiff : alkR totals ks 3 h - alkR totals (rescale f ks) 1 (f * h) = so4 * h ^ 2 / (k * (k + h))).
  { unfold alkR. rewrite Hw.
    change (substs 3) with (substs 1 ++ [Sulfate]). rewrite map_app, Rsum_app. cbn [map]. rewrite Rsum_cons.
    rewrite (map_ext (fun s => contr totals (rescale f ks) s (f * h)) (fun s => contr totals ks s h) Hc).
    rewrite Hsul. unfold f. change (Rsum []) with 0. field. lra. }
  split; [assumption|]. rewrite Hdiff. pose proof (pow_pos2 h Hh) as Hh2. pose proof (pow_pos2 k Hkp).
  replace (so4 * (h / k) ^ 2) with (so4 * h ^ 2 / k ^ 2) by (field; lra).
  assert (0 <= so4 * h ^ 2) by nra. assert (0 < k * (k + h)) by nra. split.
  - apply Rmult_le_pos; [assumption|]. left. apply Rinv_0_lt_compat. assumption.
  - apply div_le_cross; [assumption|assumption|]. apply Rmult_le_compat_l; [assumption|]. nra.
Qed.
Print Assumptions C21_scale_difference_partial.

Example C21_nonvacuous :
  extra_acid_side_kept (1 + 0.028 / 0.1) [("k_water", Fin 1); ("k_bisulfate", Fin 0.1)] /\
  (exists a3, alkalinity (Fin 3) [("total_sulfate", Fin 0.028)] [("k_water", Fin 1); ("k_bisulfate", Fin 0.1)] 3 = Ok a3).
Proof.
  split; [|eexists; reflexivity]. intros kn k [<-|[<-|[]]]; cbn; discriminate.
Qed.

(* so the two descriptions of one solution do not agree *)
Theorem C21_scales_disagree_refuted : exists pH totals ks so4 k r3 r1,
  nonneg_totals totals /\ pos_constants ks /\
  dget "total_sulfate" totals = Some (Fin so4) /\ dget "k_bisulfate" ks = Some (Fin k) /\
  alkalinity (Fin pH) totals ks 3 = Ok (Fin r3) /\
  alkalinity (Fin (rescale_pH (1 + so4 / k) pH)) totals (rescale (1 + so4 / k) ks) 1 = Ok (Fin r1) /\
  r3 <> r1.
Proof.
  set (tot := [("total_sulfate", Fin 1)] : dict xr). set (ks := [("k_bisulfate", Fin 1)] : dict xr).
  assert (Hnn : nonneg_totals tot).
  { intros n v E. unfold tot in E. cbn in E. destruct (String.eqb n "total_sulfate"); [|discriminate].
    injection E as <-. exists 1. split; [reflexivity|lra]. }
  assert (Hp : pos_constants ks).
  { intros n v E. unfold ks in E. cbn in E. destruct (String.eqb n "k_bisulfate"); [|discriminate].
    injection E as <-. exists 1. split; [reflexivity|lra]. }
  assert (Hs : extra_acid_side_kept (1 + 1 / 1) ks).
  { intros kn k [<-|[<-|[]]]; cbn; discriminate. }
  assert (H3 : exists a, alkalinity (Fin 0) tot ks 3 = Ok a) by (eexists; reflexivity).
  assert (H1 : exists a, alkalinity (Fin (rescale_pH (1 + 1 / 1) 0)) tot (rescale (1 + 1 / 1) ks) 1 = Ok a) by (eexists; reflexivity).
  destruct H3 as [a3 H3], H1 as [a1 H1].
  destruct (C21_scale_difference_partial 0 tot ks 1 1 a3 a1) as [r3 [r1 [-> [-> [Hd _]]]]]; auto; try reflexivity; try lra.
  { intros n v E. destruct (Hnn n v E) as [r [-> _]]. eauto. }
  exists 0, tot, ks, 1, 1, r3, r1.
  split; [exact Hnn|]. split; [exact Hp|]. split; [reflexivity|]. split; [reflexivity|].
  split; [exact H3|]. split; [exact H1|].
  intros ->. pose proof (h_of_pos 0). pose proof (pow_pos2 _ H).
  assert (0 < 1 * h_of 0 ^ 2 / (1 * (1 + h_of 0))) by (apply Rdiv_lt_0_compat; lra). lra.
Qed.
Print Assumptions C21_scales_disagree_refuted.
