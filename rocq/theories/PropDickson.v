(* PropDickson.v -- C92: what simulate.alkalinity adds up *)
From Coq Require Import Reals Lra.
From Verif Require Import SimProofs SpecSimulate PropSimulate.
Open Scope list_scope.
Open Scope R_scope.

Definition contentR (d : list (string * R)) (s : string) : R := match dget s d with Some x => x | None => 0 end.

Lemma content_fin d s : content (dmap Fin d) s = contentR d s.
Proof. unfold content, contentR. rewrite dget_dmap. destruct (dget s d); reflexivity. Qed.

Lemma Rsum_pick (f : string -> R) (L : list string) k x : NoDup L -> In k L -> f k = 0 ->
  Rsum (map (fun s => (if String.eqb s k then x else f s) * mult s) L) = x * mult k + Rsum (map (fun s => f s * mult s) L).
Proof.
  induction L as [|a L IH]; intros N I Z; [destruct I|]. cbn [map]. rewrite !Rsum_cons.
  inversion N as [|? ? Na NL]; subst. destruct (String.eqb_spec a k) as [->|Ne].
  - rewrite Z. assert (E : map (fun s => (if String.eqb s k then x else f s) * mult s) L = map (fun s => f s * mult s) L).
    { apply map_ext_in. intros s Is. destruct (String.eqb_spec s k) as [->|_]; [contradiction|reflexivity]. }
    rewrite E. lra.
  - destruct I as [->|I]; [contradiction|]. rewrite (IH NL I Z). lra.
Qed.

Lemma wsum_content d L : NoDup (dkeys d) -> (forall k, In k (dkeys d) -> In k L) -> NoDup L ->
  wsumR d = Rsum (map (fun k => contentR d k * mult k) L).
Proof.
  intros N I NL. induction d as [|[k x] d IH].
  - unfold wsumR. cbn [map]. clear. induction L as [|a L IH]; [reflexivity|]. cbn [map]. rewrite Rsum_cons, <- IH.
    unfold contentR. cbn. lra.
  - cbn [dkeys map fst] in N. inversion N as [|? ? Nk Nd]; subst.
    unfold wsumR. cbn [map]. rewrite Rsum_cons. cbn [fst snd]. fold (wsumR d).
    rewrite IH; [|exact Nd|intros; apply I; now right].
    rewrite <- (Rsum_pick (contentR d) L k x NL).
    + f_equal. apply map_ext. intros s. unfold contentR. cbn [dget]. destruct (String.eqb s k); reflexivity.
    + apply I. now left.
    + unfold contentR. destruct (dget k d) eqn:E; [|reflexivity]. exfalso. apply Nk.
      apply dget_in_keys. unfold dmem. now rewrite E.
Qed.

Definition all_species : list string :=
  ["H"; "OH"; "CO2"; "HCO3"; "CO3"; "BOH4"; "H3PO4"; "HPO4"; "PO4"; "H3SiO4"; "NH3"; "HS"; "alk_alpha"; "alk_beta";
   "HF"; "HSO4"].

Theorem C92_alkalinity_is_acceptors_minus_donors : forall pH totals ks scale c,
  nonneg_totals totals -> pos_constants ks ->
  alkalinity_components (Fin pH) totals ks scale = Ok c ->
  alkalinity (Fin pH) totals ks scale = Ok (Fin (dickson c)) /\
  dget "H" c = Some (Fin (h_of pH)) /\
  (forall kw, dget "k_water" ks = Some (Fin kw) -> dget "OH" c = Some (Fin (kw / h_of pH))) /\
  (forall s x, dget s c = Some x -> In s all_species /\ exists r, x = Fin r).
Proof.
  intros p totals ks scale c Ht Hk Hc. pose proof Hc as Hc0.
  assert (Ht' : tot_ok totals) by (intros s v E; destruct (Ht _ _ E) as (r & -> & _); eauto).
  apply pos_ok in Hk. unfold alkalinity. rewrite Hc. cbn [bind].
  assert (Hknown : forall k, In k (dkeys c) -> exists m, dget k component_multipliers = Some m).
  { intros k. eapply components_keys_known. eassumption. }
  apply components_closed in Hc. rewrite fin_opp, fin_pow10 in Hc.
  assert (Eh : h_of p = pow10R (- p)) by (unfold h_of, pow10R; reflexivity). rewrite Eh.
  set (h := pow10R (- p)) in *. assert (Hh : 0 < h) by apply pow10R_pos.
  pose (st := ([("H", h)] ++ match dget "k_water" ks with Some kw => [("OH", unfin kw / h)] | None => [] end)%list : list (string * R)).
  assert (Hst : start (Fin h) ks = dmap Fin st).
  { unfold start, st. destruct (dget "k_water" ks) as [kw|] eqn:Ekw; [|reflexivity].
    destruct (proj2 Hk kw Ekw) as [r [-> Hr]]. cbn [unfin app dmap map fst snd].
    rewrite fin_div by lra. reflexivity. }
  pose (d := (st ++ flat_map (outsR totals ks h) (substs scale))%list).
  assert (Ec : c = dmap Fin d).
  { rewrite Hc, Hst. unfold d, dmap. rewrite map_app. f_equal. clear -Ht' Hk Hh.
    induction (substs scale) as [|s l IH]; [reflexivity|]. cbn [flat_map]. rewrite map_app, IH.
    f_equal. apply (proj1 (out_of_fin totals ks s h Ht' Hk Hh)). }
  assert (Hkeys : NoDup (dkeys d) /\ forall k, In k (dkeys d) -> In k all_species).
  { assert (Q : dkeys d = (dkeys (start (Fin h) ks) ++ dkeys (flat_map (out_of (Fin h) totals ks) (substs scale)))%list).
    { rewrite <- (dkeys_dmap Fin), <- Ec, Hc. unfold dkeys. apply map_app. }
    rewrite Q. pose proof (all_names_nodup (Fin h) ks scale) as N.
    assert (S : forall l pre, NoDup (pre ++ flat_map s_species l) ->
                 NoDup (pre ++ dkeys (flat_map (out_of (Fin h) totals ks) l)) /\
                 forall k, In k (dkeys (flat_map (out_of (Fin h) totals ks) l)) -> In k (flat_map s_species l)).
    { clear. induction l as [|s l IH]; intros pre N; [split; [exact N|intros k []]|].
      cbn [flat_map] in *. unfold dkeys in *. rewrite map_app. split.
      - unfold out_of at 1. destruct (dget (s_name s) totals) as [t|]; [destruct (get_ks s ks) as [kk|] eqn:Eg|].
        + fold (dkeys (s_out s (Fin h) t kk)). rewrite s_out_keys by (eapply get_ks_length; exact Eg).
          rewrite app_assoc. apply IH. rewrite <- app_assoc. exact N.
        + cbn [map app]. apply IH. eapply nodup_drop_mid. exact N.
        + cbn [map app]. apply IH. eapply nodup_drop_mid. exact N.
      - intros k I. apply in_app_iff in I. apply in_app_iff. destruct I as [I|I]; [left; eapply out_of_keys; exact I|right].
        apply (IH [] (nodup_drop_mid [] _ _ (proj1 (proj2 (nodup_app_split _ _ N))))). exact I. }
    destruct (S _ _ N) as [S1 S2]. split; [exact S1|]. intros k I. apply in_app_iff in I. destruct I as [I|I].
    - apply start_keys in I. cbn in I |- *. tauto.
    - apply S2 in I. clear -I. unfold substs in I.
      destruct (existsb (Z.eqb scale) [1; 3]%Z), (Z.eqb scale 3); cbn in I |- *; tauto. }
  destruct Hkeys as [Nd Ik]. split; [|split; [|split]].
  - rewrite Ec. rewrite weighted_sum_fin.
    2:{ intros k I. apply Hknown. rewrite Ec, dkeys_dmap. exact I. }
    do 2 f_equal. rewrite (wsum_content d all_species Nd Ik).
    2:{ unfold all_species. repeat constructor; cbn; intuition discriminate. }
    unfold dickson. rewrite !content_fin. unfold all_species, mult. cbn -[contentR Rmult Rplus IZR]. lra.
  - rewrite Ec, dget_dmap. reflexivity.
  - intros kw E. rewrite Ec, dget_dmap. unfold d, st. rewrite E. reflexivity.
  - intros s x E. split.
    + apply Ik. rewrite <- (dkeys_dmap Fin), <- Ec. apply dget_in_keys. unfold dmem. now rewrite E.
    + rewrite Ec, dget_dmap in E. destruct (dget s d); [|discriminate]. injection E as <-. eauto.
Qed.

Print Assumptions C92_alkalinity_is_acceptors_minus_donors.

Example C92_nonvacuous : nonneg_totals ex_totals /\ pos_constants ex_ks /\
  exists c, alkalinity_components (Fin 8) ex_totals ex_ks 3 = Ok c.
Proof. split; [apply ex_totals_nonneg|]. split; [apply ex_ks_pos|]. eexists. reflexivity. Qed.
