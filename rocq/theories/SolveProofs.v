(* SolveProofs.v -- what the solvers compute, point by point *)
From Coq Require Import Reals Qreals Lra.
From Verif Require Export SimProofs SimMono SpecSimulate PropGran.
Open Scope list_scope.
Open Scope R_scope.

(* ------------------------------------------------------------------ *)
(** * arrays *)

Lemma nth_error_combine_seq {A} (l : list A) k i x :
  nth_error l i = Some x -> nth_error (combine (seq k (length l)) l) i = Some ((k + i)%nat, x).
Proof.
  revert k i; induction l as [|a l IH]; intros k [|i]; cbn; try discriminate.
  - intros [= ->]. rewrite Nat.add_0_r. reflexivity.
  - intros Hi. rewrite (IH (S k) i Hi). f_equal. f_equal. lia.
Qed.

Section Arr.
Context {T : Type} `{Num T}.

Lemma alkalinity_arr_spec (pH : list T) totals ks s l :
  alkalinity_arr pH totals ks s = Ok l ->
  all_fit (length pH) totals = true /\ all_fit (length pH) ks = true /\ length l = length pH /\
  forall i p, nth_error pH i = Some p ->
    exists a, nth_error l i = Some a /\ alkalinity p (slice_at totals i) (slice_at ks i) s = Ok a.
Proof.
  unfold alkalinity_arr. destruct (all_fit (length pH) totals); cbn [andb]; [|discriminate].
  destruct (all_fit (length pH) ks); [|discriminate]. intros Hb. apply bind_ok in Hb as [u [_ Hm]].
  apply mapM_ok in Hm as [Hl Hn]. rewrite combine_length, seq_length, Nat.min_id in Hl.
  split; [reflexivity|]. split; [reflexivity|]. split; [assumption|].
  intros i p Hi. destruct (Hn i (i, p)) as [a [H1 H2]]; [exact (nth_error_combine_seq pH 0 i p Hi)|]. eauto.
Qed.

(* success on arrays follows from success at every point *)
Lemma alkalinity_arr_total (pH : list T) totals ks s :
  pH <> [] -> all_fit (length pH) totals = true -> all_fit (length pH) ks = true ->
  (forall i p, nth_error pH i = Some p -> exists a, alkalinity p (slice_at totals i) (slice_at ks i) s = Ok a) ->
  exists l, alkalinity_arr pH totals ks s = Ok l.
Proof.
  intros Hne Ht Hk Ha. unfold alkalinity_arr. rewrite Ht, Hk. cbn [andb].
  destruct pH as [|p0 pH]; [congruence|]. cbn [bind]. apply mapM_total. intros [i p] Hin. cbn [fst snd].
  apply In_nth_error in Hin as [j Hj].
  assert (Hlt : (j < length (p0 :: pH))%nat).
  { assert (Hlt : (j < length (combine (seq 0 (length (p0 :: pH))) (p0 :: pH)))%nat) by (apply nth_error_Some; congruence).
    rewrite combine_length, seq_length, Nat.min_id in Hlt. exact Hlt. }
  destruct (nth_error (p0 :: pH) j) as [q|] eqn:Eq; [|apply nth_error_None in Eq; lia].
  rewrite (nth_error_combine_seq _ 0 j q Eq) in Hj. injection Hj as <- <-. apply (Ha j). assumption.
Qed.

(* one per-point estimate, as in the code *)
Definition estimate (s m M c n : T) : T :=
  nofQ 1000000 ⊗ (s ⊕ (m ⊗ c ⊗ n) ⊘ (m ⊕ M)) ⊘ get_dilution_factor m M.

Lemma alkalinity_all_spec (pH tm : list T) M c n totals ks l :
  length pH = length tm -> alkalinity_all pH tm M c n totals ks = Ok l ->
  all_fit (length pH) totals = true /\ all_fit (length pH) ks = true /\ length l = length tm /\
  forall i p m, nth_error pH i = Some p -> nth_error tm i = Some m ->
    exists s, alkalinity p (slice_at totals i) (slice_at ks i) 3 = Ok s /\
      nth_error l i = Some (estimate s m M c n).
Proof.
  intros Hlen Ha. unfold alkalinity_all in Ha. apply bind_ok in Ha as [sim [Hs Hl]].
  apply alkalinity_arr_spec in Hs as [H1 [H2 [H3 H4]]]. injection Hl as <-.
  split; [assumption|]. split; [assumption|]. split.
  { rewrite map2_length; congruence. }
  intros i p m Hp Hm. destruct (H4 i p Hp) as [s [Hs1 Hs2]]. exists s. split; [assumption|].
  rewrite nth_error_map2, Hs1, Hm. reflexivity.
Qed.

Lemma solve_pH_inv (c : T) tm pH temps M totals ks pmin pmax n r :
  solve_pH c tm pH temps M totals ks pmin pmax n = Ok r ->
  length pH = length tm /\ nltb pmin pmax = true /\ sp_used r = in_window pmin pmax pH /\
  alkalinity_all pH tm M c n totals ks = Ok (sp_alkalinity_all r) /\
  sp_alkalinity r = nmean (mask (sp_used r) (sp_alkalinity_all r)) /\
  sp_alkalinity_std r = nstd (mask (sp_used r) (sp_alkalinity_all r)).
Proof.
  unfold solve_pH. destruct (Nat.eqb_spec (length pH) (length tm)) as [Hl|]; cbn [negb]; [|discriminate].
  destruct (nltb pmin pmax) eqn:Ew; cbn [assert_ bind]; [|discriminate].
  destruct (alkalinity_all pH tm M c n totals ks) as [l|] eqn:Ea; cbn [bind]; [|discriminate].
  intros [= <-]. cbn. auto 10.
Qed.

Lemma solve_pH_gran_inv (c : T) tm pH temps M totals ks pmin pmax n r :
  solve_pH_gran c tm pH temps M totals ks pmin pmax n = Ok r ->
  length pH = length tm /\ nltb pmin pmax = true /\ sg_used r = in_window pmin pmax pH /\
  sg_gfunc r = map2 (fun m p => (m ⊕ M) ⊗ npow10 (nopp p)) tm pH /\
  linregress (mask (sg_used r) tm) (mask (sg_used r) (sg_gfunc r)) = Ok (sg_lr r) /\
  sg_alkalinity r = nofQ 1000000 ⊗ (nopp (lr_intercept (sg_lr r)) ⊘ lr_slope (sg_lr r) ⊗ c ⊗ n ⊘ M).
Proof.
  unfold solve_pH_gran. destruct (Nat.eqb_spec (length pH) (length tm)) as [Hl|]; cbn [negb]; [|discriminate].
  destruct (nltb pmin pmax) eqn:Ew; cbn [assert_ bind]; [|discriminate].
  destruct (linregress _ _) as [l|] eqn:Ea; cbn [bind]; [|discriminate].
  intros [= <-]. cbn. auto 10.
Qed.

End Arr.

(* ------------------------------------------------------------------ *)
(** * reals *)

Lemma window_used pmin pmax (pH : list xr) i :
  used_at (in_window (Fin pmin) (Fin pmax) pH) i <->
  exists r, nth_error pH i = Some (Fin r) /\ pmin <= r <= pmax.
Proof.
  unfold used_at, in_window. rewrite nth_error_map. destruct (nth_error pH i) as [x|]; cbn [option_map].
  - split.
    + intros [= E]. apply andb_true_iff in E as [E1 E2]. unfold ngeb in E1.
      destruct x as [r| | |]; try discriminate. exists r. split; [reflexivity|].
      apply x_leb_fin in E1, E2. auto.
    + intros [r [[= ->] [H1 H2]]]. f_equal. apply andb_true_iff. unfold ngeb. split; apply x_leb_fin; assumption.
  - split; [discriminate|]. intros [r [? _]]. discriminate.
Qed.

Lemma df_pos m M : 0 < M -> 0 <= m -> 0 < M / (m + M).
Proof. intros. apply Rdiv_lt_0_compat; lra. Qed.

Lemma estimate_fin s m M c n : 0 < M -> 0 <= m ->
  estimate (Fin s) (Fin m) (Fin M) (Fin c) (Fin n) = Fin (1000000 * (s * (m + M) + m * c * n) / M).
Proof.
  intros HM Hm. unfold estimate. rewrite df_fin by lra. xsimp. rewrite fin_div by lra. xsimp.
  pose proof (df_pos m M HM Hm). rewrite fin_div by lra. f_equal. q2r. field. lra.
Qed.

Lemma forall_fin_list {A} (P : A -> xr -> Prop) (l : list xr) :
  (forall i x, nth_error l i = Some x -> exists r, x = Fin r) -> exists lr, l = map Fin lr.
Proof.
  induction l as [|x l IH]; intros Hf; [exists []; reflexivity|].
  destruct (Hf O x eq_refl) as [r ->].
  destruct IH as [lr ->]; [intros i y Hi; apply (Hf (S i)); assumption|]. exists (r :: lr). reflexivity.
Qed.

Definition Rvar (l : list R) : R := Rmean (map (fun x => (x - Rmean l) ^ 2) l).

Lemma Rvar_nonneg l : l <> [] -> 0 <= Rvar l.
Proof.
  intros Hl. unfold Rvar. unfold Rmean at 1. rewrite map_length. pose proof (INR_len l Hl).
  apply Rle_mult_inv_pos; [|assumption]. apply Rsum_nonneg. apply Forall_forall. intros v Hv.
  apply in_map_iff in Hv as [x [<- _]]. apply pow2_ge_0.
Qed.

Lemma nstd_fin l : l <> [] -> nstd (map Fin l) = Fin (sqrt (Rvar l)).
Proof.
  intros Hl. unfold nstd. rewrite nmean_fin by assumption. rewrite map_map.
  assert (E : map (fun x => npow (nsub (Fin x) (Fin (Rmean l))) 2) l
              = map Fin (map (fun x => (x - Rmean l) ^ 2) l)).
  { rewrite map_map. apply map_ext. intros x. rewrite fin_sub, fin_pow. reflexivity. }
  rewrite E, nmean_fin. 2:{ destruct l; [congruence|discriminate]. }
  fold (Rvar l). apply fin_sqrt. apply Rvar_nonneg. assumption.
Qed.

Lemma Rmean_all_eq l v : l <> [] -> (forall x, In x l -> x = v) -> Rmean l = v.
Proof.
  intros Hl Hall. assert (E : l = map (fun _ => v) l).
  { clear Hl. induction l as [|x l IH]; [reflexivity|]. cbn. rewrite (Hall x) by (cbn; auto). f_equal. apply IH.
    intros y Hy. apply Hall. cbn; auto. }
  rewrite E. apply Rmean_const. assumption.
Qed.

Lemma Rvar_all_eq l v : l <> [] -> (forall x, In x l -> x = v) -> Rvar l = 0.
Proof.
  intros Hl Hall. unfold Rvar. apply Rmean_all_eq; [destruct l; [congruence|discriminate]|].
  intros y Hy. apply in_map_iff in Hy as [x [<- Hx]]. rewrite (Rmean_all_eq l v Hl Hall), (Hall x Hx). ring.
Qed.

(* if all the entries of l at used points are the same finite number *)
Lemma masked_const u (l : list xr) v :
  length l = length u -> (exists i, used_at u i) ->
  (forall i x, used_at u i -> nth_error l i = Some x -> x = Fin v) ->
  nmean (mask u l) = Fin v /\ nstd (mask u l) = Fin 0.
Proof.
  intros Hl Hex Hv. pose proof (mask_cons_used u l Hl Hex) as Hne.
  assert (E : mask u l = map Fin (map (fun _ => v) (mask u l))).
  { rewrite map_map. assert (Hall : forall x, In x (mask u l) -> x = Fin v).
    { intros x Hx. apply in_mask in Hx as [i [H1 H2]]. eapply Hv; eassumption. }
    clear - Hall. induction (mask u l) as [|x m IH]; [reflexivity|]. cbn. rewrite (Hall x) by (cbn; auto). f_equal.
    apply IH. intros y Hy. apply Hall. cbn; auto. }
  rewrite E. assert (Hne' : map (fun _ => v) (mask u l) <> []) by (destruct (mask u l); [congruence|discriminate]).
  rewrite nmean_fin, nstd_fin by assumption.
  assert (Hall : forall x, In x (map (fun _ => v) (mask u l)) -> x = v).
  { intros x Hx. apply in_map_iff in Hx as [? [<- _]]. reflexivity. }
  rewrite (Rmean_all_eq _ v Hne' Hall), (Rvar_all_eq _ v Hne' Hall), sqrt_0. auto.
Qed.

(* the dissociation model gives finite values on sane input *)
Lemma sane_tot_ok totals i : nonneg_totals (slice_at totals i) -> tot_ok (slice_at totals i).
Proof. intros Hn s v E. destruct (Hn _ _ E) as [r [-> _]]. eauto. Qed.
Lemma sane_ks_ok ks i : pos_constants (slice_at ks i) -> ks_ok (slice_at ks i).
Proof. intros Hn. split; [intros s k v _ E; exact (Hn _ _ E)|intros v E; exact (Hn _ _ E)]. Qed.

Lemma alkalinity_finite p totals ks s a :
  nonneg_totals totals -> pos_constants ks -> alkalinity (Fin p) totals ks s = Ok a -> exists r, a = Fin r.
Proof.
  intros Ht Hk Ha.
  assert (Ht' : tot_ok totals) by (intros x v E; destruct (Ht _ _ E) as [r [-> _]]; eauto).
  assert (Hk' : ks_ok ks) by (split; [intros x k v _ E; exact (Hk _ _ E)|intros v E; exact (Hk _ _ E)]).
  unfold alkalinity in Ha. destruct (alkalinity_components (Fin p) totals ks s) as [c|] eqn:Ec; [|discriminate].
  pose proof (alkalinity_fin p totals ks s c Ht' Hk' Ec) as Hf. unfold alkalinity in Hf. rewrite Ec in Hf.
  rewrite Hf in Ha. injection Ha as <-. eauto.
Qed.

(* ------------------------------------------------------------------ *)
(** * masked arrays *)

Definition rank (u : list bool) (i : nat) : nat := count_true (firstn i u).

Lemma count_true_cons b u : count_true (b :: u) = ((if b then 1 else 0) + count_true u)%nat.
Proof. unfold count_true. destruct b; reflexivity. Qed.

Lemma mask_rank {A} u (l : list A) i : used_at u i -> nth_error (mask u l) (rank u i) = nth_error l i.
Proof.
  unfold used_at, rank. revert l i; induction u as [|b u IH]; intros l i Hi; [destruct i; discriminate|].
  destruct l as [|x l]; [cbn [mask]; generalize (count_true (firstn i (b :: u))); intros j; destruct j, i; reflexivity|].
  destruct i as [|i].
  - cbn in Hi. injection Hi as ->. reflexivity.
  - cbn [firstn nth_error mask] in *. rewrite count_true_cons. destruct b; cbn [Nat.add nth_error]; apply IH; assumption.
Qed.

Lemma mask_rank_inv {A} u (l : list A) j x : nth_error (mask u l) j = Some x ->
  exists i, used_at u i /\ rank u i = j /\ nth_error l i = Some x.
Proof.
  unfold used_at, rank. revert l j; induction u as [|b u IH]; intros l j Hj; [destruct j; discriminate|].
  destruct l as [|y l]; [destruct j; discriminate|]. cbn [mask] in Hj. destruct b.
  - destruct j as [|j]; [exists O; cbn in *; auto|]. destruct (IH l j Hj) as [i [H1 [H2 H3]]].
    exists (S i). split; [assumption|]. split; [|assumption]. cbn [firstn]. rewrite count_true_cons. lia.
  - destruct (IH l j Hj) as [i [H1 [H2 H3]]]. exists (S i). split; [assumption|]. split; [|assumption].
    cbn [firstn]. rewrite count_true_cons. lia.
Qed.

Lemma nd_at_masked {T} `{Num T} u (v : nd T) i :
  nd_fits (length u) v = true -> used_at u i -> nd_at (nd_mask u v) (rank u i) = nd_at v i.
Proof.
  intros Hf Hu. destruct v as [x|l]; [reflexivity|]. cbn [nd_mask].
  destruct l as [|a [|b l]]; [| reflexivity|].
  - cbn in Hf. destruct u as [|? u]; [destruct i; discriminate|]. cbn in Hf. discriminate.
  - cbn [length Nat.ltb]. change (1 <? S (S (length l)))%nat with true. cbn [nd_fits] in Hf.
    apply orb_true_iff in Hf as [Hf|Hf]; [|discriminate]. apply Nat.eqb_eq in Hf.
    assert (Hlt : (i < length (a :: b :: l))%nat) by (rewrite Hf; apply nth_error_Some; unfold used_at in Hu; congruence).
    destruct (nth_error (a :: b :: l) i) as [x|] eqn:Ex; [|apply nth_error_None in Ex; lia].
    rewrite (nd_at_nth _ _ x); [|rewrite mask_rank by assumption; exact Ex]. symmetry. apply nd_at_nth. exact Ex.
Qed.

Lemma slice_masked {T} `{Num T} u (d : dict (nd T)) i :
  all_fit (length u) d = true -> used_at u i -> slice_at (dmap (nd_mask u) d) (rank u i) = slice_at d i.
Proof.
  intros Hf Hu. unfold slice_at, dmap. rewrite map_map. apply map_ext_in. intros [k v] Hin. cbn [fst snd]. f_equal.
  apply nd_at_masked; [|assumption]. unfold all_fit in Hf. rewrite forallb_forall in Hf. exact (Hf _ Hin).
Qed.
