(* DictLemmas.v -- facts about dicts, masks and broadcasting used by all proofs *)
From Verif Require Export Num.
From Coq Require Import Permutation.

Lemma dget_dset_same {A} k (v : A) d : dget k (dset k v d) = Some v.
Proof.
  induction d as [|[k' v'] d IH]; cbn.
  - rewrite String.eqb_refl. reflexivity.
  - destruct (String.eqb k k') eqn:E; cbn; [rewrite String.eqb_refl|rewrite E]; auto.
Qed.

Lemma dget_dset_other {A} k k' (v : A) d : k <> k' -> dget k (dset k' v d) = dget k d.
Proof.
  intros Hk. induction d as [|[k1 v1] d IH]; cbn.
  - destruct (String.eqb_spec k k'); congruence.
  - destruct (String.eqb k' k1) eqn:E; cbn.
    + apply String.eqb_eq in E; subst k1.
      destruct (String.eqb_spec k k'); congruence.
    + destruct (String.eqb k k1); auto.
Qed.

Lemma dget_dset {A} k k' (v : A) d :
  dget k (dset k' v d) = if String.eqb k k' then Some v else dget k d.
Proof.
  destruct (String.eqb_spec k k') as [->|Hn].
  - apply dget_dset_same.
  - apply dget_dset_other; assumption.
Qed.

Lemma dmem_dset {A} k k' (v : A) d : dmem k (dset k' v d) = (String.eqb k k' || dmem k d)%bool.
Proof. unfold dmem. rewrite dget_dset. destruct (String.eqb k k'); reflexivity. Qed.

Lemma dkeys_dset_mem {A} k (v : A) d : dmem k d = true -> dkeys (dset k v d) = dkeys d.
Proof.
  induction d as [|[k' v'] d IH]; cbn; unfold dmem; cbn; [discriminate|].
  destruct (String.eqb k k') eqn:E; cbn.
  - apply String.eqb_eq in E; subst; reflexivity.
  - intros Hm. f_equal. apply IH. exact Hm.
Qed.

Lemma dkeys_dset_new {A} k (v : A) d : dmem k d = false -> dkeys (dset k v d) = (dkeys d ++ [k])%list.
Proof.
  induction d as [|[k' v'] d IH]; cbn; unfold dmem; cbn; [reflexivity|].
  destruct (String.eqb k k') eqn:E; cbn; [discriminate|].
  intros Hm. f_equal. apply IH. exact Hm.
Qed.

Lemma dget_in {A} k (v : A) d : dget k d = Some v -> In (k, v) d.
Proof.
  induction d as [|[k' v'] d IH]; cbn; [discriminate|].
  destruct (String.eqb_spec k k') as [->|Hn]; [intros [= ->]; auto|auto].
Qed.

Lemma dget_in_keys {A} k (d : dict A) : In k (dkeys d) <-> dmem k d = true.
Proof.
  unfold dmem. induction d as [|[k' v'] d IH]; cbn.
  - split; [intros []|discriminate].
  - destruct (String.eqb_spec k k') as [->|Hn]; [tauto|].
    rewrite <- IH. split; [intros [->|]; congruence || auto|auto].
Qed.

Lemma dmem_false_get {A} k (d : dict A) : dmem k d = false <-> dget k d = None.
Proof. unfold dmem; destruct (dget k d); split; congruence. Qed.

Lemma dmem_true_get {A} k (d : dict A) : dmem k d = true <-> exists v, dget k d = Some v.
Proof. unfold dmem; destruct (dget k d); split; eauto; [discriminate|intros [? [=]]]. Qed.

Lemma wfd_dset {A} k (v : A) d : wfd d -> wfd (dset k v d).
Proof.
  unfold wfd. intros Hd. destruct (dmem k d) eqn:Hm.
  - rewrite dkeys_dset_mem by assumption. assumption.
  - rewrite dkeys_dset_new by assumption.
    apply (Permutation_NoDup (l := k :: dkeys d)).
    + apply Permutation_cons_append.
    + constructor; [rewrite dget_in_keys; congruence|assumption].
Qed.

Lemma in_dget {A} k (v : A) d : wfd d -> In (k, v) d -> dget k d = Some v.
Proof.
  unfold wfd. induction d as [|[k' v'] d IH]; cbn; [intros _ []|].
  intros Hnd [E|Hin]; inversion Hnd as [|? ? Hni Hnd']; subst.
  - inversion E; subst. rewrite String.eqb_refl. reflexivity.
  - destruct (String.eqb_spec k k') as [->|Hn]; [|auto].
    exfalso. apply Hni. unfold dkeys. apply in_map_iff. exists (k', v); auto.
Qed.

Lemma dget_dmap {A B} (f : A -> B) k d :
  dget k (dmap f d) = match dget k d with Some v => Some (f v) | None => None end.
Proof.
  induction d as [|[k' v'] d IH]; cbn; [reflexivity|].
  destruct (String.eqb k k'); auto.
Qed.

Lemma dkeys_dmap {A B} (f : A -> B) d : dkeys (dmap f d) = dkeys d.
Proof. unfold dkeys, dmap. rewrite map_map. reflexivity. Qed.

Lemma dmap_dset {A B} (f : A -> B) k v d : dmap f (dset k v d) = dset k (f v) (dmap f d).
Proof.
  induction d as [|[k' v'] d IH]; cbn; [reflexivity|].
  destruct (String.eqb k k'); cbn; [reflexivity|].
  change (map (fun kv => (fst kv, f (snd kv))) (dset k v d)) with (dmap f (dset k v d)).
  rewrite IH. reflexivity.
Qed.

(* setting the value a key already has *)
Lemma dset_same_value {A} k (v : A) d : dget k d = Some v -> dset k v d = d.
Proof.
  induction d as [|[k' v'] d IH]; cbn; [discriminate|].
  destruct (String.eqb_spec k k') as [->|Hn]; [intros [= ->]; reflexivity|].
  intros Hg. rewrite IH by assumption. reflexivity.
Qed.

Lemma dset_dset_same {A} k (v v' : A) d : dset k v (dset k v' d) = dset k v d.
Proof.
  induction d as [|[k' w] d IH]; cbn.
  - rewrite String.eqb_refl. reflexivity.
  - destruct (String.eqb k k') eqn:E; cbn; [rewrite String.eqb_refl|rewrite E, IH]; reflexivity.
Qed.

(* updates of existing, different keys commute exactly *)
Lemma dset_dset_comm {A} k1 k2 (v1 v2 : A) d :
  k1 <> k2 -> dmem k1 d = true -> dmem k2 d = true ->
  dset k1 v1 (dset k2 v2 d) = dset k2 v2 (dset k1 v1 d).
Proof.
  intros Hne. unfold dmem. induction d as [|[k w] d IH]; cbn; [discriminate|].
  destruct (String.eqb_spec k1 k) as [->|H1]; destruct (String.eqb_spec k2 k) as [->|H2].
  - congruence.
  - intros _ _. cbn. rewrite String.eqb_refl.
    destruct (String.eqb_spec k2 k); [congruence|]. reflexivity.
  - intros _ _. cbn. rewrite String.eqb_refl.
    destruct (String.eqb_spec k1 k); [congruence|]. reflexivity.
  - intros Hm1 Hm2. cbn.
    destruct (String.eqb_spec k1 k); [congruence|].
    destruct (String.eqb_spec k2 k); [congruence|].
    rewrite IH; auto.
Qed.

(* dicts with the same keys in the same order and the same values are equal *)
Lemma dict_ext {A} (d d' : dict A) :
  wfd d -> dkeys d' = dkeys d -> (forall k, In k (dkeys d) -> dget k d' = dget k d) -> d' = d.
Proof.
  unfold wfd. revert d'; induction d as [|[k v] d IH]; intros [|[k' v'] d'] Hnd Hk Hg; cbn in *; try congruence.
  injection Hk as E1 Hk; subst k'. inversion Hnd as [|? ? Hni Hnd']; subst.
  pose proof (Hg k (or_introl eq_refl)) as E. rewrite String.eqb_refl in E. injection E as ->.
  f_equal. apply IH; auto. clear IH. intros k1 Hk1. specialize (Hg k1 (or_intror Hk1)).
  destruct (String.eqb_spec k1 k) as [E1|Hn]; [subst k1; contradiction|assumption].
Qed.

Lemma list_ext {A} (l l' : list A) :
  length l' = length l -> (forall i x, nth_error l i = Some x -> nth_error l' i = Some x) -> l' = l.
Proof.
  revert l'; induction l as [|x l IH]; intros [|x' l'] Hl Hn; cbn in *; try congruence.
  pose proof (Hn 0%nat x eq_refl) as E. cbn in E. injection E as ->. f_equal.
  apply IH; [congruence|]. intros i y Hy. exact (Hn (S i) y Hy).
Qed.

(* ------------------------------------------------------------------ *)

Lemma mem_str_spec k l : mem_str k l = true <-> In k l.
Proof.
  unfold mem_str. rewrite existsb_exists. split.
  - intros [x [Hx E]]. apply String.eqb_eq in E; subst; assumption.
  - intros Hk. exists k. rewrite String.eqb_refl. auto.
Qed.

Lemma mem_str_false k l : mem_str k l = false <-> ~ In k l.
Proof. rewrite <- mem_str_spec. destruct (mem_str k l); split; congruence. Qed.

Lemma dget_filter {A} (p : string -> bool) k (d : dict A) :
  dget k (filter (fun kv => p (fst kv)) d) = if p k then dget k d else None.
Proof.
  induction d as [|[k' v] d IH]; cbn; [destruct (p k); reflexivity|].
  destruct (p k') eqn:Ep; cbn.
  - destruct (String.eqb_spec k k') as [->|Hn]; [rewrite Ep; reflexivity|assumption].
  - rewrite IH. destruct (String.eqb_spec k k') as [->|Hn]; [rewrite Ep; reflexivity|reflexivity].
Qed.

(* ------------------------------------------------------------------ *)

Lemma bind_ok {A B} (r : res A) (k : A -> res B) b :
  bind r k = Ok b -> exists a, r = Ok a /\ k a = Ok b.
Proof. destruct r as [a|e]; cbn; [eauto|discriminate]. Qed.

Lemma mapM_ok {A B} (f : A -> res B) l l' :
  mapM f l = Ok l' ->
  length l' = length l /\
  forall i x, nth_error l i = Some x -> exists y, nth_error l' i = Some y /\ f x = Ok y.
Proof.
  revert l'; induction l as [|x l IH]; cbn; intros l' Hl.
  - injection Hl as <-. split; [reflexivity|]. intros [|i] y; cbn; discriminate.
  - apply bind_ok in Hl as [y [Hy Hl]]. apply bind_ok in Hl as [ys [Hys Hl]].
    injection Hl as <-. destruct (IH _ Hys) as [Hlen Hn]. split; [cbn; congruence|].
    intros [|i] z; cbn; [intros [= ->]; eauto|apply Hn].
Qed.

Lemma mapM_total {A B} (f : A -> res B) l :
  (forall x, In x l -> exists y, f x = Ok y) -> exists l', mapM f l = Ok l'.
Proof.
  induction l as [|x l IH]; intros Hf; cbn; [eauto|].
  destruct (Hf x (or_introl eq_refl)) as [y ->].
  destruct IH as [ys ->]; [intros; apply Hf; right; assumption|]. cbn. eauto.
Qed.

Lemma mapM_map {A B} (f : A -> res B) (g : A -> B) l :
  (forall x, In x l -> f x = Ok (g x)) -> mapM f l = Ok (map g l).
Proof.
  induction l as [|x l IH]; intros Hf; cbn; [reflexivity|].
  rewrite Hf by (left; reflexivity). cbn. rewrite IH; [reflexivity|].
  intros; apply Hf; right; assumption.
Qed.

Lemma mapM_ext {A B} (f g : A -> res B) l :
  (forall x, In x l -> f x = g x) -> mapM f l = mapM g l.
Proof.
  induction l as [|x l IH]; intros Hf; cbn; [reflexivity|].
  rewrite Hf by (left; reflexivity). rewrite IH; [reflexivity|].
  intros; apply Hf; right; assumption.
Qed.

(* mapM over a dict with a function that keeps keys *)
Lemma mapM_dict {A B} (g : string * A -> res (string * B)) d d' :
  (forall kv kv', g kv = Ok kv' -> fst kv' = fst kv) ->
  mapM g d = Ok d' ->
  dkeys d' = dkeys d /\
  forall k v, dget k d = Some v -> exists v', dget k d' = Some v' /\ g (k, v) = Ok (k, v').
Proof.
  intros Hk. revert d'; induction d as [|[k1 v1] d IH]; cbn; intros d' Hd.
  - injection Hd as <-. split; [reflexivity|discriminate].
  - apply bind_ok in Hd as [[k2 y] [Hy Hd]]. apply bind_ok in Hd as [ys [Hys Hd]].
    injection Hd as <-. pose proof (Hk _ _ Hy) as E; cbn in E; subst k2.
    destruct (IH _ Hys) as [Hkeys Hg]. split; [cbn; f_equal; assumption|].
    intros k v. cbn. destruct (String.eqb_spec k k1) as [->|Hn]; [intros [= ->]; eauto|apply Hg].
Qed.

Lemma dget_keys_none {A B} k (d : dict A) (d' : dict B) :
  dkeys d' = dkeys d -> dget k d = None -> dget k d' = None.
Proof.
  intros Hk Hn. apply dmem_false_get. apply dmem_false_get in Hn.
  destruct (dmem k d') eqn:E; [|reflexivity].
  apply dget_in_keys in E. rewrite Hk in E. apply dget_in_keys in E. congruence.
Qed.

Lemma dmapM_spec {A B} (f : A -> res B) d d' :
  dmapM f d = Ok d' ->
  dkeys d' = dkeys d /\
  forall k v, dget k d = Some v -> exists v', dget k d' = Some v' /\ f v = Ok v'.
Proof.
  unfold dmapM. intros Hd.
  destruct (mapM_dict (fun kv => y <- f (snd kv) ;; Ok (fst kv, y)) d d') as [Hk Hg].
  - intros [k v] kv' E. apply bind_ok in E as [y [_ E]]. injection E as <-. reflexivity.
  - exact Hd.
  - split; [exact Hk|]. intros k v Hv. destruct (Hg _ _ Hv) as [v' [Hv' E]]. exists v'. split; auto.
    cbn in E. apply bind_ok in E as [y [Hy E]]. injection E as <-. exact Hy.
Qed.

(* ------------------------------------------------------------------ *)

Lemma map2_length {A B C} (f : A -> B -> C) l l' :
  length l = length l' -> length (map2 f l l') = length l.
Proof. revert l'; induction l as [|x l IH]; intros [|y l']; cbn; congruence || (intros E; f_equal; apply IH; congruence). Qed.

Lemma nth_error_map2 {A B C} (f : A -> B -> C) l l' i x y :
  nth_error l i = Some x -> nth_error l' i = Some y -> nth_error (map2 f l l') i = Some (f x y).
Proof.
  revert l l'; induction i as [|i IH]; intros [|a l] [|b l']; cbn; try discriminate.
  - intros [= ->] [= ->]. reflexivity.
  - apply IH.
Qed.

Lemma map2_map_l {A A' B C} (f : A' -> B -> C) (g : A -> A') l l' :
  map2 f (map g l) l' = map2 (fun x y => f (g x) y) l l'.
Proof. revert l'; induction l as [|x l IH]; intros [|y l']; cbn; congruence. Qed.
Lemma map2_map_r {A B B' C} (f : A -> B' -> C) (g : B -> B') l l' :
  map2 f l (map g l') = map2 (fun x y => f x (g y)) l l'.
Proof. revert l'; induction l as [|x l IH]; intros [|y l']; cbn; congruence. Qed.
Lemma map_map2 {A B C D} (f : A -> B -> C) (g : C -> D) l l' :
  map g (map2 f l l') = map2 (fun x y => g (f x y)) l l'.
Proof. revert l'; induction l as [|x l IH]; intros [|y l']; cbn; congruence. Qed.
Lemma map2_same {A C} (f : A -> A -> C) l : map2 f l l = map (fun x => f x x) l.
Proof. induction l as [|x l IH]; cbn; congruence. Qed.
Lemma map2_ext {A B C} (f g : A -> B -> C) l l' :
  (forall i x y, nth_error l i = Some x -> nth_error l' i = Some y -> f x y = g x y) ->
  map2 f l l' = map2 g l l'.
Proof.
  revert l'; induction l as [|x l IH]; intros [|y l'] Hf; cbn; try reflexivity.
  rewrite (Hf 0%nat x y) by reflexivity. f_equal. apply IH.
  intros i a b Ha Hb. apply (Hf (S i)); assumption.
Qed.

Lemma mask_length_le {A} m (l : list A) : (length (mask m l) <= length l)%nat.
Proof.
  revert l; induction m as [|b m IH]; intros [|x l]; cbn; try lia.
  destruct b; cbn; specialize (IH l); lia.
Qed.

Lemma mask_map {A B} (f : A -> B) m l : mask m (map f l) = map f (mask m l).
Proof.
  revert l; induction m as [|b m IH]; intros [|x l]; cbn; try reflexivity.
  destruct b; cbn; rewrite IH; reflexivity.
Qed.

Lemma mask_map2 {A B C} (f : A -> B -> C) m l l' :
  mask m (map2 f l l') = map2 f (mask m l) (mask m l').
Proof.
  revert l l'; induction m as [|b m IH]; intros [|x l] [|y l']; cbn; try reflexivity.
  - destruct b; [reflexivity|]. destruct (mask m l); reflexivity.
  - destruct b; cbn; rewrite IH; reflexivity.
Qed.

Lemma map3_mask {A B C D} (f : A -> B -> C -> D) m l l' l'' :
  mask m (map3 f l l' l'') = map3 f (mask m l) (mask m l') (mask m l'').
Proof.
  revert l l' l''; induction m as [|b m IH]; intros [|x l] [|y l'] [|z l'']; cbn; try reflexivity;
    destruct b; cbn; try reflexivity; try (rewrite IH; reflexivity);
    try (destruct (mask m l); reflexivity);
    destruct (mask m l); try reflexivity; destruct (mask m l'); reflexivity.
Qed.

Lemma mask_in {A} m (l : list A) x : In x (mask m l) -> In x l.
Proof.
  revert l; induction m as [|b m IH]; intros [|y l]; cbn; try tauto.
  destruct b; cbn; intros Hx; [destruct Hx; auto|]; right; apply IH; assumption.
Qed.

Lemma mask_in_iff {A} m (l : list A) x :
  In x (mask m l) <-> exists i, nth_error m i = Some true /\ nth_error l i = Some x.
Proof.
  revert l; induction m as [|b m IH]; intros [|y l]; cbn.
  - split; [intros []|]. intros [[|i] [E _]]; discriminate.
  - split; [intros []|]. intros [[|i] [E _]]; discriminate.
  - split; [intros []|]. intros [[|i] [_ E]]; discriminate.
  - split.
    + intros Hx. destruct b.
      * destruct Hx as [->|Hx]; [exists 0%nat; auto|]. apply IH in Hx as [i Hi]. exists (S i). exact Hi.
      * apply IH in Hx as [i Hi]. exists (S i). exact Hi.
    + intros [[|i] [E1 E2]]; cbn in E1, E2.
      * injection E1 as ->. injection E2 as ->. left; reflexivity.
      * assert (In x (mask m l)) by (apply IH; eauto). destruct b; [right|]; assumption.
Qed.

Lemma map3_length {A B C D} (f : A -> B -> C -> D) l l' l'' :
  length l' = length l -> length l'' = length l -> length (map3 f l l' l'') = length l.
Proof.
  revert l' l''; induction l as [|x l IH]; intros [|y l'] [|z l'']; cbn; try congruence; intros E1 E2.
  f_equal; apply IH; congruence.
Qed.

Lemma nth_error_map3 {A B C D} (f : A -> B -> C -> D) l l' l'' i x y z :
  nth_error l i = Some x -> nth_error l' i = Some y -> nth_error l'' i = Some z ->
  nth_error (map3 f l l' l'') i = Some (f x y z).
Proof.
  revert l l' l''; induction i as [|i IH]; intros [|a l] [|b l'] [|c l'']; cbn; try discriminate.
  - intros [= ->] [= ->] [= ->]. reflexivity.
  - apply IH.
Qed.

(* ------------------------------------------------------------------ *)

Section ND.
Context {T : Type} `{Num T}.

Lemma nd_at_nth (l : list T) i x : nth_error l i = Some x -> nd_at (NdA l) i = x.
Proof.
  intros Hn. destruct l as [|a [|b l]].
  - destruct i; discriminate.
  - destruct i as [|[|i]]; cbn in *; congruence.
  - cbn [nd_at]. apply nth_error_nth. assumption.
Qed.

Lemma nd_map2_at (f : T -> T -> T) v l :
  nd_fits (length l) v = true ->
  exists l', nd_map2 f v (NdA l) = Ok (NdA l') /\ length l' = length l /\
    forall i x, nth_error l i = Some x -> nth_error l' i = Some (f (nd_at v i) x).
Proof.
  destruct v as [y|w]; cbn.
  - intros _. exists (map (f y) l). split; [reflexivity|]. split; [apply map_length|].
    intros i x Hx. rewrite nth_error_map, Hx. reflexivity.
  - intros Hf. destruct (Nat.eqb (length w) (length l)) eqn:E.
    + apply Nat.eqb_eq in E. exists (map2 f w l). split; [reflexivity|].
      split; [rewrite map2_length; assumption|].
      intros i x Hx.
      assert (exists y, nth_error w i = Some y) as [y Hy].
      { assert (i < length w)%nat by (rewrite E; apply nth_error_Some; congruence).
        apply nth_error_Some in H0. destruct (nth_error w i); [eauto|congruence]. }
      change (match w with [x0] => x0 | _ => nth i w nnan end) with (nd_at (NdA w) i).
      rewrite (nd_at_nth w i y Hy). apply nth_error_map2; assumption.
    + cbn in Hf. apply Nat.eqb_eq in Hf. destruct w as [|y [|? ?]]; try discriminate.
      exists (map (f y) l). split; [reflexivity|]. split; [apply map_length|].
      intros i x Hx. rewrite nth_error_map, Hx. reflexivity.
Qed.

Lemma nd_at_map (f : T -> T) n v i :
  nd_fits n v = true -> (i < n)%nat -> nd_at (nd_map f v) i = f (nd_at v i).
Proof.
  intros Hf Hi. destruct v as [x|l]; [reflexivity|].
  destruct l as [|x [|y w]].
  - unfold nd_fits in Hf. rewrite orb_true_iff, !Nat.eqb_eq in Hf. cbn [length] in Hf. lia.
  - reflexivity.
  - unfold nd_fits in Hf. rewrite orb_true_iff, !Nat.eqb_eq in Hf. cbn [length] in Hf.
    cbn [nd_map]. destruct (nth_error (x :: y :: w) i) as [z|] eqn:Ez.
    + rewrite (nd_at_nth (x :: y :: w) i z Ez). apply nd_at_nth. rewrite nth_error_map, Ez. reflexivity.
    + apply nth_error_None in Ez. cbn [length] in Ez. lia.
Qed.

Lemma all_fit_get n (d : dict (nd T)) k v : all_fit n d = true -> dget k d = Some v -> nd_fits n v = true.
Proof.
  unfold all_fit. rewrite forallb_forall. intros Ha Hk. apply dget_in in Hk. exact (Ha _ Hk).
Qed.

Lemma dget_slice (d : dict (nd T)) k i :
  dget k (slice_at d i) = match dget k d with Some v => Some (nd_at v i) | None => None end.
Proof. apply dget_dmap. Qed.

End ND.
