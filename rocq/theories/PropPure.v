(* PropPure.v -- C86: files.solve does not depend on what happened before, and does not change it *)
From Coq Require Import Floats.SpecFloat.
From Verif Require Import Heap DictLemmas Classes TableProofs SFNum.
Open Scope list_scope.
Open Scope string_scope.
Open Scope list_scope.

(* The history of a session: calls of files.solve, and changes that the user makes to any object *)
Section Spec.
Context {T : Type} `{Num T}.
Inductive step :=
| SolveFile (file_name titrant_molinity salinity : val T) (kw : kwargs T)
| Change (a : nat) (o : obj T).

Fixpoint session (e : env T) (steps : list step) (h : heap T) : heap T :=
  match steps with
  | [] => h
  | SolveFile f c s kw :: rest => session e rest (fst (files_solve_at e f c s kw h))
  | Change a o :: rest => session e rest (write h a o)
  end.
Definition only_calls (steps : list step) : Prop := forall a o, ~ In (Change a o) steps.
End Spec.
Arguments step : clear implicits.

Section P.
Context {T : Type} `{Num T}.

Lemma write_length (h : heap T) a o : length (write h a o) = length h.
Proof. revert a. induction h as [|x h IH]; intros [|a]; cbn; auto. Qed.
Lemma write_same (h : heap T) a o : (a < length h)%nat -> nth_error (write h a o) a = Some o.
Proof. revert a. induction h as [|x h IH]; intros [|a] L; cbn in *; try lia; [reflexivity|]. apply IH. lia. Qed.
Lemma write_other (h : heap T) a b o : a <> b -> nth_error (write h a o) b = nth_error h b.
Proof. revert a b. induction h as [|x h IH]; intros [|a] [|b] N; cbn; try reflexivity; try congruence. apply IH. congruence. Qed.

(* the dict at a, its entries are its own and lie behind the first n objects *)
Definition own (n : nat) (h : heap T) (a : nat) : Prop :=
  (n <= a < length h)%nat /\ NoDup (map snd (dict_at h a)) /\
  (exists d, nth_error h a = Some (ODict d)) /\
  forall l, In l (map snd (dict_at h a)) -> (n <= l < length h)%nat /\ l <> a.

(* the first n objects *)
Definition keeps_first (n : nat) (h h' : heap T) : Prop := (length h <= length h')%nat /\ forall b, (b < n)%nat -> nth_error h' b = nth_error h b.

Lemma dget_snd {A} (d : dict A) k v : dget k d = Some v -> In v (map snd d).
Proof. intros G. apply dget_in in G. apply in_map_iff. exists (k, v). auto. Qed.

Lemma dget_map_snd {A B} (g : A -> B) (d : dict A) k : dget k (map (fun kl => (fst kl, g (snd kl))) d) = match dget k d with Some v => Some (g v) | None => None end.
Proof. induction d as [|[x v] d IH]; [reflexivity|]. cbn [map dget fst snd]. now destruct (String.eqb k x). Qed.

(* changing the array of one entry is setting that entry *)
Lemma map_dset (ls : dict nat) k l (g g' : nat -> nd T) v' : NoDup (map snd ls) -> dget k ls = Some l ->
  g' l = v' -> (forall x, x <> l -> In x (map snd ls) -> g' x = g x) ->
  map (fun kl => (fst kl, g' (snd kl))) ls = dset k v' (map (fun kl => (fst kl, g (snd kl))) ls).
Proof.
  intros ND G E O. induction ls as [|[x m] ls IH]; [discriminate|]. cbn [map dget fst snd dset] in *.
  apply NoDup_cons_iff in ND. destruct ND as [NI ND]. destruct (String.eqb_spec k x) as [->|N].
  - injection G as ->. rewrite E. apply f_equal2; [reflexivity|]. apply map_ext_in. intros [y p] I. cbn [fst snd].
    assert (J : In p (map snd ls)) by (apply in_map_iff; exists (y, p); auto). rewrite O; [reflexivity| |now right]. intros ->. contradiction.
  - apply f_equal2.
    + rewrite O; [reflexivity| |now left]. intros ->. apply NI. now apply dget_snd in G.
    + apply IH; [exact ND|exact G|]. intros y Ny Iy. apply O; [exact Ny|now right].
Qed.
Lemma map_dset_new (ls : dict nat) k m (g g' : nat -> nd T) v' : g' m = v' -> (forall x, In x (map snd ls) -> g' x = g x) -> dget k ls <> None ->
  map (fun kl => (fst kl, g' (snd kl))) (dset k m ls) = dset k v' (map (fun kl => (fst kl, g (snd kl))) ls).
Proof.
  intros E O G. induction ls as [|[x p] ls IH]; [cbn in G; congruence|]. cbn [map dget fst snd dset] in *.
  destruct (String.eqb k x); cbn [map fst snd].
  - rewrite E. apply f_equal2; [reflexivity|]. apply map_ext_in. intros [y q] I. cbn [fst snd]. rewrite O; [reflexivity|]. right. apply in_map_iff. exists (y, q); auto.
  - rewrite O by now left. apply f_equal2; [reflexivity|]. apply IH; [|exact G]. intros y Iy. apply O. now right.
Qed.

Lemma dset_snd {A} (d : dict A) k v : forall x, In x (map snd (dset k v d)) -> x = v \/ In x (map snd d).
Proof.
  induction d as [|[y w] d IH]; intros x I; cbn [dset map snd In] in *; [destruct I as [<-|[]]; auto|].
  destruct (String.eqb k y); cbn [map snd In] in I; (destruct I as [<-|I]; [tauto|]); [tauto|]. destruct (IH x I); tauto.
Qed.
Lemma dset_snd_nodup {A} (d : dict A) k v : NoDup (map snd d) -> ~ In v (map snd d) -> NoDup (map snd (dset k v d)).
Proof.
  induction d as [|[y w] d IH]; intros ND NI; cbn [dset map snd] in *; [repeat constructor; auto|].
  inversion ND as [|? ? N1 N2]; subst. cbn [In] in NI. destruct (String.eqb k y); cbn [map snd].
  - constructor; tauto.
  - constructor; [|apply IH; tauto]. intros I. apply dset_snd in I. destruct I as [->|I]; tauto.
Qed.

Lemma iadd_entry_spec n (h : heap T) a k x : own n h a -> 
  match dget k (deref h a) with
  | None => iadd_entry h a k x = (h, Err (KeyError k))
  | Some v =>
      match nd_iadd v x with
      | Err e => iadd_entry h a k x = (h, Err e)
      | Ok v' => exists h', iadd_entry h a k x = (h', Ok tt) /\ own n h' a /\ keeps_first n h h' /\ deref h' a = dset k v' (deref h a)
      end
  end.
Proof.
  intros (La & ND & (d0 & Ga) & Own). unfold deref. rewrite (dget_map_snd (arr_at h)). unfold iadd_entry.
  destruct (dget k (dict_at h a)) as [l|] eqn:G; [|reflexivity].
  destruct (nd_iadd (arr_at h l) x) as [v'|e] eqn:E; [|reflexivity].
  destruct (Own l (dget_snd _ _ _ G)) as (Ll & Nl).
  destruct (arr_at h l) as [y|y] eqn:Ea.
  - set (m := length h). set (h1 := h ++ [OArr v']).
    assert (L1 : length h1 = S (length h)) by (unfold h1; rewrite app_length; cbn; lia).
    set (d' := dset k m (dict_at h a)). set (h' := write h1 a (ODict d')).
    assert (Da : dict_at h' a = d') by (unfold dict_at, h'; rewrite write_same by lia; reflexivity).
    assert (NM : ~ In m (map snd (dict_at h a))) by (intros I; apply Own in I; unfold m in I; lia).
    assert (Arr : forall b, b <> a -> (b < length h)%nat -> nth_error h' b = nth_error h b).
    { intros b N L. unfold h'. rewrite write_other by congruence. unfold h1. now apply nth_error_app1. }
    eexists. split; [reflexivity|]. fold h'. split; [|split].
    + unfold own. rewrite Da. unfold h'. rewrite write_length, L1. split; [lia|]. split; [now apply dset_snd_nodup|].
      split; [eexists; apply write_same; lia|]. intros b I. apply dset_snd in I. destruct I as [->|I].
      * unfold m. lia.
      * destruct (Own b I). split; [lia|assumption].
    + split; [unfold h'; rewrite write_length, L1; lia|]. intros b L. apply Arr; lia.
    + rewrite Da. apply (map_dset_new (dict_at h a) k m (arr_at h) (arr_at h') v').
      * unfold arr_at, h'. rewrite write_other by (unfold m; lia). unfold h1, m. rewrite nth_error_app2, Nat.sub_diag by lia. reflexivity.
      * intros b I. destruct (Own b I) as (? & ?). unfold arr_at. rewrite Arr by (auto; lia). reflexivity.
      * congruence.
  - set (h' := write h l (OArr v')).
    assert (Da : dict_at h' a = dict_at h a) by (unfold dict_at, h'; rewrite write_other by auto; reflexivity).
    eexists. split; [reflexivity|]. fold h'. split; [|split].
    + unfold own. rewrite Da. unfold h'. rewrite write_length. split; [exact La|]. split; [exact ND|]. split; [|exact Own]. exists d0. rewrite write_other by auto. exact Ga.
    + split; [unfold h'; rewrite write_length; lia|]. intros b L. apply write_other. lia.
    + rewrite Da. apply (map_dset (dict_at h a) k l (arr_at h) (arr_at h') v'); auto.
      * unfold arr_at, h'. rewrite write_same by lia. reflexivity.
      * intros b N I. unfold arr_at, h'. rewrite write_other by auto. reflexivity.
Qed.

Lemma keeps_refl n (h : heap T) : keeps_first n h h.
Proof. split; auto. Qed.
Lemma keeps_trans n (a b c : heap T) : keeps_first n a b -> keeps_first n b c -> keeps_first n a c.
Proof. intros [L1 K1] [L2 K2]. split; [lia|]. intros x Lx. rewrite K2, K1; auto. Qed.

Lemma add_at_spec n tm M c c0 tt_ : forall (h : heap T) a, own n h a ->
  exists h', add_titrant_totals_at h a tm M c c0 tt_ = (h', snd (add_titrant_totals (deref h a) tm M c c0 tt_)) /\
    own n h' a /\ keeps_first n h h' /\ deref h' a = fst (add_titrant_totals (deref h a) tm M c c0 tt_).
Proof.
  induction tt_ as [|[t f] tt_ IH]; intros h a O; cbn [add_titrant_totals_at add_titrant_totals].
  - exists h. auto using keeps_refl.
  - destruct (startswith t "titrant_total_"); cbn [assert_ bind]; [|exists h; auto using keeps_refl].
    unfold dgetE, of_opt.
    assert (GD : dget (sdrop 8 t) (deref h a) = match dget (sdrop 8 t) (dict_at h a) with Some l => Some (arr_at h l) | None => None end) by apply dget_map_snd.
    pose proof (iadd_entry_spec n h a (sdrop 8 t)) as I. 
    destruct (dget (sdrop 8 t) (dict_at h a)) as [l|] eqn:Gl; rewrite GD in *; cbn [bind]; [|exists h; auto using keeps_refl].
    destruct (as_num f) as [f'|e]; cbn [bind]; [|exists h; auto using keeps_refl].
    specialize (I (titrant_addition tm M c c0 f') O).
    destruct (nd_iadd (arr_at h l) _) as [v'|e].
    + destruct I as (h1 & -> & O1 & K1 & D1). destruct (IH h1 a O1) as (h2 & E2 & O2 & K2 & D2).
      rewrite D1 in E2, D2. exists h2. rewrite E2. split; [reflexivity|]. split; [exact O2|]. split; [eapply keeps_trans; eauto|exact D2].
    + rewrite I. exists h. auto using keeps_refl.
Qed.

Lemma alloc_spec (d : dict (nd T)) : forall h, let '(ls, h') := alloc_entries d h in
  keeps_first (length h) h h' /\ NoDup (map snd ls) /\ (forall l, In l (map snd ls) -> (length h <= l < length h')%nat) /\
  map (fun kl => (fst kl, arr_at h' (snd kl))) ls = d.
Proof.
  induction d as [|[k v] d IH]; intros h; cbn [alloc_entries].
  - split; [apply keeps_refl|]. split; [constructor|]. split; [intros l []|reflexivity].
  - specialize (IH (h ++ [OArr v])). destruct (alloc_entries d (h ++ [OArr v])) as [ls h'].
    destruct IH as ((L & K) & ND & Own & E). rewrite app_length in L, K, Own. cbn [length] in L, K, Own.
    assert (Kh : nth_error h' (length h) = Some (OArr v)) by (rewrite K by lia; rewrite nth_error_app2, Nat.sub_diag by lia; reflexivity).
    split; [split; [lia|]; intros b Lb; rewrite K by lia; now apply nth_error_app1|]. cbn [map snd fst].
    split; [constructor; [intros I; apply Own in I; lia|exact ND]|].
    split; [intros l [<-|I]; [lia|apply Own in I; lia]|]. rewrite E. unfold arr_at. now rewrite Kh.
Qed.

Lemma new_totals_spec (d : dict (nd T)) h : let '(a, h') := new_totals d h in
  own (length h) h' a /\ keeps_first (length h) h h' /\ deref h' a = d.
Proof.
  unfold new_totals. pose proof (alloc_spec d h) as A. destruct (alloc_entries d h) as [ls h']. destruct A as ((L & K) & ND & Own & E).
  assert (G : nth_error (h' ++ [ODict ls]) (length h') = Some (ODict ls)) by (rewrite nth_error_app2, Nat.sub_diag by lia; reflexivity).
  assert (D : dict_at (h' ++ [ODict ls]) (length h') = ls) by (unfold dict_at; now rewrite G).
  split; [|split].
  - unfold own. rewrite D, app_length. cbn [length]. split; [lia|]. split; [exact ND|]. split; [eauto|].
    intros l I. apply Own in I. lia.
  - split; [rewrite app_length; lia|]. intros b Lb. rewrite nth_error_app1 by lia. now apply K.
  - unfold deref. rewrite D. rewrite <- E. apply map_ext_in. intros [k l] I. cbn [fst snd]. f_equal.
    assert (J : In l (map snd ls)) by (apply in_map_iff; exists (k, l); auto). apply Own in J. unfold arr_at. rewrite nth_error_app1 by lia. reflexivity.
Qed.

(* one call: the result is that of the pure function, what existed before is unchanged, and the dict in the
   result holds the totals that were used *)
Lemma solve_at_spec (e : env T) f c s kw (h : heap T) :
  let '(h', r) := files_solve_at e f c s kw h in
  keeps_first (length h) h h' /\
  match files_solve e f c s kw with
  | Ok sr => exists a, r = Ok (a, sr) /\ (length h <= a < length h')%nat /\ deref h' a = sr_totals sr
  | Err x => r = Err x
  end.
Proof.
  unfold files_solve_at, files_solve. destruct (load e f s (without_mode kw)) as [[cv [totals ks]]|x]; cbn [bind]; [|split; [apply keeps_refl|reflexivity]].
  pose proof (new_totals_spec totals h) as N. destruct (new_totals totals h) as [a h1]. destruct N as (O1 & K1 & D1).
  destruct (as_num c) as [c'|x]; cbn [bind]; [|split; [exact K1|reflexivity]].
  destruct (add_at_spec (length h) (cv_titrant_mass cv) (cv_analyte_mass cv) c' n0 (get_kwargs_for keys_titrant_totals (without_mode kw) None) h1 a O1)
    as (h2 & -> & O2 & K2 & D2).
  split; [eapply keeps_trans; [exact K1|exact K2]|]. rewrite D1 in D2 |- *. rewrite D2.
  destruct (add_titrant_totals totals _ _ _ _ _) as [totals' [u|x]]; cbn [fst snd bind] in *; [|reflexivity].
  destruct (dispatch_solve e (mode_of kw) c' cv totals' ks (without_mode kw)) as [sr|x] eqn:DS; cbn [bind]; [|reflexivity].
  exists a. split; [reflexivity|]. split; [exact (proj1 O2)|]. rewrite D2.
  destruct (dispatch_inv _ _ _ _ _ _ _ _ DS) as (n & _ & HO). symmetry. apply HO.
Qed.

Lemma solve_own (e : env T) f c s kw (h : heap T) :
  match files_solve_at e f c s kw h with (h', Ok (a, _)) => own (length h) h' a | _ => True end.
Proof.
  unfold files_solve_at. destruct (load e f s (without_mode kw)) as [[cv [totals ks]]|x]; [|exact I].
  pose proof (new_totals_spec totals h) as N. destruct (new_totals totals h) as [a h1]. destruct N as (O1 & K1 & D1).
  destruct (as_num c) as [c'|x]; [|exact I].
  destruct (add_at_spec (length h) (cv_titrant_mass cv) (cv_analyte_mass cv) c' n0 (get_kwargs_for keys_titrant_totals (without_mode kw) None) h1 a O1)
    as (h2 & -> & O2 & K2 & D2).
  destruct (add_titrant_totals (deref h1 a) _ _ _ _ _) as [totals' [u|x]]; cbn [fst snd bind] in *; [|exact I].
  destruct (dispatch_solve e (mode_of kw) c' cv (deref h2 a) ks (without_mode kw)) as [sr|x]; cbn [bind]; [exact O2|exact I].
Qed.

(* For every history of calls and of changes made by the user, to whatever objects, the outcome of a call is
   the one that depends on its arguments and files alone. *)
Theorem C86_history_irrelevant (e : env T) before f c s kw :
  match snd (files_solve_at e f c s kw (session e before [])), files_solve e f c s kw with
  | Ok (_, sr), Ok sr' => sr = sr'
  | Err x, Err x' => x = x'
  | _, _ => False
  end.
Proof.
  pose proof (solve_at_spec e f c s kw (session e before [])) as A. destruct (files_solve_at e f c s kw _) as [h' r]. cbn [snd].
  destruct A as [_ A]. destruct (files_solve e f c s kw) as [sr|x].
  - destruct A as (a & -> & _). reflexivity.
  - now rewrite A.
Qed.

(* The same call twice, with anything in between. *)
Theorem C86_same_call_same_result (e : env T) before between f c s kw :
  let first := files_solve_at e f c s kw (session e before []) in
  let second := files_solve_at e f c s kw (session e between (fst first)) in
  match snd first, snd second with
  | Ok (_, sr), Ok (_, sr') => sr = sr'
  | Err x, Err x' => x = x'
  | _, _ => False
  end.
Proof.
  cbv zeta.
  pose proof (solve_at_spec e f c s kw (session e before [])) as A. destruct (files_solve_at e f c s kw (session e before [])) as [h' r]. cbn [fst snd].
  pose proof (solve_at_spec e f c s kw (session e between h')) as B. destruct (files_solve_at e f c s kw (session e between h')) as [h'' r']. cbn [snd].
  destruct A as [_ A]. destruct B as [_ B]. destruct (files_solve e f c s kw) as [sr|x].
  - destruct A as (a & -> & _). destruct B as (b & -> & _). reflexivity.
  - now rewrite A, B.
Qed.

Lemma session_keeps (e : env T) steps : only_calls steps -> forall h, keeps_first (length h) h (session e steps h).
Proof.
  intros O. induction steps as [|[f c s kw|a o] steps IH]; intros h; cbn [session].
  - apply keeps_refl.
  - pose proof (solve_at_spec e f c s kw h) as A. destruct (files_solve_at e f c s kw h) as [h' r]. cbn [fst]. destruct A as [(L & K) _].
    destruct (IH ltac:(intros a o I; apply (O a o); now right) h') as [L' K']. split; [lia|]. intros b Lb. rewrite K', K by lia. reflexivity.
  - exfalso. apply (O a o). now left.
Qed.

(* A call returns a dict of totals that did not exist before, and whatever calls follow, no object that existed
   before them is changed: results obtained earlier stay as they were, totals included. *)
Theorem C86_earlier_results_stay (e : env T) before f c s kw h' a sr after :
  only_calls after ->
  files_solve_at e f c s kw (session e before []) = (h', Ok (a, sr)) ->
  nth_error (session e before []) a = None /\
  (forall b o, nth_error (session e before []) b = Some o -> nth_error h' b = Some o) /\
  (forall b o, nth_error h' b = Some o -> nth_error (session e after h') b = Some o) /\
  deref h' a = sr_totals sr /\ deref (session e after h') a = sr_totals sr.
Proof.
  intros O E. pose proof (solve_at_spec e f c s kw (session e before [])) as A. pose proof (solve_own e f c s kw (session e before [])) as W.
  rewrite E in A, W. destruct A as [(L & K) A].
  destruct (files_solve e f c s kw) as [sr'|x]; [|discriminate]. destruct A as (a' & Q & La & D).
  injection Q as <- <-. destruct (session_keeps e after O h') as [L' K'].
  assert (KS : forall b o, nth_error h' b = Some o -> nth_error (session e after h') b = Some o).
  { intros b o G. rewrite K'; [exact G|]. apply nth_error_Some. congruence. }
  split; [apply nth_error_None; lia|]. split; [|split; [exact KS|split; [exact D|]]].
  - intros b o G. rewrite K; [exact G|]. apply nth_error_Some. congruence.
  - rewrite <- D. unfold deref. destruct W as (_ & _ & (d & G) & Own).
    assert (Q : dict_at (session e after h') a = dict_at h' a) by (unfold dict_at; now rewrite (KS _ _ G), G).
    rewrite Q. apply map_ext_in. intros [k l] I. cbn [fst snd]. f_equal. unfold arr_at. rewrite K'; [reflexivity|].
    apply Own. apply in_map_iff. exists (k, l). auto.
Qed.
End P.

(* ------------------------------------------------------------------ *)
(* Two points, in binary64, with a titrant that adds to one of the totals *)
Definition fline (l : list string) : string := String.append (String.concat tab_str l) nl_str.
Definition two_points : string :=
  (fline ["header"] ++ fline ["header"] ++ fline ["0"; "3.5"; "25"] ++ fline ["1"; "3.6"; "25"])%string.
Definition flm : libm := {| lm_exp := fun x => x; lm_ln := fun x => x; lm_log10 := fun x => x; lm_pow10 := fun x => x;
                            lm_pow15 := fun x => x; lm_powi := fun x _ => x |}.
#[local] Existing Instance Num_sf.
Definition fone : sf := sf_ofZ 1.
Definition fenv : env sf := {|
  e_file := fun p => if String.eqb p "gen.dat" then Some two_points else None;
  e_excel := fun _ => None;
  e_salts := fun _ _ _ _ _ _ _ _ => Ok [("TB", fone); ("TF", fone); ("TSO4", fone)];
  e_equil := fun _ _ _ _ _ _ _ => Ok (map (fun k => (k, NdS fone)) ["K1"; "K2"; "KB"; "KF"; "KSO4"; "KW"]);
  e_sys_salt := fun s _ _ => s;
  e_strat := {| s_next := fun _ => None; s_pick := fun _ => 0%nat; s_max := 0 |}
|}.
Definition fkw : kwargs sf :=
  [("analyte_mass", VInt 1); ("titrant_amount_unit", VStr "kg"); ("solve_mode", VStr "pH"); ("titrant_total_sulfate", VInt 3)].
Definition fcall (h : heap sf) := files_solve_at (H := Num_sf flm) fenv (VStr "gen.dat") (VInt 1) (VInt 35) fkw h.

(* a second call, after the user has overwritten every object of the first one, succeeds and finds the totals of the
   first; the titrant's sulfate is in them *)
Example C86_nonvacuous :
  match fcall [] with
  | (h1, Ok (a1, sr1)) =>
      let h2 := session (H := Num_sf flm) fenv (map (fun b => Change b (OArr (NdS fone))) (seq 0 (length h1))) h1 in
      match fcall h2 with
      | (h3, Ok (a2, sr2)) => 
          sr1 = sr2 /\ a1 <> a2 /\ deref (H := Num_sf flm) h3 a1 <> deref (H := Num_sf flm) h3 a2 /\
          deref (H := Num_sf flm) h3 a2 = sr_totals sr1 /\
          dget "total_sulfate" (sr_totals sr1) <> dget "total_fluoride" (sr_totals sr1) /\
          dget "total_borate" (sr_totals sr1) = dget "total_fluoride" (sr_totals sr1)
      | _ => False
      end
  | _ => False
  end.
Proof. vm_compute. repeat split; discriminate. Qed.

Print Assumptions C86_history_irrelevant.
Print Assumptions C86_same_call_same_result.
Print Assumptions C86_earlier_results_stay.
