(* PropSolve.v -- C29 to C32, C35 to C40, C45: the solvers *)
From Coq Require Import Reals Qreals Lra.
From Verif Require Export SolveProofs.
Open Scope list_scope.
Open Scope R_scope.

(* ------------------------------------------------------------------ *)
(** * C30: solve_pH recovers the alkalinity of consistent data *)

Theorem C30_solve_pH_exact : forall c tm pH temps M totals ks pmin pmax n r A,
  masses_ok tm M ->
  solve_pH (Fin c) (map Fin tm) (map Fin pH) temps (Fin M) totals ks (Fin pmin) (Fin pmax) (Fin n) = Ok r ->
  (exists i p, nth_error pH i = Some p /\ pmin <= p <= pmax) ->
  (* inside the window the pH is that of a solution of alkalinity A diluted with acid *)
  (forall i p m, nth_error pH i = Some p -> nth_error tm i = Some m -> pmin <= p <= pmax ->
     alkalinity (Fin p) (slice_at totals i) (slice_at ks i) 3 = Ok (Fin ((M * A - m * c * n) / (M + m)))) ->
  sp_alkalinity r = Fin (1000000 * A) /\ sp_alkalinity_std r = Fin 0.
Proof.
  intros c tm pH temps M totals ks pmin pmax n r A [HM Htm] Hr Hex Hid.
  apply solve_pH_inv in Hr as [Hl [_ [Hu [Hall [-> ->]]]]].
  destruct (alkalinity_all_spec _ _ _ _ _ _ _ _ Hl Hall) as [_ [_ [Hla Hpt]]].
  rewrite !map_length in *.
  apply masked_const.
  - rewrite Hu. unfold in_window. rewrite !map_length. congruence.
  - destruct Hex as [i [p [Hp Hw]]]. exists i. rewrite Hu. apply window_used. exists p.
    split; [apply nth_error_map_fin; assumption|assumption].
  - intros i x Hi Hx. rewrite Hu in Hi. apply window_used in Hi as [p [Hp Hw]].
    rewrite nth_error_map in Hp. destruct (nth_error pH i) as [p'|] eqn:Ep; [|discriminate]. injection Hp as ->.
    assert (Hm : exists m, nth_error tm i = Some m).
    { assert (Hlt : (i < length tm)%nat) by (rewrite <- Hl; apply nth_error_Some; congruence).
      destruct (nth_error tm i) eqn:E; [eauto|]. apply nth_error_None in E. lia. }
    destruct Hm as [m Hm].
    destruct (Hpt i (Fin p) (Fin m)) as [s [Hs Hn]]; [apply nth_error_map_fin; assumption..|].
    rewrite (Hid i p m Ep Hm Hw) in Hs. injection Hs as <-.
    assert (0 <= m) by (eapply Forall_nth_error in Htm; eassumption).
    rewrite estimate_fin in Hn by assumption. rewrite Hn in Hx. injection Hx as <-. f_equal. field. lra.
Qed.

(* a solution of H+ and OH- only (k_water = 1, so pH 0 is neutral): A = 1/2, one addition
   of one unit of 1/2-molar acid brings it to pH 0, which is inside [-1, 1] *)
Example C30_nonvacuous : exists r,
  solve_pH (Fin (1/2)) [Fin 1] [Fin 0] [Fin 25] (Fin 1) [] [("k_water", NdS (Fin 1))] (Fin (-1)) (Fin 1) (Fin 1) = Ok r /\
  sp_alkalinity r = Fin 500000 /\ sp_alkalinity_std r = Fin 0.
Proof.
  destruct (solve_pH (Fin (1/2)) [Fin 1] [Fin 0] [Fin 25] (Fin 1) [] [("k_water", NdS (Fin 1))] (Fin (-1)) (Fin 1) (Fin 1))
    as [r|e] eqn:E.
  - exists r. split; [reflexivity|].
    replace 500000 with (1000000 * (1/2)) by lra.
    apply (C30_solve_pH_exact (1/2) [1] [0] [Fin 25] 1 [] [("k_water", NdS (Fin 1))] (-1) 1 1 r (1/2)).
    + split; [lra|repeat constructor; lra].
    + exact E.
    + exists 0%nat, 0. split; [reflexivity|lra].
    + intros [|i] p m; [|destruct i; discriminate]. cbn [nth_error]. intros [= <-] [= <-] _.
      unfold alkalinity. cbn. rewrite Ropp_0, pow10R_0. rewrite reqb_false by lra. cbn. f_equal. f_equal.
      unfold Q2R; cbn. field.
  - exfalso. revert E. unfold solve_pH. cbn [length Nat.eqb negb]. rewrite x_ltb_fin_t by lra. cbn. discriminate.
Qed.

(* ------------------------------------------------------------------ *)
(** * C31: only the points inside the closed window count *)

Definition inside (pmin pmax : R) (x : xr) : Prop := exists p, x = Fin p /\ pmin <= p <= pmax.

Lemma mask_ext_used {A} u (l l' : list A) :
  length l = length u -> length l' = length u ->
  (forall i, used_at u i -> nth_error l' i = nth_error l i) -> mask u l' = mask u l.
Proof.
  revert l l'; induction u as [|b u IH]; intros [|x l] [|y l'] Hl Hl' He; cbn in *; try discriminate; try reflexivity.
  assert (E : mask u l' = mask u l).
  { apply IH; [lia|lia|]. intros i Hi. apply (He (S i)). exact Hi. }
  destruct b; [|assumption]. rewrite E. f_equal. specialize (He O eq_refl). cbn in He. congruence.
Qed.

Lemma used_lists_eq pmin pmax (pH pH' : list xr) :
  length pH' = length pH ->
  (forall i p, nth_error pH i = Some p -> inside pmin pmax p -> nth_error pH' i = Some p) ->
  (forall i p, nth_error pH' i = Some p -> inside pmin pmax p -> nth_error pH i = Some p) ->
  in_window (Fin pmin) (Fin pmax) pH' = in_window (Fin pmin) (Fin pmax) pH.
Proof.
  intros Hl H1 H2. apply list_ext; [unfold in_window; rewrite !map_length; assumption|].
  assert (Hiff : forall i, used_at (in_window (Fin pmin) (Fin pmax) pH) i <-> used_at (in_window (Fin pmin) (Fin pmax) pH') i).
  { intros i. rewrite !window_used. split; intros [r [Hr Hw]]; exists r; (split; [|assumption]);
      [apply H1|apply H2]; try assumption; exists r; auto. }
  intros i b Hi. destruct b; [apply Hiff; exact Hi|].
  assert (Hlt : (i < length pH')%nat).
  { assert (Hlt : (i < length (in_window (Fin pmin) (Fin pmax) pH))%nat) by (apply nth_error_Some; congruence).
    unfold in_window in Hlt. rewrite map_length in Hlt. lia. }
  destruct (nth_error (in_window (Fin pmin) (Fin pmax) pH') i) as [[]|] eqn:E; [|reflexivity|].
  - exfalso. apply Hiff in E. unfold used_at in E. congruence.
  - apply nth_error_None in E. unfold in_window in E. rewrite map_length in E. lia.
Qed.

Theorem C31_used_is_closed_window : forall c tm pH temps M totals ks pmin pmax n,
  (forall r, solve_pH c tm pH temps M totals ks (Fin pmin) (Fin pmax) n = Ok r ->
     forall i p, nth_error pH i = Some p -> (used_at (sp_used r) i <-> inside pmin pmax p)) /\
  (forall r, solve_pH_gran c tm pH temps M totals ks (Fin pmin) (Fin pmax) n = Ok r ->
     forall i p, nth_error pH i = Some p -> (used_at (sg_used r) i <-> inside pmin pmax p)).
Proof.
  intros c tm pH temps M totals ks pmin pmax n. split.
  - intros r Hr i p Hp. apply solve_pH_inv in Hr as [_ [_ [-> _]]]. rewrite window_used, Hp. unfold inside.
    split; intros [x [Hx Hw]]; exists x; split; congruence || assumption.
  - intros r Hr i p Hp. apply solve_pH_gran_inv in Hr as [_ [_ [-> _]]]. rewrite window_used, Hp. unfold inside.
    split; intros [x [Hx Hw]]; exists x; split; congruence || assumption.
Qed.

Theorem C31_other_points_are_irrelevant : forall c tm pH temps tm' pH' temps' M totals ks totals' ks' pmin pmax n r r',
  solve_pH c tm pH temps M totals ks (Fin pmin) (Fin pmax) n = Ok r ->
  solve_pH c tm' pH' temps' M totals' ks' (Fin pmin) (Fin pmax) n = Ok r' ->
  length pH' = length pH ->
  (* at points inside the window the two titrations have the same data ... *)
  (forall i p, nth_error pH i = Some p -> inside pmin pmax p ->
     nth_error pH' i = Some p /\ nth_error tm' i = nth_error tm i /\
     slice_at totals' i = slice_at totals i /\ slice_at ks' i = slice_at ks i) ->
  (* ... and points outside stay outside *)
  (forall i p, nth_error pH' i = Some p -> inside pmin pmax p -> nth_error pH i = Some p) ->
  sp_alkalinity r' = sp_alkalinity r /\ sp_alkalinity_std r' = sp_alkalinity_std r.
Proof.
  intros c tm pH temps tm' pH' temps' M totals ks totals' ks' pmin pmax n r r' Hr Hr' Hlen Hin Hout.
  apply solve_pH_inv in Hr as [Hl [_ [Hu [Hall [-> ->]]]]].
  apply solve_pH_inv in Hr' as [Hl' [_ [Hu' [Hall' [-> ->]]]]].
  destruct (alkalinity_all_spec _ _ _ _ _ _ _ _ Hl Hall) as [_ [_ [Hla Hpt]]].
  destruct (alkalinity_all_spec _ _ _ _ _ _ _ _ Hl' Hall') as [_ [_ [Hla' Hpt']]].
  assert (Eu : sp_used r' = sp_used r).
  { rewrite Hu, Hu'. apply used_lists_eq; try assumption. intros i p Hp Hi. apply (Hin i p Hp Hi). }
  rewrite Eu.
  assert (Hlu : length (sp_used r) = length pH) by (rewrite Hu; unfold in_window; apply map_length).
  assert (E : mask (sp_used r) (sp_alkalinity_all r') = mask (sp_used r) (sp_alkalinity_all r)).
  { apply mask_ext_used; [congruence|congruence|]. intros i Hi. rewrite Hu in Hi. apply window_used in Hi as [p [Hp Hw]].
    assert (Hins : inside pmin pmax (Fin p)) by (exists p; auto).
    destruct (Hin i (Fin p) Hp Hins) as [Hp' [Hm' [Ht' Hk']]].
    destruct (nth_error tm i) as [m|] eqn:Em.
    - destruct (Hpt i (Fin p) m Hp Em) as [s [Hs ->]].
      destruct (Hpt' i (Fin p) m Hp' Hm') as [s' [Hs' ->]]. rewrite Ht', Hk' in Hs'. congruence.
    - exfalso. apply nth_error_None in Em. assert (i < length pH)%nat by (apply nth_error_Some; congruence). lia. }
  rewrite E. auto.
Qed.

Theorem C31_gran_other_points_are_irrelevant : forall c tm pH temps tm' pH' temps' M totals ks totals' ks' pmin pmax n r r',
  solve_pH_gran c tm pH temps M totals ks (Fin pmin) (Fin pmax) n = Ok r ->
  solve_pH_gran c tm' pH' temps' M totals' ks' (Fin pmin) (Fin pmax) n = Ok r' ->
  length pH' = length pH ->
  (forall i p, nth_error pH i = Some p -> inside pmin pmax p ->
     nth_error pH' i = Some p /\ nth_error tm' i = nth_error tm i) ->
  (forall i p, nth_error pH' i = Some p -> inside pmin pmax p -> nth_error pH i = Some p) ->
  sg_alkalinity r' = sg_alkalinity r.
Proof.
  intros c tm pH temps tm' pH' temps' M totals ks totals' ks' pmin pmax n r r' Hr Hr' Hlen Hin Hout.
  apply solve_pH_gran_inv in Hr as [Hl [_ [Hu [HG [Hlr ->]]]]].
  apply solve_pH_gran_inv in Hr' as [Hl' [_ [Hu' [HG' [Hlr' ->]]]]].
  assert (Eu : sg_used r' = sg_used r).
  { rewrite Hu, Hu'. apply used_lists_eq; try assumption. intros i p Hp Hi. apply (Hin i p Hp Hi). }
  rewrite Eu in Hlr'.
  assert (Hlu : length (sg_used r) = length pH) by (rewrite Hu; unfold in_window; apply map_length).
  assert (Em : mask (sg_used r) tm' = mask (sg_used r) tm).
  { apply mask_ext_used; [congruence|congruence|]. intros i Hi. rewrite Hu in Hi. apply window_used in Hi as [p [Hp Hw]].
    apply (Hin i (Fin p) Hp). exists p; auto. }
  assert (Ep : mask (sg_used r) pH' = mask (sg_used r) pH).
  { apply mask_ext_used; [congruence|congruence|]. intros i Hi. rewrite Hu in Hi. apply window_used in Hi as [p [Hp Hw]].
    rewrite Hp. apply (Hin i (Fin p) Hp). exists p; auto. }
  rewrite HG, mask_map2 in Hlr. rewrite HG', mask_map2, Em, Ep in Hlr'. rewrite Hlr in Hlr'. injection Hlr' as <-. reflexivity.
Qed.

Theorem C31_window_must_be_ordered : forall c tm pH temps M totals ks pmin pmax n,
  length pH = length tm -> pmax <= pmin ->
  solve_pH c tm pH temps M totals ks (Fin pmin) (Fin pmax) n = Err AssertionError /\
  solve_pH_gran c tm pH temps M totals ks (Fin pmin) (Fin pmax) n = Err AssertionError.
Proof.
  intros c tm pH temps M totals ks pmin pmax n Hl Hw. unfold solve_pH, solve_pH_gran.
  rewrite (proj2 (Nat.eqb_eq _ _) Hl). cbn [negb]. rewrite x_ltb_fin_f by assumption. auto.
Qed.

(* ------------------------------------------------------------------ *)
(** * C32: the alkalinity is the mean of the used estimates *)

Lemma all_finite c tm pH M n totals ks l :
  masses_ok tm M -> length pH = length tm ->
  (forall i p, nth_error pH i = Some p -> nonneg_totals (slice_at totals i) /\ pos_constants (slice_at ks i)) ->
  alkalinity_all (map Fin pH) (map Fin tm) (Fin M) (Fin c) (Fin n) totals ks = Ok l ->
  exists lr, l = map Fin lr /\ length lr = length tm /\
    forall i p m, nth_error pH i = Some p -> nth_error tm i = Some m ->
      exists s, alkalinity (Fin p) (slice_at totals i) (slice_at ks i) 3 = Ok (Fin s) /\
        nth_error lr i = Some (1000000 * (s * (m + M) + m * c * n) / M).
Proof.
  intros [HM Htm] Hl Hsane Hall.
  assert (Hl' : length (map Fin pH) = length (map Fin tm)) by (rewrite !map_length; assumption).
  destruct (alkalinity_all_spec _ _ _ _ _ _ _ _ Hl' Hall) as [_ [_ [Hla Hpt]]]. rewrite !map_length in Hla.
  assert (Hfin : forall i p m, nth_error pH i = Some p -> nth_error tm i = Some m ->
     exists s, alkalinity (Fin p) (slice_at totals i) (slice_at ks i) 3 = Ok (Fin s) /\
        nth_error l i = Some (Fin (1000000 * (s * (m + M) + m * c * n) / M))).
  { intros i p m Hp Hm. destruct (Hpt i (Fin p) (Fin m)) as [s [Hs Hn]]; [apply nth_error_map_fin; assumption..|].
    destruct (Hsane i p Hp) as [Ht Hk]. destruct (alkalinity_finite _ _ _ _ _ Ht Hk Hs) as [r ->].
    exists r. split; [assumption|]. rewrite Hn, estimate_fin; [reflexivity|assumption|].
    eapply Forall_nth_error in Htm; eassumption. }
  assert (Hex : exists lr, l = map Fin lr).
  { apply (forall_fin_list (fun (_ : nat) _ => True)). intros i x Hx.
    assert (Hlt : (i < length tm)%nat) by (rewrite <- Hla; apply nth_error_Some; congruence).
    destruct (nth_error tm i) as [m|] eqn:Em; [|apply nth_error_None in Em; lia].
    destruct (nth_error pH i) as [p|] eqn:Ep; [|apply nth_error_None in Ep; lia].
    destruct (Hfin i p m Ep Em) as [s [_ Hn]]. rewrite Hn in Hx. injection Hx as <-. eauto. }
  destruct Hex as [lr ->]. exists lr. split; [reflexivity|]. rewrite map_length in Hla. split; [assumption|].
  intros i p m Hp Hm. destruct (Hfin i p m Hp Hm) as [s [Hs Hn]]. exists s. split; [assumption|].
  rewrite nth_error_map in Hn. destruct (nth_error lr i); [|discriminate]. cbn in Hn. congruence.
Qed.

Theorem C32_alkalinity_is_mean_of_used : forall c tm pH temps M totals ks pmin pmax n r,
  masses_ok tm M ->
  (forall i p, nth_error pH i = Some p -> nonneg_totals (slice_at totals i) /\ pos_constants (slice_at ks i)) ->
  solve_pH (Fin c) (map Fin tm) (map Fin pH) temps (Fin M) totals ks (Fin pmin) (Fin pmax) (Fin n) = Ok r ->
  exists est : list R, sp_alkalinity_all r = map Fin est /\ length est = length tm /\
    (sp_alkalinity r = NaN <-> n_used (sp_used r) = 0%nat) /\
    ((0 < n_used (sp_used r))%nat ->
       exists a, sp_alkalinity r = Fin a /\
         INR (n_used (sp_used r)) * a = fold_right Rplus 0 (mask (sp_used r) est) /\
         (forall lo hi, (forall i v, used_at (sp_used r) i -> nth_error est i = Some v -> lo <= v <= hi) ->
            lo <= a <= hi)).
Proof.
  intros c tm pH temps M totals ks pmin pmax n r Hok Hsane Hr.
  apply solve_pH_inv in Hr as [Hl [_ [Hu [Hall [Ha _]]]]]. rewrite !map_length in Hl.
  destruct (all_finite _ _ _ _ _ _ _ _ Hok Hl Hsane Hall) as [est [Ee [Hle _]]].
  exists est. split; [assumption|]. split; [assumption|].
  assert (Hlu : length (sp_used r) = length tm).
  { rewrite Hu. unfold in_window. rewrite !map_length. assumption. }
  assert (Hlm : length (mask (sp_used r) est) = n_used (sp_used r)) by (apply mask_count; congruence).
  assert (Hpos : (0 < n_used (sp_used r))%nat ->
       exists a, sp_alkalinity r = Fin a /\
         INR (n_used (sp_used r)) * a = fold_right Rplus 0 (mask (sp_used r) est) /\
         (forall lo hi, (forall i v, used_at (sp_used r) i -> nth_error est i = Some v -> lo <= v <= hi) ->
            lo <= a <= hi)).
  { intros Hn. assert (Hne : mask (sp_used r) est <> []) by (intros E; rewrite E in Hlm; cbn in Hlm; lia).
    exists (Rmean (mask (sp_used r) est)). rewrite Ha, Ee, mask_map, nmean_fin by assumption.
    split; [reflexivity|]. split.
    - unfold Rmean. rewrite Hlm. pose proof (INR_len _ Hne) as Hp. rewrite Hlm in Hp.
      change (fold_right Rplus 0 (mask (sp_used r) est)) with (Rsum (mask (sp_used r) est)). field. lra.
    - intros lo hi Hb. apply Rmean_bounds; [assumption|]. apply Forall_forall. intros v Hv.
      apply in_mask in Hv as [i [H1 H2]]. eapply Hb; eassumption. }
  split; [|exact Hpos]. split.
  - intros HN. destruct (n_used (sp_used r)) as [|k] eqn:Ek; [reflexivity|].
    destruct Hpos as [a [E _]]; [lia|]. rewrite HN in E. discriminate.
  - intros HN. rewrite HN in Hlm. rewrite Ha, Ee, mask_map. destruct (mask (sp_used r) est); [|discriminate]. apply nmean_nil.
Qed.

(* ------------------------------------------------------------------ *)
(** * one pass of solve_emf *)

Lemma lsqfun_two (c : xr) tm emf temps M totals ks n x y :
  lsqfun_solve_emf c tm emf temps M totals ks n x = Ok y -> exists a e, x = [a; e].
Proof. destruct x as [|a [|e [|? x]]]; try discriminate. eauto. Qed.

Definition start_emf0 (emf0_init : option xr) (gg : gran_guess xr) : xr :=
  match emf0_init with None => gg_emf0 gg | Some e => e end.

Lemma once_inv st (c : xr) tm emf temps M totals ks ai ei logic pmin pmax n r :
  solve_emf_once st c tm emf temps M totals ks ai ei logic pmin pmax n = Ok r ->
  gran_guesses tm emf temps M c n logic = Ok (se_ggr r) /\
  length emf = length tm /\ length temps = length tm /\
  se_used r = in_window pmin pmax (emf_to_pH_arr emf (start_emf0 ei (se_ggr r)) temps) /\
  all_fit (length (se_used r)) totals = true /\ all_fit (length (se_used r)) ks = true /\
  (exists a, or_x (se_opt_result r) = [a; se_emf0 r] /\ se_alkalinity r = a ⊗ nofQ 1000000) /\
  lsqfun_solve_emf c (mask (se_used r) tm) (mask (se_used r) emf) (mask (se_used r) temps) M
    (dmap (nd_mask (se_used r)) totals) (dmap (nd_mask (se_used r)) ks) n (or_x (se_opt_result r))
    = Ok (or_fun (se_opt_result r)) /\
  se_pH r = emf_to_pH_arr emf (se_emf0 r) temps /\
  alkalinity_all (se_pH r) tm M c n totals ks = Ok (se_alkalinity_all r) /\
  se_alkalinity_std r = nstd (or_fun (se_opt_result r)) ⊗ nofQ 1000000.
Proof.
  unfold solve_emf_once. destruct (gran_guesses tm emf temps M c n logic) as [gg|] eqn:Egg; cbn [bind]; [|discriminate].
  destruct (nltb pmin pmax); cbn [assert_ bind]; [|discriminate].
  set (pH0 := match ei with Some e => emf_to_pH_arr emf e temps | None => gg_pH gg end).
  assert (EpH0 : pH0 = emf_to_pH_arr emf (start_emf0 ei gg) temps).
  { unfold pH0, start_emf0. destruct ei; [reflexivity|]. unfold gran_guesses in Egg.
    destruct (gran_alkalinity _ _ _ _ _ _ _); [|discriminate]. cbn [bind] in Egg. injection Egg as <-. reflexivity. }
  set (u := in_window pmin pmax pH0).
  destruct (all_fit (length u) totals) eqn:Et; cbn [andb negb]; [|discriminate].
  destruct (all_fit (length u) ks) eqn:Ek; cbn [negb]; [|discriminate].
  set (fres := fun (_ : unit) (x : list xr) => (tt, lsqfun_solve_emf c (mask u tm) (mask u emf) (mask u temps) M
             (dmap (nd_mask u) totals) (dmap (nd_mask u) ks) n x)).
  destruct (least_squares st fres tt _) as [w ro] eqn:El. cbn [snd].
  destruct ro as [o|]; cbn [bind]; [|discriminate].
  destruct (nth_error (or_x o) 0) as [a|] eqn:E0; cbn [of_opt bind]; [|discriminate].
  destruct (nth_error (or_x o) 1) as [e0|] eqn:E1; cbn [of_opt bind]; [|discriminate].
  destruct (alkalinity_all _ tm M c n totals ks) as [all_|] eqn:Ea; cbn [bind]; [|discriminate].
  intros [= <-]. cbn [se_ggr se_used se_opt_result se_emf0 se_alkalinity se_pH se_alkalinity_all se_alkalinity_std].
  assert (Hlen : length emf = length tm /\ length temps = length tm).
  { unfold gran_guesses in Egg. destruct (gran_alkalinity tm emf temps M c n logic) as [g|] eqn:Eg; [|discriminate].
    apply gran_inv in Eg. tauto. }
  assert (Hfun : lsqfun_solve_emf c (mask u tm) (mask u emf) (mask u temps) M
             (dmap (nd_mask u) totals) (dmap (nd_mask u) ks) n (or_x o) = Ok (or_fun o)).
  { eapply (least_squares_inv st unit fres (fun _ => True)
      (fun x y => lsqfun_solve_emf c (mask u tm) (mask u emf) (mask u temps) M
             (dmap (nd_mask u) totals) (dmap (nd_mask u) ks) n x = Ok y)); [|exact I|exact El].
    intros s x s' r' _ Hf y ->. unfold fres in Hf. injection Hf as _ Hf. auto. }
  split; [reflexivity|]. split; [tauto|]. split; [tauto|]. split; [unfold u; rewrite EpH0; reflexivity|].
  split; [assumption|]. split; [assumption|].
  split; [|auto].
  destruct (lsqfun_two _ _ _ _ _ _ _ _ _ _ Hfun) as [a' [e' E]]. rewrite E in E0, E1. cbn in E0, E1.
  exists a. split; [congruence|reflexivity].
Qed.

Lemma solve_emf_inv st (c : xr) tm emf temps M totals ks ai double ei logic pmin pmax n r :
  solve_emf st c tm emf temps M totals ks ai double ei logic pmin pmax n = Ok r ->
  exists ai' ei' logic', solve_emf_once st c tm emf temps M totals ks ai' ei' logic' pmin pmax n = Ok r.
Proof.
  unfold solve_emf. intros Hr. apply bind_ok in Hr as [sr [Hsr Hr]]. destruct double.
  - eauto.
  - injection Hr as <-. eauto.
Qed.

(* ------------------------------------------------------------------ *)
(** * C29, C37: double solving and the Gran logic *)

Theorem C37_double_is_two_single_solves : forall st (c : xr) tm emf temps M totals ks ai ei logic pmin pmax n,
  solve_emf st c tm emf temps M totals ks ai true ei logic pmin pmax n =
  (first <- solve_emf st c tm emf temps M totals ks ai false ei logic pmin pmax n ;;
   solve_emf st c tm emf temps M totals ks (Some (se_alkalinity first)) false (Some (se_emf0 first)) "v23.7+"
     pmin pmax n).
Proof.
  intros. unfold solve_emf. destruct (solve_emf_once _ _ _ _ _ _ _ _ _ _ _ _ _ _) as [r|e]; cbn [bind]; [|reflexivity].
  destruct (solve_emf_once _ _ _ _ _ _ _ _ _ _ _ _ _ _); reflexivity.
Qed.

(* Full statement (C29): the Gran results that the user sees are those of the
   requested logic.  Proved here: for single solves.  Missing: double solves, where it
   is false (see below). *)
Theorem C29_single_solve_uses_requested_logic_partial :
  forall st (c : xr) tm emf temps M totals ks ai ei logic pmin pmax n r,
  solve_emf st c tm emf temps M totals ks ai false ei logic pmin pmax n = Ok r ->
  gran_guesses tm emf temps M c n logic = Ok (se_ggr r).
Proof.
  intros st c tm emf temps M totals ks ai ei logic pmin pmax n r Hr. unfold solve_emf in Hr.
  apply bind_ok in Hr as [sr [Hsr Hr]]. injection Hr as <-. apply once_inv in Hsr. tauto.
Qed.

(* with double solving (the default) the reported Gran results are always the default logic's *)
Theorem C29_double_solve_reports_default_logic :
  forall st (c : xr) tm emf temps M totals ks ai ei logic pmin pmax n r,
  solve_emf st c tm emf temps M totals ks ai true ei logic pmin pmax n = Ok r ->
  gran_guesses tm emf temps M c n "v23.7+" = Ok (se_ggr r).
Proof.
  intros st c tm emf temps M totals ks ai ei logic pmin pmax n r Hr. unfold solve_emf in Hr.
  apply bind_ok in Hr as [sr [Hsr Hr]]. apply once_inv in Hr. tauto.
Qed.
