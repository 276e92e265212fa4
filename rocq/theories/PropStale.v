(* PropStale.v -- C57: which salt totals a table solved before goes on showing *)
From Coq Require Import Reals Qreals Lra Lia List.
From Verif Require Import Dataset SpecDataset DictLemmas SettingsProofs PropSettings DatasetProofs RowProofs CalProofs PropDataset PropTables PropBatch Witness PropHistory XR.
Import ListNotations.
Open Scope string_scope.
Open Scope list_scope.

Section P.
Context {T : Type} `{Num T}.

Lemma edited_value c vs (ds : frame T) i k : length vs = n_rows ds -> k <> c ->
  value (set_col_list c vs ds) i k = value ds i k.
Proof.
  unfold value, n_rows. cbn [set_col_list f_rows]. generalize (f_rows ds) as l. intros l. revert vs i.
  induction l as [|r l IH]; intros [|v vs] [|i] L N; cbn in L |- *; try discriminate; try reflexivity.
  - now rewrite dget_dset_other.
  - apply IH; auto.
Qed.
Lemma edited_rows c vs (ds : frame T) : length vs = n_rows ds -> n_rows (set_col_list c vs ds) = n_rows ds.
Proof.
  unfold n_rows. cbn [set_col_list f_rows]. generalize (f_rows ds) as l. intros l. revert vs.
  induction l as [|r l IH]; intros [|v vs] L; cbn in L |- *; try discriminate; try reflexivity.
  f_equal. apply IH. lia.
Qed.

(* a history in which column k is never assigned, and every assignment is a whole column *)
Definition never_assigned (k : string) (n : nat) (h : list (step T)) : Prop :=
  forall c vs, In (Edit c vs) h -> c <> k /\ length vs = n.

Lemma kept (e : env T) h : forall ds d i k v, is_table ds ->
  In k ["total_sulfate"; "total_borate"; "total_fluoride"] -> never_assigned k (n_rows ds) h ->
  value ds i k = Some v -> notnull v = true -> live e h ds = Ok d -> value d i k = Some v /\ is_table d /\ n_rows d = n_rows ds.
Proof.
  induction h as [|[c vs|kw] h IH]; intros ds d i k v W Ik A V N L; cbn [live] in L.
  - apply f_equal with (f := fun r => match r with Ok x => x | Err _ => ds end) in L. subst. auto.
  - destruct (A c vs (or_introl eq_refl)) as [Nc Lc].
    destruct (IH (set_col_list c vs ds) d i k v) as (X & Y & Z); auto.
    + now apply wff_edit.
    + rewrite edited_rows by assumption. intros c' vs' I. apply A. now right.
    + rewrite edited_value; auto.
    + split; [exact X|]. split; [exact Y|]. rewrite Z. now apply edited_rows.
  - destruct (solve e kw ds) as [d1|] eqn:E; cbn [bind] in L; [|discriminate].
    destruct (C58_other_columns_untouched e [CallSolve kw] ds d1 W) as (R & _ & _ & F).
    { cbn [run_all run]. rewrite E. reflexivity. }
    destruct (IH d1 d i k v) as (X & Y & Z); auto.
    + exact (wff_solve _ _ _ _ W E).
    + rewrite R. intros c' vs' I. apply A. now right.
    + apply F; auto. cbn in Ik |- *. tauto.
    + split; [exact X|]. split; [exact Y|]. congruence.
Qed.

Lemma total_after_solve (e : env T) kw ds d i r k x : is_table ds -> nth_error (f_rows ds) i = Some r ->
  In k ["total_sulfate"; "total_borate"; "total_fluoride"] -> solve e kw ds = Ok d ->
  salt_val e k r = Ok x -> value d i k = Some x.
Proof.
  intros W R Ik E S. assert (K : dkeys r = f_cols ds) by (apply W; eapply nth_error_In; eauto).
  apply solve_inv in E. destruct E as (_ & _ & M). apply mapM_Forall2 in M.
  destruct (Forall2_nth _ _ _ _ _ M R) as (y & Iy & Y). unfold value. rewrite Iy.
  destruct (solve_one_inv _ _ _ _ _ Y) as (p & d' & P & Sr & F).
  destruct (prep_dget e _ r p K P) as (_ & Sa & _). destruct (Sa k) as (s & Es & G); [exact Ik|].
  rewrite (finish_get _ _ _ _ F), dget_put by (intros ->; cbn in Ik; intuition discriminate).
  replace (mem_str k output_cols) with false; [congruence|].
  symmetry. cbn in Ik. destruct Ik as [<-|[<-|[<-|[]]]]; reflexivity.
Qed.

(* the salinity and the borate option of a row, in the numbers given to PyCO2SYS *)
Definition salts_from (r : row T) (s b : T) : Prop :=
  (exists v, dget "salinity" r = Some v /\ notnull v = true /\ as_num v = Ok s) /\
  match dget "opt_total_borate" r with
  | Some v => if notnull v then as_num v = Ok b else b = nofZ 1
  | None => b = nofZ 1
  end.
Definition not_given (k : string) (r : row T) : Prop :=
  match dget k r with Some v => isnull v = true | None => True end.

Lemma salts_from_val (e : env T) r s b k : salts_from r s b -> not_given k r ->
  salt_val e k r = Ok (VNum (e_sys_salt e s b k)).
Proof.
  intros ((v & G & N & A) & B) K. unfold salt_val, cell_num, def_borate, cell, notnull in *.
  assert (negb (isnull (match dget k r with Some v => v | None => VNone end)) = false) as ->.
  { unfold not_given in K. destruct (dget k r); [now rewrite K|reflexivity]. }
  rewrite G. apply negb_true_iff in N. rewrite N, A. cbn [bind].
  destruct (dget "opt_total_borate" r) as [u|].
  - destruct (isnull u) eqn:U; cbn [negb] in *; [subst b; reflexivity|]. rewrite U, B. reflexivity.
  - subst b. reflexivity.
Qed.

(* Once a table has been solved, a total that was not given shows for ever what PyCO2SYS gives
   for the salinity the table had at that first solve, whatever else is assigned and however
   often it is solved again; a table with the same assignments that was not solved before shows
   the total of its present salinity. *)
Theorem C57_totals_of_the_first_solve : forall (e : env T) kw h kw' ds d d' d1 d2 i r r' s b s' b' k,
  is_table ds -> In k ["total_sulfate"; "total_borate"; "total_fluoride"] ->
  nth_error (f_rows ds) i = Some r -> not_given k r -> salts_from r s b -> nisnan (e_sys_salt e s b k) = false ->
  never_assigned k (n_rows ds) h ->
  solve e kw ds = Ok d -> live e h d = Ok d' -> solve e kw' d' = Ok d1 ->
  nth_error (f_rows (fresh h ds)) i = Some r' -> salts_from r' s' b' -> solve e kw' (fresh h ds) = Ok d2 ->
  value d1 i k = Some (VNum (e_sys_salt e s b k)) /\ value d2 i k = Some (VNum (e_sys_salt e s' b' k)).
Proof.
  intros e kw h kw' ds d d' d1 d2 i r r' s b s' b' k W Ik R NG SF NN NA E L E1 R' SF' E2.
  assert (V := total_after_solve e kw ds d i r k _ W R Ik E (salts_from_val e r s b k SF NG)).
  assert (Wd : is_table d) by exact (wff_solve _ _ _ _ W E).
  assert (Rn : n_rows d = n_rows ds).
  { destruct (C58_other_columns_untouched e [CallSolve kw] ds d W) as (Q & _); [|exact Q]. cbn [run_all run]. now rewrite E. }
  assert (NV : notnull (VNum (e_sys_salt e s b k)) = true) by (unfold notnull; cbn [isnull]; now rewrite NN).
  split.
  - assert (L' : live e (h ++ [Solve kw']) d = Ok d1).
    { clear - L E1. revert d L. induction h as [|[c vs|q] h IH]; intros d L; cbn [live app] in *.
      - apply f_equal with (f := fun r => match r with Ok x => x | Err _ => d end) in L. subst. now rewrite E1.
      - apply IH, L.
      - destruct (solve e q d); cbn [bind] in *; [apply IH, L|discriminate]. }
    refine (proj1 (kept e (h ++ [Solve kw']) d d1 i k _ Wd Ik _ V NV L')).
    rewrite Rn. intros c vs I. apply in_app_or in I. destruct I as [I|[I|[]]]; [now apply NA|discriminate].
  - assert (X : forall g ds0, is_table ds0 -> never_assigned k (n_rows ds0) g ->
              is_table (fresh g ds0) /\ forall i, value (fresh g ds0) i k = value ds0 i k).
    { intros g. induction g as [|[c vs|q] g IH]; intros ds0 W0 A; cbn [fresh].
      - auto.
      - destruct (A c vs (or_introl eq_refl)) as [Nc Lc]. destruct (IH (set_col_list c vs ds0)) as [P Q].
        + now apply wff_edit.
        + rewrite edited_rows by assumption. intros c' vs' I. apply A. now right.
        + split; [exact P|]. intros j. rewrite Q. apply edited_value; auto.
      - apply IH; auto. intros c' vs' I. apply A. now right. }
    destruct (X h ds W NA) as [Wf Vf].
    apply (total_after_solve e kw' (fresh h ds) d2 i r' k _ Wf R' Ik E2), salts_from_val; [exact SF'|].
    specialize (Vf i). unfold value in Vf. rewrite R', R in Vf. unfold not_given in *. now rewrite Vf.
Qed.

End P.

(* the theorem's hypotheses hold in the case of the refutation: the two totals are those of
   salinity 35 and 30 *)
Example C57_first_solve_nonvacuous : let ds := one_row "gen.dat" in let h := [Edit "salinity" [VInt 30]] in
  exists d d' d1 d2 r r',
  is_table ds /\ nth_error (f_rows ds) 0 = Some r /\ not_given "total_sulfate" r /\
  salts_from r (Fin 35) (Fin 1) /\ nisnan (e_sys_salt tiny_env (Fin 35) (Fin 1) "total_sulfate") = false /\
  never_assigned "total_sulfate" (n_rows ds) h /\
  solve tiny_env [] ds = Ok d /\ live tiny_env h d = Ok d' /\ solve tiny_env [] d' = Ok d1 /\
  nth_error (f_rows (fresh h ds)) 0 = Some r' /\ salts_from r' (Fin 30) (Fin 1) /\ solve tiny_env [] (fresh h ds) = Ok d2 /\
  value d1 0 "total_sulfate" = Some (VNum (Fin 35)) /\ value d2 0 "total_sulfate" = Some (VNum (Fin 30)).
Proof.
  intros ds h. destruct stale_case as (d' & d1 & d2 & W & L & E1 & E2 & _ & _ & V1 & V2).
  cbn [live] in L. fold ds in W, L, E2. destruct (solve tiny_env [] ds) as [d|] eqn:E; [|discriminate]. cbn [bind] in L.
  exists d, d', d1, d2, (tiny_row "gen.dat"), (dset "salinity" (VInt 30) (tiny_row "gen.dat")).
  assert (S : forall z (r : row xr), dget "salinity" r = Some (VInt z) -> dget "opt_total_borate" r = None ->
              salts_from r (Fin (IZR z)) (Fin 1)).
  { intros z r G B. split.
    - exists (VInt z). split; [exact G|]. split; [reflexivity|]. cbn [as_num]. now rewrite fin_Z'.
    - rewrite B. now rewrite fin_Z'. }
  split; [exact W|]. split; [reflexivity|]. split; [exact I|]. split; [now apply S|]. split; [reflexivity|].
  split. { intros c vs [Q|[]]. injection Q as <- <-. split; [discriminate|reflexivity]. }
  split; [reflexivity|]. split; [exact L|]. split; [exact E1|]. split; [reflexivity|]. split; [now apply S|].
  split; [exact E2|]. split; [exact V1|exact V2].
Qed.
