(* Witness.v -- one small titration that solves, for examples and refutations *)
From Coq Require Import Reals Qreals Lra.
From Verif Require Import Dataset SettingsProofs.
From Verif Require Export XRLemmas.
Open Scope list_scope.
Open Scope string_scope.

Definition line (l : list string) : string :=
  String.concat tab_str l ++ nl_str.

(* two titration points with pH 3.5 and 3.6, in the layout of file_type "genfromtxt" *)
Definition gen_text : string :=
  line ["header"] ++ line ["header"] ++ line ["0"; "3.5"; "25"] ++ line ["1"; "3.6"; "25"].
(* the same points in the layout of file_type "pclims" *)
Definition pclims_text : string :=
  line ["report"] ++ line ["1"; "0"; "3.5"; "0"; "0"; "25"] ++ line ["2"; "1"; "3.6"; "0"; "0"; "25"] ++ line ["end"].

Definition tiny_env : env xr := {|
  e_file := fun p => if String.eqb p "gen.dat" then Some gen_text
                     else if String.eqb p "lims.txt" then Some pclims_text else None;
  e_excel := fun _ => None;
  e_salts := fun _ _ _ _ _ _ _ _ => Ok [("TB", Fin 0); ("TF", Fin 0); ("TSO4", Fin 0)];
  e_equil := fun _ _ _ _ _ _ _ => Ok [("K1", NdS (Fin 1)); ("K2", NdS (Fin 1)); ("KB", NdS (Fin 1));
                                       ("KF", NdS (Fin 1)); ("KSO4", NdS (Fin 1)); ("KW", NdS (Fin 1))];
  e_sys_salt := fun s _ _ => s;
  e_strat := {| s_next := fun _ => None; s_pick := fun _ => 0%nat; s_max := 0 |}
|}.

Definition tiny_row (f : string) : row xr :=
  [("file_name", VStr f); ("salinity", VInt 35); ("titrant_molinity", VNum (Fin 1));
   ("file_good", VBool true); ("analyte_mass", VNum (Fin 1)); ("titrant_amount_unit", VStr "kg");
   ("solve_mode", VStr "pH")].

Lemma gt00 : ngtb (nofZ 0 : xr) n0 = false.
Proof. unfold ngtb. cbn. unfold rltb. destruct (Rlt_dec _ _) as [L|]; [|reflexivity]. lra. Qed.

Lemma ne31 : val_eq_int (VInt 3 : val xr) 1 = false.
Proof.
  unfold val_eq_int. cbn. unfold reqb. destruct (Req_EM_T _ _) as [L|]; [|reflexivity].
  unfold Q2R in L. cbn in L. lra.
Qed.

Definition tiny_dd : DatData xr :=
  {| dd_titrant_amount := [dec 0 0; dec 1 0]; dd_measurement := [dec 35 (-1); dec 36 (-1)];
     dd_temperature := [dec 25 0; dec 25 0] |}.

Lemma gen_read : read_dat tiny_env "gen.dat" [] = Ok (Dat tiny_dd).
Proof. reflexivity. Qed.
Lemma pclims_read : read_dat tiny_env "lims.txt" [("file_type", VStr "pclims")] = Ok (Dat tiny_dd).
Proof. reflexivity. Qed.

Definition tiny_cv : Converted xr :=
  {| cv_titrant_mass := [dec 0 0; dec 1 0]; cv_measurement := [dec 35 (-1); dec 36 (-1)];
     cv_temperature := [dec 25 0; dec 25 0]; cv_analyte_mass := Fin 1; cv_salinity := VInt 35 |}.

Lemma tiny_totals kw : (forall k, In k keys_totals_ks -> dget k kw = None) ->
  exists tk, totals_ks tiny_env tiny_cv (get_kwargs_for keys_totals_ks kw None) = Ok tk /\
    (forall pH, length pH = 2%nat -> exists l, alkalinity_arr pH (fst tk) (snd tk) 3 = Ok l /\ length l = 2%nat).
Proof.
  intros K. rewrite (totals_ks_deq _ _ _ []).
  2:{ intros k. unfold get_kwargs_for. rewrite (DictLemmas.dget_filter (fun k => mem_str k keys_totals_ks)).
      destruct (mem_str k keys_totals_ks) eqn:M; [|reflexivity]. apply DictLemmas.mem_str_spec in M. now rewrite K. }
  eexists. split.
  - unfold totals_ks, get_totals, get_k_constants, copy_if_pos.
    cbn [filter check_kwargs forallb bind kwarg dget as_num].
    rewrite gt00, ne31. reflexivity.
  - intros [|p [|q [|? ?]]]; try discriminate. intros _. eexists. split; reflexivity.
Qed.

Lemma tiny_window (a b : R) : (a <= 3.5)%R -> (3.6 <= b)%R ->
  in_window (Fin a) (Fin b) [dec 35 (-1); dec 36 (-1)] = [true; true].
Proof.
  intros A B. unfold in_window. cbn [map].
  assert (E1 : dec 35 (-1) = Fin 3.5) by (cbn; f_equal; unfold Q2R; cbn; lra).
  assert (E2 : dec 36 (-1) = Fin 3.6) by (cbn; f_equal; unfold Q2R; cbn; lra).
  rewrite E1, E2. unfold ngeb. cbn. unfold x_leb, x_ltb, x_eqb, rltb, reqb.
  repeat (destruct (Rlt_dec _ _) || destruct (Req_EM_T _ _)); cbn; try reflexivity; lra.
Qed.

(* the totals that dataset.solve fills in *)
Definition filled_totals (a b c : R) : kwargs xr :=
  [("opt_total_borate", VInt 1); ("total_sulfate", VNum (Fin a)); ("total_borate", VNum (Fin b)); ("total_fluoride", VNum (Fin c))].

Lemma tiny_totals_filled kw a b c : deq (get_kwargs_for keys_totals_ks kw None) (filled_totals a b c) ->
  exists tk, totals_ks tiny_env tiny_cv (get_kwargs_for keys_totals_ks kw None) = Ok tk /\
    (forall pH, length pH = 2%nat -> exists l, alkalinity_arr pH (fst tk) (snd tk) 3 = Ok l /\ length l = 2%nat).
Proof.
  intros K. rewrite (totals_ks_deq _ _ _ _ K). clear K.
  eexists. split.
  - unfold totals_ks, get_totals, get_k_constants, copy_if_pos, filled_totals.
    cbn [filter fst mem_str existsb keys_kwargs_totals keys_kwargs_k_constants String.eqb Ascii.eqb Bool.eqb orb].
    cbn [check_kwargs forallb fst mem_str existsb keys_get_totals keys_get_k_constants andb bind kwarg dget String.eqb Ascii.eqb Bool.eqb as_num orb].
    rewrite gt00, ne31. reflexivity.
  - intros [|p [|q [|? ?]]]; try discriminate. intros _. eexists. split; reflexivity.
Qed.

Lemma tiny_solved f kw m :
  read_dat tiny_env f (get_kwargs_for keys_read_dat (without_mode kw) None) = Ok (Dat tiny_dd) ->
  amount_units_dat (Dat tiny_dd) (VInt 35) (get_kwargs_for keys_cau (without_mode kw) None) = Ok tiny_cv ->
  (exists tk, totals_ks tiny_env tiny_cv (get_kwargs_for keys_totals_ks (without_mode kw) None) = Ok tk /\
    (forall pH, length pH = 2%nat -> exists l, alkalinity_arr pH (fst tk) (snd tk) 3 = Ok l /\ length l = 2%nat)) ->
  get_kwargs_for keys_titrant_totals (without_mode kw) None = [] ->
  get_kwargs_for keys_solve_pH (without_mode kw) None = [] ->
  dget "file_path" (without_mode kw) = None ->
  mode_of kw = VStr m -> lower m = "ph" ->
  exists s, files_solve tiny_env (VStr f) (VNum (Fin 1)) (VInt 35) kw = Ok (SrPh s) /\
            count_true (sp_used s) = 2%nat.
Proof.
  intros R A K TT S P M L. unfold files_solve, load, full_name. rewrite P. cbn [bind].
  rewrite R. cbn [bind]. rewrite A. cbn [bind].
  destruct K as ([totals ks] & Et & Al). rewrite Et. cbn [bind as_num].
  rewrite TT, M. cbn [add_titrant_totals bind]. unfold dispatch_solve. cbn [as_str bind]. rewrite L.
  cbn [String.eqb Ascii.eqb Bool.eqb]. rewrite S. unfold call_solve_pH. cbn [check_kwargs forallb bind kwarg dget as_num].
  unfold solve_pH. cbn [tiny_cv cv_titrant_mass cv_measurement cv_temperature cv_analyte_mass length Nat.eqb negb].
  assert (LT : nltb (nofZ 3 : xr) (nofZ 4) = true).
  { cbn. unfold rltb. destruct (Rlt_dec _ _) as [|N]; [reflexivity|]. exfalso; apply N. unfold Q2R; cbn. lra. }
  rewrite LT. cbn [assert_ bind]. unfold alkalinity_all.
  destruct (Al [dec 35 (-1); dec 36 (-1)] eq_refl) as (l & El & _). cbn [fst snd] in El.
  unfold default_opt_pH_scale. rewrite El. cbn [bind]. eexists. split; [reflexivity|].
  cbn [sp_used]. change (nofZ 3 : xr) with (Fin (Q2R 3)). change (nofZ 4 : xr) with (Fin (Q2R 4)).
  rewrite tiny_window; [reflexivity|unfold Q2R; cbn; lra..].
Qed.

Definition npts (r : res (row xr)) : option (val xr) :=
  match r with Ok d => dget "alkalinity_npts" d | Err _ => None end.

Lemma npts_solved r s :
  npts (Ok (add_solve_results (blank r) (SrPh s))) = Some (n_used (sp_used s)).
Proof.
  cbn [npts add_solve_results]. unfold set_inits.
  destruct (nth_error (sp_pH s) 0); [|reflexivity].
  destruct (nth_error (sp_temperature s) 0); reflexivity.
Qed.

(* solve_row on a row whose settings are those of the small titration *)
Lemma row_solved kw kw1 (r : row xr) f :
  backcompat kw r = Ok kw1 ->
  dget "file_name" r = Some (VStr f) -> dget "titrant_molinity" r = Some (VNum (Fin 1)) ->
  dget "salinity" r = Some (VInt 35) -> dget "file_good" r = Some (VBool true) ->
  (exists s, files_solve tiny_env (VStr f) (VNum (Fin 1)) (VInt 35) (get_kwargs_for keys_solve kw1 (Some r)) = Ok (SrPh s) /\
             count_true (sp_used s) = 2%nat) ->
  npts (solve_row tiny_env kw r) = Some (VInt 2).
Proof.
  intros B F C S G (s & E & N). unfold solve_row, solve_row_try, attr. rewrite F, C, S, G, B. cbn [of_opt bind].
  cbn [notnull isnull nisnan NumXR x_isnan negb truthy andb]. rewrite E.
  rewrite npts_solved. unfold n_used. now rewrite N.
Qed.

Lemma row_failed kw kw1 (r : row xr) x :
  backcompat kw r = Ok kw1 ->
  dget "file_name" r = Some x -> dget "titrant_molinity" r = Some (VNum (Fin 1)) ->
  dget "salinity" r = Some (VInt 35) -> dget "file_good" r = Some (VBool true) ->
  is_ok (files_solve tiny_env x (VNum (Fin 1)) (VInt 35) (get_kwargs_for keys_solve kw1 (Some r))) = false ->
  npts (solve_row tiny_env kw r) = Some (VInt 0).
Proof.
  intros B F C S G E. unfold solve_row, solve_row_try, handler, attr. rewrite F, C, S, G, B. cbn [of_opt bind].
  cbn [notnull isnull nisnan NumXR x_isnan negb truthy andb].
  destruct (files_solve _ _ _ _ _); [discriminate|]. reflexivity.
Qed.
