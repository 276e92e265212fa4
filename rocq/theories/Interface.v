(* Interface.v -- model of calkulate/interface.py and the environment (file
   system, PyCO2SYS, scipy optimiser) that calkulate runs in. *)
From Verif Require Export Convert Lsq.

(* What calkulate calls but does not define.  Everything proved about the model
   holds for every value of this record unless a theorem says otherwise. *)
Record env (T : Type) : Type := {
  (* open(path).read(); None if the file cannot be opened *)
  e_file : string -> option string;
  (* pd.read_excel(path, skiprows=1): the acid, base, emf and temperature columns;
     None if it cannot be read *)
  e_excel : string -> option (list T * list T * list T * list T);
  (* PyCO2SYS.salts.assemble(salinity, total_silicate, total_phosphate,
     total_ammonia, total_sulfide, opt_k_carbonic, opt_total_borate, totals=...) *)
  e_salts : T -> T -> T -> T -> T -> val T -> val T -> dict T -> res (dict T);
  (* PyCO2SYS.equilibria.assemble(temperature, 0, totals, opt_pH_scale,
     opt_k_carbonic, opt_k_bisulfate, opt_k_fluoride, 3, Ks=...) *)
  e_equil : list T -> dict (nd T) -> val T -> val T -> val T -> val T -> dict T -> res (dict (nd T));
  (* PyCO2SYS.sys(salinity=..., opt_total_borate=...)[salt] for one row *)
  e_sys_salt : T -> T -> string -> T;
  (* scipy.optimize.least_squares *)
  e_strat : strategy T
}.
Arguments e_file {T} _ _.
Arguments e_excel {T} _ _.
Arguments e_salts {T} _.
Arguments e_equil {T} _.
Arguments e_sys_salt {T} _.
Arguments e_strat {T} _.

Section Interface.
Context {T : Type} `{Num T}.

(* interface.py:23-38  calk_to_pyco2__k_constants *)
Definition calk_to_pyco2__k_constants : list (string * string) :=
  [("k_alpha", "k_alpha"); ("k_ammonia", "KNH3"); ("k_beta", "k_beta"); ("k_bisulfate", "KSO4");
   ("k_borate", "KB"); ("k_carbonic_1", "K1"); ("k_carbonic_2", "K2"); ("k_fluoride", "KF");
   ("k_phosphoric_1", "KP1"); ("k_phosphoric_2", "KP2"); ("k_phosphoric_3", "KP3");
   ("k_silicate", "KSi"); ("k_sulfide", "KH2S"); ("k_water", "KW")].

(* interface.py:45-59: the keyword parameters of get_totals *)
Definition keys_get_totals : list string :=
  ["dic"; "total_alpha"; "total_beta"; "total_ammonia"; "total_phosphate"; "total_silicate";
   "total_sulfide"; "total_borate"; "total_fluoride"; "total_sulfate"; "opt_k_carbonic";
   "opt_total_borate"].

(* totals["name"] = value if cond *)
Definition dset_if {A} (b : bool) (k : string) (v : A) (d : dict A) : dict A :=
  if b then dset k v d else d.

(* "if not pd.isnull(v): d[k] = v * 1e-6" (interface.py:70-75) *)
Definition set_given (scale : T -> T) (k : string) (v : val T) (d : dict T) : res (dict T) :=
  if isnull v then Ok d else x <- as_num v ;; Ok (dset k (scale x) d).

(* "if total > 0: totals[name] = totals_pyco2[pname]" (interface.py:93-100) *)
Definition copy_if_pos (x : T) (name pname : string) (tp totals : dict T) : res (dict T) :=
  if ngtb x n0 then v <- dgetE pname tp ;; Ok (dset name v totals) else Ok totals.

(* interface.py:45-104  get_totals(salinity, **kw) -> (totals, totals_pyco2) *)
Definition get_totals (e : env T) (salinity : val T) (kw : kwargs T) : res (dict T * dict T) :=
  _ <- check_kwargs keys_get_totals kw ;;
  let um := fun x => x ⊗ nofQ 0.000001 in
  ta <- as_num (kwarg "total_alpha" (VInt 0) kw) ;;
  tb <- as_num (kwarg "total_beta" (VInt 0) kw) ;;
  tnh3 <- as_num (kwarg "total_ammonia" (VInt 0) kw) ;;
  tpo4 <- as_num (kwarg "total_phosphate" (VInt 0) kw) ;;
  tsi <- as_num (kwarg "total_silicate" (VInt 0) kw) ;;
  th2s <- as_num (kwarg "total_sulfide" (VInt 0) kw) ;;
  dic <- as_num (kwarg "dic" (VInt 0) kw) ;;
  sal <- as_num salinity ;;
  let tp0 := dset_if (ngtb ta n0) "alpha" (um ta) [] in
  let tp1 := dset_if (ngtb tb n0) "beta" (um tb) tp0 in
  tp2 <- set_given um "TB" (kwarg "total_borate" VNone kw) tp1 ;;
  tp3 <- set_given um "TF" (kwarg "total_fluoride" VNone kw) tp2 ;;
  tp4 <- set_given um "TSO4" (kwarg "total_sulfate" VNone kw) tp3 ;;
  tp <- e_salts e sal tsi tpo4 tnh3 th2s
          (kwarg "opt_k_carbonic" (VInt 10) kw) (kwarg "opt_total_borate" (VInt 1) kw) tp4 ;;
  let t0 := dset "dic" (um dic) [] in
  let t1 := dset_if (ngtb ta n0) "total_alpha" (um ta) t0 in
  let t2 := dset_if (ngtb tb n0) "total_beta" (um tb) t1 in
  t3 <- copy_if_pos tnh3 "total_ammonia" "TNH3" tp t2 ;;
  t4 <- copy_if_pos tsi "total_silicate" "TSi" tp t3 ;;
  t5 <- copy_if_pos tpo4 "total_phosphate" "TPO4" tp t4 ;;
  t6 <- copy_if_pos th2s "total_sulfide" "TH2S" tp t5 ;;
  TB <- dgetE "TB" tp ;;
  TF <- dgetE "TF" tp ;;
  TSO4 <- dgetE "TSO4" tp ;;
  Ok (dset "total_sulfate" TSO4 (dset "total_fluoride" TF (dset "total_borate" TB t6)), tp).

(* interface.py:107-129: the keyword parameters of get_k_constants *)
Definition keys_get_k_constants : list string :=
  ["k_alpha"; "k_ammonia"; "k_beta"; "k_bisulfate"; "k_borate"; "k_carbonic_1"; "k_carbonic_2";
   "k_fluoride"; "k_phosphoric_1"; "k_phosphoric_2"; "k_phosphoric_3"; "k_silicate"; "k_sulfide";
   "k_water"; "opt_k_bisulfate"; "opt_k_carbonic"; "opt_k_fluoride"; "opt_pH_scale";
   "opt_total_borate"].

(* interface.py:133-160 "if not pd.isnull(k): k_constants_pyco2[K] = k", in order *)
Definition given_ks (kw : kwargs T) : res (dict T) :=
  fold_left (fun acc cp => d <- acc ;; set_given (fun x => x) (snd cp) (kwarg (fst cp) VNone kw) d)
    calk_to_pyco2__k_constants
    (Ok [("RGas", nofQ 30)]).

(* interface.py:173-177 *)
Definition select_ks (kp : dict (nd T)) : dict (nd T) :=
  fold_left (fun acc cp => match dget (snd cp) kp with Some v => dset (fst cp) v acc | None => acc end)
    calk_to_pyco2__k_constants [].

(* interface.py:107-186  get_k_constants(totals_pyco2, temperature, **kw) *)
Definition get_k_constants (e : env T) (totals_pyco2 : dict (nd T)) (temperature : list T)
  (kw : kwargs T) : res (dict (nd T)) :=
  _ <- check_kwargs keys_get_k_constants kw ;;
  given <- given_ks kw ;;
  let scale := kwarg "opt_pH_scale" (VInt 3) kw in
  kp <- e_equil e temperature totals_pyco2 scale
          (kwarg "opt_k_carbonic" (VInt 10) kw)
          (kwarg "opt_k_bisulfate" (VInt 1) kw)
          (kwarg "opt_k_fluoride" (VInt 1) kw) given ;;
  let ks := select_ks kp in
  match val_eq_int scale 1, dget "TSO4" totals_pyco2 with
  | true, Some tso4 =>
      kso4 <- dgetE "k_bisulfate" ks ;;
      q <- nd_map2 ndiv tso4 kso4 ;;
      let f2t := nd_map (fun x => nofQ 1 ⊕ x) q in
      kf <- dgetE "k_fluoride" ks ;;
      kf' <- nd_map2 nmul kf f2t ;;
      Ok (dset "k_fluoride" kf' ks)
  | _, _ => Ok ks
  end.

End Interface.
