(* Core.v -- model of calkulate/core.py *)
From Verif Require Export Simulate Interface.

Section Core.
Context {T : Type} `{Num T}.

(* ------------------------------------------------------------------ *)
(** * Gran-plot first guesses *)

(* core.py:143-166  gran_function at one point *)
Definition gran_function (m emf temperature analyte_mass : T) : T :=
  (m ⊕ analyte_mass)
    ⊗ nexp (emf ⊗ faraday ⊘ (ideal_gas ⊗ (temperature ⊕ absolute_zero))).

Inductive gwarn := WarnFewPoints | WarnLowR.

(* core.py:51-52  GranAlkalinityResult (plus the warnings issued) *)
Record gran_alk := {
  ga_alkalinity : T;
  ga_gfunc : list T;
  ga_used : list bool;
  ga_intercept_x : T;
  ga_lr : linreg T;
  ga_warnings : list gwarn
}.

(* core.py:214-215: used[use_from:] = True where use_from is the index of the
   first True; None stands for the IndexError raised when there is none *)
Fixpoint used_from_first (flags : list bool) : option (list bool) :=
  match flags with
  | [] => None
  | true :: fs => Some (true :: map (fun _ => true) fs)
  | false :: fs => match used_from_first fs with Some u => Some (false :: u) | None => None end
  end.

(* core.py:211-219  which points to use *)
Definition gran_used (gran_logic : string) (gfunc : list T) : res (list bool) :=
  if String.eqb gran_logic "v23.7+" then
    mx <- nmax gfunc ;;
    of_opt (used_from_first (map (fun g => ngtb g (nofQ 0.1 ⊗ mx)) gfunc)) IndexError
  else if String.eqb gran_logic "legacy" then
    mx <- nmax gfunc ;;
    Ok (map (fun g => ngtb g (nofQ 0.1 ⊗ mx) && nltb g (nofQ 0.9 ⊗ mx)) gfunc)
  else Err GenericException.

Definition count_true (l : list bool) : nat := length (filter (fun b => b) l).

(* numpy raises ValueError when arrays of different lengths meet.  Simplification: an array of one
   element would be broadcast instead; the columns of a titration file have equal lengths. *)
Definition same_len (titrant_mass emf temperature : list T) : bool :=
  Nat.eqb (length emf) (length titrant_mass) && Nat.eqb (length temperature) (length titrant_mass).

(* core.py:169-230  gran_alkalinity *)
Definition gran_alkalinity (titrant_mass emf temperature : list T) (analyte_mass titrant_molinity
  titrant_normality : T) (gran_logic : string) : res gran_alk :=
  if negb (same_len titrant_mass emf temperature) then Err ValueError else
  let gfunc := map3 (fun m e t => gran_function m e t analyte_mass) titrant_mass emf temperature in
  used <- gran_used gran_logic gfunc ;;
  let w1 := if (count_true used <? 3)%nat then [WarnFewPoints] else [] in
  lr <- linregress (mask used titrant_mass) (mask used gfunc) ;;
  let w2 := if nltb (lr_rvalue lr) (nofQ 0.95) then [WarnLowR] else [] in
  let intercept_x := nopp (lr_intercept lr) ⊘ lr_slope lr in
  let alkalinity := intercept_x ⊗ titrant_molinity ⊗ titrant_normality ⊘ analyte_mass in
  Ok {| ga_alkalinity := alkalinity; ga_gfunc := gfunc; ga_used := used;
        ga_intercept_x := intercept_x; ga_lr := lr; ga_warnings := (w1 ++ w2)%list |}.

(* core.py:233-283  gran_emf0s at one point *)
Definition gran_emf0 (m emf temperature analyte_mass titrant_molinity alkalinity titrant_normality : T) : T :=
  emf ⊖ (ideal_gas ⊗ (temperature ⊕ absolute_zero) ⊘ faraday)
          ⊗ nln ((m ⊗ titrant_molinity ⊗ titrant_normality ⊖ analyte_mass ⊗ alkalinity)
                   ⊘ (m ⊕ analyte_mass)).

(* core.py:53-55  GranGuessesResult *)
Record gran_guess := {
  gg_ga : gran_alk;
  gg_emf0 : T;
  gg_emf0s : list T;
  gg_pH : list T
}.

(* convert.emf_to_pH on arrays *)
Definition emf_to_pH_arr (emf : list T) (emf0 : T) (temperature : list T) : list T :=
  map2 (fun e t => emf_to_pH e emf0 t) emf temperature.

(* core.py:286-352  gran_guesses *)
Definition gran_guesses (titrant_mass emf temperature : list T) (analyte_mass titrant_molinity
  titrant_normality : T) (gran_logic : string) : res gran_guess :=
  ga <- gran_alkalinity titrant_mass emf temperature analyte_mass titrant_molinity
          titrant_normality gran_logic ;;
  let emf0s := map3 (fun m e t => gran_emf0 m e t analyte_mass titrant_molinity
                                    (ga_alkalinity ga) titrant_normality)
                    titrant_mass emf temperature in
  let emf0 := nmean (mask (ga_used ga) emf0s) in
  Ok {| gg_ga := ga; gg_emf0 := emf0; gg_emf0s := emf0s;
        gg_pH := emf_to_pH_arr emf emf0 temperature |}.

(* ------------------------------------------------------------------ *)
(** * Totals and equilibrium constants *)

(* core.py:109-140  keys_totals_ks *)
Definition keys_totals_ks : list string :=
  ["dic"; "dilute_totals_for_ks"; "k_alpha"; "k_ammonia"; "k_beta"; "k_bisulfate"; "k_borate";
   "k_carbonic_1"; "k_carbonic_2"; "k_fluoride"; "k_phosphoric_1"; "k_phosphoric_2";
   "k_phosphoric_3"; "k_silicate"; "k_sulfide"; "k_water"; "opt_k_bisulfate"; "opt_k_carbonic";
   "opt_k_fluoride"; "opt_pH_scale"; "opt_total_borate"; "total_alpha"; "total_ammonia";
   "total_beta"; "total_borate"; "total_fluoride"; "total_phosphate"; "total_silicate";
   "total_sulfate"; "total_sulfide"].

(* core.py:411-423 *)
Definition keys_kwargs_totals : list string :=
  ["dic"; "total_alpha"; "total_beta"; "total_ammonia"; "total_phosphate"; "total_silicate";
   "total_sulfide"; "total_borate"; "total_fluoride"; "total_sulfate"; "opt_k_carbonic";
   "opt_total_borate"].

(* core.py:441-461 *)
Definition keys_kwargs_k_constants : list string :=
  ["k_alpha"; "k_ammonia"; "k_beta"; "k_bisulfate"; "k_borate"; "k_carbonic_1"; "k_carbonic_2";
   "k_fluoride"; "k_phosphoric_1"; "k_phosphoric_2"; "k_phosphoric_3"; "k_silicate"; "k_sulfide";
   "k_water"; "opt_k_bisulfate"; "opt_k_carbonic"; "opt_k_fluoride"; "opt_pH_scale";
   "opt_total_borate"].

(* core.py:355-466  totals_ks(converted, **kw) *)
Definition totals_ks (e : env T) (cv : Converted T) (kw : kwargs T)
  : res (dict (nd T) * dict (nd T)) :=
  let kwargs_totals := filter (fun kv => mem_str (fst kv) keys_kwargs_totals) kw in
  '(totals0, tp0) <- get_totals e (cv_salinity cv) kwargs_totals ;;
  totals <- dilute_totals (dmap NdS totals0) (cv_titrant_mass cv) (cv_analyte_mass cv) ;;
  tp <- (if match dget "dilute_totals_for_ks" kw with Some v => truthy v | None => false end
         then dilute_totals_pyco2 (dmap NdS tp0) (cv_titrant_mass cv) (cv_analyte_mass cv)
         else Ok (dmap NdS tp0)) ;;
  let kwargs_k_constants := filter (fun kv => mem_str (fst kv) keys_kwargs_k_constants) kw in
  ks <- get_k_constants e tp (cv_temperature cv) kwargs_k_constants ;;
  Ok (totals, ks).

(* core.py:512-517: the array added to one total *)
Definition titrant_addition (titrant_mass : list T) (analyte_mass molinity molinity_prev factor : T)
  : list T :=
  map (fun m => m ⊗ (molinity ⊖ molinity_prev) ⊗ factor ⊘ (m ⊕ analyte_mass)) titrant_mass.

(* core.py:469-518  add_titrant_totals.  Operates in place: the first component
   is the caller's dict afterwards, also when the call raises half way. *)
Fixpoint add_titrant_totals (totals : dict (nd T)) (titrant_mass : list T)
  (analyte_mass molinity molinity_prev : T) (titrant_totals : kwargs T)
  : dict (nd T) * res unit :=
  match titrant_totals with
  | [] => (totals, Ok tt)
  | (t_total, factor) :: rest =>
      match (_ <- assert_ (startswith t_total "titrant_total_") ;;
             v <- dgetE (sdrop 8 t_total) totals ;;
             f <- as_num factor ;;
             nd_iadd v (titrant_addition titrant_mass analyte_mass molinity molinity_prev f)) with
      | Ok v' => add_titrant_totals (dset (sdrop 8 t_total) v' totals) titrant_mass analyte_mass
                   molinity molinity_prev rest
      | Err e => (totals, Err e)
      end
  end.

(* ------------------------------------------------------------------ *)
(** * Solvers *)

(* core.py:521-541  _lsqfun_solve_emf *)
Definition lsqfun_solve_emf (titrant_molinity : T) (titrant_mass emf temperature : list T)
  (analyte_mass : T) (totals ks : dict (nd T)) (titrant_normality : T) (x : list T)
  : res (list T) :=
  match x with
  | [a; emf0] =>
      let pH := emf_to_pH_arr emf emf0 temperature in
      sim <- alkalinity_arr pH totals ks default_opt_pH_scale ;;
      Ok (map2 (fun s m =>
                  s ⊖ a ⊗ get_dilution_factor m analyte_mass
                    ⊕ m ⊗ titrant_molinity ⊗ titrant_normality ⊘ (m ⊕ analyte_mass))
               sim titrant_mass)
  | _ => Err ValueError
  end.

(* core.py:56-75  SolveEmfResult *)
Record emf_result := {
  se_alkalinity : T;
  se_emf0 : T;
  se_used : list bool;
  se_pH : list T;
  se_alkalinity_std : T;
  se_alkalinity_all : list T;
  se_opt_result : opt_result T;
  se_ggr : gran_guess;
  se_titrant_molinity : T;
  se_titrant_mass : list T;
  se_emf : list T;
  se_temperature : list T;
  se_analyte_mass : T;
  se_totals : dict (nd T);
  se_k_constants : dict (nd T)
}.

(* core.py:640, 769, 844: (pH >= pH_min) & (pH <= pH_max) *)
Definition in_window (pH_min pH_max : T) (pH : list T) : list bool :=
  map (fun p => ngeb p pH_min && nleb p pH_max) pH.

(* core.py:668-676 and 770-778: the estimate at every titration point *)
Definition alkalinity_all (pH titrant_mass : list T) (analyte_mass titrant_molinity
  titrant_normality : T) (totals ks : dict (nd T)) : res (list T) :=
  sim <- alkalinity_arr pH totals ks default_opt_pH_scale ;;
  Ok (map2 (fun s m =>
              nofQ 1000000
                ⊗ (s ⊕ (m ⊗ titrant_molinity ⊗ titrant_normality) ⊘ (m ⊕ analyte_mass))
                ⊘ get_dilution_factor m analyte_mass)
           sim titrant_mass).

(* core.py:618-693  one pass of solve_emf *)
Definition solve_emf_once (st : strategy T) (titrant_molinity : T)
  (titrant_mass emf temperature : list T) (analyte_mass : T) (totals ks : dict (nd T))
  (alkalinity_init emf0_init : option T) (gran_logic : string) (pH_min pH_max titrant_normality : T)
  : res emf_result :=
  ggr <- gran_guesses titrant_mass emf temperature analyte_mass titrant_molinity
           titrant_normality gran_logic ;;
  let alk0 := match alkalinity_init with
              | None => ga_alkalinity (gg_ga ggr)
              | Some a => a ⊗ nofQ 0.000001
              end in
  _ <- assert_ (nltb pH_min pH_max) ;;
  let emf00 := match emf0_init with None => gg_emf0 ggr | Some e => e end in
  let pH0 := match emf0_init with
             | None => gg_pH ggr
             | Some e => emf_to_pH_arr emf e temperature
             end in
  let used := in_window pH_min pH_max pH0 in
  (* v[used] raises for an array v of another length *)
  if negb (all_fit (length used) totals && all_fit (length used) ks) then Err IndexError else
  let totals_used := dmap (nd_mask used) totals in
  let ks_used := dmap (nd_mask used) ks in
  let fres := fun (_ : unit) x =>
    (tt, lsqfun_solve_emf titrant_molinity (mask used titrant_mass) (mask used emf)
           (mask used temperature) analyte_mass totals_used ks_used titrant_normality x) in
  o <- snd (least_squares st fres tt [alk0; emf00]) ;;
  a <- of_opt (nth_error (or_x o) 0) IndexError ;;
  emf0 <- of_opt (nth_error (or_x o) 1) IndexError ;;
  let pH := emf_to_pH_arr emf emf0 temperature in
  all_ <- alkalinity_all pH titrant_mass analyte_mass titrant_molinity titrant_normality totals ks ;;
  Ok {| se_alkalinity := a ⊗ nofQ 1000000;
        se_emf0 := emf0;
        se_used := used;
        se_pH := pH;
        se_alkalinity_std := nstd (or_fun o) ⊗ nofQ 1000000;
        se_alkalinity_all := all_;
        se_opt_result := o;
        se_ggr := ggr;
        se_titrant_molinity := titrant_molinity;
        se_titrant_mass := titrant_mass;
        se_emf := emf;
        se_temperature := temperature;
        se_analyte_mass := analyte_mass;
        se_totals := totals;
        se_k_constants := ks |}.

(* core.py:544-713  solve_emf.  The recursive call (698-712) does not pass
   gran_logic on, so it uses the default "v23.7+"; it passes double=False, so
   the recursion has depth one. *)
Definition solve_emf (st : strategy T) (titrant_molinity : T)
  (titrant_mass emf temperature : list T) (analyte_mass : T) (totals ks : dict (nd T))
  (alkalinity_init : option T) (double : bool) (emf0_init : option T) (gran_logic : string)
  (pH_min pH_max titrant_normality : T) : res emf_result :=
  sr <- solve_emf_once st titrant_molinity titrant_mass emf temperature analyte_mass totals ks
          alkalinity_init emf0_init gran_logic pH_min pH_max titrant_normality ;;
  if double then
    solve_emf_once st titrant_molinity titrant_mass emf temperature analyte_mass totals ks
      (Some (se_alkalinity sr)) (Some (se_emf0 sr)) "v23.7+" pH_min pH_max titrant_normality
  else Ok sr.

(* core.py:76-91  SolvePhResult *)
Record ph_result := {
  sp_alkalinity : T;
  sp_used : list bool;
  sp_alkalinity_std : T;
  sp_alkalinity_all : list T;
  sp_titrant_molinity : T;
  sp_titrant_mass : list T;
  sp_pH : list T;
  sp_temperature : list T;
  sp_analyte_mass : T;
  sp_totals : dict (nd T);
  sp_k_constants : dict (nd T)
}.

(* core.py:716-793  solve_pH *)
Definition solve_pH (titrant_molinity : T) (titrant_mass pH temperature : list T) (analyte_mass : T)
  (totals ks : dict (nd T)) (pH_min pH_max titrant_normality : T) : res ph_result :=
  if negb (Nat.eqb (length pH) (length titrant_mass)) then Err ValueError else
  _ <- assert_ (nltb pH_min pH_max) ;;
  let used := in_window pH_min pH_max pH in
  all_ <- alkalinity_all pH titrant_mass analyte_mass titrant_molinity titrant_normality totals ks ;;
  Ok {| sp_alkalinity := nmean (mask used all_);
        sp_used := used;
        sp_alkalinity_std := nstd (mask used all_);
        sp_alkalinity_all := all_;
        sp_titrant_molinity := titrant_molinity;
        sp_titrant_mass := titrant_mass;
        sp_pH := pH;
        sp_temperature := temperature;
        sp_analyte_mass := analyte_mass;
        sp_totals := totals;
        sp_k_constants := ks |}.

(* core.py:92-107  SolvePhGranResult *)
Record phgran_result := {
  sg_alkalinity : T;
  sg_used : list bool;
  sg_gfunc : list T;
  sg_lr : linreg T;
  sg_titrant_molinity : T;
  sg_titrant_mass : list T;
  sg_pH : list T;
  sg_temperature : list T;
  sg_analyte_mass : T;
  sg_totals : dict (nd T);
  sg_k_constants : dict (nd T)
}.

(* core.py:796-863  solve_pH_gran *)
Definition solve_pH_gran (titrant_molinity : T) (titrant_mass pH temperature : list T)
  (analyte_mass : T) (totals ks : dict (nd T)) (pH_min pH_max titrant_normality : T)
  : res phgran_result :=
  if negb (Nat.eqb (length pH) (length titrant_mass)) then Err ValueError else
  _ <- assert_ (nltb pH_min pH_max) ;;
  let used := in_window pH_min pH_max pH in
  let gfunc := map2 (fun m p => (m ⊕ analyte_mass) ⊗ npow10 (nopp p)) titrant_mass pH in
  lr <- linregress (mask used titrant_mass) (mask used gfunc) ;;
  let intercept_x := nopp (lr_intercept lr) ⊘ lr_slope lr in
  Ok {| sg_alkalinity := nofQ 1000000
                           ⊗ (intercept_x ⊗ titrant_molinity ⊗ titrant_normality ⊘ analyte_mass);
        sg_used := used;
        sg_gfunc := gfunc;
        sg_lr := lr;
        sg_titrant_molinity := titrant_molinity;
        sg_titrant_mass := titrant_mass;
        sg_pH := pH;
        sg_temperature := temperature;
        sg_analyte_mass := analyte_mass;
        sg_totals := totals;
        sg_k_constants := ks |}.

(* ------------------------------------------------------------------ *)
(** * Calibration *)

(* The common shape of _lsqfun_calibrate_emf/_pH/_pH_gran (core.py:866-918,
   1009-1055, 1129-1175): add the titrant's totals, solve, take them away again,
   return the difference.  The state is the caller's totals dict. *)
Definition lsqfun_calibrate (solve : T -> dict (nd T) -> res T) (alkalinity_certified : T)
  (titrant_mass : list T) (analyte_mass : T) (titrant_totals : kwargs T)
  (totals : dict (nd T)) (x : list T) : dict (nd T) * res (list T) :=
  match x with
  | [c] =>
      match add_titrant_totals totals titrant_mass analyte_mass c n0 titrant_totals with
      | (totals1, Err e) => (totals1, Err e)
      | (totals1, Ok _) =>
          match solve c totals1 with
          | Err e => (totals1, Err e)
          | Ok a =>
              match add_titrant_totals totals1 titrant_mass analyte_mass n0 c titrant_totals with
              | (totals2, Err e) => (totals2, Err e)
              | (totals2, Ok _) => (totals2, Ok [a ⊖ alkalinity_certified])
              end
          end
      end
  | _ => (totals, Err ValueError)
  end.

(* core.py:921-1006  calibrate_emf; solve_emf is called without gran_logic (894-908) *)
Definition calibrate_emf (st : strategy T) (alkalinity_certified : T)
  (titrant_mass emf temperature : list T) (analyte_mass : T) (totals ks : dict (nd T))
  (alkalinity_init emf0_init : option T) (double : bool)
  (pH_min pH_max titrant_molinity_init titrant_normality : T) (titrant_totals : kwargs T)
  : dict (nd T) * res (opt_result T) :=
  least_squares st
    (lsqfun_calibrate
       (fun c totals1 =>
          sr <- solve_emf st c titrant_mass emf temperature analyte_mass totals1 ks
                  alkalinity_init double emf0_init "v23.7+" pH_min pH_max titrant_normality ;;
          Ok (se_alkalinity sr))
       alkalinity_certified titrant_mass analyte_mass titrant_totals)
    totals [titrant_molinity_init].

(* core.py:1058-1126  calibrate_pH *)
Definition calibrate_pH (st : strategy T) (alkalinity_certified : T)
  (titrant_mass pH temperature : list T) (analyte_mass : T) (totals ks : dict (nd T))
  (pH_min pH_max titrant_molinity_init titrant_normality : T) (titrant_totals : kwargs T)
  : dict (nd T) * res (opt_result T) :=
  least_squares st
    (lsqfun_calibrate
       (fun c totals1 =>
          sr <- solve_pH c titrant_mass pH temperature analyte_mass totals1 ks
                  pH_min pH_max titrant_normality ;;
          Ok (sp_alkalinity sr))
       alkalinity_certified titrant_mass analyte_mass titrant_totals)
    totals [titrant_molinity_init].

(* core.py:1178-1246  calibrate_pH_gran *)
Definition calibrate_pH_gran (st : strategy T) (alkalinity_certified : T)
  (titrant_mass pH temperature : list T) (analyte_mass : T) (totals ks : dict (nd T))
  (pH_min pH_max titrant_molinity_init titrant_normality : T) (titrant_totals : kwargs T)
  : dict (nd T) * res (opt_result T) :=
  least_squares st
    (lsqfun_calibrate
       (fun c totals1 =>
          sr <- solve_pH_gran c titrant_mass pH temperature analyte_mass totals1 ks
                  pH_min pH_max titrant_normality ;;
          Ok (sg_alkalinity sr))
       alkalinity_certified titrant_mass analyte_mass titrant_totals)
    totals [titrant_molinity_init].

(* core.py:1250-1261  the keyword sets *)
Definition keys_solve_emf : list string :=
  ["alkalinity_init"; "double"; "emf0_init"; "gran_logic"; "pH_min"; "pH_max"; "titrant_normality"].
Definition keys_solve_pH : list string := ["pH_min"; "pH_max"; "titrant_normality"].
Definition keys_solve_pH_gran : list string := ["pH_min"; "pH_max"; "titrant_normality"].
Definition keys_titrant_totals : list string :=
  ["titrant_total_sulfate"; "titrant_total_phosphate"; "titrant_total_fluoride"].
Definition keys_calibrate_emf : list string :=
  (["alkalinity_init"; "emf0_init"; "double"; "pH_min"; "pH_max"; "titrant_molinity_init";
    "titrant_normality"] ++ keys_titrant_totals)%list.
Definition keys_calibrate_pH : list string :=
  (["pH_min"; "pH_max"; "titrant_molinity_init"; "titrant_normality"] ++ keys_titrant_totals)%list.
Definition keys_calibrate_pH_gran : list string :=
  (["pH_min"; "pH_max"; "titrant_molinity_init"; "titrant_normality"] ++ keys_titrant_totals)%list.

End Core.
Arguments gran_alk : clear implicits.
Arguments gran_guess : clear implicits.
Arguments emf_result : clear implicits.
Arguments ph_result : clear implicits.
Arguments phgran_result : clear implicits.
