(* Loss.v -- model of calkulate/loss.py (DIC loss during titrations) *)
From Verif Require Export Simulate Lsq.

(* ------------------------------------------------------------------ *)
(** * numpy and scipy functions used only here and in simulate._titration *)

Section Numpy.
Context {T : Type} `{Num T}.

(* the smallest integer that is not less than x *)
Definition nceil (x : T) : Z :=
  let z := nround 0 x in if nltb (nofZ z) x then (z + 1)%Z else z.

(* np.arange(start, stop, step): ceil((stop - start) / step) values start + i * delta with
   delta = (start + step) - start *)
Definition arange (start stop step : T) : res (list T) :=
  let q := (stop ⊖ start) ⊘ step in
  if nisfinite q then
    let delta := (start ⊕ step) ⊖ start in
    Ok (map (fun i => start ⊕ nofZ (Z.of_nat i) ⊗ delta) (seq 0 (Z.to_nat (nceil q))))
  else Err ValueError.

(* np.diff *)
Fixpoint diff (l : list T) : list T :=
  match l with
  | x :: ((y :: _) as l') => (y ⊖ x) :: diff l'
  | _ => []
  end.

(* np.median *)
Fixpoint insert (x : T) (l : list T) : list T :=
  match l with [] => [x] | y :: l' => if nleb x y then x :: l else y :: insert x l' end.
Definition sort (l : list T) : list T := fold_right insert [] l.
Definition median (l : list T) : T :=
  if existsb nisnan l then nnan
  else
    let s := sort l in
    let n := length s in
    if Nat.odd n then nth (Nat.div2 n) s nnan
    else (nth (Nat.div2 n - 1) s nnan ⊕ nth (Nat.div2 n) s nnan) ⊘ nofZ 2.

(* np.nanmax: nan when everything is nan, ValueError for an empty array *)
Definition nanmax (l : list T) : res T :=
  match l with
  | [] => Err ValueError
  | _ => match nmax (filter (fun x => negb (nisnan x)) l) with Ok m => Ok m | Err _ => Ok nnan end
  end.

(* x[isnan(x)] = v *)
Definition fill_nan (v : T) (l : list T) : list T := map (fun x => if nisnan x then v else x) l.

End Numpy.

Section Loss.
Context {T : Type} `{Num T}.

(* scipy.interpolate.pchip_interpolate(xi, yi, x): an oracle *)
Definition pchip_t := list T -> list T -> list T -> res (list T).

(* loss.py:16-24: i_dic[i] = x and the values after it *)
Fixpoint fitted_steps (k analyte_mass step_tm x : T) (ms ds : list T) : res (list T) :=
  match ds with
  | [] => Err IndexError
  | [_] => Ok [x]
  | d :: ds' =>
      match ms with
      | [] => Err IndexError
      | m :: ms' =>
          let dilute := get_dilution_factor step_tm (analyte_mass ⊕ m) in
          rest <- fitted_steps k analyte_mass step_tm (x ⊗ dilute ⊖ k ⊗ d ⊗ step_tm) ms' ds' ;;
          Ok (x :: rest)
      end
  end.

(* loss.py:11-25  dic_loss_model_fitted *)
Definition dic_loss_model_fitted (k_dic_loss : T) (i_titrant_mass i_delta_fCO2 : list T)
  (dic_start analyte_mass step_tm : T) : res (list T) :=
  fitted_steps k_dic_loss analyte_mass step_tm (dic_start ⊗ nofQ 1000000) i_titrant_mass i_delta_fCO2.

(* loss.py:28-46  _lsqfun_dic_loss_model *)
Definition lsqfun_dic_loss_model (i_titrant_mass i_delta_fCO2 : list T)
  (dic_start analyte_mass step_tm : T) (i_dic_loss : list T) (x : list T) : res (list T) :=
  match x with
  | [k] =>
      l <- dic_loss_model_fitted k i_titrant_mass i_delta_fCO2 dic_start analyte_mass step_tm ;;
      if Nat.eqb (length l) (length i_dic_loss) then Ok (map2 nsub l i_dic_loss) else Err ValueError
  | _ => Err ValueError
  end.

(* loss.py:49-54  get_fCO2_from_dic_pH *)
Definition get_fCO2_from_dic_pH (dic pH k0 k1 k2 : T) : T :=
  let h := npow10 (nopp pH) in
  let CO2aq := dic ⊘ (nofQ 1 ⊕ k1 ⊘ h ⊕ k1 ⊗ k2 ⊘ npow h 2) in
  CO2aq ⊘ k0.

(* default.py:7, 24 *)
Definition default_fCO2_air : T := nofQ 450.
Definition default_split_pH : T := nofQ 5.5.

(* loss.py:87-104: f_dic[i] = x, f_delta_fCO2[i] = d and the values after them; [pts] are
   the pH, k0, k1 and k2 from index i + 1 on *)
Fixpoint future_steps (k analyte_mass step_tm fCO2_air x d : T) (ms : list T)
  (pts : list (T * T * T * T)) : list T * list T :=
  match ms, pts with
  | m :: ((_ :: _) as ms'), (pH, k0, k1, k2) :: pts' =>
      let dilute := get_dilution_factor step_tm (analyte_mass ⊕ m) in
      let x' := x ⊗ dilute ⊖ k ⊗ d ⊗ step_tm in
      let d' := get_fCO2_from_dic_pH x' pH k0 k1 k2 ⊖ fCO2_air in
      let (xs, ds) := future_steps k analyte_mass step_tm fCO2_air x' d' ms' pts' in
      (x :: xs, d :: ds)
  | _, _ => ([x], [d])
  end.

(* loss.py:57-105  dic_loss_model_future.  Simplification: the five arrays must have the
   same length (numpy would raise IndexError for shorter ones and ignore extra values). *)
Definition dic_loss_model_future (k_dic_loss : T) (f_titrant_mass f_pH f_k0 f_k1 f_k2 : list T)
  (delta_fCO2_start dic_start pH_start k0_start k1_start k2_start analyte_mass step_tm fCO2_air : T)
  : res (list T * list T) :=
  let n := length f_titrant_mass in
  if negb (Nat.eqb (length f_pH) n && Nat.eqb (length f_k0) n && Nat.eqb (length f_k1) n
           && Nat.eqb (length f_k2) n) then Err IndexError else
  match f_titrant_mass with
  | [] => Err IndexError
  | m0 :: _ =>
      let dilute := get_dilution_factor step_tm (analyte_mass ⊕ m0 ⊖ step_tm) in
      let x0 := dic_start ⊗ dilute ⊖ k_dic_loss ⊗ delta_fCO2_start ⊗ step_tm in
      let d0 := get_fCO2_from_dic_pH x0 pH_start k0_start k1_start k2_start ⊖ fCO2_air in
      Ok (future_steps k_dic_loss analyte_mass step_tm fCO2_air x0 d0 f_titrant_mass
            (tl (combine (combine (combine f_pH f_k0) f_k1) f_k2)))
  end.

(* what get_dic_loss_hires returns *)
Record hires := {
  hr_k_dic_loss : T;
  hr_titrant_mass : list T;
  hr_pH : list T;
  hr_dic : list T;
  hr_delta_fCO2 : list T
}.

(* pchip_interpolate at one point *)
Definition pchip1 (pchip : pchip_t) (xs ys : list T) (x : T) : res T :=
  l <- pchip xs ys [x] ;; of_opt (nth_error l 0) IndexError.

(* loss.py:108-210  get_dic_loss_hires *)
Definition get_dic_loss_hires (st : strategy T) (pchip : pchip_t)
  (titrant_mass pH dic_loss fCO2_loss k_CO2 k_carbonic_1 k_carbonic_2 : list T)
  (analyte_mass dic_start fCO2_air split_pH : T) : res hires :=
  let dic_loss := fill_nan n0 dic_loss in
  mx <- nanmax fCO2_loss ;;
  let fCO2_loss := fill_nan mx fCO2_loss in
  let delta_fCO2_loss := map (fun x => x ⊖ fCO2_air) fCO2_loss in
  let step_tm := median (diff titrant_mass) ⊘ nofQ 10 in
  mxm <- nmax titrant_mass ;;
  a_titrant_mass <- arange n0 mxm step_tm ;;
  a_pH <- pchip titrant_mass pH a_titrant_mass ;;
  let i_titrant_mass := mask (map (fun p => ngeb p split_pH) a_pH) a_titrant_mass in
  let f_titrant_mass := mask (map (fun p => nltb p split_pH) a_pH) a_titrant_mass in
  i_dic_loss <- pchip titrant_mass dic_loss i_titrant_mass ;;
  i_delta_fCO2 <- pchip titrant_mass delta_fCO2_loss i_titrant_mass ;;
  f_pH <- pchip titrant_mass pH f_titrant_mass ;;
  f_k0 <- pchip titrant_mass k_CO2 f_titrant_mass ;;
  f_k1 <- pchip titrant_mass k_carbonic_1 f_titrant_mass ;;
  f_k2 <- pchip titrant_mass k_carbonic_2 f_titrant_mass ;;
  m_last <- of_opt (pyindex i_titrant_mass (-1)) IndexError ;;
  pH_start <- pchip1 pchip titrant_mass pH m_last ;;
  k0_start <- pchip1 pchip titrant_mass k_CO2 m_last ;;
  k1_start <- pchip1 pchip titrant_mass k_carbonic_1 m_last ;;
  k2_start <- pchip1 pchip titrant_mass k_carbonic_2 m_last ;;
  o <- snd (least_squares st
              (fun (_ : unit) x =>
                 (tt, lsqfun_dic_loss_model i_titrant_mass i_delta_fCO2 dic_start analyte_mass step_tm
                        i_dic_loss x)) tt [n1]) ;;
  k <- of_opt (nth_error (or_x o) 0) IndexError ;;
  i_dic <- dic_loss_model_fitted k i_titrant_mass i_delta_fCO2 dic_start analyte_mass step_tm ;;
  d_last <- of_opt (pyindex i_delta_fCO2 (-1)) IndexError ;;
  x_last <- of_opt (pyindex i_dic (-1)) IndexError ;;
  '(f_dic, f_delta_fCO2) <- dic_loss_model_future k f_titrant_mass f_pH f_k0 f_k1 f_k2 d_last x_last
                              pH_start k0_start k1_start k2_start analyte_mass step_tm fCO2_air ;;
  Ok {| hr_k_dic_loss := k;
        hr_titrant_mass := a_titrant_mass;
        hr_pH := a_pH;
        hr_dic := (i_dic ++ f_dic)%list;
        hr_delta_fCO2 := (i_delta_fCO2 ++ f_delta_fCO2)%list |}.

(* loss.py:213-257  get_dic_loss: k_dic_loss, dic_loss_modelled, fCO2_loss_modelled and
   dic_loss_fitted *)
Definition get_dic_loss (st : strategy T) (pchip : pchip_t)
  (titrant_mass pH dic_loss fCO2_loss k_CO2 k_carbonic_1 k_carbonic_2 : list T)
  (analyte_mass dic_start fCO2_air split_pH : T) : res (T * list T * list T * list bool) :=
  h <- get_dic_loss_hires st pchip titrant_mass pH dic_loss fCO2_loss k_CO2 k_carbonic_1 k_carbonic_2
         analyte_mass dic_start fCO2_air split_pH ;;
  d <- pchip (hr_titrant_mass h) (hr_dic h) titrant_mass ;;
  f <- pchip (hr_titrant_mass h) (hr_delta_fCO2 h) titrant_mass ;;
  Ok (hr_k_dic_loss h, map (fun x => x ⊗ nofQ 0.000001) d, map (fun x => x ⊕ fCO2_air) f,
      map (fun p => ngeb p split_pH) pH).

End Loss.
Arguments hires : clear implicits.
Arguments pchip_t : clear implicits.
