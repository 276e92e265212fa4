(* Plot.v -- model of calkulate/plot/titration.py and calkulate/plot/__init__.py: what the figures show.
   A figure is the list of things drawn on its axes, in data coordinates, and the numbers in its title.
   Not modelled: colours, labels, axis limits and legends, the rounding of the numbers in the title,
   plot/misc.py (the credit line), figure files, and the smooth curves of plot_components. *)
From Verif Require Export Classes.

Section Plot.
Context {T : Type} `{Num T}.

Inductive mark (A : Type) :=
| Used (pts : list (A * A))        (* ax.scatter with filled markers *)
| Unused (pts : list (A * A))      (* ax.scatter with open markers, or crosses *)
| Line (pts : list (A * A))        (* ax.plot *)
| HLine (y : A)                    (* ax.axhline *)
| VLine (x : A)                    (* ax.axvline *)
| Band (lo hi : A).                (* ax.fill_between over the whole width *)
Global Arguments Used {A}. Global Arguments Unused {A}. Global Arguments Line {A}.
Global Arguments HLine {A}. Global Arguments VLine {A}. Global Arguments Band {A}.

Record figure (A : Type) := { fig_marks : list (mark A); fig_title : list A }.
Global Arguments fig_marks {A}. Global Arguments fig_title {A}.
Global Arguments Build_figure {A}.

(* the boolean columns of tt.titration: classes.py:181, 190, 197 *)
Definition sr_used (sr : solve_result T) : list bool :=
  match sr with SrEmf s => se_used s | SrPh s => sp_used s | SrPhGran s => sg_used s end.
Definition col_used (t : titration T) : res (list bool) := Ok (sr_used (ti_sr t)).
Definition col_gran_used (t : titration T) : res (list bool) :=
  match ti_sr t with
  | SrEmf s => Ok (ga_used (gg_ga (se_ggr s)))
  | SrPh _ => Err (AttributeError "gran_used")
  | SrPhGran s => Ok (sg_used s)
  end.

(* titrant_mass * 1e3 *)
Definition grams (m : T) : T := m ⊗ nofQ 1000.

(* x[~G], y[~G] with open markers, then x[G], y[G] with filled ones *)
Definition scatter_both {A} (x y : list A) (G : list bool) : list (mark A) :=
  [Unused (combine (mask (map negb G) x) (mask (map negb G) y)); Used (combine (mask G x) (mask G y))].

(* plot/titration.py:52-61  emf *)
Definition plot_emf (t : titration T) : res (figure T) :=
  tm <- col "titrant_mass" (ti_table t) ;;
  emf <- col "emf" (ti_table t) ;;
  Ok (Build_figure [Used (combine (map grams tm) emf)] []).

(* plot/titration.py:70-84  the first guesses in pH *)
Definition plot_pH_gran (t : titration T) : res (list (mark T)) :=
  tm <- col "titrant_mass" (ti_table t) ;;
  gu <- col_gran_used t ;;
  gp <- col "gran_pH" (ti_table t) ;;
  Ok (scatter_both (map grams tm) gp gu).

(* plot/titration.py:99-100  tt.pH_min if hasattr(tt, "pH_min") else 3.
   Simplification: a limit that is not a number is a TypeError here, as it is in ax.fill_between. *)
Definition limit (t : titration T) (name : string) (default : Z) : res T :=
  match getattr t name with Ok v => as_num v | Err _ => Ok (nofZ default) end.

(* plot/titration.py:64-113  pH *)
Definition plot_pH (t : titration T) (show_gran : bool) : res (figure T) :=
  gran <- (if show_gran
           then match plot_pH_gran t with
                | Ok marks => Ok marks
                | Err (AttributeError _) => Ok []
                | Err e => Err e
                end
           else Ok []) ;;
  tm <- col "titrant_mass" (ti_table t) ;;
  used <- col_used t ;;
  pH <- col "pH" (ti_table t) ;;
  lo <- limit t "pH_min" 3 ;;
  hi <- limit t "pH_max" 4 ;;
  Ok (Build_figure (gran ++ scatter_both (map grams tm) pH used ++ [Band lo hi])%list []).

(* plot/titration.py:116-139  gran_emf0 *)
Definition plot_emf0_gran (t : titration T) : res (figure T) :=
  tm <- col "titrant_mass" (ti_table t) ;;
  gu <- col_gran_used t ;;
  e0s <- col "gran_emf0" (ti_table t) ;;
  e0 <- getattr t "gran_emf0" ;; e0 <- as_num e0 ;;
  Ok (Build_figure (scatter_both (map grams tm) e0s gu ++ [HLine e0])%list [e0]).

(* plot/titration.py:142-182  gran_alkalinity.  ttt.titrant_mass.max() skips nan in pandas; titrant masses are
   not nan here. *)
Definition plot_alkalinity_gran (t : titration T) : res (figure T) :=
  tm <- col "titrant_mass" (ti_table t) ;;
  gu <- col_gran_used t ;;
  gf <- col "gran_func" (ti_table t) ;;
  lra <- match ti_sr t with
         | SrEmf s => a <- getattr t "gran_alkalinity" ;; a <- as_num a ;; Ok (ga_lr (gg_ga (se_ggr s)), a)
         | SrPhGran s => a <- getattr t "alkalinity" ;; a <- as_num a ;; Ok (sg_lr s, a)
         | SrPh _ => Err (NameError "lr")
         end ;;
  let lr := fst lra in
  x1 <- nmax tm ;;
  let x0 := nopp (lr_intercept lr) ⊘ lr_slope lr in
  let y x := x ⊗ lr_slope lr ⊕ lr_intercept lr in
  Ok (Build_figure (scatter_both (map grams tm) gf gu ++
                    [HLine (nofZ 0); Line [(grams x0, y x0); (grams x1, y x1)]; VLine (grams x0)])%list [snd lra]).

(* plot/titration.py:185-216  alkalinity *)
Definition plot_alkalinity (t : titration T) : res (figure T) :=
  tm <- col "titrant_mass" (ti_table t) ;;
  used <- col_used t ;;
  est <- col "alkalinity_estimate" (ti_table t) ;;
  a <- getattr t "alkalinity" ;; a <- as_num a ;;
  Ok (Build_figure (scatter_both (map grams tm) (map (fun x => x ⊗ nofQ 1000000) est) used ++ [HLine a])%list
        [a; nstd1 (mask used est) ⊗ nofQ 1000000; nofZ (Z.of_nat (length (filter (fun b => b) used)))]).

(* plot/titration.py:219-226 and 277-284  the first statements of dic_loss and fCO2_loss: both call methods that
   a Titration does not have, so both raise there *)
Definition plot_loss (t : titration T) : res (figure T) :=
  _ <- match getattr t "k_dic_loss" with
       | Ok v => Ok v
       | Err _ => _ <- getattr t "get_dic_loss" ;; Err TypeError      (* a row entry is not callable *)
       end ;;
  _ <- getattr t "_get_dic_loss_hires" ;; Err TypeError.

(* plot/titration.py:326-343  component_stylers *)
Definition plotted : list string :=
  ["alkalinity_estimate"; "HCO3"; "CO3"; "BOH4"; "PO4"; "HPO4"; "H3PO4"; "HSO4"; "HF"; "H3SiO4"; "NH3"; "HS"; "H"; "OH";
   "alk_alpha"; "alk_beta"].

(* plot/titration.py:382-409  one component: nothing unless all its values are positive.
   np.abs of a multiplier is exact on integers. *)
Definition component_values (log_scale : bool) (var : string) (l : list T) : res (list T) :=
  m <- dgetE var component_multipliers ;;
  Ok (map (fun x => if log_scale then nopp (nlog10 (x ⊗ nofZ (Z.abs m))) else x ⊗ nofZ m ⊗ nofQ 1000000) l).

Definition plot_component (log_scale : bool) (tm : list T) (used : list bool) (st : ttable T) (var : string)
  : res (list (string * list (mark T))) :=
  match dget var st with
  | None => Ok []
  | Some l =>
      if forallb (fun x => ngtb x (nofZ 0)) l
      then y <- component_values log_scale var l ;; Ok [(var, scatter_both (map grams tm) y used)]
      else Ok []
  end.

(* plot/titration.py:365-421  components: the points drawn for each variable.  The smooth curve through the points
   (scipy's pchip_interpolate, which needs increasing titrant masses) is not modelled.  The first statement picks all the
   columns by name (KeyError when one is missing). *)
Definition plot_components (t : titration T) (log_scale : bool) : res (list (string * list (mark T))) :=
  tm <- col "titrant_mass" (ti_table t) ;;
  _ <- mapM (fun k => dgetE k (ti_table t)) ("titrant_mass" :: plotted) ;;
  used <- col_used t ;;
  l <- mapM (plot_component log_scale tm used (ti_table t)) plotted ;;
  Ok (List.concat l).

(* ------------------------------------------------------------------ *)
(** * plot/__init__.py *)

(* data[c] *)
Definition frame_col (c : string) (ds : frame T) : res (list (val T)) :=
  if has c ds then Ok (map (cell c) (f_rows ds)) else Err (KeyError c).

(* plot/__init__.py:20-29 and 74-83  xdata and G.  Simplification: reference_good must hold booleans, otherwise
   the complement ~G is a TypeError. *)
Definition plot_x (xvar : option string) (ds : frame T) : res (list (val T)) :=
  match xvar with
  | None => Ok (map (fun i => VInt (Z.of_nat i)) (seq 0 (length (f_rows ds))))
  | Some c => frame_col c ds
  end.
Definition as_bool (v : val T) : res bool := match v with VBool b => Ok b | _ => Err TypeError end.
Definition plot_good (ds : frame T) : res (list bool) :=
  if has "reference_good" ds then mapM as_bool (map (cell "reference_good") (f_rows ds))
  else Ok (repeat true (length (f_rows ds))).

(* data.c *)
Definition frame_attr (c : string) (ds : frame T) : res (list (val T)) :=
  if has c ds then Ok (map (cell c) (f_rows ds)) else Err (AttributeError c).

(* the index of get_batches (dataset.py:100-107): the different values of analysis_batch that are not null.
   Simplification: in order of first appearance, where pandas sorts them. *)
Fixpoint distinct (seen : list (val T)) (l : list (val T)) : list (val T) :=
  match l with
  | [] => []
  | k :: l' => if isnull k || existsb (key_eqb k) seen then distinct seen l' else k :: distinct (k :: seen) l'
  end.
Definition batch_index (ds : frame T) : res (list (val T)) :=
  keys <- frame_col "analysis_batch" ds ;;
  _ <- frame_col "titrant_molinity_here" ds ;;
  _ <- frame_col "reference_good" ds ;;
  let ks := distinct [] keys in
  _ <- mapM (fun k => get_group_calibration (filter (in_batch k) (f_rows ds))) ks ;;
  Ok ks.

(* data.analysis_batch == batch *)
Definition in_this_batch (k : val T) (ds : frame T) : list bool := map (in_batch k) (f_rows ds).

(* good points filled; bad points, if wanted, as crosses *)
Definition scatter_good (show_bad : bool) (x y : list (val T)) (G : list bool) : list (mark (val T)) :=
  Used (combine (mask G x) (mask G y)) ::
  (if show_bad then [Unused (combine (mask (map negb G) x) (mask (map negb G) y))] else []).

(* plot/__init__.py:12-63  titrant_molinity *)
Definition plot_titrant_molinity (ds : frame T) (xvar : option string) (show_bad show_batches : bool) : res (figure (val T)) :=
  x <- plot_x xvar ds ;;
  G <- plot_good ds ;;
  y <- frame_attr "titrant_molinity_here" ds ;;
  lines <- (if show_batches
            then ks <- batch_index ds ;;
                 m <- (match ks with [] => Ok [] | _ => frame_attr "titrant_molinity" ds end) ;;
                 Ok (map (fun k => Line (combine (mask (in_this_batch k ds) x) (mask (in_this_batch k ds) m))) ks)
            else Ok []) ;;
  Ok (Build_figure (scatter_good show_bad x y G ++ lines)%list []).

(* plot/__init__.py:66-127  alkalinity_offset.  The colours (one per batch) are not modelled, but get_batches is
   called for them. *)
Definition plot_alkalinity_offset (ds : frame T) (xvar : option string) (show_bad show_batches : bool) : res (figure (val T)) :=
  x <- plot_x xvar ds ;;
  G <- plot_good ds ;;
  _ <- (if show_batches then ks <- batch_index ds ;; Ok tt else Ok tt) ;;
  y <- frame_attr "alkalinity_offset" ds ;;
  Ok (Build_figure (scatter_good show_bad x y G ++ [HLine (VInt 0)])%list []).

End Plot.
