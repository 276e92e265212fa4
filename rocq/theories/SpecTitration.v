(* SpecTitration.v -- what a Titration object is compared with *)
From Verif Require Import Num Simulate SpecSettings.
Open Scope list_scope.
Open Scope string_scope.

(* settings for which a null value and no value at all mean the same, also outside of a dataset *)
Definition may_be_null : list string :=
  ["analyte_mass"; "analyte_volume"; "total_borate"; "total_fluoride"; "total_sulfate";
   "k_alpha"; "k_ammonia"; "k_beta"; "k_bisulfate"; "k_borate"; "k_carbonic_1"; "k_carbonic_2";
   "k_fluoride"; "k_phosphoric_1"; "k_phosphoric_2"; "k_phosphoric_3"; "k_silicate"; "k_sulfide"; "k_water"].

(* the results that a titration has as a row of a solved dataset *)
Definition solved_columns : list string :=
  ["alkalinity"; "alkalinity_std"; "alkalinity_npts"; "emf0"; "gran_alkalinity"; "gran_emf0"; "pH_init";
   "temperature_init"].

Section Spec.
Context {T : Type} `{Num T}.

(* keyword arguments and row do not contradict each other, and no cell is null unless a keyword argument
   replaces it or the setting is one of those above *)
Definition no_conflict (kw : kwargs T) (r : row T) : Prop :=
  forall k, In k solve_settings ->
    match dget k kw, dget k r with
    | Some v, Some w => isnull w = true \/ w = v
    | None, Some w => isnull w = false \/ In k may_be_null
    | _, None => True
    end.
(* the keyword arguments do not replace what has to be a column, or a result *)
Definition only_settings (kw : kwargs T) : Prop :=
  forall k, In k (["file_name"; "titrant_molinity"; "salinity"] ++ solved_columns) -> dget k kw = None.

(* What PyCO2SYS.sys(par1=DIC, par2=pH, ...) is asked: totals given as arrays, in micromol/kg, and constants *)
Definition asked_totals (dic : list T) (args : dict (nd T)) : dict (nd T) :=
  ("dic", NdA (map (fun x => x ⊗ nofQ 0.000001) dic)) ::
  flat_map (fun k => match dget k args with
                     | Some (NdA l) => [(k, NdA (map (fun x => x ⊗ nofQ 0.000001) l))]
                     | _ => []
                     end)
    ["total_sulfate"; "total_fluoride"; "total_borate"; "total_phosphate"; "total_silicate"; "total_ammonia";
     "total_sulfide"; "total_alpha"; "total_beta"].
Definition asked_constants (args : dict (nd T)) : dict (nd T) := filter (fun kv => startswith (fst kv) "k_") args.

(* PyCO2SYS agrees with simulate.alkalinity: it finds, in micromol/kg, the alkalinity that the species have at
   the given free-scale pH *)
Definition agrees (sys : dict (nd T) -> res (dict (nd T))) : Prop :=
  forall args dic pH results,
    dget "par1" args = Some (NdA dic) -> dget "par1_type" args = Some (NdS (nofZ 2)) ->
    dget "par2" args = Some (NdA pH) -> dget "par2_type" args = Some (NdS (nofZ 3)) ->
    dget "opt_pH_scale" args = Some (NdS (nofZ 3)) ->
    sys args = Ok results ->
    exists l, alkalinity_arr pH (asked_totals dic args) (asked_constants args) 3 = Ok l /\
      dget "alkalinity" results = Some (NdA (map (fun a => a ⊗ nofQ 1000000) l)).

End Spec.
