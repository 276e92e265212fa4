(* SpecSettings.v -- what a setting is, written down without looking at the code that
   resolves settings *)
From Verif Require Import Num.
Open Scope list_scope.
Open Scope string_scope.

(* the optional settings that files.solve, dataset.solve and a metadata row accept *)
Definition reading_settings : list string :=
  ["file_type"; "delimiter"; "encoding"; "skip_header"; "n_cols"; "col_titrant_amount";
   "col_measurement"; "col_temperature"].
Definition amount_settings : list string :=
  ["analyte_mass"; "analyte_volume"; "molinity_H2SO4"; "molinity_HCl"; "molinity_NaCl";
   "temperature_override"; "titrant"; "titrant_amount_unit"; "titrant_density"].
Definition total_settings : list string :=
  ["dic"; "total_alpha"; "total_ammonia"; "total_beta"; "total_borate"; "total_fluoride";
   "total_phosphate"; "total_silicate"; "total_sulfate"; "total_sulfide"; "opt_total_borate"].
Definition constant_settings : list string :=
  ["k_alpha"; "k_ammonia"; "k_beta"; "k_bisulfate"; "k_borate"; "k_carbonic_1"; "k_carbonic_2";
   "k_fluoride"; "k_phosphoric_1"; "k_phosphoric_2"; "k_phosphoric_3"; "k_silicate"; "k_sulfide";
   "k_water"; "opt_k_bisulfate"; "opt_k_carbonic"; "opt_k_fluoride"; "opt_pH_scale";
   "dilute_totals_for_ks"].
Definition solver_settings : list string :=
  ["solve_mode"; "file_path"; "pH_min"; "pH_max"; "titrant_normality"; "double"; "alkalinity_init";
   "emf0_init"; "titrant_total_sulfate"; "titrant_total_phosphate"; "titrant_total_fluoride"].
Definition common_settings : list string :=
  reading_settings ++ amount_settings ++ total_settings ++ constant_settings ++ solver_settings.
Definition solve_settings : list string := "gran_logic" :: common_settings.
Definition calibrate_settings : list string := "titrant_molinity_init" :: common_settings.

(* names of an older version, translated before anything else happens *)
Definition old_names : list string := ["read_dat_kwargs"; "pH_range"; "read_dat_method"].

Section Spec.
Context {T : Type} `{Num T}.

(* the value that a setting has for one row: the row's if it is not null, else the
   keyword argument's, else none *)
Definition chosen (kw : kwargs T) (r : row T) (k : string) : option (val T) :=
  match dget k r with
  | Some v => if notnull v then Some v else dget k kw
  | None => dget k kw
  end.

Definition without_old_names (kw : kwargs T) (r : row T) : Prop :=
  (forall k, In k old_names -> dget k kw = None) /\ dget "read_dat_method" r = None.

End Spec.

(* the documented default values *)
Section Defaults.
Context {T : Type} `{Num T}.
Definition default_settings : list (string * val T) :=
  [("file_type", VStr "genfromtxt"); ("titrant_amount_unit", VStr "ml"); ("titrant", VStr "HCl");
   ("molinity_HCl", VNum (nofQ 0.1)); ("molinity_NaCl", VNum (nofQ 0.6)); ("molinity_H2SO4", VNum (nofQ 0.1));
   ("dic", VInt 0); ("total_alpha", VInt 0); ("total_beta", VInt 0); ("total_ammonia", VInt 0);
   ("total_phosphate", VInt 0); ("total_silicate", VInt 0); ("total_sulfide", VInt 0);
   ("opt_k_carbonic", VInt 10); ("opt_total_borate", VInt 1); ("opt_k_bisulfate", VInt 1);
   ("opt_k_fluoride", VInt 1); ("opt_pH_scale", VInt 3); ("dilute_totals_for_ks", VBool false);
   ("pH_min", VInt 3); ("pH_max", VInt 4); ("titrant_normality", VInt 1); ("double", VBool true);
   ("solve_mode", VStr "emf")].
End Defaults.
