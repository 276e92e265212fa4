(* SpecMetadata.v -- vocabulary of the statements about VINDTA metadata (C72-C75, C91).
   Nothing here refers to the model of metadata.py. *)
From Verif Require Export Dataset SpecDataset Text.
Open Scope string_scope.

Section Spec.
Context {T : Type} `{Num T}.

(* what identifies a bottle sample *)
Record sample := { station : Z; cast : Z; niskin : Z; depth : Z; bottle : string }.

Definition bottle_row (ds : frame T) (i : nat) (x : sample) : Prop :=
  value ds i "run_type" = Some (VStr "bottle") /\
  value ds i "station" = Some (VInt (station x)) /\ value ds i "cast" = Some (VInt (cast x)) /\
  value ds i "niskin" = Some (VInt (niskin x)) /\ value ds i "depth" = Some (VInt (depth x)) /\
  value ds i "bottle" = Some (VStr (bottle x)).

(* station-cast  niskin  (depth)bottle.dat *)
Definition bottle_name (x : sample) : string :=
  string_of_Z (station x) ++ "-" ++ string_of_Z (cast x) ++ "  " ++ string_of_Z (niskin x) ++
  "  (" ++ string_of_Z (depth x) ++ ")" ++ bottle x ++ ".dat".

Definition crm_row (ds : frame T) (i : nat) (batch bottle : string) : Prop :=
  value ds i "run_type" = Some (VStr "CRM") /\
  value ds i "batch" = Some (VStr batch) /\ value ds i "bottle" = Some (VStr bottle).

Definition crm_name (batch bottle : string) : string := "CRM" ++ batch ++ bottle ++ ".dat".

End Spec.
