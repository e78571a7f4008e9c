(** Specification of pre-convolved file names. *)
From Verif Require Import Model.Base Model.PyStr.
Local Open Scope string_scope.

(** [s] ends with [suf]. *)
Fixpoint ends_with (suf s : string) : bool :=
  String.eqb suf s || match s with EmptyString => false | String _ r => ends_with suf r end.
Fixpoint occurs (c : ascii) (s : string) : bool :=
  match s with EmptyString => false | String a r => Ascii.eqb a c || occurs c r end.

(** A file name [init_1_init_2_..._base.hdf5]: tokens without underscores, only the last
    carrying the extension. *)
Definition token (x : string) : Prop := occurs "_" x = false /\ ends_with ".hdf5" x = false.
Definition file_name (init : list string) (base : string) : string :=
  join "_" (init ++ [(base ++ ".hdf5")%string])%list.
Definition well_named (init : list string) (base : string) : Prop := Forall token (init ++ [base])%list.

(** What [str] gives for a float that is not in exponent notation: digits, a point, at
    least one decimal, no superfluous zeros. *)
Definition decimal (s : string) : Prop :=
  exists a b, s = (a ++ "." ++ b)%string /\ occurs "." a = false /\ occurs "." b = false /\ b <> "" /\
    (b = "0" \/ ends_with "0" b = false).

(** The tokens after the systematic with extension [ext] is given the value [vs]. *)
Definition renamed (ext vs : string) (init : list string) (base : string) : list string * string :=
  if existsb (ends_with ext) (init ++ [base])%list
  then (map (fun x => if ends_with ext x then vs ++ ext else x) init,
        if ends_with ext base then vs ++ ext else base)
  else ((init ++ [base])%list, vs ++ ext).
