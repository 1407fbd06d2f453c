(** * Specification vocabulary for JSON pointers (RFC 6901), independent of the model. *)
From Coq Require Import String Ascii List.
Import ListNotations.
Open Scope string_scope.

(** One-pass decoding of a reference token: RFC 6901 section 4 ("~1" is "/", "~0" is "~"). *)
Fixpoint rfc_unescape (s : string) : string :=
  match s with
  | String "~" (String "1" r) => String "/" (rfc_unescape r)
  | String "~" (String "0" r) => String "~" (rfc_unescape r)
  | String c r => String c (rfc_unescape r)
  | EmptyString => EmptyString
  end.

(** Every "~" is followed by "0" or "1": the pointers RFC 6901 section 3 allows. *)
Fixpoint rfc_wellformed (s : string) : Prop :=
  match s with
  | String "~" (String "1" r) => rfc_wellformed r
  | String "~" (String "0" r) => rfc_wellformed r
  | String "~" _ => False
  | String _ r => rfc_wellformed r
  | EmptyString => True
  end.

(** No "/" occurs. *)
Fixpoint no_slash (s : string) : Prop :=
  match s with
  | EmptyString => True
  | String c r => c <> "/"%char /\ no_slash r
  end.
