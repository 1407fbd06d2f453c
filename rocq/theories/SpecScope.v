(** * Specification vocabulary for scopes. *)
From Coq Require Import String Ascii List.
Import ListNotations.
Open Scope string_scope.

Definition ends_with (s suffix : string) : Prop := exists p, s = p ++ suffix.

(** [n] is what follows the last occurrence of [sep] in [s], or [s] itself if there is none *)
Definition last_name (sep s n : string) : Prop :=
  (exists p, s = p ++ sep ++ n /\
             forall p' n', s = p' ++ sep ++ n' -> String.length n <= String.length n')
  \/ (n = s /\ forall p n', s <> p ++ sep ++ n').

(** the names composed one after the other, each preceded by the separator except the first *)
Fixpoint composed (sep : string) (names : list string) : string :=
  match names with
  | [] => ""
  | [n] => n
  | n :: rest => n ++ sep ++ composed sep rest
  end.
