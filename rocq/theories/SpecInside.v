(** * Specification: values inside a JSON value *)
From Coq Require Import String List.
From Verif Require Import PyStr PyVal.
Import ListNotations.
Open Scope string_scope.

(** [x] is [j] or a value inside it, at any depth *)
Inductive inside : json -> json -> Prop :=
| in_here j : inside j j
| in_entry d k v x : In (k, v) d -> inside v x -> inside (JDict d) x
| in_element l v x : In v l -> inside v x -> inside (JList l) x.
(** every value of a key "$ref" in [j], at any depth, is one for which [P] holds *)
Definition refs_in (P : json -> Prop) (j : json) : Prop := forall d v, inside j (JDict d) -> lookup "$ref" d = Some v -> P v.
