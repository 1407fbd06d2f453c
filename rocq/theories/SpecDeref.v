(** * Specification of reference chains. *)
From Coq Require Import List.
From Verif Require Import Deref.
Import ListNotations.

(** object [i] is a reference whose target is known to be [j] *)
Definition links_to (h : heap) (i j : nat) : Prop :=
  exists n, nth_error h i = Some n /\ n_ref n = true /\ n_attrs n = Some (Some j).

(** [chain h i l j]: following links from [i] visits exactly the objects [l] (from [i] to [j]) *)
Inductive chain (h : heap) : nat -> list nat -> nat -> Prop :=
| chain_here i : chain h i [i] i
| chain_next i k l j : links_to h i k -> chain h k l j -> chain h i (i :: l) j.

(** no dangling links: every target is an object of the heap *)
Definition closed (h : heap) : Prop := forall i j, links_to h i j -> j < length h.

(** [j] is not a reference with a known target *)
Definition terminal (h : heap) (j : nat) : Prop := forall k, ~ links_to h j k.
