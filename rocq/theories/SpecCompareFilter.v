(** * Specification vocabulary for the filters of [compare_container]: which keys are looked at. *)
From Coq Require Import String List Bool.
From Verif Require Import PyStr PyVal SpecJson.
Import ListNotations.
Open Scope string_scope.

Section Filters.
  Variables include exclude : list string.
  (** a key is looked at when it is included (an empty [include] includes all) and not excluded *)
  Definition shown (k : string) : bool :=
    match include with [] => true | _ => existsb (String.eqb k) include end && negb (existsb (String.eqb k) exclude).
  (** equal up to the entries of dicts, at all depths, whose keys are not looked at; dicts inside lists of other lists
      (which are sorted) are equal *)
  Inductive alike : json -> json -> Prop :=
  | al_same j : alike j j
  | al_dict d d' : Forall2 (fun kv kv' => fst kv = fst kv' /\ alike (snd kv) (snd kv')) (filter (fun kv => shown (fst kv)) d) (filter (fun kv => shown (fst kv)) d') -> alike (JDict d) (JDict d')
  | al_list l l' : Forall dictionary l -> Forall dictionary l' -> Forall2 alike l l' -> alike (JList l) (JList l').
End Filters.
