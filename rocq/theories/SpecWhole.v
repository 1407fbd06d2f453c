(** * Specification vocabulary for documents that are migrated as a whole. *)
From Coq Require Import String List Bool.
From Verif Require Import PyStr PyVal Obj SpecJson SpecObj SpecSchema SpecConv SpecBody SpecOp SpecDoc SpecStore SpecGiven SpecMigrate SpecInside.
Import ListNotations.
Open Scope string_scope.

(** the places references of the document [d] may point to: a definition or a subschema of it, a global response, a
    global parameter *)
Inductive target (d : doc) : list string -> Prop :=
| tg_definition n s ts r : lookup n (entries_of (val d "definitions")) = Some s -> subschema s ts r -> target d ("definitions" :: n :: ts)
| tg_response n v : lookup n (entries_of (val d "responses")) = Some v -> target d ["responses"; n]
| tg_parameter n v : n <> "" -> lookup n (entries_of (val d "parameters")) = Some v -> target d ["parameters"; n].
(** every "$ref" in the document is a pointer to such a place *)
Definition refers_to_targets (d : doc) : Prop := refs_in (fun v => exists us, v = JStr (pointer us) /\ target d us) (JDict d).
(** the names of global parameters that become request bodies are not written differently in a pointer and are no
    beginnings of names of other global parameters (C48) *)
Definition separate_names (d : doc) : Prop :=
  forall n, merged_name d n -> n <> "" -> no_escape n /\
    forall n' q, lookup n' (entries_of (val d "parameters")) = Some (JDict q) -> is_merged q = false -> ~ prefix_of n (rfc_escape n').
(** a path item that can be expressed, all of whose parameters and responses, also those referred to, are in the document *)
Definition path_inside (d : doc) (k : string) (ps : list (doc * doc)) (ops : list request) : Prop :=
  good_path k ps ops /\
  Forall (fun pq => inside (JDict d) (JDict (fst pq)) /\ inside (JDict d) (JDict (snd pq))) (ps ++ concat (map fst ops)) /\
  Forall (fun kr => inside (JDict d) (JDict (fst (snd kr))) /\ inside (JDict d) (JDict (snd (snd kr)))) (concat (map snd ops)).
