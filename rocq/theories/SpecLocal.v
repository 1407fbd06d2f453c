(** * Specification vocabulary for documents that only refer to themselves. *)
From Coq Require Import String List Bool.
From Verif Require Import PyStr PyVal Obj SpecObj SpecScan SpecDoc.
Import ListNotations.
Open Scope string_scope.

(** the classes of objects with a "$ref" *)
Definition referring_classes (V : string) : list string := if String.eqb V "2.0" then ["Schema"; "Reference"; "PathItem"] else ["Reference"; "PathItem"].
(** every reference in [root] is a pointer [ts] for which [Good ts] holds; path items have none.  (A
    Reference always has a "$ref".) *)
Definition references (V : string) (Good : list string -> Prop) (root : obj) : Prop :=
  forall ts c p s kids, within root ts (OObj c p s kids) -> In c (referring_classes V) ->
    exists d, s = JDict d /\
      match lookup "$ref" d with
      | None => c <> "Reference"
      | Some r => c <> "PathItem" /\ exists us, r = JStr (pointer us) /\ us <> [] /\ Good us
      end.
Definition holds_object (root : obj) (ts : list string) : Prop := exists y, within root ts y /\ is_object y.
(** every reference points to an object of the document *)
Definition self_contained (V : string) (root : obj) : Prop := references V (holds_object root) root.

(** no MediaType of the document has an "examples" field (the code reads that field as one Example
    but later walks it as a map of them) *)
Definition no_media_examples (o : obj) : Prop := forall ts p s kids, within o ts (OObj "MediaType" p s kids) -> lookup "examples" kids = None.
