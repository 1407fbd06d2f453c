(** * Specification vocabulary for sets of Swagger 2.0 documents that refer to each other. *)
From Coq Require Import String List Bool.
From Verif Require Import PyStr PyVal UrlLib Urls Obj Classes_v2_0 SpecJson SpecObj SpecDoc SpecApp SpecLocal App.
Import ListNotations.
Open Scope string_scope.

(** what a referring object of class [c] at [ts] stands for: a Schema for a Schema, a PathItem for a
    PathItem, a Reference in a list of parameters for a parameter and in a map of responses for a
    response.  (A Reference found elsewhere is not followed.) *)
Definition slot (ts : list string) : option string := nth_error (rev ts) 1.
Definition refers_as (ts : list string) (c : string) : option builder :=
  if String.eqb c "Reference" then
    match slot ts with
    | Some "parameters" => Some (BRefElse "Reference" (BCls "Parameter"))
    | Some "responses" => Some (BRefElse "Reference" (BCls "Response"))
    | _ => None
    end
  else Some (BCls c).
(** an object of [X], which is at [url], refers to [n] in place of a [b] *)
Definition refers (url : string) (X : obj) (n : string) (b : builder) : Prop :=
  exists ts c p d kids ref, within X ts (OObj c p (JDict d) kids) /\ In c (referring_classes "2.0") /\ lookup "$ref" d = Some (JStr ref) /\
    normalize_jr (Some ref) (Some url) = Ok (Some n) /\ refers_as ts c = Some b.
(** the references of [X] can be made absolute, and they are among the [places] *)
Definition refs_closed (url : string) (X : obj) (places : list (string * builder)) : Prop :=
  (forall ts c p s kids, within X ts (OObj c p s kids) -> In c (referring_classes "2.0") ->
     exists d, s = JDict d /\
       match lookup "$ref" d with
       | None => c <> "Reference"
       | Some r => exists ref n, r = JStr ref /\ ref <> "" /\ normalize_jr (Some ref) (Some url) = Ok (Some n) /\ n <> ""
       end) /\
  forall n b, refers url X n b -> In (n, b) places.
(** an object at [ts] of [X]; a path item if [b] asks for one *)
Definition object_at (X : obj) (ts : list string) (b : builder) : Prop :=
  exists c p s kids, within X ts (OObj c p s kids) /\ (b = BCls "PathItem" -> c = "PathItem").

Section World.
  Variables (path2url abspath : string -> string) (fetch : string -> res json).
  (** what is fetched for the reference [n] in place of a [b] *)
  Definition piece (n : string) (b : builder) (X : obj) : Prop :=
    exists d, fetch n = Ok (JDict d) /\ declares_none d /\ wf_json (JDict d) /\ construct v20_table (JDict d) b (Some n) [] = Ok X.
  (** a document [root] at [url] with everything that is reached from it: [places] are the absolute
      references, with what they stand for.  Each is in the document itself, or it can be fetched and
      made into an object, whose references are among the places again.  The cache takes an object
      whose pointer is a prefix (as a string) of the pointer asked for: for references into the same
      document the shorter one must therefore contain the longer one. *)
  Record closed_world (url : string) (root : obj) (places : list (string * builder)) : Prop := {
    cw_root : refs_closed url root places;
    cw_places : forall n b, In (n, b) places -> exists u ts, split path2url abspath n = Ok (u, pointer ts) /\ u <> "" /\
      ((u = url /\ object_at root ts b) \/ (u <> url /\ exists X, piece n b X /\ refs_closed u X places));
    cw_prefix : forall n1 b1 n2 b2 u ts1 ts2 X, In (n1, b1) places -> In (n2, b2) places -> u <> url ->
      split path2url abspath n1 = Ok (u, pointer ts1) -> split path2url abspath n2 = Ok (u, pointer ts2) ->
      startswith (pointer ts1) (pointer ts2) = true -> piece n1 b1 X ->
      exists rest, ts2 = (ts1 ++ rest)%list /\ object_at X rest b2 }.
End World.
