(** * Specification vocabulary for sets of OpenAPI 3.0.0 documents that refer to each other. *)
From Coq Require Import String List Bool.
From Verif Require Import PyStr PyVal UrlLib Urls SpecUrl Obj Classes_v3_0_0 SpecJson SpecObj SpecScan SpecDoc SpecApp SpecRefs SpecLocal SpecClosed App.
Import ListNotations.
Open Scope string_scope.

Definition clean (u : string) : Prop := exists s h p q, clean_url s h p q /\ u = abs_url s h p q.
(** the absolute reference to what is at [ts] in the document at [u] *)
Definition place (u : string) (ts : list string) : string := match ts with [] => u | _ => u ++ pointer ts end.
(** an object of [X], which is in the document at [url], refers to [ts] in the document at [u], in
    place of a [b]: a PathItem for a PathItem, a Reference for what its slot declares.  (A Reference
    that is no child of an object is not followed.) *)
Definition refers30 (url : string) (X : obj) (u : string) (ts : list string) (b : builder) : Prop :=
  exists qs c p d kids ref, within X qs (OObj c p (JDict d) kids) /\ In c (referring_classes "3.0.0") /\ lookup "$ref" d = Some (JStr ref) /\
    clean u /\ normalize_jr (Some ref) (Some url) = Ok (Some (place u ts)) /\ expected_at v30_table X qs c b.
(** the references of [X] can be made absolute, and they are among the [places] *)
Definition refs_closed30 (url : string) (X : obj) (places : list (string * list string * builder)) : Prop :=
  (forall qs c p s kids, within X qs (OObj c p s kids) -> In c (referring_classes "3.0.0") ->
     exists d, s = JDict d /\
       match lookup "$ref" d with
       | None => c <> "Reference"
       | Some r => exists ref u ts, r = JStr ref /\ ref <> "" /\ clean u /\ normalize_jr (Some ref) (Some url) = Ok (Some (place u ts))
       end) /\
  forall u ts b, refers30 url X u ts b -> In (u, ts, b) places.
(** what is written in place of a reference [ref] to [ts] in the document at [u]: a pointer into the
    same document stays one, every other reference becomes absolute *)
Definition absolute (ref u : string) (ts : list string) : string := if startswith "#" ref then pointer ts else u ++ pointer ts.

Section World.
  Variable fetch : string -> res json.
  (** what is fetched for the reference to [ts] in the document at [u] in place of a [b] *)
  Definition piece30 (u : string) (ts : list string) (b : builder) (X : obj) : Prop :=
    exists d, fetch (place u ts) = Ok (JDict d) /\ declares_none d /\ wf_json (JDict d) /\ construct v30_table (JDict d) b (Some (place u ts)) [] = Ok X /\ unmixed X /\ no_media_examples X.
  (** a document [root] at [url] with everything that is reached from it, as in [closed_world].  (A
      callback that is referred to must be in the document itself or be a Reference: the cache only
      takes objects.) *)
  Record closed_world30 (url : string) (root : obj) (places : list (string * list string * builder)) : Prop := {
    c3_root : refs_closed30 url root places;
    c3_places : forall u ts b, In (u, ts, b) places -> clean u /\
      ((u = url /\ object_at root ts b) \/ (u <> url /\ exists X, piece30 u ts b X /\ refs_closed30 u X places));
    c3_prefix : forall u ts1 b1 ts2 b2 X, In (u, ts1, b1) places -> In (u, ts2, b2) places -> u <> url ->
      startswith (pointer ts1) (pointer ts2) = true -> piece30 u ts1 b1 X ->
      exists rest, ts2 = (ts1 ++ rest)%list /\ object_at X rest b2 }.
End World.
