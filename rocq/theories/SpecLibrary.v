(** * Specification vocabulary for Swagger 2.0 documents that use schemas of other documents. *)
From Coq Require Import String List Bool.
From Verif Require Import PyStr PyVal Urls SpecUrl Obj Classes_v2_0 Classes_v3_0_0 Conv20 SpecJson SpecObj SpecSchema SpecConv SpecBody SpecOp SpecDoc SpecGiven SpecMigrate SpecLocal SpecInside SpecWhole SpecClosed SpecClosed30.
Import ListNotations.
Open Scope string_scope.

(** [v] is the "$ref" of an object of [X] that refers to something *)
Definition referred (X : obj) (v : json) : Prop :=
  exists ts c p e kids b, within X ts (OObj c p (JDict e) kids) /\ In c (referring_classes "2.0") /\ lookup "$ref" e = Some v /\ refers_as ts c = Some b.
(** the key "$ref" is used for references only in the value [j] that [X] has been made from *)
Definition only_references (X : obj) (j : json) : Prop := refs_in (referred X) j.

(** The document [d] at [url] uses schemas of other documents: the [places] referred to are in [d], or
    at the places [used] of other documents, which are schemas.  No used schema is referred to by a
    pointer that begins with (as a string) that of another. *)
Record library (fetch : string -> res json) (url : string) (d : doc) (places : list (string * builder)) (used : list (string * list string)) : Prop := {
  lb_places : forall n b, In (n, b) places -> exists u ts, clean u /\ n = place u ts /\
    ((u = url /\ target d ts /\ b <> BCls "PathItem") \/ (u <> url /\ In (u, ts) used /\ b = BCls "Schema"));
  lb_used : forall u ts, In (u, ts) used -> u <> url /\ forall s X, fetch (place u ts) = Ok (JDict s) -> construct v20_table (JDict s) (BCls "Schema") (Some (place u ts)) [] = Ok X ->
    schema_doc (JDict s) /\ only_references X (JDict s);
  lb_apart : forall u ts1 ts2, In (u, ts1) used -> In (u, ts2) used -> startswith (pointer ts1) (pointer ts2) = true -> ts1 = ts2 }.
(** [Z] is the conversion of what is at [p] in the document at [u]: of the document itself, which gives
    [root30], or of a schema of another document *)
Definition library_at (fetch : string -> res json) (url : string) (root30 : obj) (used : list (string * list string)) (u p : string) (Z : obj) : Prop :=
  (u = url /\ p = "#" /\ Z = root30) \/
  (u <> url /\ exists ts s y, In (u, ts) used /\ p = pointer ts /\ fetch (place u ts) = Ok (JDict s) /\ schema_image (JDict s) (JDict y) /\ construct v30_table (JDict y) (BCls "Schema") (Some p) [] = Ok Z).

(** ** path items of other documents *)
Section Items.
  (** [deref u], [normalized_ref u]: for objects of the document at [u] *)
  Variables (deref : string -> obj -> res obj) (normalized_ref : string -> obj -> res json).
  (** the reference that the scanners of 2.0 note for each path item of [X], an object of the document at [u] *)
  Definition items_normalized (u : string) (X : obj) : Prop :=
    forall ts p e kids ref n, within X ts (OObj "PathItem" p (JDict e) kids) -> lookup "$ref" e = Some (JStr ref) -> ref <> "" -> normalize_jr (Some ref) (Some u) = Ok (Some n) ->
      normalized_ref u (OObj "PathItem" p (JDict e) kids) = Ok (JStr n).
  (** a well-formed path item that OpenAPI 3.0 can express, all parameters and responses of which are in it;
      none of the parameters of the path item itself goes into the request body *)
  Definition item_given (u : string) (s : doc) : Prop :=
    exists ps ops, path_given (deref u) s ps ops /\ expressible ps ops /\ no_merged ps = true /\
      Forall (fun pq => inside (JDict s) (JDict (fst pq)) /\ inside (JDict s) (JDict (snd pq))) (ps ++ concat (map fst ops)) /\
      Forall (fun kr => inside (JDict s) (JDict (fst (snd kr))) /\ inside (JDict s) (JDict (snd (snd kr)))) (concat (map snd ops)).
  (** The document [d] at [url], from which [root] is made, uses schemas and path items of other documents:
      the [places] referred to are in [d], and are not path items, or at the places [used] of other
      documents. *)
  Record item_library (fetch : string -> res json) (url : string) (d : doc) (root : obj) (places : list (string * builder)) (used : list (string * list string)) : Prop := {
    il_places : forall n b, In (n, b) places -> exists u ts, clean u /\ n = place u ts /\
      ((u = url /\ target d ts /\ b <> BCls "PathItem") \/ (u <> url /\ In (u, ts) used /\ (b = BCls "Schema" \/ b = BCls "PathItem")));
    il_used : forall u ts, In (u, ts) used -> u <> url /\ forall b s X, clean u -> In (place u ts, b) places -> fetch (place u ts) = Ok (JDict s) -> construct v20_table (JDict s) b (Some (place u ts)) [] = Ok X ->
      only_references X (JDict s) /\ (b = BCls "Schema" -> schema_doc (JDict s)) /\ (b = BCls "PathItem" -> item_given u s /\ items_normalized u X);
    il_root : items_normalized url root;
    il_apart : forall u ts1 ts2, In (u, ts1) used -> In (u, ts2) used -> startswith (pointer ts1) (pointer ts2) = true -> ts1 = ts2 }.
  (** [Z] is the conversion of what is at [p] in the document at [u]: of the document itself, which gives
      [root30], or of a schema or a path item of another document *)
  Definition item_library_at (fetch : string -> res json) (url : string) (root30 : obj) (used : list (string * list string)) (u p : string) (Z : obj) : Prop :=
    library_at fetch url root30 used u p Z \/
    (u <> url /\ exists ts s X x, In (u, ts) used /\ p = pointer ts /\ fetch (place u ts) = Ok (JDict s) /\ construct v20_table (JDict s) (BCls "PathItem") (Some (place u ts)) [] = Ok X /\
       to_path_item (deref u) (normalized_ref u) X u [] [] = Ok (x, []) /\ construct v30_table (JDict x) (BCls "PathItem") (Some p) [] = Ok Z).
End Items.
