(** * Specification: info, tags, security schemes and whole documents. *)
From Coq Require Import String Ascii List Bool Arith.
From Verif Require Import PyStr PyVal SpecJson SpecObj SpecSchema SpecConv SpecBody SpecOp.
Import ListNotations.
Open Scope string_scope. Open Scope nat_scope.

(** ** small objects *)
(** the keys [always] are always present (null if missing), the keys [optional] if they are not null, nothing else *)
Definition copies_with (always optional : list string) (d d' : doc) : Prop :=
  (forall k, In k always -> lookup k d' = Some (val d k)) /\
  (forall k, In k optional -> lookup k d' = non_null (val d k)) /\
  (forall k, ~ In k (always ++ optional)%list -> lookup k d' = None).
(** an optional part: null means absent *)
Definition part_image (R : doc -> doc -> Prop) (j : json) (x : option json) : Prop :=
  (j = JNull -> x = None) /\ (forall d, j = JDict d -> exists d', x = Some (JDict d') /\ R d d').
Definition object_or_null (j : json) : Prop := j = JNull \/ exists d, j = JDict d.
Definition tag_image (d x : doc) : Prop :=
  lookup "name" x = Some (val d "name") /\ lookup "description" x = non_null (val d "description") /\
  part_image docs_image (val d "externalDocs") (lookup "externalDocs" x) /\
  (forall k, ~ In k ["name"; "description"; "externalDocs"] -> lookup k x = None).
Definition license_image : doc -> doc -> Prop := copies_with ["name"] ["url"].
Definition contact_image : doc -> doc -> Prop := copies ["name"; "url"; "email"].
Definition xml_image : doc -> doc -> Prop := copies ["name"; "namespace"; "prefix"; "attribute"; "wrapped"].
Definition info_image (d x : doc) : Prop :=
  (forall k, In k ["title"; "version"] -> lookup k x = Some (val d k)) /\
  (forall k, In k ["description"; "termsOfService"] -> lookup k x = non_null (val d k)) /\
  part_image contact_image (val d "contact") (lookup "contact" x) /\
  part_image license_image (val d "license") (lookup "license" x) /\
  (forall k, ~ In k ["title"; "version"; "description"; "termsOfService"; "contact"; "license"] -> lookup k x = None).

(** ** security schemes *)
(** the flow [f] with its urls and (non-empty) scopes, under the flow name as written *)
Definition flows_image (d : doc) (x : json) : Prop :=
  exists f fl, val d "flow" = JStr f /\ x = JDict [(f, JDict fl)] /\
    (forall k, In k ["authorizationUrl"; "tokenUrl"] -> lookup k fl = non_null (val d k)) /\
    lookup "scopes" fl = match val d "scopes" with JDict s => some_dict s | _ => None end /\
    (forall k, ~ In k ["authorizationUrl"; "tokenUrl"; "scopes"] -> lookup k fl = None).
Definition scheme_image (d x : doc) : Prop :=
  lookup "type" x = Some (val d "type") /\
  (forall k, In k ["description"; "name"; "in"] -> lookup k x = non_null (val d k)) /\
  lookup "scheme" x = (if is_text "basic" (val d "type") then Some (JStr "basic") else None) /\
  (if is_text "oauth2" (val d "type") then exists fl, lookup "flows" x = Some fl /\ flows_image d fl else lookup "flows" x = None) /\
  (forall k, ~ In k ["type"; "description"; "name"; "in"; "scheme"; "flows"] -> lookup k x = None).

(** ** pointers *)
Fixpoint rfc_escape (s : string) : string :=
  match s with
  | EmptyString => EmptyString
  | String c r => if Ascii.eqb c "~" then String "~" (String "0" (rfc_escape r)) else if Ascii.eqb c "/" then String "~" (String "1" (rfc_escape r)) else String c (rfc_escape r)
  end.
(** the pointer of a location, as a fragment *)
Definition pointer (tokens : list string) : string := ("#" ++ String.concat "" (map (fun t => "/" ++ rfc_escape t) tokens))%string.

(** the entries of an object, none for null *)
Definition entries_of (j : json) : doc := match j with JDict l => l | _ => [] end.
Definition elements_of (j : json) : list json := match j with JList l => l | _ => [] end.

(** neither a reference nor a file schema *)
Definition plain (d : doc) : Prop := truthy (val d "$ref") = false /\ val d "type" <> JStr "file".
(** the place of a subschema inside a schema *)
Inductive subschema : json -> list string -> json -> Prop :=
| sub_here s : subschema s [] s
| sub_items d ts r : plain d -> val d "items" <> JNull -> subschema (val d "items") ts r -> subschema (JDict d) ("items" :: ts) r
| sub_all_of d l i s t ts r : plain d -> val d "allOf" = JList l -> nth_error l i = Some s -> index_text i t -> subschema s ts r -> subschema (JDict d) ("allOf" :: t :: ts) r
| sub_property d p k s ts r : plain d -> val d "properties" = JDict p -> lookup k p = Some s -> subschema s ts r -> subschema (JDict d) ("properties" :: k :: ts) r
| sub_additional d a ts r : plain d -> val d "additionalProperties" = JDict a -> subschema (JDict a) ts r -> subschema (JDict d) ("additionalProperties" :: ts) r.

(** a document whose [info], [externalDocs] and [tags] have the right JSON types and no key twice *)
Definition document (d : doc) : Prop :=
  wf_json (JDict d) /\ object_or_null (val d "info") /\
  (forall i, val d "info" = JDict i -> object_or_null (val i "contact") /\ object_or_null (val i "license")) /\
  object_or_null (val d "externalDocs") /\
  Forall (fun t => exists td, t = JDict td /\ object_or_null (val td "externalDocs")) (elements_of (val d "tags")).
(** the first token, if any, is not empty *)
Definition starts_well (ts : list string) : Prop := match ts with [] => True | t :: _ => t <> "" end.
(** no character that is escaped in pointers *)
Fixpoint no_escape (s : string) : Prop := match s with EmptyString => True | String c r => c <> "~"%char /\ c <> "/"%char /\ no_escape r end.

(** ** server urls *)
Definition text_of (j : json) : string := match j with JStr s => s | _ => "" end.
Definition text_or_null (j : json) : Prop := j = JNull \/ exists s, j = JStr s.
(** a path, with a leading slash *)
Definition absolute (p : string) : string := match p with String "/" _ => p | _ => "/" ++ p end.
Definition server_text (host base : string) (schemes : list string) : string :=
  if String.eqb base "" then (if String.eqb host "" then "/" else host)
  else (match schemes with [] => "https" | s :: _ => s end) ++ "://" ++ host ++ absolute base.
