(** * Specification: schemas of Swagger 2.0 and their images in OpenAPI 3.0. *)
From Coq Require Import String Ascii List Bool Arith.
From Verif Require Import PyStr PyVal.
Import ListNotations.
Open Scope string_scope. Open Scope nat_scope.

(** ** documents *)
(** the value of a key; an absent key is the same as null *)
Definition val (d : list (string * json)) (k : string) : json := match lookup k d with Some v => v | None => JNull end.
Definition non_null (j : json) : option json := match j with JNull => None | _ => Some j end.

(** a Swagger 2.0 schema: every place where a schema is expected holds an object; null means absent *)
Inductive schema_doc : json -> Prop :=
| schema_doc_intro d :
    (val d "items" = JNull \/ schema_doc (val d "items")) ->
    (val d "allOf" = JNull \/ exists l, val d "allOf" = JList l /\ Forall schema_doc l) ->
    (val d "properties" = JNull \/ exists p, val d "properties" = JDict p /\ Forall (fun kv => schema_doc (snd kv)) p) ->
    (val d "additionalProperties" = JNull \/ (exists b, val d "additionalProperties" = JBool b) \/ schema_doc (val d "additionalProperties")) ->
    (val d "xml" = JNull \/ exists x, val d "xml" = JDict x) ->
    (val d "externalDocs" = JNull \/ exists x, val d "externalDocs" = JDict x) ->
    schema_doc (JDict d).

(** keywords of the OpenAPI 3.0 schema object that are copied as they are *)
Definition copied_keywords : list string :=
  ["type"; "format"; "default"; "maximum"; "exclusiveMaximum"; "minimum"; "exclusiveMinimum"; "maxLength"; "minLength"; "pattern";
   "maxItems"; "minItems"; "uniqueItems"; "enum"; "multipleOf"; "title"; "maxProperties"; "minProperties"; "description"; "readOnly"; "example"].
Definition other_keywords : list string := ["required"; "allOf"; "items"; "properties"; "additionalProperties"; "discriminator"; "xml"; "externalDocs"].

(** a dict with exactly these keys of [d] (null is absent) *)
Definition copies (keys : list string) (d d' : list (string * json)) : Prop :=
  (forall k, In k keys -> lookup k d' = non_null (val d k)) /\ (forall k, ~ In k keys -> lookup k d' = None).
(** externalDocs: url always present, description only if non-empty *)
Definition docs_image (d d' : list (string * json)) : Prop :=
  lookup "url" d' = Some (val d "url") /\
  lookup "description" d' = (if truthy (val d "description") then Some (val d "description") else None) /\
  (forall k, k <> "url" -> k <> "description" -> lookup k d' = None).

(** [schema_image s s']: [s'] is the OpenAPI 3.0 form of the Swagger 2.0 schema [s] *)
Inductive schema_image : json -> json -> Prop :=
| im_ref d : truthy (val d "$ref") = true -> schema_image (JDict d) (JDict [("$ref", val d "$ref")])
| im_file d : truthy (val d "$ref") = false -> val d "type" = JStr "file" ->
    schema_image (JDict d) (JDict [("type", JStr "string"); ("format", JStr "binary")])
| im_schema d d' :
    truthy (val d "$ref") = false -> val d "type" <> JStr "file" ->
    (forall k, In k copied_keywords -> lookup k d' = non_null (val d k)) ->
    (forall x l, val d "required" = JList (x :: l) -> lookup "required" d' = Some (JList (x :: l))) ->
    ((forall x l, val d "required" <> JList (x :: l)) -> lookup "required" d' = None) ->
    (val d "items" <> JNull -> exists s', lookup "items" d' = Some s' /\ schema_image (val d "items") s') ->
    (val d "items" = JNull -> lookup "items" d' = None) ->
    (forall l, val d "allOf" = JList l -> l <> [] -> exists l', lookup "allOf" d' = Some (JList l') /\ Forall2 schema_image l l') ->
    (val d "allOf" = JNull \/ val d "allOf" = JList [] -> lookup "allOf" d' = None) ->
    (forall p, val d "properties" = JDict p -> p <> [] ->
       exists p', lookup "properties" d' = Some (JDict p') /\ Forall2 (fun a b => fst a = fst b /\ schema_image (snd a) (snd b)) p p') ->
    (val d "properties" = JNull \/ val d "properties" = JDict [] -> lookup "properties" d' = None) ->
    (forall a, val d "additionalProperties" = JDict a -> exists s', lookup "additionalProperties" d' = Some s' /\ schema_image (JDict a) s') ->
    (val d "additionalProperties" = JBool false -> lookup "additionalProperties" d' = Some (JBool false)) ->
    (val d "additionalProperties" = JBool true \/ val d "additionalProperties" = JNull -> lookup "additionalProperties" d' = None) ->
    lookup "discriminator" d' = (if truthy (val d "discriminator") then Some (JDict [("propertyName", val d "discriminator")]) else None) ->
    (forall x, val d "xml" = JDict x -> exists x', lookup "xml" d' = Some (JDict x') /\ copies ["name"; "namespace"; "prefix"; "attribute"; "wrapped"] x x') ->
    (val d "xml" = JNull -> lookup "xml" d' = None) ->
    (forall x, val d "externalDocs" = JDict x -> exists x', lookup "externalDocs" d' = Some (JDict x') /\ docs_image x x') ->
    (val d "externalDocs" = JNull -> lookup "externalDocs" d' = None) ->
    (forall k v, lookup k d' = Some v -> In k (copied_keywords ++ other_keywords)%list) ->
    schema_image (JDict d) (JDict d').

(** ** validation *)
(** the validation keywords without subschemas *)
Definition simple_keywords : list string :=
  ["type"; "format"; "maximum"; "exclusiveMaximum"; "minimum"; "exclusiveMinimum"; "maxLength"; "minLength"; "pattern";
   "maxItems"; "minItems"; "uniqueItems"; "enum"; "multipleOf"; "maxProperties"; "minProperties"].
Definition simple_values (d : list (string * json)) : list (string * option json) :=
  map (fun k => (k, non_null (val d k))) simple_keywords.
Section Valid.
  (** [simple]: the meaning of the simple keywords, arbitrary; [target]: what a reference refers to *)
  Variables (simple : list (string * option json) -> json -> Prop) (target : json -> option json).
  (** [valid n s x]: the instance [x] is accepted by the schema [s], looking [n] levels of schemas deep *)
  Fixpoint valid (n : nat) (s x : json) : Prop :=
    match n with
    | O => True
    | S n' =>
        match s with
        | JDict d =>
            if truthy (val d "$ref")
            then match target (val d "$ref") with Some t => valid n' t x | None => False end
            else
              simple (simple_values d) x /\
              (forall l o name, val d "required" = JList l -> x = JDict o -> In (JStr name) l -> lookup name o <> None) /\
              (forall l s', val d "allOf" = JList l -> In s' l -> valid n' s' x) /\
              (forall l y, val d "items" <> JNull -> x = JList l -> In y l -> valid n' (val d "items") y) /\
              (forall p o k s' y, val d "properties" = JDict p -> x = JDict o -> lookup k p = Some s' -> lookup k o = Some y -> valid n' s' y) /\
              (forall o k y, x = JDict o -> lookup k o = Some y ->
                 (forall p, val d "properties" = JDict p -> lookup k p = None) ->
                 val d "additionalProperties" <> JBool false /\
                 (forall a, val d "additionalProperties" = JDict a -> valid n' (JDict a) y))
        | _ => True
        end
    end.
End Valid.
(** no schema inside describes a file *)
Inductive file_free : json -> Prop :=
| file_free_intro d :
    (truthy (val d "$ref") = false ->
     val d "type" <> JStr "file" /\
     (val d "items" <> JNull -> file_free (val d "items")) /\
     (forall l, val d "allOf" = JList l -> Forall file_free l) /\
     (forall p, val d "properties" = JDict p -> Forall (fun kv => file_free (snd kv)) p) /\
     (forall a, val d "additionalProperties" = JDict a -> file_free (JDict a))) ->
    file_free (JDict d).
