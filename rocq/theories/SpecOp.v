(** * Specification: headers, responses, operations, small objects and security schemes. *)
From Coq Require Import String Ascii List Bool Arith.
From Verif Require Import PyStr PyVal SpecSchema SpecConv SpecBody.
Import ListNotations.
Open Scope string_scope. Open Scope nat_scope.

(** the strings of a list *)
Definition texts (j : json) : list string :=
  match j with JList l => flat_map (fun x => match x with JStr s => [s] | _ => [] end) l | _ => [] end.
Definition or_default (l default : list string) : list string := match l with [] => default | _ => l end.
Definition nonempty_list (j : json) : option json := match j with JList (_ :: _) => Some j | _ => None end.

(** ** headers and responses *)
Definition header_image (h x : doc) : Prop :=
  lookup "description" x = non_null (val h "description") /\
  (exists s, lookup "schema" x = Some s /\ items_image (JDict h) s) /\
  lookup "style" x = option_map JStr (fst (style_of h (JStr "header"))) /\
  lookup "explode" x = option_map JBool (snd (style_of h (JStr "header"))) /\
  (forall k, ~ In k ["description"; "schema"; "style"; "explode"] -> lookup k x = None).
Definition header_doc (j : json) : Prop := exists h, j = JDict h /\ (val h "items" = JNull \/ items_doc (val h "items")).
Definition response_doc (q : doc) : Prop :=
  (val q "schema" = JNull \/ schema_doc (val q "schema")) /\
  (val q "headers" = JNull \/ exists hs, val q "headers" = JDict hs /\ Forall (fun kv => header_doc (snd kv)) hs).
(** the media types of a response *)
Definition response_types (q : doc) (produces : list string) : list string :=
  match produces with
  | [] => match val q "schema" with JDict s => if is_text "object" (val s "type") then ["application/json"] else ["text/plain"] | _ => [] end
  | _ => produces
  end.
Definition response_image (produces : list string) (q x : doc) : Prop :=
  lookup "description" x = non_null (val q "description") /\
  (val q "schema" = JNull -> lookup "content" x = None) /\
  (forall s, val q "schema" = JDict s -> val s "type" = JStr "file" ->
     lookup "content" x = Some (JDict [("application/octet-stream", JDict [("type", JStr "string"); ("format", JStr "binary")])])) /\
  (forall s, val q "schema" = JDict s -> val s "type" <> JStr "file" ->
     exists ct, lookup "content" x = Some (JDict ct) /\
       (forall t, In t (response_types q produces) -> exists s', lookup t ct = Some (JDict [("schema", s')]) /\ schema_image (JDict s) s') /\
       (forall t, ~ In t (response_types q produces) -> lookup t ct = None)) /\
  (val q "headers" = JNull \/ val q "headers" = JDict [] -> lookup "headers" x = None) /\
  (forall hs, val q "headers" = JDict hs -> hs <> [] ->
     exists hs', lookup "headers" x = Some (JDict hs') /\
       Forall2 (fun a b => fst a = fst b /\ exists h h', snd a = JDict h /\ snd b = JDict h' /\ header_image h h') hs hs') /\
  (forall k, ~ In k ["description"; "content"; "headers"] -> lookup k x = None).
(** [p] refers to [q]; a reference to a response without schema is kept *)
Definition response_result (produces : list string) (p q x : doc) : Prop :=
  if is_reference p && match val q "schema" with JNull => true | _ => false end
  then x = [("$ref", val p "$ref")]
  else response_image produces q x.

(** ** operations *)
(** [j] (null: absent) is the list, resp. the map, of the first components *)
Definition list_at (j : json) (ps : list (doc * doc)) : Prop := (j = JNull /\ ps = []) \/ j = JList (map (fun pq => JDict (fst pq)) ps).
Definition map_at (j : json) (rs : list (string * (doc * doc))) : Prop :=
  (j = JNull /\ rs = []) \/ j = JDict (map (fun kr => (fst kr, JDict (fst (snd kr)))) rs).
Definition some_list (l : list json) : option json := match l with [] => None | _ => Some (JList l) end.
Definition some_dict (l : doc) : option json := match l with [] => None | _ => Some (JDict l) end.
(** [x]: the converted operation without its request body; [ps], [rs]: the parameters and responses as written,
    each with the object it refers to (itself if it is not a reference); [server]: the url for a scheme *)
Definition operation_image (server : string -> string) (produces : list string) (d : doc) (ps : list (doc * doc)) (rs : list (string * (doc * doc))) (x : doc) : Prop :=
  (forall k, In k ["summary"; "description"; "operationId"; "deprecated"] -> lookup k x = non_null (val d k)) /\
  (forall k, In k ["tags"; "security"] -> lookup k x = nonempty_list (val d k)) /\
  (exists ks, lookup "parameters" x = some_list ks /\ Forall2 (fun pq k => kept_image (fst pq) k) (filter (fun pq => negb (is_merged (snd pq))) ps) ks) /\
  (exists rs', lookup "responses" x = some_dict rs' /\
     Forall2 (fun kr y => fst kr = fst y /\ exists r, snd y = JDict r /\
                response_result (or_default (texts (val d "produces")) produces) (fst (snd kr)) (snd (snd kr)) r) rs rs') /\
  (val d "externalDocs" = JNull -> lookup "externalDocs" x = None) /\
  (forall e, val d "externalDocs" = JDict e -> exists e', lookup "externalDocs" x = Some (JDict e') /\ docs_image e e') /\
  lookup "servers" x = some_list (map (fun s => JDict [("url", JStr (server s))]) (texts (val d "schemes"))) /\
  (forall k, ~ In k ["summary"; "description"; "operationId"; "deprecated"; "tags"; "security"; "parameters"; "responses"; "externalDocs"; "servers"] -> lookup k x = None).
