(** * Specification: request bodies built from body, form and file parameters. *)
From Coq Require Import String Ascii List Bool Arith.
From Verif Require Import PyStr PyVal SpecSchema SpecConv.
Import ListNotations.
Open Scope string_scope. Open Scope nat_scope.

Definition is_text (s : string) (j : json) : bool := match j with JStr t => String.eqb t s | _ => false end.
Definition is_file_param (q : doc) : bool := is_text "file" (val q "type").
Definition is_merged (q : doc) : bool := is_file_param q || is_text "formData" (val q "in") || is_text "body" (val q "in").

(** ** media types *)
Definition form_media_types : list string := ["application/x-www-form-urlencoded"; "multipart/form-data"].
Definition file_media_types : list string :=
  ["multipart/form-data"; "application/x-www-form-urlencoded"; "application/octet-stream"; "application/pdf"; "image/*"; "image/gif";
   "image/png"; "image/jpeg"; "image/bmp"; "image/webp"; "audio/*"; "audio/midi"; "audio/mpeg"; "audio/webm"; "audio/ogg"; "audio/wav";
   "video/*"; "video/webm"; "video/ogg"].
(** a form or file parameter is sent as [t]: the types of [consumes] which allow it, else the default *)
Definition listed (consumes allowed : list string) (t : string) : Prop := In t consumes /\ In t allowed.
Definition sent_with (consumes allowed : list string) (default t : string) : Prop :=
  listed consumes allowed t \/ ((forall u, ~ listed consumes allowed u) /\ t = default).
Definition sent_as (consumes : list string) (q : doc) (t : string) : Prop :=
  if is_file_param q then sent_with consumes file_media_types "multipart/form-data" t
  else sent_with consumes form_media_types "application/x-www-form-urlencoded" t.

(** ** reading a request body *)
Definition subd (k : string) (d : doc) : doc := match lookup k d with Some (JDict x) => x | _ => [] end.
Definition arr (k : string) (d : doc) : list json := match lookup k d with Some (JList l) => l | _ => [] end.
Definition media (t : string) (b : doc) : doc := subd t (subd "content" b).
Definition body_properties (t : string) (b : doc) : doc := subd "properties" (subd "schema" (media t b)).
Definition body_required (t : string) (b : doc) : list json := arr "required" (subd "schema" (media t b)).
Definition body_encoding (t : string) (b : doc) : doc := subd "encoding" (media t b).
Definition has_media (t : string) (b : doc) : Prop := lookup t (subd "content" b) <> None.

(** ** one property *)
(** the content type of a part: by the innermost type of nested arrays *)
Inductive part_type : json -> string -> Prop :=
| pt_file d : val d "type" = JStr "file" -> part_type (JDict d) "application/octet-stream"
| pt_object d : val d "type" = JStr "object" -> part_type (JDict d) "application/json"
| pt_array d t : val d "type" = JStr "array" -> val d "items" <> JNull -> part_type (val d "items") t -> part_type (JDict d) t
| pt_array_any d : val d "type" = JStr "array" -> val d "items" = JNull -> part_type (JDict d) "text/plain"
| pt_other d : val d "type" <> JStr "file" -> val d "type" <> JStr "object" -> val d "type" <> JStr "array" -> part_type (JDict d) "text/plain".
Definition nullable (q : doc) : option json := if match val q "allowEmptyValue" with JBool true => true | _ => false end then Some (JBool true) else None.
(** the schema of the property of a form or file parameter *)
Definition form_schema (q s : doc) : Prop :=
  if is_file_param q then
    lookup "type" s = Some (JStr "string") /\ lookup "format" s = Some (JStr "binary") /\ lookup "nullable" s = nullable q /\
    (forall k, ~ In k ["type"; "format"; "nullable"] -> lookup k s = None)
  else
    (forall k, In k ("description" :: base_keywords) -> lookup k s = non_null (val q k)) /\
    (val q "items" = JNull -> lookup "items" s = None) /\
    (val q "items" <> JNull -> exists s', lookup "items" s = Some s' /\ items_image (val q "items") s') /\
    lookup "nullable" s = nullable q /\
    (forall k, ~ In k ("nullable" :: "items" :: "description" :: base_keywords) -> lookup k s = None).
(** a parameter given by reference stays a reference *)
Definition property_image (p q : doc) (v : json) : Prop :=
  exists s, v = JDict s /\
    if is_reference p
    then lookup "$ref" s = Some (val p "$ref") /\ lookup "nullable" s = nullable q /\ (forall k, k <> "$ref" -> k <> "nullable" -> lookup k s = None)
    else form_schema q s.

(** ** form and file parameters *)
Definition form_param (q : doc) : Prop :=
  param_doc q /\ val q "in" = JStr "formData" /\ val q "schema" = JNull /\ (exists n, val q "name" = JStr n).
Definition required_param (q : doc) : bool := match val q "required" with JBool b => b | _ => false end.
(** a body parameter *)
Definition body_param (q : doc) : Prop :=
  param_doc q /\ val q "in" = JStr "body" /\ val q "type" <> JStr "file" /\ val q "schema" <> JNull.

(** ** parameter lists *)
(** the parameter as it is kept: a reference stays the reference *)
Definition kept_image (p : doc) (k : json) : Prop :=
  if is_reference p then k = JDict [("$ref", val p "$ref")] else exists d, k = JDict d /\ param_image p d.
(** the positions of the elements for which [f] holds, counted from [i] *)
Fixpoint positions {A} (f : A -> bool) (i : nat) (l : list A) : list nat :=
  match l with [] => [] | x :: l' => if f x then i :: positions f (S i) l' else positions f (S i) l' end.
(** the media types of a plain body *)
Definition body_media_types (consumes : list string) : list string := match consumes with [] => ["application/json"] | _ => consumes end.
(** the request body of a plain body parameter *)
Definition body_image (consumes : list string) (q b : doc) : Prop :=
  (forall t, In t (body_media_types consumes) ->
     exists s, lookup t (subd "content" b) = Some (JDict [("schema", s)]) /\ schema_image (val q "schema") s) /\
  (forall t, ~ In t (body_media_types consumes) -> lookup t (subd "content" b) = None) /\
  lookup "description" b = non_null (val q "description") /\
  lookup "required" b = (if required_param q then Some (JBool true) else None) /\
  (forall k, ~ In k ["content"; "description"; "required"] -> lookup k b = None).

(** ** building a request body *)
Definition form_type (t : string) : bool := existsb (String.eqb t) form_media_types.
Definition dict_or_none (x : option json) : Prop := match x with None => True | Some (JDict _) => True | _ => False end.
Definition list_or_none (x : option json) : Prop := match x with None => True | Some (JList _) => True | _ => False end.
(** the parts of a body have the right JSON types *)
Definition media_ok (m : doc) : Prop :=
  dict_or_none (lookup "schema" m) /\ dict_or_none (lookup "encoding" m) /\
  dict_or_none (lookup "properties" (subd "schema" m)) /\ list_or_none (lookup "required" (subd "schema" m)).
Definition content_ok (ct : doc) : Prop := forall t, dict_or_none (lookup t ct) /\ media_ok (subd t ct).
Definition body_ok (b : doc) : Prop := dict_or_none (lookup "content" b) /\ content_ok (subd "content" b).
(** [m'] is the media type [m] with the form parameter [q], named [n], written as [p], added *)
Definition media_step (p q : doc) (n t : string) (m m' : doc) : Prop :=
  media_ok m' /\
  (exists v, property_image p q v /\ subd "properties" (subd "schema" m') = dict_set n v (subd "properties" (subd "schema" m))) /\
  arr "required" (subd "schema" m') = (arr "required" (subd "schema" m) ++ (if required_param q then [JStr n] else []))%list /\
  (if form_type t then exists c, part_type (JDict q) c /\ subd "encoding" m' = dict_set n (JDict [("contentType", JStr c)]) (subd "encoding" m)
   else subd "encoding" m' = subd "encoding" m) /\
  (forall k, k <> "schema" -> k <> "encoding" -> lookup k m' = lookup k m) /\
  (forall k, k <> "properties" -> k <> "required" -> lookup k (subd "schema" m') = lookup k (subd "schema" m)).
(** the name is taken, or the collection format has no counterpart *)
Definition clashes (q : doc) (n t : string) (m : doc) : Prop :=
  mem n (subd "properties" (subd "schema" m)) = true \/ (form_type t = true /\ query_array_only (val q "collectionFormat")).
Definition old_body (b : option doc) : doc := match b with Some x => x | None => [] end.
Definition body_step (cs : list string) (p q : doc) (n : string) (b b' : doc) : Prop :=
  body_ok b' /\
  (forall t, sent_as cs q t -> has_media t b' /\ media_step p q n t (media t b) (media t b')) /\
  (forall t, ~ sent_as cs q t -> lookup t (subd "content" b') = lookup t (subd "content" b)) /\
  lookup "required" b' = (if required_param q then Some (JBool true) else lookup "required" b) /\
  (forall k, k <> "content" -> k <> "required" -> lookup k b' = lookup k b).
Definition body_clash (cs : list string) (q : doc) (n : string) (b : doc) : Prop := exists t, sent_as cs q t /\ clashes q n t (media t b).

(** ** parameters as pairs: the parameter as written and the parameter it refers to (itself if it is not a reference) *)
Definition merges (pq : doc * doc) : bool := is_merged (snd pq).
Definition no_merged (ps : list (doc * doc)) : bool := forallb (fun pq => negb (is_merged (snd pq))) ps.
Definition pname (pq : doc * doc) : string := match val (snd pq) "name" with JStr n => n | _ => "" end.
(** [sent_as] as a boolean *)
Definition among (l : list string) (t : string) : bool := existsb (String.eqb t) l.
Definition sends (cs : list string) (t : string) (pq : doc * doc) : bool :=
  let allowed := if is_file_param (snd pq) then file_media_types else form_media_types in
  let default := if is_file_param (snd pq) then "multipart/form-data" else "application/x-www-form-urlencoded" in
  if existsb (among allowed) cs then among cs t && among allowed t else String.eqb t default.
(** under the media type [t] the body holds exactly the form parameters [ps] *)
Definition body_holds (t : string) (ps : list (doc * doc)) (b : doc) : Prop :=
  (has_media t b <-> ps <> []) /\
  Forall2 (fun pq kv => fst kv = pname pq /\ property_image (fst pq) (snd pq) (snd kv)) ps (body_properties t b) /\
  body_required t b = map (fun pq => JStr (pname pq)) (filter (fun pq => required_param (snd pq)) ps) /\
  (if form_type t then Forall2 (fun pq kv => fst kv = pname pq /\ exists c, snd kv = JDict [("contentType", JStr c)] /\ part_type (JDict (snd pq)) c) ps (body_encoding t b)
   else body_encoding t b = []) /\
  (forall k, k <> "schema" -> k <> "encoding" -> lookup k (media t b) = None) /\
  (forall k, k <> "properties" -> k <> "required" -> lookup k (subd "schema" (media t b)) = None).
