(** * Specification: parameters, media types, small objects of Swagger 2.0 and their images in OpenAPI 3.0. *)
From Coq Require Import String Ascii List Bool Arith.
From Verif Require Import PyStr PyVal SpecSchema.
Import ListNotations.
Open Scope string_scope. Open Scope nat_scope.
Notation doc := (list (string * json)).

(** ** the style table of OpenAPI 3.0 *)
(** (collectionFormat, in) -> (style, explode) *)
Definition style_table : list (string * string * (option string * option bool)) :=
  [("csv", "query", (Some "form", Some false));
   ("csv", "path", (Some "simple", None));
   ("csv", "header", (Some "simple", None));
   ("ssv", "query", (Some "spaceDelimited", None));
   ("pipes", "query", (Some "pipeDelimited", None));
   ("multi", "query", (Some "form", Some true))].
Definition no_style : option string * option bool := (None, None).
(** only for arrays in the query *)
Definition query_array_only (format : json) : Prop := format = JStr "ssv" \/ format = JStr "pipes".

(** how the items of an array are written for one parameter name: the list of values of that name *)
Definition tab : string := String (ascii_of_nat 9) "".
Definition wire20 (format : string) (items : list string) : option (list string) :=
  if String.eqb format "csv" then Some [join "," items]
  else if String.eqb format "ssv" then Some [join " " items]
  else if String.eqb format "tsv" then Some [join tab items]
  else if String.eqb format "pipes" then Some [join "|" items]
  else if String.eqb format "multi" then Some items
  else None.
(** OpenAPI 3.0; the default style is form in the query and simple in path and headers; the default of explode is
    true for form and false otherwise *)
Definition wire30 (in_ : string) (se : option string * option bool) (items : list string) : option (list string) :=
  let style := match fst se with Some s => s | None => if String.eqb in_ "query" then "form" else "simple" end in
  let explode := match snd se with Some b => b | None => String.eqb style "form" end in
  let sep := if String.eqb style "spaceDelimited" then " " else if String.eqb style "pipeDelimited" then "|" else "," in
  if String.eqb style "form" || String.eqb style "spaceDelimited" || String.eqb style "pipeDelimited"
  then Some (if explode then items else [join sep items])
  else if String.eqb style "simple" then Some [join "," items]
  else None.

(** ** items of non-body parameters and headers *)
Definition base_keywords : list string :=
  ["type"; "format"; "default"; "maximum"; "exclusiveMaximum"; "minimum"; "exclusiveMinimum"; "maxLength"; "minLength";
   "pattern"; "maxItems"; "minItems"; "uniqueItems"; "enum"; "multipleOf"].
Inductive items_doc : json -> Prop :=
| items_doc_intro d : (val d "items" = JNull \/ items_doc (val d "items")) -> items_doc (JDict d).
(** [with_items extra q s]: [s] has the base keywords and [extra] of [q], and the image of its items, nothing else *)
Inductive items_image : json -> json -> Prop :=
| items_image_intro d s :
    (forall k, In k base_keywords -> lookup k s = non_null (val d k)) ->
    (val d "items" = JNull -> lookup "items" s = None) ->
    (val d "items" <> JNull -> exists s', lookup "items" s = Some s' /\ items_image (val d "items") s') ->
    (forall k, ~ In k ("items" :: base_keywords) -> lookup k s = None) ->
    items_image (JDict d) (JDict s).

(** ** parameters *)
(** a parameter object: items and schema are objects, "required" a boolean *)
Definition param_doc (q : doc) : Prop :=
  (val q "items" = JNull \/ items_doc (val q "items")) /\
  (val q "schema" = JNull \/ schema_doc (val q "schema")) /\
  (val q "required" = JNull \/ exists b, val q "required" = JBool b).
(** the converted (path, query, header) parameter *)
Definition schema_of_items (q : doc) (s : option json) : Prop :=
  match s with
  | Some s' => items_image (JDict q) s'
  | None => (forall k, In k base_keywords -> val q k = JNull) /\ val q "items" = JNull
  end.
Definition style_of (q : doc) (in_ : json) : option string * option bool :=
  match lookup "collectionFormat" q, in_ with
  | Some (JStr f), JStr i => match find (fun r => String.eqb f (fst (fst r)) && String.eqb i (snd (fst r))) style_table with Some r => snd r | None => no_style end
  | _, _ => no_style
  end.
Definition param_image (q p : doc) : Prop :=
  (forall k, In k ["description"; "required"; "allowEmptyValue"] -> lookup k p = non_null (val q k)) /\
  (forall k, In k ["name"; "in"] -> lookup k p = Some (val q k)) /\
  schema_of_items q (lookup "schema" p) /\
  lookup "style" p = option_map JStr (fst (style_of q (val q "in"))) /\
  lookup "explode" p = option_map JBool (snd (style_of q (val q "in"))) /\
  (forall k, ~ In k ["description"; "required"; "allowEmptyValue"; "name"; "in"; "schema"; "style"; "explode"] -> lookup k p = None).
(** a parameter (after following its reference) which becomes part of a request body *)
Definition merged (q : doc) : Prop := val q "type" = JStr "file" \/ val q "in" = JStr "formData" \/ val q "in" = JStr "body".
(** the parameter is written as a reference *)
Definition is_reference (p : doc) : bool := mem "$ref" p.
(** "$ref", where present, is a non-empty value *)
Definition ref_ok (p : doc) : Prop := forall v, lookup "$ref" p = Some v -> truthy v = true.
