(** * Properties C36 - C45: conversion of Swagger 2.0 parameters, bodies, schemas, responses, security schemes.

    The documents are JSON values; [loaded b j o]: the object [o] is built from the document [j]; [deref]: what following
    the references of an object gives (SpecGiven.v).  A null value is the same as an absent one. *)
From Coq Require Import String Ascii List Bool Arith ZArith.
From Verif Require Import PyStr PyVal Obj Classes_v2_0 Classes_v3_0_0 SpecJson SpecObj SpecSchema SpecConv SpecBody SpecOp SpecDoc SpecGiven Store SpecStore Conv20 Up30.
From Verif Require Import ConvFacts SchemaFacts SchemaFacts2 ParamFacts BodyFacts BodyFacts2 ParamListFacts ParamListFacts2 ParamListFacts3 OpFacts OpFacts2 TotalFacts PathFacts PathFacts2 DocFacts DocFacts2 RelocFacts RelocFacts2 Up30Facts PropertiesConvAux.
Import ListNotations.
Open Scope string_scope. Open Scope nat_scope.

(** ** C36: collectionFormat *)
(** the result is the entry of the table, no style if there is none *)
Theorem C36_table (format in_ type_ : json) (se : option string * option bool) :
  to_style_and_explode format in_ type_ = Ok se ->
  (exists f i, format = JStr f /\ in_ = JStr i /\ In (f, i, se) style_table) \/
  (se = no_style /\ forall f i se', format = JStr f -> in_ = JStr i -> ~ In (f, i, se') style_table).
Proof. exact (style_table_result format in_ type_ se). Qed.
(** ssv and pipes outside of query arrays raise, nothing else does *)
Theorem C36_raises (format in_ type_ : json) (e : exn) :
  to_style_and_explode format in_ type_ = Err e <->
  e = SchemaError /\ (format = JStr "ssv" \/ format = JStr "pipes") /\ ~ (in_ = JStr "query" /\ type_ = JStr "array").
Proof. exact (style_raises_iff format in_ type_ e). Qed.
(** an array is written the same way: for every row of the table *)
Theorem C36_same_wire (f i : string) (se : option string * option bool) (items : list string) :
  In (f, i, se) style_table ->
  to_style_and_explode (JStr f) (JStr i) (JStr "array") = Ok se /\
  exists w, wire20 f items = Some w /\ wire30 i se items = Some w.
Proof. exact (table_wire f i se items). Qed.
(** the parameter as a whole: description, required, allowEmptyValue, name and in are copied, the keywords of its
    type form the schema, style and explode are those of the table *)
Theorem C36_parameter (q p : doc) (o : obj) :
  loaded (BCls "Parameter") (JDict q) o -> param_doc q -> to_parameter o = Ok p -> param_image q p.
Proof. exact (to_parameter_ok q o p). Qed.
Theorem C36_parameter_total (q : doc) (o : obj) :
  loaded (BCls "Parameter") (JDict q) o -> param_doc q ->
  (exists p, to_parameter o = Ok p) \/
  (to_parameter o = Err SchemaError /\ query_array_only (val q "collectionFormat") /\ ~ (val q "in" = JStr "query" /\ val q "type" = JStr "array")).
Proof. exact (to_parameter_total q o). Qed.
Example C36_example :
  to_style_and_explode (JStr "pipes") (JStr "query") (JStr "array") = Ok (Some "pipeDelimited", None) /\
  wire30 "query" (Some "pipeDelimited", None) ["a"; "b"] = Some ["a|b"] /\
  to_style_and_explode (JStr "pipes") (JStr "header") (JStr "array") = Err SchemaError.
Proof. vm_compute. auto. Qed.
Definition query_array : doc := [("name", JStr "ids"); ("in", JStr "query"); ("type", JStr "array"); ("items", JDict [("type", JStr "string")])].
Example C36_parameter_example : exists p, param_doc query_array /\ loaded (BCls "Parameter") (JDict query_array) (load "Parameter" query_array) /\
  to_parameter (load "Parameter" query_array) = Ok p /\ lookup "schema" p = Some (JDict [("type", JStr "array"); ("items", JDict [("type", JStr "string")])]).
Proof.
  eexists. split; [|split; [exists (Some "#"); vm_compute; reflexivity|split; vm_compute; reflexivity]].
  split; [right; constructor; now left|]. split; now left.
Qed.
(** tab separated values get no style: three values are sent instead of one *)
Theorem C36_tsv_refuted :
  to_style_and_explode (JStr "tsv") (JStr "query") (JStr "array") = Ok no_style /\
  wire20 "tsv" ["a"; "b"] <> wire30 "query" no_style ["a"; "b"].
Proof. split; [reflexivity|]. vm_compute. discriminate. Qed.
(** without collectionFormat Swagger 2.0 means csv; the converted parameter has neither style nor explode, which
    OpenAPI 3.0 reads as one value per item *)
Theorem C36_default_refuted :
  exists p, to_parameter (load "Parameter" query_array) = Ok p /\ lookup "style" p = None /\ lookup "explode" p = None /\
    wire20 "csv" ["a"; "b"] <> wire30 "query" no_style ["a"; "b"].
Proof. eexists. split; [vm_compute; reflexivity|]. vm_compute. repeat split; discriminate. Qed.

(** ** C37: schemas *)
Theorem C37_schema (j : json) (path : option string) :
  wf_json j -> schema_doc j ->
  exists o d', construct v20_table j (BCls "Schema") path [] = Ok o /\ to_schema false o = Ok d' /\ schema_image j (JDict d').
Proof. exact (schema_converted j path). Qed.
(** at every depth: the image of the subschema is found at the same place of the converted schema *)
Theorem C37_every_depth (s s' r : json) (tokens : list string) :
  schema_image s s' -> subschema s tokens r -> exists r', jget s' tokens r' /\ schema_image r r'.
Proof. intros H S. exact (subschema_image s tokens r S s' H). Qed.
Definition nested_schema : json :=
  JDict [("type", JStr "object"); ("required", JList [JStr "a"]);
         ("properties", JDict [("a", JDict [("type", JStr "array"); ("items", JDict [("$ref", JStr "#/definitions/A")]); ("maxItems", JInt 3%Z)]);
                               ("b", JDict [("allOf", JList [JDict [("minimum", JInt 1%Z); ("exclusiveMinimum", JBool true)]])])]);
         ("additionalProperties", JBool false)].
Example C37_example : exists o d', wf_json nested_schema /\ schema_doc nested_schema /\ loaded (BCls "Schema") nested_schema o /\ to_schema false o = Ok d' /\
  exists m, jget (JDict d') ["properties"; "b"; "allOf"; "0"] (JDict m) /\ lookup "exclusiveMinimum" m = Some (JBool true).
Proof.
  eexists _, _. split; [doc_tac|]. split; [doc_tac|]. split; [doc_tac|]. split; [vm_compute; reflexivity|].
  eexists. split.
  { eapply jg_key; [vm_compute; reflexivity|]. eapply jg_key; [vm_compute; reflexivity|]. eapply jg_key; [vm_compute; reflexivity|].
    eapply (jg_idx _ 0); [reflexivity|reflexivity|constructor]. }
  vm_compute. reflexivity.
Qed.

(** ** C38: validation *)
(** with references resolved in the source document, resp. by relocating them and evaluating the result in the
    converted document; the meaning of the keywords without subschemas ([simple]) is arbitrary.  [valid n] looks [n]
    schemas deep, so that recursive schemas make sense. *)
Theorem C38_validation (deref : obj -> res obj) (normalized_ref : obj -> res json) (d : doc) (o : obj) (x : doc) (sec : option obj) (reloc : routes)
    (simple : list (string * option json) -> json -> Prop) (target target' : json -> option json) (s : json) (so : obj) (s' : doc) (instance : json) :
  loaded (BCls "Swagger") (JDict d) o -> document d -> to_openapi deref normalized_ref o = Ok (x, sec, reloc) ->
  (forall n t, lookup n (entries_of (val d "definitions")) = Some t -> schema_doc t /\ file_free t) ->
  (forall r t, target r = Some t -> exists n, r = JStr (pointer ["definitions"; n]) /\ lookup n (entries_of (val d "definitions")) = Some t) ->
  (forall n tokens t', target (JStr (pointer ["definitions"; n])) <> None -> patch_jp (pointer ["definitions"; n]) (at_root reloc) = Ok (pointer tokens) -> jget (JDict x) tokens t' ->
     target' (JStr (pointer ["definitions"; n])) = Some t') ->
  (forall r, target r = None -> target' r = None) ->
  wf_json s -> schema_doc s -> file_free s -> loaded (BCls "Schema") s so -> to_schema false so = Ok s' ->
  ((forall n, valid simple target n s instance) <-> (forall n, valid simple target' n (JDict s') instance)).
Proof. exact (valid_document deref normalized_ref d o x sec reloc simple target target' s so s' instance). Qed.
(** for any two schemas one of which is the image of the other *)
Theorem C38_images (simple : list (string * option json) -> json -> Prop) (target target' : json -> option json) (s s' instance : json) :
  (forall r, match target r with Some t => exists t', target' r = Some t' /\ schema_doc t /\ file_free t /\ schema_image t t' | None => target' r = None end) ->
  schema_doc s -> file_free s -> schema_image s s' ->
  forall n, valid simple target n s instance <-> valid simple target' n s' instance.
Proof. intros H S F I n. exact (valid_preserved simple target target' H n s s' instance S F I). Qed.
(** a recursive definition: a tree *)
Definition tree : json := JDict [("type", JStr "object"); ("required", JList [JStr "left"]); ("properties", JDict [("left", JDict [("$ref", JStr "#/definitions/Tree")])])].
Definition tree_doc : doc := [("swagger", JStr "2.0"); ("info", JDict [("title", JStr "t"); ("version", JStr "1")]); ("paths", JDict []); ("definitions", JDict [("Tree", tree)])].
Definition tree_target (r : json) : option json := match r with JStr p => if String.eqb p "#/definitions/Tree" then Some tree else None | _ => None end.
Example C38_example : exists x sec reloc s',
  loaded (BCls "Swagger") (JDict tree_doc) (load "Swagger" tree_doc) /\ document tree_doc /\ to_openapi no_refs no_normalized (load "Swagger" tree_doc) = Ok (x, sec, reloc) /\
  (forall n t, lookup n (entries_of (val tree_doc "definitions")) = Some t -> schema_doc t /\ file_free t) /\
  (forall r t, tree_target r = Some t -> exists n, r = JStr (pointer ["definitions"; n]) /\ lookup n (entries_of (val tree_doc "definitions")) = Some t) /\
  to_schema false (match construct v20_table tree (BCls "Schema") None [] with Ok o => o | _ => OPrim JNull end) = Ok s' /\
  ~ valid (fun _ _ => True) tree_target 1 tree (JDict []).
Proof.
  assert (F : file_free tree).
  { constructor. intros _. split; [vm_compute; discriminate|]. split; [intros H; exfalso; apply H; reflexivity|]. split; [intros l H; vm_compute in H; discriminate|]. split; [|intros a H; vm_compute in H; discriminate H].
    intros p H. vm_compute in H. injection H as <-. constructor; [|constructor]. cbn [snd]. constructor. intros H. vm_compute in H. discriminate. }
  eexists _, _, _, _. split; [doc_tac|]. split.
  { split; [doc_tac|]. split; [right; eexists; reflexivity|]. split; [|split; [now left|constructor]]. intros i H. vm_compute in H. injection H as <-. split; now left. }
  split; [vm_compute; reflexivity|]. split.
  { intros n t H. change (lookup n [("Tree", tree)] = Some t) in H. cbn [lookup] in H. destruct (String.eqb n "Tree"); [|discriminate H]. injection H as <-. split; [doc_tac|exact F]. }
  split.
  { intros r t H. unfold tree_target in H. destruct r as [| | | |p| |]; try discriminate. destruct (String.eqb_spec p "#/definitions/Tree") as [->|]; [|discriminate]. injection H as <-.
    exists "Tree". repeat split. }
  split; [vm_compute; reflexivity|]. cbn. intros (_ & H & _). apply (H [JStr "left"] [] "left" eq_refl eq_refl (or_introl eq_refl)). reflexivity.
Qed.

(** ** C39: every parameter in exactly one place *)
(** the kept parameters appear in order and only they do; there is a request body exactly if some parameter is merged *)
Theorem C39_kept (deref : obj -> res obj) (d : doc) (o : obj) (ps : list (doc * doc)) (rs : list (string * (doc * doc))) (root : string) (pr cs : list string) (x : doc) (body : option doc) :
  loaded (BCls "Operation") (JDict d) o -> wf_json (JDict d) -> params_at deref (val d "parameters") ps -> responses_at deref (val d "responses") rs ->
  object_or_null (val d "externalDocs") -> Forall (fun pq => param_doc (snd pq)) ps ->
  to_operation deref o None root pr cs = Ok (x, body) ->
  (exists ks, lookup "parameters" x = some_list ks /\ Forall2 (fun pq k => kept_image (fst pq) k) (filter (fun pq => negb (is_merged (snd pq))) ps) ks) /\
  (body = None <-> forall pq, In pq ps -> is_merged (snd pq) = false).
Proof.
  intros L W P R E D H. destruct (to_operation_ok deref d o ps rs None root pr cs x body L W P R E D H) as ((_ & _ & K & _) & B & _). split; [exact K|].
  rewrite B, forallb_forall. split; [intros [_ X] pq I; apply X in I; now apply negb_true_iff|]. intros X. split; [reflexivity|]. intros pq I. apply negb_true_iff. auto.
Qed.
(** every form or file parameter is a property of the body, for every media type it is sent with *)
Theorem C39_form_in_body (deref : obj -> res obj) (d : doc) (o : obj) (ps : list (doc * doc)) (root : string) (pr cs : list string) (x : doc) (body : option doc) (pq : doc * doc) (t : string) :
  loaded (BCls "Operation") (JDict d) o -> params_at deref (val d "parameters") ps -> Forall (fun pq => usable deref (snd pq)) ps ->
  to_operation deref o None root pr cs = Ok (x, body) ->
  In pq ps -> form_param (snd pq) -> sent_as (or_default (texts (val d "consumes")) cs) (snd pq) t ->
  exists b, body = Some b /\ mem (pname pq) (body_properties t b) = true.
Proof. intros L P U H. exact (operation_in_body deref d o ps None root pr cs x body pq t L P U body_ok_nil H). Qed.
(** a body parameter which is the only merged one becomes the body *)
Theorem C39_body (deref : obj -> res obj) (d : doc) (o : obj) (before : list (doc * doc)) (p q : doc) (after : list (doc * doc)) (root : string) (pr cs : list string) (x : doc) (body : option doc) :
  loaded (BCls "Operation") (JDict d) o -> params_at deref (val d "parameters") (before ++ (p, q) :: after) -> Forall (fun pq => usable deref (snd pq)) (before ++ (p, q) :: after) ->
  no_merged before = true -> no_merged after = true -> body_param q -> wf_json (JDict q) -> schema_resolves deref (val q "schema") false ->
  to_operation deref o None root pr cs = Ok (x, body) ->
  exists b, body = Some b /\ body_image (or_default (texts (val d "consumes")) cs) q b.
Proof. exact (body_operation deref d o before p q after root pr cs x body). Qed.
(** the loop over the parameters, for operations and path items: the kept ones in order, the positions of the others *)
Theorem C39_loop (deref : obj -> res obj) (ps : list (doc * doc)) (os : list obj) (cs : list string) (kept : list json) (body : option doc) (moved : list nat) :
  all_given deref ps os -> convert_params deref os 0 cs [] None = Ok (kept, body, moved) ->
  Forall2 (fun pq k => kept_image (fst pq) k) (filter (fun pq => negb (is_merged (snd pq))) ps) kept /\
  moved = positions (fun pq => is_merged (snd pq)) 0 ps /\ (body = None <-> moved = []).
Proof.
  intros G H. destruct (convert_params_split deref ps os 0 cs [] None kept body moved G H) as ((ks & -> & K) & M & B). split; [exact K|]. split; [exact M|]. rewrite B. tauto.
Qed.
Definition q_id : doc := [("name", JStr "id"); ("in", JStr "path"); ("type", JStr "integer"); ("required", JBool true)].
Definition q_form : doc := [("name", JStr "n"); ("in", JStr "formData"); ("type", JStr "string"); ("required", JBool true)].
Definition q_file : doc := [("name", JStr "f"); ("in", JStr "formData"); ("type", JStr "file")].
Definition q_body : doc := [("name", JStr "b"); ("in", JStr "body"); ("schema", JDict [("type", JStr "object")])].
Definition mixed_op : doc :=
  [("operationId", JStr "up"); ("consumes", JList [JStr "multipart/form-data"]); ("parameters", JList [JDict q_form; JDict q_id; JDict q_file]);
   ("responses", JDict [("200", JDict [("description", JStr "ok")])])].
Definition pairs (l : list doc) : list (doc * doc) := map (fun q => (q, q)) l.
Lemma mixed_usable : Forall (fun pq => usable no_refs (snd pq)) (pairs [q_form; q_id; q_file]).
Proof.
  constructor; [right; left; doc_tac|]. constructor; [left; split; [doc_tac|reflexivity]|]. constructor; [right; left; doc_tac|constructor].
Qed.
Lemma mixed_at : params_at no_refs (val mixed_op "parameters") (pairs [q_form; q_id; q_file]).
Proof. split; [now right|]. repeat (constructor; [apply no_refs_refers; reflexivity|]). constructor. Qed.
Example C39_example : exists x b, loaded (BCls "Operation") (JDict mixed_op) (load "Operation" mixed_op) /\
  to_operation no_refs (load "Operation" mixed_op) None "/" [] [] = Ok (x, Some b) /\
  (exists k, lookup "parameters" x = Some (JList [JDict k]) /\ lookup "name" k = Some (JStr "id")) /\
  keys (body_properties "multipart/form-data" b) = ["n"; "f"] /\ body_required "multipart/form-data" b = [JStr "n"].
Proof. eexists _, _. split; [doc_tac|]. split; [vm_compute; reflexivity|]. split; [eexists; split; vm_compute; reflexivity|]. split; vm_compute; reflexivity. Qed.

(** ** C40: form parameters *)
Theorem C40_forms (deref : obj -> res obj) (d : doc) (o : obj) (ps : list (doc * doc)) (root : string) (pr cs : list string) (x : doc) (body : option doc) :
  loaded (BCls "Operation") (JDict d) o -> params_at deref (val d "parameters") ps -> Forall (fun pq => form_param (snd pq)) ps ->
  NoDup (map pname ps) -> Forall (fun pq => ~ query_array_only (val (snd pq) "collectionFormat")) ps ->
  to_operation deref o None root pr cs = Ok (x, body) ->
  let consumes := or_default (texts (val d "consumes")) cs in
  (body = None <-> ps = []) /\
  (forall t, body_holds t (filter (sends consumes t) ps) (old_body body)) /\
  lookup "required" (old_body body) = (if existsb (fun pq => required_param (snd pq)) ps then Some (JBool true) else None) /\
  (forall k, k <> "content" -> k <> "required" -> lookup k (old_body body) = None).
Proof. exact (forms_operation deref d o ps root pr cs x body). Qed.
(** it does not fail *)
Theorem C40_no_error (deref : obj -> res obj) (ps : list (doc * doc)) (os : list obj) (cs : list string) :
  form_given deref ps os -> NoDup (map pname ps) -> Forall (fun pq => ~ query_array_only (val (snd pq) "collectionFormat")) ps ->
  exists body, convert_params deref os 0 cs [] None = Ok ([], body, seq 0 (length ps)) /\ forall t, body_holds t (filter (sends cs t) ps) (old_body body).
Proof.
  intros G N Q. destruct (convert_forms deref ps os 0 cs [] None G body_ok_nil (conj (fun _ => eq_refl) (fun _ => eq_refl)) empty_holds eq_refl N Q) as (b & E & _ & _ & H & _). eauto.
Qed.
(** the same name twice, under a common media type *)
Theorem C40_duplicate (deref : obj -> res obj) (ps1 ps2 : list (doc * doc)) (pq1 pq2 : doc * doc) (os1 os2 os3 : list obj) (o1 o2 : obj) (cs : list string) (t : string) :
  usable_given deref ps1 os1 -> usable_given deref ps2 os2 -> param_given deref (fst pq1) (snd pq1) o1 -> param_given deref (fst pq2) (snd pq2) o2 ->
  form_param (snd pq1) -> form_param (snd pq2) -> pname pq1 = pname pq2 -> sent_as cs (snd pq1) t -> sent_as cs (snd pq2) t ->
  convert_params deref (os1 ++ o1 :: os2 ++ o2 :: os3) 0 cs [] None = Err SchemaError.
Proof. intros G1 G2 P1 P2 F1 F2 E S1 S2. exact (form_twice deref ps1 ps2 pq1 pq2 os1 o1 os2 o2 os3 0 cs [] None t G1 G2 P1 P2 F1 F2 E S1 S2 body_ok_nil). Qed.
Example C40_example : exists b, convert_params no_refs [load "Parameter" q_form; load "Parameter" q_file] 0 ["multipart/form-data"; "text/xml"] [] None = Ok ([], Some b, [0; 1]) /\
  form_param q_form /\ form_param q_file /\ keys (subd "content" b) = ["multipart/form-data"] /\ keys (body_properties "multipart/form-data" b) = ["n"; "f"] /\
  body_encoding "multipart/form-data" b = [("n", JDict [("contentType", JStr "text/plain")]); ("f", JDict [("contentType", JStr "application/octet-stream")])].
Proof. eexists. split; [vm_compute; reflexivity|]. split; [doc_tac|]. split; [doc_tac|]. repeat split; vm_compute; reflexivity. Qed.
(** without consumes a form and a file parameter have different default media types: no media type has both *)
Theorem C40_default_types_refuted : exists b, convert_params no_refs [load "Parameter" q_form; load "Parameter" q_file] 0 [] [] None = Ok ([], Some b, [0; 1]) /\
  keys (body_properties "application/x-www-form-urlencoded" b) = ["n"] /\ keys (body_properties "multipart/form-data" b) = ["f"].
Proof. eexists. split; [vm_compute; reflexivity|]. split; vm_compute; reflexivity. Qed.

(** ** C41: body parameters *)
(** a body parameter after any body, form or file parameter raises *)
Theorem C41_body_second (deref : obj -> res obj) (ps1 : list (doc * doc)) (p q : doc) (os1 os2 : list obj) (o : obj) (cs : list string) :
  usable_given deref ps1 os1 -> param_given deref p q o -> body_param q -> schema_resolves deref (val q "schema") false ->
  (exists pq, In pq ps1 /\ is_merged (snd pq) = true) ->
  convert_params deref (os1 ++ o :: os2) 0 cs [] None = Err SchemaError.
Proof.
  intros G Gp B R (pq & I & M). apply (body_after_merged deref ps1 p q os1 o os2 0 cs [] None G Gp B R body_ok_nil). right.
  destruct (no_merged ps1) eqn:N; [|reflexivity]. unfold no_merged in N. rewrite forallb_forall in N. apply N in I. rewrite M in I. discriminate.
Qed.
(** a form parameter is added to whatever the body is, unless its name is taken (or its collectionFormat has no counterpart) *)
Theorem C41_form_after (deref : obj -> res obj) (ps1 : list (doc * doc)) (p q : doc) (os1 : list obj) (o : obj) (cs : list string) (kept : list json) (body : option doc) (moved : list nat) (n : string) :
  usable_given deref ps1 os1 -> param_given deref p q o -> form_param q -> val q "name" = JStr n ->
  convert_params deref os1 0 cs [] None = Ok (kept, body, moved) ->
  (exists b, convert_params deref (os1 ++ [o]) 0 cs [] None = Ok (kept, Some b, moved ++ [length os1])%list /\ body_step cs p q n (old_body body) b /\ ~ body_clash cs q n (old_body body)) \/
  (convert_params deref (os1 ++ [o]) 0 cs [] None = Err SchemaError /\ body_clash cs q n (old_body body)).
Proof. intros G Gp F N H. exact (form_after deref ps1 p q o os1 [] 0 cs [] None kept body moved n G Gp F N body_ok_nil H). Qed.
(** nothing else goes wrong *)
Theorem C41_errors (deref : obj -> res obj) (ps : list (doc * doc)) (os : list obj) (cs : list string) :
  usable_given deref ps os -> (exists r, convert_params deref os 0 cs [] None = Ok r) \/ convert_params deref os 0 cs [] None = Err SchemaError.
Proof. intros G. exact (convert_params_total deref ps os 0 cs [] None G body_ok_nil). Qed.
Example C41_example :
  usable no_refs q_form /\ body_param q_body /\ schema_resolves no_refs (val q_body "schema") false /\
  convert_params no_refs [load "Parameter" q_form; load "Parameter" q_body] 0 [] [] None = Err SchemaError /\
  exists b, convert_params no_refs [load "Parameter" q_body; load "Parameter" q_form] 0 ["application/x-www-form-urlencoded"] [] None = Ok ([], Some b, [0; 1]) /\
    lookup "type" (subd "schema" (media "application/x-www-form-urlencoded" b)) = Some (JStr "object") /\ keys (body_properties "application/x-www-form-urlencoded" b) = ["n"].
Proof.
  split; [right; left; doc_tac|]. split; [doc_tac|]. split; [apply no_refs_schema; reflexivity|]. split; [vm_compute; reflexivity|]. eexists. split; [vm_compute; reflexivity|]. split; vm_compute; reflexivity.
Qed.

(** ** C42: the body of a path item is shared by its operations *)
(** one structure: the body of every operation is the one stored with the path item *)
Theorem C42_one_body (deref : obj -> res obj) (normalized_ref : obj -> res json) (d : doc) (o : obj) (ps : list (doc * doc)) (root : string) (cs pr : list string) (x : doc) (reloc : routes) (m : string) (od : doc) :
  loaded (BCls "PathItem") (JDict d) o -> params_at deref (val d "parameters") ps -> Forall (fun pq => param_doc (snd pq)) ps ->
  to_path_item deref normalized_ref o root cs pr = Ok (x, reloc) ->
  (exists pq, In pq ps /\ is_merged (snd pq) = true) -> In m methods -> val d m = JDict od ->
  exists y b, lookup m x = Some (JDict y) /\ lookup "requestBody" y = Some (JDict b) /\ lookup internal_body x = Some (JDict b).
Proof. exact (path_item_one_body deref normalized_ref d o ps root cs pr x reloc m od). Qed.
(** it has the form parameters of the path item and of all operations, whose names are therefore different *)
Theorem C42_shared (deref : obj -> res obj) (normalized_ref : obj -> res json) (d : doc) (o : obj) (ps : list (doc * doc)) (root : string) (cs pr : list string) (x : doc) (reloc : routes) :
  loaded (BCls "PathItem") (JDict d) o -> params_at deref (val d "parameters") ps -> Forall (fun pq => usable deref (snd pq)) ps -> no_merged ps = false -> ops_usable deref d ->
  to_path_item deref normalized_ref o root cs pr = Ok (x, reloc) ->
  exists b, lookup internal_body x = Some (JDict b) /\
    (forall pq t, In pq ps -> form_param (snd pq) -> sent_as cs (snd pq) t -> mem (pname pq) (body_properties t b) = true) /\
    (forall m od qs pq t, In m methods -> val d m = JDict od -> params_at deref (val od "parameters") qs -> Forall (fun pq => usable deref (snd pq)) qs -> In pq qs -> form_param (snd pq) ->
       sent_as (or_default (texts (val od "consumes")) cs) (snd pq) t ->
       mem (pname pq) (body_properties t b) = true /\
       (forall pq', In pq' ps -> form_param (snd pq') -> sent_as cs (snd pq') t -> pname pq' <> pname pq)) /\
    (forall m1 m2 od1 od2 ps1 ps2 pq1 pq2 t, In m1 methods -> In m2 methods -> m1 <> m2 -> val d m1 = JDict od1 -> val d m2 = JDict od2 ->
     params_at deref (val od1 "parameters") ps1 -> params_at deref (val od2 "parameters") ps2 -> Forall (fun pq => usable deref (snd pq)) ps1 -> Forall (fun pq => usable deref (snd pq)) ps2 ->
     In pq1 ps1 -> In pq2 ps2 -> form_param (snd pq1) -> form_param (snd pq2) ->
     sent_as (or_default (texts (val od1 "consumes")) cs) (snd pq1) t -> sent_as (or_default (texts (val od2 "consumes")) cs) (snd pq2) t -> pname pq1 <> pname pq2).
Proof. exact (path_item_shared deref normalized_ref d o ps root cs pr x reloc). Qed.
(** without merged parameters at the path item an operation is converted independently of the rest *)
Theorem C42_independent (deref : obj -> res obj) (normalized_ref : obj -> res json) (d1 d2 : doc) (path : option string) (o1 o2 : obj) (ps1 ps2 : list (doc * doc))
    (root : string) (cs pr : list string) (x1 x2 : doc) (r1 r2 : routes) (m : string) :
  construct v20_table (JDict d1) (BCls "PathItem") path [] = Ok o1 -> construct v20_table (JDict d2) (BCls "PathItem") path [] = Ok o2 ->
  params_at deref (val d1 "parameters") ps1 -> Forall (fun pq => param_doc (snd pq)) ps1 -> no_merged ps1 = true ->
  params_at deref (val d2 "parameters") ps2 -> Forall (fun pq => param_doc (snd pq)) ps2 -> no_merged ps2 = true ->
  to_path_item deref normalized_ref o1 root cs pr = Ok (x1, r1) -> to_path_item deref normalized_ref o2 root cs pr = Ok (x2, r2) ->
  In m methods -> val d1 m = val d2 m -> lookup m x1 = lookup m x2.
Proof. exact (path_item_independent deref normalized_ref d1 d2 path o1 o2 ps1 ps2 root cs pr x1 x2 r1 r2 m). Qed.
Definition form_named (n : string) : doc := [("name", JStr n); ("in", JStr "formData"); ("type", JStr "string")].
Definition op_with (l : list doc) : json := JDict [("parameters", JList (map JDict l)); ("responses", JDict [])].
Definition shared_item (get_name : string) : doc := [("parameters", JList [JDict (form_named "p")]); ("get", op_with [form_named get_name]); ("put", op_with [form_named "b"])].
Example C42_example : exists x reloc g b,
  loaded (BCls "PathItem") (JDict (shared_item "a")) (load "PathItem" (shared_item "a")) /\
  to_path_item no_refs no_normalized (load "PathItem" (shared_item "a")) "/" [] [] = Ok (x, reloc) /\
  lookup "get" x = Some (JDict g) /\ lookup "requestBody" g = Some (JDict b) /\ keys (body_properties "application/x-www-form-urlencoded" b) = ["p"; "a"; "b"].
Proof. eexists _, _, _, _. split; [doc_tac|]. split; [vm_compute; reflexivity|]. split; [vm_compute; reflexivity|]. split; vm_compute; reflexivity. Qed.
Lemma form_named_usable n : usable no_refs (form_named n) /\ refers no_refs "Parameter" (form_named n) (form_named n).
Proof.
  split; [|apply no_refs_refers; reflexivity]. right. left. split; [split; [now left|split; now left]|]. split; [reflexivity|]. split; [reflexivity|]. now exists n.
Qed.
Example C42_hypotheses : params_at no_refs (val (shared_item "a") "parameters") [(form_named "p", form_named "p")] /\ usable no_refs (form_named "p") /\ ops_usable no_refs (shared_item "a").
Proof.
  assert (A : forall n, params_at no_refs (val [("parameters", JList (map JDict [form_named n])); ("responses", JDict [])] "parameters") [(form_named n, form_named n)]).
  { intros n. split; [now right|]. constructor; [apply form_named_usable|constructor]. }
  split; [split; [now right|constructor; [apply form_named_usable|constructor]]|]. split; [apply form_named_usable|].
  intros m I. cbn in I. destruct I as [<-|[<-|[<-|[<-|[<-|[<-|[<-|[]]]]]]]]; try (now left);
    right; eexists; (split; [reflexivity|]); eexists; (split; [apply A|constructor; [apply form_named_usable|constructor]]).
Qed.
(** the same name in two operations *)
Theorem C42_same_name : to_path_item no_refs no_normalized (load "PathItem" (shared_item "b")) "/" [] [] = Err SchemaError.
Proof. vm_compute. reflexivity. Qed.

(** ** C43: media types *)
Theorem C43_file (consumes : list string) (t : string) :
  In t (valid_mime_types (mk_pctx true true false) consumes) <-> sent_with consumes file_media_types "multipart/form-data" t.
Proof. exact (mime_file consumes t). Qed.
Theorem C43_form (consumes : list string) (t : string) :
  In t (valid_mime_types (mk_pctx true false true) consumes) <-> sent_with consumes form_media_types "application/x-www-form-urlencoded" t.
Proof. exact (mime_only_form consumes t). Qed.
Theorem C43_body (consumes : list string) : valid_mime_types (mk_pctx true false false) consumes = body_media_types consumes.
Proof. destruct consumes; reflexivity. Qed.
Theorem C43_not_empty (kind : pctx) (consumes : list string) : valid_mime_types kind consumes <> [].
Proof. exact (mime_nonempty kind consumes). Qed.
Example C43_example :
  valid_mime_types (mk_pctx true true false) ["application/json"; "image/png"] = ["image/png"] /\
  valid_mime_types (mk_pctx true false true) ["application/json"] = ["application/x-www-form-urlencoded"] /\
  valid_mime_types (mk_pctx true false false) ["application/json"; "text/xml"] = ["application/json"; "text/xml"].
Proof. vm_compute. auto. Qed.

(** ** C44: responses *)
Theorem C44_response (deref : obj -> res obj) (p q : doc) (o : obj) (produces : list string) (x : doc) :
  response_given deref p q o -> response_doc q -> wf_json (JDict q) -> to_response deref o produces = Ok x -> response_result produces p q x.
Proof. exact (to_response_ok deref p q o produces x). Qed.
(** it fails only for a header with a collectionFormat that has no counterpart *)
Theorem C44_total (deref : obj -> res obj) (p q : doc) (o : obj) (produces : list string) :
  response_given deref p q o -> response_doc q -> wf_json (JDict q) ->
  (exists x, to_response deref o produces = Ok x) \/
  (to_response deref o produces = Err SchemaError /\ exists n h, lookup n (entries_of (val q "headers")) = Some (JDict h) /\ query_array_only (val h "collectionFormat")).
Proof. exact (to_response_total deref p q o produces). Qed.
Theorem C44_header (h : doc) (o : obj) (x : doc) :
  loaded (BCls "Header") (JDict h) o -> (val h "items" = JNull \/ items_doc (val h "items")) -> to_header o = Ok x -> header_image h x.
Proof. exact (to_header_ok h o x). Qed.
Definition response_ex : doc :=
  [("description", JStr "ok"); ("schema", JDict [("type", JStr "object")]); ("headers", JDict [("X-Rate", JDict [("type", JStr "integer")])])].
Example C44_example : exists x ct hs,
  response_doc response_ex /\ response_given no_refs response_ex response_ex (load "Response" response_ex) /\
  to_response no_refs (load "Response" response_ex) ["application/json"; "text/xml"] = Ok x /\
  lookup "content" x = Some (JDict ct) /\ keys ct = ["application/json"; "text/xml"] /\ lookup "headers" x = Some (JDict hs) /\ keys hs = ["X-Rate"].
Proof.
  eexists _, _, _. split; [split; [right; doc_tac|right; eexists; split; [reflexivity|]]|].
  { constructor; [|constructor]. eexists. split; [reflexivity|]. now left. }
  split; [exists (load "Response" response_ex); split; [reflexivity|]; split; [doc_tac|]; split; [intros v H; discriminate H|]; split; reflexivity|].
  split; [vm_compute; reflexivity|]. split; [vm_compute; reflexivity|]. split; [vm_compute; reflexivity|]. split; [vm_compute; reflexivity|vm_compute; reflexivity].
Qed.
(** the schema of a file is not under "schema": type and format are put into the media type object *)
Theorem C44_file_refuted : exists x m, to_response no_refs (load "Response" [("description", JStr "f"); ("schema", JDict [("type", JStr "file")])]) [] = Ok x /\
  subd "application/octet-stream" (subd "content" x) = m /\ lookup "type" m = Some (JStr "string") /\ lookup "schema" m = None.
Proof. eexists _, _. split; [vm_compute; reflexivity|]. split; [reflexivity|]. split; vm_compute; reflexivity. Qed.

(** ** C45: security schemes *)
Theorem C45_scheme (d : doc) (o : obj) (x : doc) :
  loaded (BCls "SecurityScheme") (JDict d) o -> to_security_scheme o = Ok x -> scheme_image d x.
Proof. exact (scheme_ok d o x). Qed.
Theorem C45_no_flow (d : doc) (o : obj) :
  loaded (BCls "SecurityScheme") (JDict d) o -> val d "type" = JStr "oauth2" -> val d "flow" = JNull \/ val d "flow" = JStr "" -> to_security_scheme o = Err SchemaError.
Proof. exact (scheme_no_flow d o). Qed.
(** in the OpenAPI 3.0 object only a flow whose name is unchanged in 3.0 can be seen *)
Theorem C45_visible_flow (d : doc) (o : obj) (x : doc) (s : obj) (path : option string) (f : string) :
  loaded (BCls "SecurityScheme") (JDict d) o -> val d "type" = JStr "oauth2" -> val d "flow" = JStr f ->
  to_security_scheme o = Ok x -> construct v30_table (JDict x) (BCls "SecurityScheme") path [] = Ok s ->
  exists flows, attr v30_table s "flows" = Ok flows /\
    forall g, In g ["implicit"; "password"; "clientCredentials"; "authorizationCode"] ->
      if String.eqb g f
      then exists q fl k, attr v30_table flows g = Ok (OObj "OAuthFlow" q (JDict fl) k) /\
             lookup "authorizationUrl" fl = non_null (val d "authorizationUrl") /\ lookup "tokenUrl" fl = non_null (val d "tokenUrl") /\ lookup "scopes" fl = some_dict (entries_of (val d "scopes"))
      else attr v30_table flows g = Ok (OPrim JNull).
Proof. exact (flow_visible d o x s path f). Qed.
(** such a flow without scopes cannot be loaded *)
Theorem C45_no_scopes (d : doc) (o : obj) (x : doc) (path : option string) (f : string) :
  loaded (BCls "SecurityScheme") (JDict d) o -> val d "type" = JStr "oauth2" -> val d "flow" = JStr f ->
  In f ["implicit"; "password"; "clientCredentials"; "authorizationCode"] -> entries_of (val d "scopes") = [] ->
  to_security_scheme o = Ok x -> forall s, construct v30_table (JDict x) (BCls "SecurityScheme") path [] <> Ok s.
Proof. exact (flow_no_scopes d o x path f). Qed.
Definition oauth (f : string) : doc :=
  [("type", JStr "oauth2"); ("description", JStr "d"); ("flow", JStr f); ("authorizationUrl", JStr "http://a"); ("tokenUrl", JStr "http://t"); ("scopes", JDict [("w", JStr "write")])].
Example C45_example : exists x s fs,
  loaded (BCls "SecurityScheme") (JDict (oauth "accessCode")) (load "SecurityScheme" (oauth "accessCode")) /\
  to_security_scheme (load "SecurityScheme" (oauth "accessCode")) = Ok x /\ construct v30_table (JDict x) (BCls "SecurityScheme") (Some "#") [] = Ok s /\
  attr v30_table s "flows" = Ok fs /\ attr v30_table fs "authorizationCode" = Ok (OPrim JNull) /\ attr v30_table fs "implicit" = Ok (OPrim JNull).
Proof. eexists _, _, _. split; [doc_tac|]. split; [vm_compute; reflexivity|]. split; [vm_compute; reflexivity|]. split; [vm_compute; reflexivity|]. split; vm_compute; reflexivity. Qed.
Example C45_password_example : exists x s fs fl,
  to_security_scheme (load "SecurityScheme" (oauth "password")) = Ok x /\ construct v30_table (JDict x) (BCls "SecurityScheme") (Some "#") [] = Ok s /\
  attr v30_table s "flows" = Ok fs /\ attr v30_table fs "password" = Ok fl /\ attr v30_table fl "tokenUrl" = Ok (OPrim (JStr "http://t")).
Proof. eexists _, _, _, _. split; [vm_compute; reflexivity|]. split; [vm_compute; reflexivity|]. split; [vm_compute; reflexivity|]. split; vm_compute; reflexivity. Qed.
Theorem C45_basic : exists x, to_security_scheme (load "SecurityScheme" [("type", JStr "basic")]) = Ok x /\ lookup "type" x = Some (JStr "basic").
Proof. eexists. split; vm_compute; reflexivity. Qed.

Print Assumptions C36_table. Print Assumptions C36_raises. Print Assumptions C36_same_wire. Print Assumptions C36_parameter. Print Assumptions C36_parameter_total.
Print Assumptions C37_schema. Print Assumptions C37_every_depth. Print Assumptions C38_validation. Print Assumptions C38_images.
Print Assumptions C39_kept. Print Assumptions C39_form_in_body. Print Assumptions C39_body. Print Assumptions C39_loop.
Print Assumptions C40_forms. Print Assumptions C40_no_error. Print Assumptions C40_duplicate. Print Assumptions C41_body_second. Print Assumptions C41_form_after. Print Assumptions C41_errors.
Print Assumptions C42_one_body. Print Assumptions C42_shared. Print Assumptions C42_independent. Print Assumptions C43_file. Print Assumptions C43_form. Print Assumptions C43_body. Print Assumptions C43_not_empty.
Print Assumptions C44_response. Print Assumptions C44_total. Print Assumptions C44_header. Print Assumptions C45_scheme. Print Assumptions C45_no_flow. Print Assumptions C45_visible_flow. Print Assumptions C45_no_scopes.
