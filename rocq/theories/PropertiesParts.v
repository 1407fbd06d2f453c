(** * Property C76: conversion of single objects from 2.0 to 3.0.0, and of documents parts of which were converted before.
    versions/v3_0_0/main.py:17-46, versions/v2_0/scanner/upgrade/converters.py, obj.py:129-181. *)
From Coq Require Import String Ascii List Bool Arith.
From Verif Require Import PyStr PyVal Obj Classes_v2_0 Classes_v3_0_0 SpecJson SpecObj SpecOverride SpecSchema SpecConv SpecBody SpecOp SpecDoc SpecGiven SpecMigrate SpecTables Store App Conv20 Up30 Whole SpecOpen
  ConvFacts PropertiesObjAux PropertiesConvAux PropertiesConv1 PropertiesConv2 PropertiesMigrate PropertiesRewrite PropertiesLocal PropertiesWhole PartsFacts.
Import ListNotations.
Open Scope string_scope. Open Scope nat_scope.
Notation within := SpecObj.within (only parsing).

(** ** C76: a reference to a License, Info, Schema or PathItem object of a 2.0 document, asked for at 3.0.0, gives the 3.0.0
    object of the same class at the given pointer, with the content the conversion of the whole document would give it
    (see the theorems _refuted for the exceptions) *)
Theorem C76_license (deref : obj -> res obj) (normalized_ref : obj -> res json) (d : doc) (o : obj) (url jp : string) : loaded (BCls "License") (JDict d) o ->
  exists x r, conversion20 deref normalized_ref (mk_sobj "2.0" o []) url jp [] = Ok (mk_sobj "3.0.0" r [], []) /\ license_image d x /\ construct v30_table (JDict x) (BCls "License") (Some jp) [] = Ok r.
Proof. exact (conv_license deref normalized_ref d o url jp). Qed.
Theorem C76_info (deref : obj -> res obj) (normalized_ref : obj -> res json) (d : doc) (o : obj) (url jp : string) :
  loaded (BCls "Info") (JDict d) o -> object_or_null (val d "contact") -> object_or_null (val d "license") ->
  exists x r, conversion20 deref normalized_ref (mk_sobj "2.0" o []) url jp [] = Ok (mk_sobj "3.0.0" r [], []) /\ info_image d x /\ construct v30_table (JDict x) (BCls "Info") (Some jp) [] = Ok r.
Proof. exact (conv_info deref normalized_ref d o url jp). Qed.
Theorem C76_schema (deref : obj -> res obj) (normalized_ref : obj -> res json) (d : doc) (o : obj) (url jp : string) :
  loaded (BCls "Schema") (JDict d) o -> wf_json (JDict d) -> schema_doc (JDict d) ->
  exists x r, conversion20 deref normalized_ref (mk_sobj "2.0" o []) url jp [] = Ok (mk_sobj "3.0.0" r [], []) /\ schema_image (JDict d) (JDict x) /\
    construct v30_table (JDict x) (BCls "Schema") (Some jp) [] = Ok r.
Proof. exact (conv_schema deref normalized_ref d o url jp). Qed.
(** a path item: converted as in a document without "consumes" and "produces" (C39-C44 describe [to_path_item]) *)
Theorem C76_path_item (deref : obj -> res obj) (normalized_ref : obj -> res json) (d : doc) (o : obj) (ps : list (doc * doc)) (ops : list request) (url jp : string) :
  loaded (BCls "PathItem") (JDict d) o -> wf_json (JDict d) -> path_given deref d ps ops -> expressible ps ops -> (truthy (val d "$ref") = true -> exists n, normalized_ref o = Ok n) ->
  exists x reloc r, conversion20 deref normalized_ref (mk_sobj "2.0" o []) url jp [] = Ok (mk_sobj "3.0.0" r [], reloc) /\
    to_path_item deref normalized_ref o url [] [] = Ok (x, reloc) /\ construct v30_table (JDict x) (BCls "PathItem") (Some jp) [] = Ok r.
Proof. exact (conv_path deref normalized_ref d o ps ops url jp). Qed.
(** no other object of a 2.0 document can be had at 3.0.0 by itself *)
Theorem C76_no_others (deref : obj -> res obj) (normalized_ref : obj -> res json) (o r : sobj) (url jp : string) (ovr : override) (reloc : routes) :
  conversion20 deref normalized_ref o url jp ovr = Ok (r, reloc) -> exists c p s kids, so_obj o = OObj c p s kids /\ In c ["Swagger"; "License"; "Info"; "Schema"; "PathItem"].
Proof.
  unfold conversion20. destruct (upgrade30_over deref normalized_ref (so_obj o) url jp ovr) as [x|] eqn:E; [|discriminate]. intros _. exact (only_these _ _ _ _ _ _ _ E).
Qed.

(** ** objects that were converted before, at the locations [L] below the pointer of the object, are kept: the new object has
    these objects there; apart from them it is the one which the conversion without them gives *)
Theorem C76_reuse (deref : obj -> res obj) (normalized_ref : obj -> res json) (c : string) (p : option string) (s : json) (kids : list (string * obj)) (url jp : string) (L : locations) (r0 r : sobj) (reloc0 reloc : routes) :
  In c ["Swagger"; "License"; "Info"; "Schema"] -> well_given L ->
  conversion20 deref normalized_ref (mk_sobj "2.0" (OObj c p s kids) []) url jp [] = Ok (r0, reloc0) ->
  conversion20 deref normalized_ref (mk_sobj "2.0" (OObj c p s kids) []) url jp (override_of L) = Ok (r, reloc) ->
  reloc = reloc0 /\
  (forall us x, In (us, x) L -> place v30_table (so_obj r0) us -> within (so_obj r) us x) /\
  (forall ts v, (forall us x, In (us, x) L -> apart us ts) -> within (so_obj r0) ts v <-> within (so_obj r) ts v) /\
  (forall ts v, (forall us x, In (us, x) L -> ~ prefix us ts) -> within (so_obj r0) ts v -> exists v', within (so_obj r) ts v' /\ same_node v v').
Proof. exact (conv_reuse deref normalized_ref c p s kids url jp L r0 reloc0 r reloc). Qed.
(** and the conversion succeeds if it does without them *)
Theorem C76_reuse_total (deref : obj -> res obj) (normalized_ref : obj -> res json) (c : string) (p : option string) (s : json) (kids : list (string * obj)) (url jp : string) (L : locations) (r0 : sobj) (reloc0 : routes) :
  In c ["Swagger"; "License"; "Info"; "Schema"] -> well_given L -> wf_obj (OObj c p s kids) ->
  (forall o x, wf_obj o -> deref o = Ok x -> wf_obj x) -> (forall o x, wf_obj o -> normalized_ref o = Ok x -> wf_json x) ->
  conversion20 deref normalized_ref (mk_sobj "2.0" (OObj c p s kids) []) url jp [] = Ok (r0, reloc0) -> (forall us x, In (us, x) L -> place v30_table (so_obj r0) us) ->
  exists r, conversion20 deref normalized_ref (mk_sobj "2.0" (OObj c p s kids) []) url jp (override_of L) = Ok (r, reloc0).
Proof. exact (conv_reuse_total deref normalized_ref c p s kids url jp L r0 reloc0). Qed.

(** the document of C74, a schema of which was converted before *)
Definition pet30 : obj := built_or (construct v30_table (JDict [("title", JStr "converted before")]) (BCls "Schema") (Some "#/components/schemas/Pet") []).
Definition pet_given : locations := [(["components"; "schemas"; "Pet"], pet30)].
Example C76_reuse_case : exists r0 r reloc,
  well_given pet_given /\
  conversion20 shop_deref no_normalized (mk_sobj "2.0" shop_root []) "http://h/d/a.json" "#" [] = Ok (r0, reloc) /\
  conversion20 shop_deref no_normalized (mk_sobj "2.0" shop_root []) "http://h/d/a.json" "#" (override_of pet_given) = Ok (r, reloc) /\
  place v30_table (so_obj r0) ["components"; "schemas"; "Pet"] /\ within (so_obj r) ["components"; "schemas"; "Pet"] pet30.
Proof.
  exists (match conversion20 shop_deref no_normalized (mk_sobj "2.0" shop_root []) "http://h/d/a.json" "#" [] with Ok x => fst x | Err _ => mk_sobj "" (OPrim JNull) [] end),
    (match conversion20 shop_deref no_normalized (mk_sobj "2.0" shop_root []) "http://h/d/a.json" "#" (override_of pet_given) with Ok x => fst x | Err _ => mk_sobj "" (OPrim JNull) [] end),
    (match conversion20 shop_deref no_normalized (mk_sobj "2.0" shop_root []) "http://h/d/a.json" "#" [] with Ok x => snd x | Err _ => [] end).
  split.
  { split; [|repeat constructor]. intros us x [E|[]]. injection E as <- <-. split; [discriminate|]. split; [|vm_compute; reflexivity].
    intros t It. assert (H : forall c, In c (list_ascii_of_string t) -> c <> "/"%char /\ c <> "~"%char) by (repeat (destruct It as [<-|It]; [cbn; intuition (subst; discriminate)|]); destruct It).
    split; [repeat (destruct It as [<-|It]; [discriminate|]); destruct It|]. intros a b. split; intros ->.
    - destruct (H "/"%char) as [Z _]; [|now apply Z]. clear. induction a as [|z a IH]; cbn; auto.
    - destruct (H "~"%char) as [_ Z]; [|now apply Z]. clear. induction a as [|z a IH]; cbn; auto. }
  split; [vm_compute; reflexivity|]. split; [vm_compute; reflexivity|].
  split; [eapply pl_exists|]; apply walk_within; vm_compute; reflexivity.
Qed.
(** a path item does not keep what was converted before *)
Theorem C76_path_item_reuse_refuted : exists o x r reloc,
  conversion20 no_refs no_normalized (mk_sobj "2.0" o []) "http://h/a.json" "#/paths/~1a" (override_of [(["get"], x)]) = Ok (r, reloc) /\
  place v30_table (so_obj r) ["get"] /\ ~ within (so_obj r) ["get"] x.
Proof.
  pose (x := built_or (construct v30_table (JDict [("summary", JStr "before"); ("responses", JDict [])]) (BCls "Operation") (Some "#/paths/~1a/get") [])).
  pose (o := load "PathItem" [("get", JDict [("responses", JDict [])])]).
  exists o, x, (match conversion20 no_refs no_normalized (mk_sobj "2.0" o []) "http://h/a.json" "#/paths/~1a" [] with Ok r => fst r | Err _ => mk_sobj "" (OPrim JNull) [] end),
    (match conversion20 no_refs no_normalized (mk_sobj "2.0" o []) "http://h/a.json" "#/paths/~1a" [] with Ok r => snd r | Err _ => [] end).
  split; [vm_compute; reflexivity|].
  match goal with |- place _ ?r _ /\ ~ within _ _ ?y => let r' := eval vm_compute in r in let y' := eval vm_compute in y in change (place v30_table r' ["get"] /\ ~ within r' ["get"] y') end.
  split; [eapply pl_exists; apply walk_within; reflexivity|]. intros W.
  inversion W as [|? ? ? ? ? ? ? ? L W'| |]; subst. cbn in L. injection L as <-. inversion W'.
Qed.
(** a path item by itself loses the "consumes" and "produces" of the document *)
Definition csv_path : doc := [("get", JDict [("responses", JDict [("200", JDict [("description", JStr "ok"); ("schema", JDict [("type", JStr "string")])])])])].
Definition csv_doc : doc := [("swagger", JStr "2.0"); ("produces", JList [JStr "text/csv"]); ("paths", JDict [("/a", JDict csv_path)])].
Theorem C76_path_item_media_refuted : exists whole alone reloc reloc',
  conversion20 no_refs no_normalized (mk_sobj "2.0" (load "Swagger" csv_doc) []) "http://h/a.json" "#" [] = Ok (mk_sobj "3.0.0" whole [], reloc) /\
  conversion20 no_refs no_normalized (mk_sobj "2.0" (load "PathItem" csv_path) []) "http://h/a.json" "#/paths/~1a" [] = Ok (mk_sobj "3.0.0" alone [], reloc') /\
  (exists y, within whole ["paths"; "/a"; "get"; "responses"; "200"; "content"; "text/csv"] y) /\
  (exists y, within alone ["get"; "responses"; "200"; "content"; "text/plain"] y).
Proof.
  exists (match conversion20 no_refs no_normalized (mk_sobj "2.0" (load "Swagger" csv_doc) []) "http://h/a.json" "#" [] with Ok x => so_obj (fst x) | Err _ => OPrim JNull end),
    (match conversion20 no_refs no_normalized (mk_sobj "2.0" (load "PathItem" csv_path) []) "http://h/a.json" "#/paths/~1a" [] with Ok x => so_obj (fst x) | Err _ => OPrim JNull end).
  do 2 eexists. split; [vm_compute; reflexivity|]. split; [vm_compute; reflexivity|]. split; eexists; apply walk_within; vm_compute; reflexivity.
Qed.
(** and the servers of its operations are at the address of the document instead of the host of the API *)
Definition tls_path : doc := [("get", JDict [("schemes", JList [JStr "https"]); ("responses", JDict [])])].
Definition tls_doc : doc := [("swagger", JStr "2.0"); ("host", JStr "api.com"); ("basePath", JStr "/v1"); ("paths", JDict [("/a", JDict tls_path)])].
Theorem C76_path_item_server_refuted : exists whole alone reloc reloc',
  conversion20 no_refs no_normalized (mk_sobj "2.0" (load "Swagger" tls_doc) []) "http://h/a.json" "#" [] = Ok (mk_sobj "3.0.0" whole [], reloc) /\
  conversion20 no_refs no_normalized (mk_sobj "2.0" (load "PathItem" tls_path) []) "http://h/a.json" "#/paths/~1a" [] = Ok (mk_sobj "3.0.0" alone [], reloc') /\
  (exists b p y, within whole ["paths"; "/a"; "get"; "servers"] (OList b p [y]) /\ attr v30_table y "url" = Ok (OPrim (JStr "https://api.com/v1"))) /\
  (exists b p y, within alone ["get"; "servers"] (OList b p [y]) /\ attr v30_table y "url" = Ok (OPrim (JStr "https://h/a.json"))).
Proof.
  exists (match conversion20 no_refs no_normalized (mk_sobj "2.0" (load "Swagger" tls_doc) []) "http://h/a.json" "#" [] with Ok x => so_obj (fst x) | Err _ => OPrim JNull end),
    (match conversion20 no_refs no_normalized (mk_sobj "2.0" (load "PathItem" tls_path) []) "http://h/a.json" "#/paths/~1a" [] with Ok x => so_obj (fst x) | Err _ => OPrim JNull end).
  do 2 eexists. split; [vm_compute; reflexivity|]. split; [vm_compute; reflexivity|]. split; do 3 eexists; (split; [apply walk_within; vm_compute; reflexivity|vm_compute; reflexivity]).
Qed.
(** a schema that is a reference becomes a Schema object without the reference *)
Theorem C76_alias_refuted : exists r,
  conversion20 no_refs no_normalized (mk_sobj "2.0" (load "Schema" [("$ref", JStr "#/definitions/Pet")]) []) "http://h/a.json" "#/definitions/Alias" [] = Ok (mk_sobj "3.0.0" r [], []) /\
  (exists p s k, r = OObj "Schema" p s k) /\ attr v30_table r "ref" = Err AttributeError /\ dump v30_table r = Ok (JDict []).
Proof.
  exists (match conversion20 no_refs no_normalized (mk_sobj "2.0" (load "Schema" [("$ref", JStr "#/definitions/Pet")]) []) "http://h/a.json" "#/definitions/Alias" [] with Ok x => so_obj (fst x) | Err _ => OPrim JNull end).
  split; [vm_compute; reflexivity|]. split; [do 3 eexists; vm_compute; reflexivity|]. split; vm_compute; reflexivity.
Qed.
Print Assumptions C76_license. Print Assumptions C76_info. Print Assumptions C76_schema. Print Assumptions C76_path_item. Print Assumptions C76_no_others.
Print Assumptions C76_reuse. Print Assumptions C76_reuse_total. Print Assumptions C76_path_item_reuse_refuted. Print Assumptions C76_path_item_media_refuted. Print Assumptions C76_alias_refuted. Print Assumptions C76_path_item_server_refuted.
