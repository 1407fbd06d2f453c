(** * Property C69: the references of a document are resolved when it is opened.
    versions/v2_0/main.py, versions/v3_0_0/main.py and the scanners [NormalizeRef] and [Resolve]. *)
From Coq Require Import String Ascii List Bool Arith.
From Verif Require Import PyStr PyVal Jp UrlLib Urls Obj Classes_v2_0 Classes_v3_0_0 SpecJson SpecObj SpecScan PropertiesObjAux PropertiesScanAux
  Store SpecStore App SpecApp AppFacts4 Main SpecRefs RefFacts PropertiesApp.
Import ListNotations.
Open Scope string_scope. Open Scope nat_scope.

(** ** C69: if the upgrade module of 2.0 succeeds for a loaded document, then every schema, path item or
    Reference in it, however deep, that has a "$ref" was resolved: the normalised reference was asked
    for, with a parser for what may stand at that place, and the answer was an object.  [ask] is any
    [resolve_obj]; [requests] is the list of its answered calls. *)
Theorem C69_references_20 (ask : query -> M (sobj * string)) (path2url abspath : string -> string) (app_url : string) (fuel : nat)
    (from12 : sobj -> res sobj) (o : sobj) (jref : string) (a a' : app) (r : sobj * routes)
    (j : json) (c : string) (p : option string) (url jp : string)
    (ts : list string) (cx : string) (px : option string) (d : list (string * json)) (kids : list (string * obj)) (ref : string) :
  so_version o = "2.0" -> wf_json j -> construct v20_table j (BCls c) p [] = Ok (so_obj o) -> c <> "Reference" ->
  split path2url abspath jref = Ok (url, jp) ->
  run ask (upgrade20 path2url abspath app_url fuel from12 o jref) a = (a', Ok r) ->
  within (so_obj o) ts (OObj cx px (JDict d) kids) -> In cx ["Schema"; "PathItem"; "Reference"] ->
  lookup "$ref" d = Some (JStr ref) -> ref <> "" ->
  exists n b a0 y new, normalize_jr (Some ref) (Some url) = Ok (Some n) /\ expected_at v20_table (so_obj o) ts cx b /\
    In (a0, mk_query n "2.0" (Some ("2.0", b)) None true, (y, new))
       (requests ask (upgrade20 path2url abspath app_url fuel from12 o jref) a) /\
    so_truthy y = true.
Proof. exact (references_20 ask path2url abspath app_url fuel from12 o jref a a' r j c p url jp ts cx px d kids ref). Qed.

(** the same for a document loaded as 3.0.0: path items and References.  [unmixed] excludes callbacks
    whose keys collide (see C26_mixed_refuted).  The reference is resolved from 3.0.0 if the original
    document is of 3.0.0, else from 2.0. *)
Theorem C69_references_30 (ask : query -> M (sobj * string)) (path2url abspath : string -> string) (app_url : string) (fuel : nat)
    (from20 : sobj -> string -> string -> override -> res (sobj * routes)) (o : sobj) (jref : string) (a a' : app) (r : sobj * routes)
    (j : json) (c : string) (p : option string) (url jp : string)
    (ts : list string) (cx : string) (px : option string) (d : list (string * json)) (kids : list (string * obj)) (ref : string) :
  so_version o = "3.0.0" -> wf_json j -> construct v30_table j (BCls c) p [] = Ok (so_obj o) -> unmixed (so_obj o) -> c <> "Reference" ->
  split path2url abspath jref = Ok (url, jp) ->
  run ask (upgrade300 path2url abspath app_url fuel from20 o jref) a = (a', Ok r) ->
  within (so_obj o) ts (OObj cx px (JDict d) kids) -> In cx ["PathItem"; "Reference"] ->
  lookup "$ref" d = Some (JStr ref) -> ref <> "" ->
  exists n b a0 y new, normalize_jr (Some ref) (Some url) = Ok (Some n) /\ expected_at v30_table (so_obj o) ts cx b /\
    In (a0, mk_query n (if String.eqb (a_original a0) "3.0.0" then "3.0.0" else "2.0") (Some ("3.0.0", b)) (Some "3.0.0") true, (y, new))
       (requests ask (upgrade300 path2url abspath app_url fuel from20 o jref) a) /\
    so_truthy y = true.
Proof. exact (references_30 ask path2url abspath app_url fuel from20 o jref a a' r j c p url jp ts cx px d kids ref). Qed.

(** and for the 3.0.0 object made from a 2.0 object by any conversion; [found] are the objects stored
    before for places under this one, which the conversion is given as overriding objects *)
Theorem C69_references_converted (ask : query -> M (sobj * string)) (path2url abspath : string -> string) (app_url : string) (fuel : nat)
    (from20 : sobj -> string -> string -> override -> res (sobj * routes)) (o o' : sobj) (reloc : routes) (found : option (list (string * sobj)))
    (jref : string) (a a' : app) (r : sobj * routes)
    (j : json) (c : string) (p : option string) (url jp : string)
    (ts : list string) (cx : string) (px : option string) (d : list (string * json)) (kids : list (string * obj)) (ref : string) :
  so_version o = "2.0" -> snd (store_get_under (a_store a) url jp "3.0.0" false) = Ok found -> from20 o url jp (overrides found) = Ok (o', reloc) ->
  wf_json j -> construct v30_table j (BCls c) p [] = Ok (so_obj o') -> unmixed (so_obj o') -> c <> "Reference" ->
  split path2url abspath jref = Ok (url, jp) ->
  run ask (upgrade300 path2url abspath app_url fuel from20 o jref) a = (a', Ok r) ->
  within (so_obj o') ts (OObj cx px (JDict d) kids) -> In cx ["PathItem"; "Reference"] ->
  lookup "$ref" d = Some (JStr ref) -> ref <> "" ->
  exists n b a0 y new, normalize_jr (Some ref) (Some url) = Ok (Some n) /\ expected_at v30_table (so_obj o') ts cx b /\
    In (a0, mk_query n (if String.eqb (a_original a0) "3.0.0" then "3.0.0" else "2.0") (Some ("3.0.0", b)) (Some "3.0.0") true, (y, new))
       (requests ask (upgrade300 path2url abspath app_url fuel from20 o jref) a) /\
    so_truthy y = true.
Proof. exact (references_converted ask path2url abspath app_url fuel from20 o o' reloc found jref a a' r j c p url jp ts cx px d kids ref). Qed.

(** the hypotheses can be met: the document of C60 with a path item and two schemas that refer to
    another document, which refers back; the reference within a schema's property *)
Definition no12 : sobj -> res sobj := fun _ => Err PyException.
Definition no20 : sobj -> string -> string -> override -> res (sobj * routes) := fun _ _ _ _ => Err PyException.
Definition ex_main (fetch : string -> res json) : query -> M (sobj * string) :=
  resolve_obj same same "" ex_known fetch (modules same same "" 5 no12 no20) (fun o _ => Ok o) 11.
Example C69_case_20 :
  exists root a r px d kids,
    wf_json doc_a /\ construct v20_table doc_a (BCls "Swagger") (Some "http://h/d/a.json") [] = Ok root /\
    split same same "http://h/d/a.json" = Ok ("http://h/d/a.json", "#") /\
    run (ex_main ex_fetch) (upgrade20 same same "" 5 no12 (mk_sobj "2.0" root []) "http://h/d/a.json")
        (fst (load_obj same same ex_fetch "http://h/d/a.json" None false (fresh_app ex_known))) = (a, Ok r) /\
    within root ["definitions"; "A"; "properties"; "b"] (OObj "Schema" px (JDict d) kids) /\
    lookup "$ref" d = Some (JStr "b.json#/definitions/B") /\
    normalize_jr (Some "b.json#/definitions/B") (Some "http://h/d/a.json") = Ok (Some "http://h/d/b.json#/definitions/B").
Proof.
  do 6 eexists. split; [exact (wf_jsonb_ok doc_a eq_refl)|]. split; [vm_compute; reflexivity|]. split; [vm_compute; reflexivity|].
  split; [vm_compute; reflexivity|].
  split; [repeat (eapply wi_child; [reflexivity|]); repeat (eapply wi_key; [reflexivity|]); repeat (eapply wi_child; [reflexivity|]); repeat (eapply wi_key; [reflexivity|]); apply wi_here|].
  split; vm_compute; reflexivity.
Qed.
(** a 3.0.0 document with a Reference among the parameters of an operation and one in a media type *)
Definition doc_3 : json := JDict [("openapi", JStr "3.0.0"); ("info", JDict [("title", JStr "t"); ("version", JStr "1")]);
  ("paths", JDict [("/p", JDict [("get", JDict [
     ("parameters", JList [JDict [("$ref", JStr "#/components/parameters/q")]]);
     ("responses", JDict [("200", JDict [("description", JStr "ok"); ("content", JDict [("application/json", JDict [("schema", JDict [("$ref", JStr "#/components/schemas/S")])])])])])])])]);
  ("components", JDict [("parameters", JDict [("q", JDict [("name", JStr "q"); ("in", JStr "query")])]); ("schemas", JDict [("S", JDict [("type", JStr "string")])])])].
Definition fetch_3 (j : string) : res json := if String.eqb j "http://h/d/c.json" then Ok doc_3 else Err KeyError.
Example C69_case_30 :
  exists root a r px px' d d' kids kids',
    wf_json doc_3 /\ construct v30_table doc_3 (BCls "OpenApi") (Some "http://h/d/c.json") [] = Ok root /\ unmixed root /\
    split same same "http://h/d/c.json" = Ok ("http://h/d/c.json", "#") /\
    run (ex_main fetch_3) (upgrade300 same same "" 5 no20 (mk_sobj "3.0.0" root []) "http://h/d/c.json")
        (fst (load_obj same same fetch_3 "http://h/d/c.json" None false (fresh_app ex_known))) = (a, Ok r) /\
    within root ["paths"; "/p"; "get"; "parameters"; "0"] (OObj "Reference" px (JDict d) kids) /\
    lookup "$ref" d = Some (JStr "#/components/parameters/q") /\
    within root ["paths"; "/p"; "get"; "responses"; "200"; "content"; "application/json"; "schema"] (OObj "Reference" px' (JDict d') kids') /\
    lookup "$ref" d' = Some (JStr "#/components/schemas/S") /\
    normalize_jr (Some "#/components/parameters/q") (Some "http://h/d/c.json") = Ok (Some "http://h/d/c.json#/components/parameters/q").
Proof.
  do 9 eexists. split; [exact (wf_jsonb_ok doc_3 eq_refl)|]. split; [vm_compute; reflexivity|]. split; [apply unmixedb_ok; vm_compute; reflexivity|].
  split; [vm_compute; reflexivity|]. split; [vm_compute; reflexivity|].
  split; [eapply wi_child; [reflexivity|]; eapply wi_key; [reflexivity|]; eapply wi_child; [reflexivity|]; eapply wi_child; [reflexivity|];
          eapply (wi_index _ _ _ 0); [reflexivity|reflexivity|apply wi_here]|].
  split; [vm_compute; reflexivity|].
  split; [eapply wi_child; [reflexivity|]; eapply wi_key; [reflexivity|]; eapply wi_child; [reflexivity|]; eapply wi_child; [reflexivity|];
          eapply wi_key; [reflexivity|]; eapply wi_child; [reflexivity|]; eapply wi_key; [reflexivity|]; eapply wi_child; [reflexivity|]; apply wi_here|].
  split; vm_compute; reflexivity.
Qed.
(** the condition on the class of the root is needed: when a Reference stands alone as a document (an
    external reference that leads to another reference), the module succeeds without resolving it *)
Definition lone : sobj := mk_sobj "2.0" (OObj "Reference" (Some "http://h/d/a.json#/parameters/p") (JDict [("$ref", JStr "nowhere.json#/parameters/x")]) []) [].
Theorem C69_root_reference_refuted :
  construct v20_table (JDict [("$ref", JStr "nowhere.json#/parameters/x")]) (BCls "Reference") (Some "http://h/d/a.json#/parameters/p") [] = Ok (so_obj lone) /\
  snd (run (ex_main ex_fetch) (upgrade20 same same "" 5 no12 lone "http://h/d/a.json#/parameters/p") (fresh_app ex_known)) = Ok (lone, []) /\
  requests (ex_main ex_fetch) (upgrade20 same same "" 5 no12 lone "http://h/d/a.json#/parameters/p") (fresh_app ex_known) = [].
Proof. vm_compute. auto. Qed.
Print Assumptions C69_references_20.
Print Assumptions C69_references_30.
Print Assumptions C69_references_converted.
