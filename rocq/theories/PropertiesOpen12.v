(** * Properties C83, C84: Swagger 1.2 applications that open at Swagger 2.0 and at OpenAPI 3.0, by conditions on the documents alone.
    base.py:123-332, versions/v1_2/main.py, versions/v1_2/scanner/upgrade.py, versions/v2_0/main.py, versions/v3_0_0/main.py. *)
From Coq Require Import String Ascii List Bool Arith ZArith.
From Verif Require Import PyStr PyVal PyValFacts Jp UrlLib UrlFacts Urls SpecUrl Obj Classes_v1_2 Classes_v2_0 Classes_v3_0_0 SpecJson SpecObj SpecScan PropertiesObjAux Store App SpecApp AppFacts4 Main SpecDoc SpecRefs SpecLocal RewriteFacts SpecOpen Conv20 Up30 Whole Follow
  SpecFollow Up12 SpecUp12 SpecOpen12 Up12Facts2 Up12Facts8 Open12Facts2 Check12 PropertiesApp PropertiesUp12 PropertiesLocal PropertiesRewrite.
From Verif Require SpecOpen.
Import ListNotations.
Open Scope string_scope. Open Scope nat_scope.
Notation within := SpecObj.within (only parsing).

(** ** C83: an application of a listing and its API declarations, that can be converted ([good12], C68), without repeated keys,
    in which all types that are used are primitive or defined, opens at 2.0.  The result is the object made by the
    conversion (C54 - C59, C66 say what is in it); all its references point to objects in it. *)
Theorem C83_opens (path2url abspath : string -> string) (app_url : string) (fetch : string -> res json) (merge_fuel f : nat) (sep : string)
    (from20 : sobj -> string -> string -> override -> res (sobj * routes)) (scheme host path query : string) (d : doc) (ds : list (string * json)) :
  clean_url scheme host path query -> let url := abs_url scheme host path query in
  fetch url = Ok (JDict d) -> SpecApp.declares d (JStr "1.2") -> application fetch url d ds -> written (JDict d) ds ->
  good12 (JDict d) ds -> distinct12 (JDict d) ds -> closed12 sep ds ->
  (exists c, c <> "" /\ common_prefix (map full_path (all_sites ds)) c) ->
  exists listing apis root a,
    app_made (JDict d) ds listing apis /\ upgrade12 sep listing apis = Ok root /\
    open_document path2url abspath app_url ["1.2"; "2.0"; "3.0.0"] fetch (modules path2url abspath app_url merge_fuel (conversion12 sep) from20) (fun o _ => Ok o)
      "2.0" (S f) url (fresh_app ["1.2"; "2.0"; "3.0.0"]) = (a, Ok (mk_sobj "2.0" root [])) /\
    self_contained "2.0" root.
Proof.
  intros CU url FE DE AP WR GD DI CL PX. destruct (opens_12_20 path2url abspath app_url fetch merge_fuel f sep from20 scheme host path query d ds CU FE DE AP WR GD DI PX CL) as (listing & apis & a & root & AM & UP & OP & SC).
  exists listing, apis, root, a. auto.
Qed.

(** ** C84: such an application opens at 3.0.0, too, if "$ref" is used for references only, OpenAPI 3.0 can express its
    requests and authorizations, and no path looks like an extension *)
Theorem C84_opens (path2url abspath : string -> string) (app_url : string) (fetch : string -> res json) (merge_fuel f : nat) (sep : string)
    (scheme host path query : string) (d : doc) (ds : list (string * json)) :
  clean_url scheme host path query -> let url := abs_url scheme host path query in
  fetch url = Ok (JDict d) -> SpecApp.declares d (JStr "1.2") -> application fetch url d ds -> written (JDict d) ds ->
  good12 (JDict d) ds -> distinct12 (JDict d) ds -> closed12 sep ds ->
  (exists c, c <> "" /\ common_prefix (map full_path (all_sites ds)) c) ->
  tidy12 sep (JDict d) ds -> expressible12 (JDict d) ds -> paths_ok ds ->
  exists listing apis root a x reloc root30 result,
    app_made (JDict d) ds listing apis /\ upgrade12 sep listing apis = Ok root /\
    to_openapi (deref_in path2url abspath url root) (normalized_in url) root = Ok (x, None, reloc) /\ construct v30_table (JDict x) (BCls "OpenApi") (Some "#") [] = Ok root30 /\
    open_document path2url abspath app_url ["1.2"; "2.0"; "3.0.0"] fetch (modules path2url abspath app_url merge_fuel (conversion12 sep) (conversion_in path2url abspath)) (fun o _ => Ok o)
      "3.0.0" (S f) url (fresh_app ["1.2"; "2.0"; "3.0.0"]) = (a, Ok (mk_sobj "3.0.0" result [])) /\
    same_objects root30 result /\ self_contained "3.0.0" result.
Proof.
  intros CU url FE DE AP WR GD DI CL PX TI EX PO.
  destruct (opens_12_30 path2url abspath app_url fetch merge_fuel f sep scheme host path query d ds CU FE DE AP WR GD DI PX CL TI EX PO) as (listing & apis & root & a & x & reloc & root30 & u & AM & UP & E & C & OP & SC).
  exists listing, apis, root, a, x, reloc, root30, (rewrite_refs u root30). split; [exact AM|]. split; [exact UP|]. split; [exact E|]. split; [exact C|]. split; [exact OP|]. split; [apply rewrite_same|exact SC].
Qed.

(** ** an application *)
Definition shop_get : json := JDict [("method", JStr "GET"); ("nickname", JStr "getPet"); ("type", JStr "Pet"); ("produces", JList [JStr "application/json"]);
  ("parameters", JList [JDict [("paramType", JStr "path"); ("name", JStr "id"); ("type", JStr "integer"); ("required", JBool true); ("minimum", JInt 1%Z)];
                        JDict [("paramType", JStr "query"); ("name", JStr "tags"); ("type", JStr "string"); ("allowMultiple", JBool true)]]);
  ("authorizations", JDict [("oauth2", JList [JDict [("scope", JStr "read")]])])].
Definition shop_put : json := JDict [("method", JStr "PUT"); ("type", JStr "void"); ("parameters", JList [JDict [("paramType", JStr "body"); ("name", JStr "body"); ("type", JStr "Pet")]])].
Definition shop_photo : json := JDict [("method", JStr "POST"); ("type", JStr "void");
  ("parameters", JList [JDict [("paramType", JStr "form"); ("name", JStr "title"); ("type", JStr "string")]; JDict [("paramType", JStr "form"); ("name", JStr "file"); ("type", JStr "File")]])].
Definition shop_models (tag : string) : json := JDict
  [("Pet", JDict [("id", JStr "Pet"); ("required", JList [JStr "id"]); ("subTypes", JList [JStr "Cat"]);
      ("properties", JDict [("id", JDict [("type", JStr "integer")]); ("tags", JDict [("type", JStr "array"); ("items", JDict [("$ref", JStr "Tag")])])])]);
   (tag, JDict [("id", JStr tag); ("properties", JDict [("name", JDict [("type", JStr "string")])])])].
Definition shop_decl (resource tag : string) : json := JDict [("swaggerVersion", JStr "1.2"); ("basePath", JStr "http://h.com/api"); ("resourcePath", JStr resource);
  ("apis", JList [JDict [("path", JStr "/pet/{id}"); ("operations", JList [shop_get; shop_put])]; JDict [("path", JStr "/pet/photo"); ("operations", JList [shop_photo])]]); ("models", shop_models tag)].
Definition user_api : json := JDict [("swaggerVersion", JStr "1.2"); ("basePath", JStr "http://h.com/api"); ("resourcePath", JStr "/user");
  ("apis", JList [JDict [("path", JStr "/user"); ("operations", JList [JDict [("method", JStr "post"); ("type", JStr "string"); ("parameters", JList [])]])]]); ("models", JDict [])].
Definition shop_listing : doc := [("swaggerVersion", JStr "1.2"); ("apiVersion", JStr "1.0"); ("apis", JList [JDict [("path", JStr "/pet")]; JDict [("path", JStr "/user")]]);
  ("info", JDict [("title", JStr "Pets"); ("description", JStr "all about pets")]);
  ("authorizations", JDict [("oauth2", JDict [("type", JStr "oauth2"); ("scopes", JList [JDict [("scope", JStr "read"); ("description", JStr "read pets")]]);
     ("grantTypes", JDict [("implicit", JDict [("loginEndpoint", JDict [("url", JStr "http://h.com/login")])])])])])].
Definition shop_apis (resource tag : string) : list (string * json) := [("pet", shop_decl resource tag); ("user", user_api)].
Definition shop12 (resource tag : string) (u : string) : res json :=
  if String.eqb u "http://h/d/api.json" then Ok (JDict shop_listing)
  else if String.eqb u "http://h/d/pet" then Ok (shop_decl resource tag)
  else if String.eqb u "http://h/d/user" then Ok user_api else Err KeyError.
Lemma shop_prefix : common_prefix (map full_path (all_sites (shop_apis "/pet" "Tag"))) "http://h.com/api/".
Proof.
  assert (E : commonprefix (map full_path (all_sites (shop_apis "/pet" "Tag"))) = "http://h.com/api/") by (vm_compute; reflexivity). rewrite <- E. apply commonprefix_spec. discriminate.
Qed.
(** all hypotheses of C83 and C84 hold of it *)
Example C83_case : let ld := JDict shop_listing in let ds := shop_apis "/pet" "Tag" in
  clean_url "http" "h" "/d/api.json" "" /\ abs_url "http" "h" "/d/api.json" "" = "http://h/d/api.json" /\ shop12 "/pet" "Tag" "http://h/d/api.json" = Ok ld /\ SpecApp.declares shop_listing (JStr "1.2") /\
  application (shop12 "/pet" "Tag") "http://h/d/api.json" shop_listing ds /\ written ld ds /\ good12 ld ds /\ distinct12 ld ds /\ closed12 sep12 ds /\
  (exists c, c <> "" /\ common_prefix (map full_path (all_sites ds)) c) /\ tidy12 sep12 ld ds /\ expressible12 ld ds /\ paths_ok ds.
Proof.
  cbv zeta. split; [now apply clean_d|]. split; [reflexivity|]. split; [reflexivity|]. split; [split; [discriminate|left; reflexivity]|].
  split. { exists ["pet"; "user"]. split; [|split].
    - eexists. split; [reflexivity|]. repeat (apply Forall2_cons; [do 2 eexists; repeat split|]). apply Forall2_nil.
    - repeat constructor; cbn; intuition discriminate.
    - apply Forall2_cons; [|apply Forall2_cons; [|apply Forall2_nil]]; (split; [reflexivity|]); (split; [vm_compute; discriminate|vm_compute; reflexivity]). }
  split; [apply writtenb_ok; vm_compute; reflexivity|]. split; [apply good12b_ok; vm_compute; reflexivity|].
  split. { split; [apply wf_jsonb_ok; vm_compute; reflexivity|]. repeat (apply Forall_cons; [apply wf_jsonb_ok; vm_compute; reflexivity|]). apply Forall_nil. }
  split; [apply closed12b_ok; vm_compute; reflexivity|]. split; [exists "http://h.com/api/"; split; [discriminate|exact shop_prefix]|].
  split; [apply tidy12b_ok; vm_compute; reflexivity|]. split; [apply expressible12b_ok; vm_compute; reflexivity|].
  apply (paths_okb_ok _ _ _ _ _ shop_prefix the_trimmed the_site). vm_compute. reflexivity.
Qed.
Definition opened12 (V resource tag : string) : app * res sobj :=
  open_document (fun x : string => x) (fun x : string => x) "" ["1.2"; "2.0"; "3.0.0"] (shop12 resource tag) (modules (fun x : string => x) (fun x : string => x) "" 5 (conversion12 sep12) (conversion_in (fun x : string => x) (fun x : string => x))) (fun o _ => Ok o)
    V 5 "http://h/d/api.json" (fresh_app ["1.2"; "2.0"; "3.0.0"]).
(** what comes out, e.g. the schema of the body of an operation *)
Example C84_result : exists result,
  snd (opened12 "3.0.0" "/pet" "Tag") = Ok (mk_sobj "3.0.0" result []) /\
  (exists p, within result ["paths"; "/api/pet/{id}"; "put"; "requestBody"; "content"; "application/json"; "schema"] p /\
     exists c q k, p = OObj c q (JDict [("$ref", JStr "#/components/schemas/pet!##!Pet")]) k) /\
  (exists p, within result ["components"; "schemas"; "pet!##!Pet"] p /\ is_object p).
Proof.
  exists (match snd (opened12 "3.0.0" "/pet" "Tag") with Ok r => so_obj r | Err _ => OPrim JNull end).
  split; [vm_compute; reflexivity|]. split; [eexists; split; [apply walk_within; vm_compute; reflexivity|do 3 eexists; vm_compute; reflexivity]|].
  eexists; split; [apply walk_within; vm_compute; reflexivity|do 4 eexists; vm_compute; reflexivity].
Qed.
(** a type that is not defined, or one of a resource whose name has a slash: the documents do not open *)
Theorem C83_undefined_refuted : (exists o, upgrade12 sep12 (build "ResourceListing" (JDict shop_listing)) (built (shop_apis "/pet" "Label")) = Ok o) /\ exists e, snd (opened12 "2.0" "/pet" "Label") = Err e.
Proof. split; eexists; vm_compute; reflexivity. Qed.
Theorem C83_slash_refuted : (exists o, upgrade12 sep12 (build "ResourceListing" (JDict shop_listing)) (built (shop_apis "/pet/shop" "Tag")) = Ok o) /\ exists e, snd (opened12 "2.0" "/pet/shop" "Tag") = Err e.
Proof. split; eexists; vm_compute; reflexivity. Qed.
Print Assumptions C83_opens.
Print Assumptions C84_opens.
Print Assumptions C83_undefined_refuted.
Print Assumptions C83_slash_refuted.
