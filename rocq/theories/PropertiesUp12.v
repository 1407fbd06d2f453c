(** * Properties C54 - C59, C66 - C68: conversion of Swagger 1.2 documents.

    An application is a resource listing [ld] and its API declarations [ds] (url, document); [app_made]: the objects
    [listing], [apis] are built from them; [upgrade12 sep listing apis] is the Swagger 2.0 object made from them with
    the scope separator [sep], [document_of] its document.  The images of the parts are defined in SpecUp12.v. *)
From Coq Require Import String Ascii List Bool Arith ZArith QArith.
From Verif Require Import PyStr PyVal Obj SpecJson SpecObj Classes_v1_2 SpecUrl SpecUp12 Up12.
From Verif Require Import PropertiesObjAux Up12Facts NumeralFacts Up12Facts2 Up12Facts5 Up12Facts8 Up12Facts9 Up12Facts10 Up12Facts11 Up12Facts12.
From Verif Require SpecDoc.
Import ListNotations.
Close Scope Q_scope. Open Scope string_scope. Open Scope nat_scope.

(** ** an example *)
Definition a_param (l : doc) : json := JDict l.
Definition pet_get : json := JDict [("method", JStr "GET"); ("nickname", JStr "getPet"); ("type", JStr "Pet"); ("produces", JList [JStr "application/json"]);
  ("parameters", JList [JDict [("paramType", JStr "path"); ("name", JStr "id"); ("type", JStr "integer"); ("required", JBool true); ("minimum", JStr "1.0")];
                        JDict [("paramType", JStr "query"); ("name", JStr "tags"); ("type", JStr "string"); ("allowMultiple", JBool true)]]);
  ("authorizations", JDict [("oauth2", JList [JDict [("scope", JStr "read")]])])].
Definition pet_put : json := JDict [("method", JStr "PUT"); ("type", JStr "void"); ("deprecated", JStr "true");
  ("parameters", JList [JDict [("paramType", JStr "body"); ("name", JStr "body"); ("type", JStr "Pet")]])].
Definition pet_model : json := JDict [("id", JStr "Pet"); ("required", JList [JStr "id"]); ("subTypes", JList [JStr "Cat"]);
  ("properties", JDict [("id", JDict [("type", JStr "integer"); ("maximum", JStr "2e1")]); ("tags", JDict [("type", JStr "array"); ("items", JDict [("$ref", JStr "Tag")])])])].
Definition pet_decl : json := JDict [("swaggerVersion", JStr "1.2"); ("basePath", JStr "http://h.com/api"); ("resourcePath", JStr "/pet");
  ("apis", JList [JDict [("path", JStr "/pet/{id}"); ("operations", JList [pet_get; pet_put])]]); ("models", JDict [("Pet", pet_model)])].
Definition user_decl : json := JDict [("swaggerVersion", JStr "1.2"); ("basePath", JStr "http://h.com/api"); ("resourcePath", JStr "/user");
  ("apis", JList [JDict [("path", JStr "/user"); ("operations", JList [JDict [("method", JStr "post"); ("type", JStr "User"); ("parameters", JList [])]])]]); ("models", JDict [])].
Definition the_listing : json := JDict [("swaggerVersion", JStr "1.2"); ("apiVersion", JStr "1.0"); ("apis", JList [JDict [("path", JStr "/pet")]; JDict [("path", JStr "/user")]]);
  ("info", JDict [("title", JStr "Pets"); ("description", JStr "all about pets"); ("contact", JStr "a@b.c")]);
  ("authorizations", JDict [("oauth2", JDict [("type", JStr "oauth2"); ("scopes", JList [JDict [("scope", JStr "read"); ("description", JStr "read pets")]]);
     ("grantTypes", JDict [("implicit", JDict [("loginEndpoint", JDict [("url", JStr "http://h.com/login")])])])])])].
Definition the_decls : list (string * json) := [("/pet", pet_decl); ("/user", user_decl)].
Definition build (c : string) (j : json) : obj := match construct v12_table j (BCls c) None [] with Ok o => o | Err _ => OPrim JNull end.
Definition built (ds : list (string * json)) : list (string * obj) := map (fun d => (fst d, build "ApiDeclaration" (snd d))) ds.
Definition sep12 : string := "!##!".

Lemma the_app : app_made the_listing the_decls (build "ResourceListing" the_listing) (built the_decls).
Proof.
  split; [exists None; vm_compute; reflexivity|]. unfold the_decls, built. cbn [map fst snd]. constructor; [split; [reflexivity|exists None; vm_compute; reflexivity]|].
  constructor; [split; [reflexivity|exists None; vm_compute; reflexivity]|constructor].
Qed.
Lemma the_app_distinct : distinct12 the_listing the_decls.
Proof. split; [apply wf_jsonb_ok; vm_compute; reflexivity|]. repeat (apply Forall_cons; [apply wf_jsonb_ok; vm_compute; reflexivity|]). apply Forall_nil. Qed.
Ltac plain := first [(let H := fresh in intros H; discriminate) | discriminate | reflexivity | now left | now eexists].
Lemma number_text s m e q : numeral s m e -> (q == inject_Z m * power10 e)%Q -> exists q, number_of (JStr s) q.
Proof. intros. exists q. econstructor; eauto. Qed.
Lemma one_point_zero : exists q, number_of (JStr "1.0") q.
Proof.
  eapply (number_text _ 10 (-1) 1%Q); [|reflexivity]. apply (nm_intro "1.0" false "1" "." "0" "" 0 "1.0"); try reflexivity; [constructor|discriminate|now left|constructor].
Qed.
Lemma two_e_one : exists q, number_of (JStr "2e1") q.
Proof.
  eapply (number_text _ 2 1 (20 # 1)%Q); [|reflexivity]. apply (nm_intro "2e1" false "2" "" "" "e1" 1 "2e1"); try reflexivity; [constructor|discriminate|right; split; reflexivity|].
  apply (ex_some "e" "1" false "1"); [now left|constructor|reflexivity|discriminate].
Qed.
Lemma the_app_good : good12 the_listing the_decls.
Proof.
  split.
  - split; [plain|]. split; [plain|]. split; [discriminate|]. split; [discriminate|]. constructor; [|constructor]. split; [plain|]. split.
    + constructor; [|constructor]. split; [plain|]. split; plain.
    + split; [right; split; [plain|discriminate]|now left].
  - constructor; [|constructor; [|constructor]].
    + split; [plain|]. split; [plain|]. split; [plain|]. split; [plain|]. split; [plain|]. split; [intros H; discriminate|]. split.
      * eexists. split; [reflexivity|]. constructor; [|constructor]. split; [plain|]. split; [plain|]. eexists. split; [reflexivity|]. constructor; [|constructor; [|constructor]].
        -- split; [plain|]. split; [eexists; split; [reflexivity|now left]|]. split.
           ++ eexists. split; [reflexivity|]. constructor; [|constructor; [|constructor]].
              ** split; [plain|]. split; [discriminate|]. split; [reflexivity|]. split; [plain|]. split; [|split; [intros H; discriminate|now left]].
                 intros _. split; [now left|exact one_point_zero].
              ** split; [plain|]. split; [discriminate|]. split; reflexivity.
           ++ split; [intros H; discriminate|]. split; [intros _; eexists; split; [reflexivity|constructor; [plain|constructor]]|]. split.
              ** intros _. constructor; [|constructor]. constructor; [|constructor]. split; plain.
              ** right. split; [split; [plain|split; [intros H; discriminate|intros _; plain]]|]. split; [intros H; discriminate|]. split; [intros H; discriminate|now left].
        -- split; [plain|]. split; [eexists; split; [reflexivity|right; now left]|]. split.
           ++ eexists. split; [reflexivity|]. constructor; [|constructor]. split; [plain|]. split; [discriminate|].
              split; [split; [plain|split; [intros H; discriminate|intros _; plain]]|]. split; [intros H; discriminate|]. split; [intros H; discriminate|now left].
           ++ split; [intros H; discriminate|]. split; [intros H; discriminate|]. split; [intros H; discriminate|now left].
      * eexists. split; [reflexivity|]. constructor; [|constructor]. split; [plain|]. split; [plain|]. split; [|intros _; eexists; split; [reflexivity|constructor; [plain|constructor]]].
        eexists. split; [reflexivity|]. constructor; [|constructor; [|constructor]].
        -- split; [split; [plain|split; [intros H; discriminate|intros _; plain]]|]. split; [intros H; discriminate|]. split; [|now left]. intros _. split; [now left|exact two_e_one].
        -- split; [split; [plain|split; [intros H; discriminate|intros _; plain]]|]. split; [intros H; discriminate|]. split; [intros H; discriminate|]. right.
           split; [plain|]. split; [intros _; plain|intros H; discriminate].
    + split; [plain|]. split; [plain|]. split; [plain|]. split; [plain|]. split; [plain|]. split; [intros H; discriminate|]. split.
      * eexists. split; [reflexivity|]. constructor; [|constructor]. split; [plain|]. split; [plain|]. eexists. split; [reflexivity|]. constructor; [|constructor].
        split; [plain|]. split; [eexists; split; [reflexivity|right; right; now left]|]. split; [eexists; split; [reflexivity|constructor]|].
        split; [intros H; discriminate|]. split; [intros H; discriminate|]. split; [intros H; discriminate|]. right.
        split; [split; [plain|split; [intros H; discriminate|intros _; plain]]|]. split; [intros H; discriminate|]. split; [intros H; discriminate|now left].
      * eexists. split; [reflexivity|constructor].
Qed.
Lemma the_prefix : common_prefix (map full_path (all_sites the_decls)) "http://h.com/api/".
Proof.
  assert (E : commonprefix (map full_path (all_sites the_decls)) = "http://h.com/api/") by (vm_compute; reflexivity). rewrite <- E. apply commonprefix_spec. discriminate.
Qed.
Lemma no_slash_end s : endswith "/" s = false -> forall x, s <> x ++ "/".
Proof. intros H x ->. rewrite (proj2 (PyStrFacts.endswith_spec _ _)) in H; [discriminate|]. now exists x. Qed.
Lemma the_trimmed : trimmed "http://h.com/api/" "http://h.com/api".
Proof. split; [discriminate|now left]. Qed.
Lemma the_site : site_prefix "http://h.com/api" "h.com" "http://h.com".
Proof.
  apply (sp_host "http" "h.com" "/api"); [discriminate| |discriminate| |right; left; now eexists].
  - repeat (apply Forall_cons; [vm_compute; tauto|]). apply Forall_nil.
  - intros c I J. vm_compute in I, J. repeat (destruct I as [<-|I]; [repeat (destruct J as [J|J]; [discriminate|]); contradiction|]). contradiction.
Qed.
Lemma the_upgrade : exists o, upgrade12 sep12 (build "ResourceListing" the_listing) (built the_decls) = Ok o.
Proof. eapply upgrade_total; [exact the_app|exact the_app_good|exact the_app_distinct|]. eexists. split; [|exact the_prefix]. discriminate. Qed.

(** ** C54: operations *)
(** [c]: what all urls of operations have in common; [c'] without one final slash; its host is [host], [pre] the part up to
    and with the host: the paths of the new document are the urls without [pre], under each path there is an operation
    for every method, made from the last operation of this url and method, and nothing else *)
Theorem C54_operations (sep : string) (ld : json) (ds : list (string * json)) (listing : obj) (apis : list (string * obj)) (o : obj) (c c' host pre : string) :
  app_made ld ds listing apis -> distinct12 ld ds -> upgrade12 sep listing apis = Ok o ->
  common_prefix (map full_path (all_sites ds)) c -> trimmed c c' -> site_prefix c' host pre ->
  get (document_of o) "host" = JStr host /\
  (forall s, In s (all_sites ds) -> is_prefix pre (full_path s)) /\
  NoDup (keys (fields (get (document_of o) "paths"))) /\
  (forall p, given (get (document_of o) "paths") p <> None <-> In (pre ++ p) (map full_path (all_sites ds))) /\
  (forall p, NoDup (keys (fields (get (get (document_of o) "paths") p)))) /\
  forall p m,
    match last_such (fun s => String.eqb (full_path s) (pre ++ p) && String.eqb (method_of s) m) (all_sites ds) with
    | Some s => exists out, given (get (get (document_of o) "paths") p) m = Some (JDict out) /\ operation_image sep s out
    | None => given (get (get (document_of o) "paths") p) m = None
    end.
Proof. exact (operations_final sep ld ds listing apis o c c' host pre). Qed.
Print Assumptions C54_operations.
Example C54_example : exists o out,
  upgrade12 sep12 (build "ResourceListing" the_listing) (built the_decls) = Ok o /\ get (document_of o) "host" = JStr "h.com" /\
  given (get (get (document_of o) "paths") "/api/pet/{id}") "get" = Some (JDict out) /\ operation_image sep12 (mk_site pet_decl (JDict [("path", JStr "/pet/{id}"); ("operations", JList [pet_get; pet_put])]) pet_get) out /\
  given (get (document_of o) "paths") "/pet/{id}" = None.
Proof.
  destruct the_upgrade as (o & H). destruct (C54_operations _ _ _ _ _ _ _ _ _ _ the_app the_app_distinct H the_prefix the_trimmed the_site) as (Hh & _ & _ & Hp & _ & Ho).
  specialize (Ho "/api/pet/{id}" "get").
  change (exists out, given (get (get (document_of o) "paths") "/api/pet/{id}") "get" = Some (JDict out) /\ operation_image sep12 (mk_site pet_decl (JDict [("path", JStr "/pet/{id}"); ("operations", JList [pet_get; pet_put])]) pet_get) out) in Ho.
  destruct Ho as (out & G & I). exists o, out. split; [exact H|]. split; [exact Hh|]. split; [exact G|]. split; [exact I|].
  destruct (given (get (document_of o) "paths") "/pet/{id}") eqn:E; [|reflexivity]. assert (X : In "http://h.com/pet/{id}" (map full_path (all_sites the_decls))) by (apply (Hp "/pet/{id}"); congruence).
  vm_compute in X. repeat (destruct X as [X|X]; [discriminate|]). contradiction.
Qed.
(** what is taken for the host is a common prefix of texts: two hosts may give a third one *)
Definition op_of (m : string) : json := JDict [("method", JStr m); ("type", JStr "void"); ("parameters", JList [])].
Definition decl_of (base resource path m : string) : json := JDict [("basePath", JStr base); ("resourcePath", JStr resource);
  ("apis", JList [JDict [("path", JStr path); ("operations", JList [op_of m])]]); ("models", JDict [])].
Definition summary_of (r : res obj) : res (json * list string) := match r with Ok o => Ok (get (document_of o) "host", keys (fields (get (document_of o) "paths"))) | Err e => Err e end.
Definition upgraded (ds : list (string * json)) : res obj := upgrade12 sep12 (build "ResourceListing" the_listing) (built ds).
Theorem C54_two_hosts_refuted :
  summary_of (upgraded [("a", decl_of "http://a.com" "/a" "/x" "get"); ("b", decl_of "http://a.org" "/b" "/x" "get")]) = Ok (JStr "a.", ["com/x"; "org/x"]).
Proof. vm_compute. reflexivity. Qed.

(** ** C55: models *)
(** there is exactly one definition for every name of a model or of a subtype; its parts are those of the models with this name *)
Theorem C55_definitions (sep : string) (ld : json) (ds : list (string * json)) (listing : obj) (apis : list (string * obj)) (o : obj) :
  app_made ld ds listing apis -> distinct12 ld ds -> upgrade12 sep listing apis = Ok o ->
  NoDup (keys (fields (get (document_of o) "definitions"))) /\
  forall n, if existsb (fun dm => String.eqb (model_name sep dm) n) (all_models ds) || existsb (fun dm => existsb (String.eqb n) (subtype_names sep dm)) (all_models ds)
            then exists d, given (get (document_of o) "definitions") n = Some (JDict d) /\ definition_image sep n (all_models ds) d
            else given (get (document_of o) "definitions") n = None.
Proof. exact (definitions_final sep ld ds listing apis o). Qed.
Print Assumptions C55_definitions.
(** different models have different names if the first character of the separator does not occur in the names of the resources *)
Theorem C55_injective (c : ascii) (sep : string) (r r' n n' : string) :
  r <> "" -> r' <> "" -> free_of (String c "") r -> free_of (String c "") r' ->
  scoped (String c sep) r n = scoped (String c sep) r' n' -> r = r' /\ n = n'.
Proof. exact (scoped_injective c sep r r' n n'). Qed.
Print Assumptions C55_injective.
Example C55_example : exists o d e,
  upgrade12 sep12 (build "ResourceListing" the_listing) (built the_decls) = Ok o /\
  given (get (document_of o) "definitions") "pet!##!Pet" = Some (JDict d) /\ definition_image sep12 "pet!##!Pet" (all_models the_decls) d /\
  given (get (document_of o) "definitions") "pet!##!Cat" = Some (JDict e) /\ lookup "allOf" e = Some (JList [JDict [("$ref", JStr "#/definitions/pet!##!Pet")]]) /\
  given (get (document_of o) "definitions") "pet!##!Dog" = None.
Proof.
  destruct the_upgrade as (o & H). destruct (C55_definitions _ _ _ _ _ _ the_app the_app_distinct H) as (_ & Hd).
  destruct (Hd "pet!##!Pet") as (d & Gd & Id). destruct (Hd "pet!##!Cat") as (e & Ge & (_ & _ & Ie & _)). exists o, d, e. split; [exact H|]. split; [exact Gd|]. split; [exact Id|]. split; [exact Ge|].
  split; [|exact (Hd "pet!##!Dog")]. rewrite Ie. vm_compute. reflexivity.
Qed.
(** the separator overlaps with itself: a name without it is not enough *)
Definition model_decl (resource id field : string) : json := JDict [("basePath", JStr "http://h.com"); ("resourcePath", JStr ("/" ++ resource));
  ("apis", JList [JDict [("path", JStr "/x"); ("operations", JList [op_of "get"])]]);
  ("models", JDict [(id, JDict [("id", JStr id); ("properties", JDict [(field, JDict [("type", JStr "string")])])])])].
Theorem C55_collision_refuted :
  ~ (exists a b, "x!##" = a ++ sep12 ++ b) /\ ~ (exists a b, "##!y" = a ++ sep12 ++ b) /\
  scoped sep12 "x!##" "y" = scoped sep12 "x" "##!y" /\
  exists o, upgraded [("a", model_decl "x!##" "y" "one"); ("b", model_decl "x" "##!y" "two")] = Ok o /\
    keys (fields (get (document_of o) "definitions")) = ["x!##!##!y"] /\
    keys (fields (get (get (get (document_of o) "definitions") "x!##!##!y") "properties")) = ["one"; "two"].
Proof.
  split; [|split; [|split; [reflexivity|]]].
  - intros (a & b & E). destruct a as [|? [|? [|? [|? a]]]]; cbn in E; try discriminate. injection E; intros; destruct a; discriminate.
  - intros (a & b & E). destruct a as [|? [|? [|? [|? a]]]]; cbn in E; try discriminate. injection E; intros; destruct a; discriminate.
  - eexists. split; [vm_compute; reflexivity|]. split; vm_compute; reflexivity.
Qed.

(** ** C56: data types *)
(** the schema of a property, of a body parameter, of a result *)
Theorem C56_datatype (c : string) (j : json) (o : obj) (scope sep : string) (out : doc) :
  has_datatype c -> made c j o -> convert_schema o scope sep = Ok out -> datatype_image sep scope j out /\ only_keys datatype_keys out.
Proof. exact (datatype_result c j o scope sep out). Qed.
Theorem C56_total (c : string) (j : json) (o : obj) (scope sep : string) :
  has_datatype c -> made c j o -> good_datatype j -> exists out, convert_schema o scope sep = Ok out.
Proof. exact (datatype_total c j o scope sep). Qed.
(** a bound of anything but integers and numbers raises *)
Theorem C56_bound_raises (c : string) (j : json) (o : obj) (scope sep : string) :
  has_datatype c -> made c j o -> good_refs j -> truthy (get j "minimum") = true \/ truthy (get j "maximum") = true ->
  get j "type" <> JStr "integer" -> get j "type" <> JStr "number" -> convert_schema o scope sep = Err SchemaError.
Proof. exact (bound_raises c j o scope sep). Qed.
Print Assumptions C56_datatype.
Print Assumptions C56_total.
Print Assumptions C56_bound_raises.
Example C56_example :
  convert_schema (build "Property" (JDict [("type", JStr "integer"); ("maximum", JStr "-2.9e1"); ("minimum", JInt 0)])) "pet" sep12 =
    Ok [("type", JStr "integer"); ("maximum", JInt (-29)); ("uniqueItems", JNull); ("enum", JNull)] /\
  convert_schema (build "Property" (JDict [("type", JStr "Tag")])) "pet" sep12 = Ok [("$ref", JStr "#/definitions/pet!##!Tag"); ("uniqueItems", JNull); ("enum", JNull)] /\
  convert_schema (build "Property" (JDict [("type", JStr "string"); ("maximum", JInt 3)])) "pet" sep12 = Err SchemaError.
Proof. split; [|split]; vm_compute; reflexivity. Qed.

(** ** C57: the common prefix *)
Theorem C57_no_prefix (sep : string) (ld : json) (ds : list (string * json)) (listing : obj) (apis : list (string * obj)) :
  app_made ld ds listing apis -> good12 ld ds -> distinct12 ld ds ->
  all_sites ds = [] \/ common_prefix (map full_path (all_sites ds)) "" -> upgrade12 sep listing apis = Err IndexError.
Proof. exact (no_prefix_error sep ld ds listing apis). Qed.
Theorem C57_iff (sep : string) (ld : json) (ds : list (string * json)) (listing : obj) (apis : list (string * obj)) :
  app_made ld ds listing apis -> good12 ld ds -> distinct12 ld ds ->
  ((exists o, upgrade12 sep listing apis = Ok o) <-> exists c, c <> "" /\ common_prefix (map full_path (all_sites ds)) c) /\
  (forall e, upgrade12 sep listing apis = Err e -> e = IndexError).
Proof. exact (upgrade_iff sep ld ds listing apis). Qed.
Print Assumptions C57_no_prefix.
Print Assumptions C57_iff.
Example C57_example : upgraded [] = Err IndexError /\ upgraded [("a", decl_of "http://a.com" "/a" "/x" "get"); ("b", decl_of "/v1" "/b" "/x" "get")] = Err IndexError.
Proof. split; vm_compute; reflexivity. Qed.
(** urls without "//": the prefix that is cut off is longer than what the urls have in common *)
Theorem C57_collision_refuted :
  summary_of (upgraded [("a", decl_of "http:a" "/a" "/x" "get"); ("b", decl_of "http:b" "/b" "/x" "get")]) = Ok (JStr "", ["x"]).
Proof. vm_compute. reflexivity. Qed.

(** ** C58: authorizations; the names are escaped like JSON pointers *)
Theorem C58_authorizations (sep : string) (ld : json) (ds : list (string * json)) (listing : obj) (apis : list (string * obj)) (o : obj) :
  app_made ld ds listing apis -> distinct12 ld ds -> upgrade12 sep listing apis = Ok o ->
  NoDup (keys (fields (get (document_of o) "securityDefinitions"))) /\
  (forall n v, given (get ld "authorizations") n = Some v -> exists d, given (get (document_of o) "securityDefinitions") (SpecDoc.rfc_escape n) = Some (JDict d) /\ security_image v d) /\
  (forall k, given (get (document_of o) "securityDefinitions") k <> None -> exists n, given (get ld "authorizations") n <> None /\ k = SpecDoc.rfc_escape n).
Proof. exact (securities_names sep ld ds listing apis o). Qed.
Print Assumptions C58_authorizations.
Example C58_example : exists o d,
  upgrade12 sep12 (build "ResourceListing" the_listing) (built the_decls) = Ok o /\
  given (get (document_of o) "securityDefinitions") "oauth2" = Some (JDict d) /\ lookup "flow" d = Some (JStr "implicit") /\ lookup "authorizationUrl" d = Some (JStr "http://h.com/login").
Proof.
  destruct the_upgrade as (o & H). destruct (C58_authorizations _ _ _ _ _ _ the_app the_app_distinct H) as (_ & Hd & _).
  destruct (Hd "oauth2" _ eq_refl) as (d & G & (_ & _ & I1 & _ & I2 & _)). exists o, d. split; [exact H|]. split; [exact G|]. split; [rewrite I2|rewrite I1]; vm_compute; reflexivity.
Qed.

(** ** C59: tags *)
Theorem C59_tags (sep : string) (ld : json) (ds : list (string * json)) (listing : obj) (apis : list (string * obj)) (o : obj) :
  app_made ld ds listing apis -> distinct12 ld ds -> upgrade12 sep listing apis = Ok o ->
  exists names, get (document_of o) "tags" = JList (map (fun n => JDict [("name", JStr n)]) names) /\ NoDup names /\
    (forall n, In n names <-> In n (map (fun d => resource (snd d)) ds)) /\ names = first_seen (map (fun d => resource (snd d)) ds) [].
Proof. exact (tags_names sep ld ds listing apis o). Qed.
(** more declarations only add tags at the end *)
Theorem C59_order (sep : string) (ld : json) (a b : list (string * json)) (listing : obj) (la lb : list (string * obj)) (o o' : obj) :
  app_made ld (a ++ b) listing (la ++ lb) -> app_made ld a listing la -> distinct12 ld (a ++ b) ->
  upgrade12 sep listing (la ++ lb) = Ok o -> upgrade12 sep listing la = Ok o' ->
  exists more, elements (get (document_of o) "tags") = (elements (get (document_of o') "tags") ++ more)%list.
Proof. exact (tags_declaration_order sep ld a b listing la lb o o'). Qed.
Print Assumptions C59_tags.
Print Assumptions C59_order.
Example C59_example : exists o, upgraded [("a", decl_of "http://h.com" "/b" "/x" "get"); ("b", decl_of "http://h.com" "/a" "/y" "get"); ("c", decl_of "http://h.com" "/b" "/z" "get")] = Ok o /\
  get (document_of o) "tags" = JList [JDict [("name", JStr "b")]; JDict [("name", JStr "a")]].
Proof. eexists. split; [vm_compute; reflexivity|]. vm_compute. reflexivity. Qed.

(** ** C66: info *)
Theorem C66_info (sep : string) (ld : json) (ds : list (string * json)) (listing : obj) (apis : list (string * obj)) (o : obj) :
  app_made ld ds listing apis -> distinct12 ld ds -> upgrade12 sep listing apis = Ok o ->
  exists i, get (document_of o) "info" = JDict i /\ info_image ld i.
Proof. exact (info_final sep ld ds listing apis o). Qed.
Print Assumptions C66_info.
Example C66_example : exists o i, upgrade12 sep12 (build "ResourceListing" the_listing) (built the_decls) = Ok o /\ get (document_of o) "info" = JDict i /\
  lookup "version" i = Some (JStr "1.0") /\ lookup "contact" i = Some (JDict [("email", JStr "a@b.c")]) /\ lookup "license" i = None.
Proof.
  destruct the_upgrade as (o & H). destruct (C66_info _ _ _ _ _ _ the_app the_app_distinct H) as (i & G & (I1 & _ & _ & _ & I2 & I3 & _)).
  exists o, i. split; [exact H|]. split; [exact G|]. split; [rewrite I1; reflexivity|]. split; [rewrite I2; reflexivity|exact I3].
Qed.

(** ** C67: parameters *)
Theorem C67_parameter (j : json) (o : obj) (scope sep : string) (out : doc) :
  made "Parameter" j o -> convert_parameter o scope sep = Ok out -> parameter_image sep scope j out.
Proof. exact (parameter_result j o scope sep out). Qed.
Theorem C67_total (j : json) (o : obj) (scope sep : string) :
  made "Parameter" j o -> good_parameter j -> exists out, convert_parameter o scope sep = Ok out.
Proof. exact (parameter_good j o scope sep). Qed.
(** only the body may refer to a model *)
Theorem C67_ref_raises (j : json) (o : obj) (scope sep : string) :
  made "Parameter" j o -> a_dict j -> given j "paramType" <> None -> get j "paramType" <> JStr "body" -> truthy (get j "$ref") = true ->
  convert_parameter o scope sep = Err SchemaError.
Proof. exact (parameter_ref j o scope sep). Qed.
Print Assumptions C67_parameter.
Print Assumptions C67_total.
Print Assumptions C67_ref_raises.
Example C67_example :
  convert_parameter (build "Parameter" (JDict [("paramType", JStr "form"); ("name", JStr "tags"); ("type", JStr "string"); ("allowMultiple", JBool true); ("defaultValue", JStr "a")])) "pet" sep12 =
    Ok [("name", JStr "tags"); ("in", JStr "formData"); ("type", JStr "array"); ("collectionFormat", JStr "csv"); ("default", JList [JStr "a"]);
        ("items", JDict [("type", JStr "string"); ("enum", JNull)])] /\
  convert_parameter (build "Parameter" (JDict [("paramType", JStr "query"); ("$ref", JStr "Pet")])) "pet" sep12 = Err SchemaError.
Proof. split; vm_compute; reflexivity. Qed.

(** ** C68: well-formed applications are converted, and the result can be loaded *)
Theorem C68_total (sep : string) (ld : json) (ds : list (string * json)) (listing : obj) (apis : list (string * obj)) :
  app_made ld ds listing apis -> good12 ld ds -> distinct12 ld ds ->
  (exists c, c <> "" /\ common_prefix (map full_path (all_sites ds)) c) -> exists o, upgrade12 sep listing apis = Ok o.
Proof. exact (upgrade_total sep ld ds listing apis). Qed.
Print Assumptions C68_total.
Example C68_example : app_made the_listing the_decls (build "ResourceListing" the_listing) (built the_decls) /\ good12 the_listing the_decls /\ distinct12 the_listing the_decls /\
  common_prefix (map full_path (all_sites the_decls)) "http://h.com/api/".
Proof. split; [exact the_app|]. split; [exact the_app_good|]. split; [exact the_app_distinct|exact the_prefix]. Qed.
(** a declaration without models, a scope without description: both are legal and raise *)
Theorem C68_models_refuted :
  upgraded [("a", JDict [("basePath", JStr "http://h.com"); ("resourcePath", JStr "/a"); ("apis", JList [JDict [("path", JStr "/x"); ("operations", JList [op_of "get"])]])])] = Err AttributeError.
Proof. vm_compute. reflexivity. Qed.
Theorem C68_scope_refuted :
  let ld := JDict [("apiVersion", JStr "1"); ("apis", JList []); ("info", JDict [("title", JStr "t"); ("description", JStr "d")]);
                   ("authorizations", JDict [("o", JDict [("type", JStr "oauth2"); ("scopes", JList [JDict [("scope", JStr "read")]])])])] in
  upgrade12 sep12 (build "ResourceListing" ld) (built [("a", decl_of "http://a.com" "/a" "/x" "get")]) = Err PyException.
Proof. vm_compute. reflexivity. Qed.
