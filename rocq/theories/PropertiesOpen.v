(** * Property C70: what opening a document returns. *)
From Coq Require Import String Ascii List Bool Arith.
From Verif Require Import PyStr PyVal UrlLib Urls Obj Classes_v1_2 Classes_v2_0 Classes_v3_0_0 Store SpecStore App SpecApp AppFacts4 Main SpecOpen
  SpecJson SpecObj PropertiesScanAux SpecBody Conv20 Up12 Up30 Whole RewriteFacts OpenFacts OpenFacts2 PropertiesObjAux PropertiesConvAux PropertiesConv2 PropertiesUp12.
Import ListNotations.
Open Scope string_scope. Open Scope nat_scope.

(** ** C70: [open_document V jref] loads a document with an application that has loaded nothing yet and
    migrates it to [V].  If this succeeds for a document that declares the version [v], then the result
    is what was made from the document, handed through the modules of the versions from [v] up to [V], in
    this order, each converting or keeping it ([stepped]) and each result prepared by [prepare_obj]; it
    is stored for [V].  The only change a module makes to an object it keeps or has converted is that
    of 3.0.0 to the texts of "$ref" ([rereferenced], C72 says to what).  Other documents and the order
    in which they are loaded have no other influence. *)
Theorem C70_opened (path2url abspath : string -> string) (app_url : string) (fuel merge_fuel : nat) (fetch : string -> res json) (known : list string)
    (from12 : sobj -> res sobj) (from20 : sobj -> string -> string -> override -> res (sobj * routes)) (prepare : sobj -> string -> res sobj)
    (V jref url jp : string) (d : list (string * json)) (v : string) (a : app) (o' : sobj) :
  ascending known -> fetch jref = Ok (JDict d) -> declares d (JStr v) -> split path2url abspath jref = Ok (url, jp) ->
  open_document path2url abspath app_url known fetch (modules path2url abspath app_url merge_fuel from12 from20) prepare V fuel jref (fresh_app known) = (a, Ok o') ->
  exists o calls, made_from fetch jref d v o /\ steps_between known v V (map fst calls) /\
    handed_on (fun w x y => exists mid rs where_, stepped rereferenced from12 from20 url jp w x mid rs /\ prepare mid where_ = Ok y) o calls o' /\
    (calls <> [] -> exists jp', entry (a_store a) url jp' V = Some o') /\ (is_root o' = true -> a_current a = Some V).
Proof. exact (open_rereferenced path2url abspath app_url fuel merge_fuel fetch known from12 from20 prepare V jref url jp d v a o'). Qed.
(** a document opened at its own version: the object made from it; in 3.0.0 the one made from the
    document with other texts in place of the references *)
Theorem C70_same_20 (path2url abspath : string -> string) (app_url : string) (fuel merge_fuel : nat) (fetch : string -> res json)
    (from12 : sobj -> res sobj) (from20 : sobj -> string -> string -> override -> res (sobj * routes))
    (jref url jp : string) (d : list (string * json)) (a : app) (o : sobj) :
  fetch jref = Ok (JDict d) -> declares d (JStr "2.0") -> split path2url abspath jref = Ok (url, jp) ->
  open_document path2url abspath app_url ["1.2"; "2.0"; "3.0.0"] fetch (modules path2url abspath app_url merge_fuel from12 from20) (fun o _ => Ok o) "2.0" fuel jref
    (fresh_app ["1.2"; "2.0"; "3.0.0"]) = (a, Ok o) ->
  made_from fetch jref d "2.0" o.
Proof. exact (open_same20 path2url abspath app_url fuel merge_fuel fetch from12 from20 jref url jp d a o). Qed.
Theorem C70_same_30 (path2url abspath : string -> string) (app_url : string) (fuel merge_fuel : nat) (fetch : string -> res json)
    (from12 : sobj -> res sobj) (from20 : sobj -> string -> string -> override -> res (sobj * routes))
    (jref url jp : string) (d : list (string * json)) (a : app) (o : sobj) :
  fetch jref = Ok (JDict d) -> wf_json (JDict d) -> declares d (JStr "3.0.0") -> split path2url abspath jref = Ok (url, jp) ->
  open_document path2url abspath app_url ["1.2"; "2.0"; "3.0.0"] fetch (modules path2url abspath app_url merge_fuel from12 from20) (fun o _ => Ok o) "3.0.0" fuel jref
    (fresh_app ["1.2"; "2.0"; "3.0.0"]) = (a, Ok o) ->
  so_version o = "3.0.0" /\ exists x, same_but_refs (JDict d) x /\ construct v30_table x (BCls "OpenApi") (Some jref) [] = Ok (so_obj o).
Proof. exact (open_same30_document path2url abspath app_url fuel merge_fuel fetch from12 from20 jref url jp d a o). Qed.
(** a 2.0 document opened at 3.0.0: the OpenApi object made from the converted document with other texts
    in place of the references, see C36-C50 and C63 for [to_openapi].  No document at this URL may be
    one of 3.0.0: the objects of such a document would override parts of the result (see C21).  [deref] and [normalized_ref]
    read the attributes set when the 2.0 object was prepared. *)
Theorem C70_20_to_30 (path2url abspath : string -> string) (app_url : string) (fuel merge_fuel : nat) (fetch : string -> res json)
    (sep : string) (deref : obj -> res obj) (normalized_ref : obj -> res json)
    (jref url jp : string) (d : list (string * json)) (a : app) (o' : sobj) :
  (forall o x, wf_obj o -> deref o = Ok x -> wf_obj x) -> (forall o n, wf_obj o -> normalized_ref o = Ok n -> wf_json n) ->
  (forall j d p, split path2url abspath j = Ok (url, p) -> fetch j = Ok (JDict d) -> ~ declares d (JStr "3.0.0")) ->
  fetch jref = Ok (JDict d) -> wf_json (JDict d) -> declares d (JStr "2.0") -> split path2url abspath jref = Ok (url, jp) ->
  open_document path2url abspath app_url ["1.2"; "2.0"; "3.0.0"] fetch
    (modules path2url abspath app_url merge_fuel (conversion12 sep) (conversion20 deref normalized_ref)) (fun o _ => Ok o) "3.0.0" fuel jref
    (fresh_app ["1.2"; "2.0"; "3.0.0"]) = (a, Ok o') ->
  exists root x rs, construct v20_table (JDict d) (BCls "Swagger") (Some jref) [] = Ok root /\
    to_openapi deref normalized_ref root = Ok (x, None, rs) /\ so_version o' = "3.0.0" /\
    exists x', same_but_refs (JDict x) x' /\ construct v30_table x' (BCls "OpenApi") (Some jp) [] = Ok (so_obj o').
Proof. intros DR NR. exact (real_20_30 path2url abspath app_url fuel merge_fuel fetch sep deref normalized_ref DR NR jref url jp d a o'). Qed.
(** a 1.2 listing opened at 2.0: the Swagger object made from the converted listing and its API
    declarations, see C54-C59 and C66-C68 for [upgrade12_spec] *)
Theorem C70_12_to_20 (path2url abspath : string -> string) (app_url : string) (fuel merge_fuel : nat) (fetch : string -> res json)
    (sep : string) (deref : obj -> res obj) (normalized_ref : obj -> res json)
    (jref url jp : string) (d : list (string * json)) (a : app) (o' : sobj) :
  fetch jref = Ok (JDict d) -> declares d (JStr "1.2") -> split path2url abspath jref = Ok (url, jp) ->
  open_document path2url abspath app_url ["1.2"; "2.0"; "3.0.0"] fetch
    (modules path2url abspath app_url merge_fuel (conversion12 sep) (conversion20 deref normalized_ref)) (fun o _ => Ok o) "2.0" fuel jref
    (fresh_app ["1.2"; "2.0"; "3.0.0"]) = (a, Ok o') ->
  exists l x, made_from fetch jref d "1.2" l /\
    upgrade12_spec sep (so_obj l) (so_apis l) = Ok x /\
    construct v20_table (JDict x) (BCls "Swagger") (Some "#") [] = Ok (so_obj o') /\ so_version o' = "2.0".
Proof. exact (real_12_20 path2url abspath app_url fuel merge_fuel fetch sep deref normalized_ref jref url jp d a o'). Qed.
(** a 1.2 listing opened at 3.0.0: both conversions *)
Theorem C70_12_to_30 (path2url abspath : string -> string) (app_url : string) (fuel merge_fuel : nat) (fetch : string -> res json)
    (sep : string) (deref : obj -> res obj) (normalized_ref : obj -> res json)
    (jref url jp : string) (d : list (string * json)) (a : app) (o' : sobj) :
  (forall o x, wf_obj o -> deref o = Ok x -> wf_obj x) -> (forall o n, wf_obj o -> normalized_ref o = Ok n -> wf_json n) ->
  (forall j d p, split path2url abspath j = Ok (url, p) -> fetch j = Ok (JDict d) -> ~ declares d (JStr "3.0.0")) ->
  (forall j x, fetch j = Ok x -> wf_json x) ->
  fetch jref = Ok (JDict d) -> declares d (JStr "1.2") -> split path2url abspath jref = Ok (url, jp) ->
  open_document path2url abspath app_url ["1.2"; "2.0"; "3.0.0"] fetch
    (modules path2url abspath app_url merge_fuel (conversion12 sep) (conversion20 deref normalized_ref)) (fun o _ => Ok o) "3.0.0" fuel jref
    (fresh_app ["1.2"; "2.0"; "3.0.0"]) = (a, Ok o') ->
  exists l y root x rs, made_from fetch jref d "1.2" l /\
    upgrade12_spec sep (so_obj l) (so_apis l) = Ok y /\ construct v20_table (JDict y) (BCls "Swagger") (Some "#") [] = Ok root /\
    to_openapi deref normalized_ref root = Ok (x, None, rs) /\ so_version o' = "3.0.0" /\
    exists x', same_but_refs (JDict x) x' /\ construct v30_table x' (BCls "OpenApi") (Some jp) [] = Ok (so_obj o').
Proof. intros DR NR. exact (real_12_30 path2url abspath app_url fuel merge_fuel fetch sep deref normalized_ref DR NR jref url jp d a o'). Qed.

(** the hypotheses can be met *)
Definition id_str (s : string) : string := s.
Definition open_with (fetch : string -> res json) (V jref : string) : app * res sobj :=
  open_document id_str id_str "" ["1.2"; "2.0"; "3.0.0"] fetch (modules id_str id_str "" 5 (conversion12 sep12) (conversion20 no_refs no_normalized)) (fun o _ => Ok o) V 9 jref
    (fresh_app ["1.2"; "2.0"; "3.0.0"]).
Definition a_document : json := JDict [("swagger", JStr "2.0"); ("info", JDict [("title", JStr "t"); ("version", JStr "1")]);
  ("paths", JDict [("/p", JDict [("get", JDict [("responses", JDict [("200", JDict [("description", JStr "ok"); ("schema", JDict [("$ref", JStr "#/definitions/A")])])])])])]);
  ("definitions", JDict [("A", JDict [("type", JStr "object"); ("properties", JDict [("a", JDict [("$ref", JStr "#/definitions/A")])])])])].
Definition one_doc (j : string) : res json := if String.eqb j "http://h/d/a.json" then Ok a_document else Err KeyError.
(** a check that a document does not declare a version *)
Lemma declares_check d v :
  (match lookup "swaggerVersion" d with Some x => json_is_str v x | None => match lookup "swagger" d with Some x => json_is_str v x | None => match lookup "openapi" d with Some x => json_is_str v x | None => false end end end) = false ->
  ~ declares d (JStr v).
Proof.
  intros H (_ & D). assert (R : json_is_str v (JStr v) = true) by (cbn; now rewrite String.eqb_refl).
  destruct D as [L|[(N & L)|(N & N' & L)]]; rewrite ?N, ?N', ?L in H; rewrite R in H; discriminate H.
Qed.
Example C70_case_20 :
  split id_str id_str "http://h/d/a.json" = Ok ("http://h/d/a.json", "#") /\
  (exists a o, open_with one_doc "2.0" "http://h/d/a.json" = (a, Ok o) /\ is_root o = true) /\
  (exists a o, open_with one_doc "3.0.0" "http://h/d/a.json" = (a, Ok o) /\ exists p x k, so_obj o = OObj "OpenApi" p (JDict x) k /\
     subd "A" (subd "schemas" (subd "components" x)) = [("type", JStr "object"); ("properties", JDict [("a", JDict [("$ref", JStr "#/components/schemas/A")])])]) /\
  wf_json a_document /\ (forall j d p, split id_str id_str j = Ok ("http://h/d/a.json", p) -> one_doc j = Ok (JDict d) -> ~ declares d (JStr "3.0.0")) /\
  (forall o x, wf_obj o -> no_refs o = Ok x -> wf_obj x) /\ (forall o n, wf_obj o -> no_normalized o = Ok n -> wf_json n).
Proof.
  split; [vm_compute; reflexivity|]. split; [do 2 eexists; split; vm_compute; reflexivity|].
  split; [do 2 eexists; split; [vm_compute; reflexivity|]; do 3 eexists; split; vm_compute; reflexivity|].
  split; [exact (wf_jsonb_ok a_document eq_refl)|]. split; [|split; [intros o x W [= <-]; exact W|discriminate]].
  intros j d p _ F. unfold one_doc in F. destruct (String.eqb j "http://h/d/a.json"); [|discriminate F]. assert (E : JDict d = a_document) by congruence. clear F.
  unfold a_document in E. injection E as ->. apply (declares_check _ "3.0.0"). vm_compute. reflexivity.
Qed.
(** the model and the operations refer to models that are there *)
Definition pet_page : json := JDict [("swaggerVersion", JStr "1.2"); ("basePath", JStr "http://h.com/api"); ("resourcePath", JStr "/pet");
  ("apis", JList [JDict [("path", JStr "/pet/{id}"); ("operations", JList [JDict [("method", JStr "GET"); ("type", JStr "Pet");
     ("parameters", JList [JDict [("paramType", JStr "path"); ("name", JStr "id"); ("type", JStr "integer"); ("required", JBool true)]])]])]]);
  ("models", JDict [("Pet", JDict [("id", JStr "Pet"); ("properties", JDict [("mother", JDict [("$ref", JStr "Pet")])])])])].
Definition user_page : json := JDict [("swaggerVersion", JStr "1.2"); ("basePath", JStr "http://h.com/api"); ("resourcePath", JStr "/user");
  ("apis", JList [JDict [("path", JStr "/user"); ("operations", JList [JDict [("method", JStr "post"); ("type", JStr "void"); ("parameters", JList [])]])]]); ("models", JDict [])].
Definition three_docs (j : string) : res json :=
  if String.eqb j "http://h/d/list.json" then Ok the_listing
  else if String.eqb j "http://h/d/pet" then Ok pet_page
  else if String.eqb j "http://h/d/user" then Ok user_page else Err KeyError.
Example C70_case_12 :
  split id_str id_str "http://h/d/list.json" = Ok ("http://h/d/list.json", "#") /\
  (exists d, the_listing = JDict d /\ SpecOpen.listed d ["pet"; "user"]) /\
  (exists a o, open_with three_docs "2.0" "http://h/d/list.json" = (a, Ok o) /\ is_root o = true) /\
  (exists a o, open_with three_docs "3.0.0" "http://h/d/list.json" = (a, Ok o) /\ is_root o = true) /\
  (forall j x, three_docs j = Ok x -> wf_json x /\ forall d, x = JDict d -> ~ declares d (JStr "3.0.0")).
Proof.
  split; [vm_compute; reflexivity|]. split; [|split; [|split; [|]]].
  2:{ do 2 eexists; split; vm_compute; reflexivity. }
  2:{ do 2 eexists; split; vm_compute; reflexivity. }
  2:{ intros j x F. unfold three_docs in F.
      destruct (String.eqb j "http://h/d/list.json"); [|destruct (String.eqb j "http://h/d/pet"); [|destruct (String.eqb j "http://h/d/user"); [|discriminate F]]].
      - assert (E : x = the_listing) by congruence. subst x. split; [exact (wf_jsonb_ok the_listing eq_refl)|]. intros d E. unfold the_listing in E. injection E as <-. apply (declares_check _ "3.0.0"). vm_compute. reflexivity.
      - assert (E : x = pet_page) by congruence. subst x. split; [exact (wf_jsonb_ok pet_page eq_refl)|]. intros d E. unfold pet_page in E. injection E as <-. apply (declares_check _ "3.0.0"). vm_compute. reflexivity.
      - assert (E : x = user_page) by congruence. subst x. split; [exact (wf_jsonb_ok user_page eq_refl)|]. intros d E. unfold user_page in E. injection E as <-. apply (declares_check _ "3.0.0"). vm_compute. reflexivity. }
  eexists. split; [reflexivity|]. eexists. split; [reflexivity|]. repeat (apply Forall2_cons; [do 2 eexists; split; [reflexivity|]; split; reflexivity|]). apply Forall2_nil.
Qed.
Print Assumptions C70_opened.
Print Assumptions C70_20_to_30.
Print Assumptions C70_12_to_30.
