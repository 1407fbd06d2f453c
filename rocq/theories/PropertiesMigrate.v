(** * Property C71: which Swagger 2.0 documents can be migrated to OpenAPI 3.0. *)
From Coq Require Import String Ascii List Bool Arith.
From Verif Require Import PyStr PyVal Obj Classes_v2_0 Classes_v3_0_0 SpecJson SpecObj SpecSchema SpecConv SpecBody SpecOp SpecDoc SpecGiven SpecMigrate Store Conv20 Up30.
From Verif Require Import ConvFacts MigrateFacts MigrateFacts2 MigrateFacts3 PropertiesConvAux PropertiesConv2.
Import ListNotations.
Open Scope string_scope. Open Scope nat_scope.

(** ** C71: the conversion of a well-formed document ([migratable], with no condition on the paths) that
    could be loaded either succeeds or raises SchemaError. *)
Theorem C71_only_schema_errors (deref : obj -> res obj) (normalized_ref : obj -> res json) (d : doc) (o : obj) :
  loaded (BCls "Swagger") (JDict d) o -> migratable deref normalized_ref any_path d ->
  (exists x, to_openapi deref normalized_ref o = Ok x) \/ to_openapi deref normalized_ref o = Err SchemaError.
Proof. intros L M. destruct (openapi_outcome deref normalized_ref any_path d o L M) as [X|[X _]]; [left; exact X|right; exact X]. Qed.
(** It succeeds if every path does not begin with "x-" and can be expressed in OpenAPI 3.0 ([good_path]:
    collection formats, and one request body per operation), and the global objects can be expressed. *)
Theorem C71_migrates (deref : obj -> res obj) (normalized_ref : obj -> res json) (d : doc) (o : obj) :
  loaded (BCls "Swagger") (JDict d) o -> migratable deref normalized_ref good_path d -> expressible_globals d ->
  exists x, to_openapi deref normalized_ref o = Ok x.
Proof. intros L M E. destruct (openapi_outcome deref normalized_ref good_path d o L M) as [X|[_ X]]; [exact X|]. exfalso. apply X. split; [auto|exact E]. Qed.
(** The converted document can be opened as an OpenAPI 3.0 object exactly if there is no global
    security requirement (C50), and every OAuth2 flow under a name of OpenAPI 3.0 has scopes. *)
Theorem C71_opens (deref : obj -> res obj) (normalized_ref : obj -> res json) (d : doc) (o : obj) (url jp : string) :
  loaded (BCls "Swagger") (JDict d) o -> migratable deref normalized_ref good_path d -> expressible_globals d ->
  ((exists r, upgrade30 deref normalized_ref o url jp = Ok r) <->
   elements_of (val d "security") = [] /\ (forall n s, lookup n (entries_of (val d "securityDefinitions")) = Some (JDict s) -> flow_loads s)).
Proof. intros L M E. exact (opens_iff deref normalized_ref good_path d o url jp L M (fun k ps ops H => H) E). Qed.

(** a document with two parameters in its path item, one of them a body, global parameters and responses *)
Lemma limit_usable : usable no_refs p_limit. Proof. left. split; [doc_tac|reflexivity]. Qed.
Lemma body_usable : usable no_refs p_body.
Proof. right. right. split; [doc_tac|]. split; [doc_tac|]. apply no_refs_schema. reflexivity. Qed.
Definition with_scheme_def (s : doc) : doc := dict_set "securityDefinitions" (JDict [("o", JDict s)]) (pets "pet").
Lemma with_scheme_document s : wf_json (JDict s) -> document (with_scheme_def s).
Proof.
  intros W. destruct (pets_document "pet" ltac:(discriminate)) as (_ & D1 & D2 & D3 & D4). split; [|exact (conj D1 (conj D2 (conj D3 D4)))].
  cbn [wf_json] in W. unfold with_scheme_def, pets. cbn -[String.eqb In]. repeat first [exact W | apply conj | exact I | apply NoDup_nil | apply NoDup_cons; [cbn; intuition congruence|]].
Qed.
Lemma pet_path : path_given no_refs [("parameters", JList [JDict p_limit; JDict p_body]); ("post", JDict pet_op)] [(p_limit, p_limit); (p_body, p_body)]
  [([], []); ([], []); ([(p_limit, p_limit)], [("200", ([("description", JStr "ok")], [("description", JStr "ok")]))]); ([], []); ([], []); ([], []); ([], [])].
Proof.
  split; [split; [now right|]; repeat (apply Forall_cons; [apply no_refs_refers; reflexivity|]); apply Forall_nil|].
  split; [apply Forall_cons; [exact limit_usable|apply Forall_cons; [exact body_usable|apply Forall_nil]]|].
  unfold methods. do 2 (apply Forall2_cons; [left; split; reflexivity|]). apply Forall2_cons; [right; exists pet_op; split; [reflexivity|]|do 4 (apply Forall2_cons; [left; split; reflexivity|]); apply Forall2_nil].
  split; [split; [now right|apply Forall_cons; [apply no_refs_refers; reflexivity|apply Forall_nil]]|]. split; [apply Forall_cons; [exact limit_usable|apply Forall_nil]|].
  split; [|now left]. split; [now right|]. apply Forall_cons; [|apply Forall_nil]. split; [apply no_refs_refers; reflexivity|]. split; [split; now left|]. doc_tac.
Qed.
Lemma pets_migratable s : wf_json (JDict s) -> text_or_null (val s "flow") -> migratable no_refs no_normalized good_path (with_scheme_def s).
Proof.
  intros W T. split; [now apply with_scheme_document|]. split; [right; eexists; reflexivity|]. split; [right; eexists; reflexivity|].
  split. { intros n v H. change (lookup n [("Pet", JDict [("properties", JDict [("na/me", JDict [("type", JStr "string")])])])] = Some v) in H. cbn [lookup] in H. destruct (String.eqb n "Pet"); [injection H as <-; doc_tac|discriminate]. }
  split. { intros n v H. change (lookup n [("limit", JDict p_limit); ("pet", JDict p_body)] = Some v) in H. cbn [lookup] in H.
    destruct (String.eqb n "limit"); [injection H as <-|destruct (String.eqb n "pet"); [injection H as <-|discriminate]]; eexists; (split; [reflexivity|]); (split; [reflexivity|]); (split; [apply no_refs_refers; reflexivity|]); [exact limit_usable|exact body_usable]. }
  split. { intros n v H. change (lookup n [("NotFound", JDict [("description", JStr "none"); ("schema", JDict [("type", JStr "string")])])] = Some v) in H. cbn [lookup] in H.
    destruct (String.eqb n "NotFound"); [injection H as <-|discriminate]. eexists. split; [reflexivity|]. split; [reflexivity|]. split; [apply no_refs_refers; reflexivity|]. split; [right; doc_tac|now left]. }
  split. { intros n v H. change (lookup n [("o", JDict s)] = Some v) in H. cbn [lookup] in H. destruct (String.eqb n "o"); [injection H as <-|discriminate]. eauto. }
  intros k v H. change (lookup k [("/pets", JDict [("parameters", JList [JDict p_limit; JDict p_body]); ("post", JDict pet_op)])] = Some v) in H. cbn [lookup] in H.
  destruct (String.eqb_spec k "/pets") as [->|]; [|discriminate]. injection H as <-. do 3 eexists. split; [reflexivity|]. split; [exact pet_path|]. split; [|discriminate].
  split; [reflexivity|]. split; [|split].
  - repeat (apply Forall_cons; [intros [Z|Z]; discriminate Z|]). apply Forall_nil.
  - do 2 (apply Forall_cons; [apply Forall_nil|]). apply Forall_cons; [apply Forall_cons; [intros n h Z; discriminate Z|apply Forall_nil]|]. do 4 (apply Forall_cons; [apply Forall_nil|]). apply Forall_nil.
  - unfold requests_ok. change (no_merged _) with false. cbv iota. unfold one_request. left. vm_compute. apply le_n.
Qed.
Lemma pets_globals s : (val s "type" = JStr "oauth2" -> val s "flow" <> JNull /\ val s "flow" <> JStr "") -> expressible_globals (with_scheme_def s).
Proof.
  intros T. split; [|split].
  - intros n q H. change (lookup n [("limit", JDict p_limit); ("pet", JDict p_body)] = Some (JDict q)) in H. cbn [lookup] in H.
    destruct (String.eqb n "limit"); [|destruct (String.eqb n "pet"); [|discriminate]]; apply (f_equal (fun z => match z with Some (JDict c) => c | _ => [] end)) in H; cbn beta iota in H; subst q; intros [Z|Z]; discriminate Z.
  - intros n q H m h Z. change (lookup n [("NotFound", JDict [("description", JStr "none"); ("schema", JDict [("type", JStr "string")])])] = Some (JDict q)) in H. cbn [lookup] in H.
    destruct (String.eqb n "NotFound"); [|discriminate]. apply (f_equal (fun z => match z with Some (JDict c) => c | _ => [] end)) in H; cbn beta iota in H; subst q. discriminate Z.
  - intros n q H. change (lookup n [("o", JDict s)] = Some (JDict q)) in H. cbn [lookup] in H. destruct (String.eqb n "o"); [|discriminate]. apply (f_equal (fun z => match z with Some (JDict c) => c | _ => [] end)) in H; cbn beta iota in H; subst q. exact T.
Qed.
Definition implicit_flow (scopes : doc) : doc := [("type", JStr "oauth2"); ("flow", JStr "implicit"); ("authorizationUrl", JStr "http://a"); ("scopes", JDict scopes)].
(** with a scope the document can be opened, without it cannot, although the flow is valid in both versions *)
Example C71_case : (forall l, wf_json (JDict l) -> migratable no_refs no_normalized good_path (with_scheme_def (implicit_flow l)) /\ expressible_globals (with_scheme_def (implicit_flow l))) /\
  (exists o, loaded (BCls "Swagger") (JDict (with_scheme_def (implicit_flow [("read", JStr "r")]))) o /\ exists r, upgrade30 no_refs no_normalized o "" "#" = Ok r) /\
  (exists o, loaded (BCls "Swagger") (JDict (with_scheme_def (implicit_flow []))) o /\ forall r, upgrade30 no_refs no_normalized o "" "#" <> Ok r).
Proof.
  split; [|split].
  - intros l W. split; [apply pets_migratable; [cbn [wf_json] in *; unfold implicit_flow; cbn -[String.eqb In]; repeat first [exact W | apply conj | exact I | apply NoDup_nil | apply NoDup_cons; [cbn; intuition congruence|]]|right; eexists; reflexivity]|].
    apply pets_globals. intros _. split; discriminate.
  - eexists. split; [exists (Some "#"); vm_compute; reflexivity|]. eexists. vm_compute. reflexivity.
  - eexists. split; [exists (Some "#"); vm_compute; reflexivity|]. intros r H. revert H. vm_compute. discriminate.
Qed.
(** a path that cannot be expressed *)
Example C71_error : forall o, loaded (BCls "Swagger") (JDict [("swagger", JStr "2.0"); ("paths", JDict [("x-a", JDict [])])]) o -> to_openapi no_refs no_normalized o = Err SchemaError.
Proof.
  intros o L. destruct (C71_only_schema_errors no_refs no_normalized _ o L) as [[x H]|H]; [| |exact H].
  - split. { split; [doc_tac|]. split; [now left|]. split; [intros i H; discriminate H|]. split; [now left|]. apply Forall_nil. }
    split; [now left|]. split; [now left|]. do 4 (split; [intros n v H; discriminate H|]). intros k v H. change (lookup k [("x-a", JDict [])] = Some v) in H. cbn [lookup] in H. destruct (String.eqb k "x-a"); [|discriminate]. injection H as <-.
    exists [], [], [([], []); ([], []); ([], []); ([], []); ([], []); ([], []); ([], [])]. split; [reflexivity|]. split; [|split; [exact I|discriminate]]. split; [split; [now left|apply Forall_nil]|]. split; [apply Forall_nil|]. unfold methods. repeat (apply Forall2_cons; [left; split; reflexivity|]). apply Forall2_nil.
  - exfalso. revert H. apply (path_x no_refs no_normalized _ o "x-a" (JDict []) L); [|reflexivity|reflexivity].
    split; [doc_tac|]. split; [now left|]. split; [intros i H; discriminate H|]. split; [now left|]. apply Forall_nil.
Qed.
Print Assumptions C71_only_schema_errors.
Print Assumptions C71_migrates.
Print Assumptions C71_opens.
