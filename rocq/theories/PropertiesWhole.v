(** * Property C74: Swagger 2.0 documents that open at OpenAPI 3.0.
    base.py:123-332, versions/v2_0/main.py, versions/v3_0_0/main.py, versions/v2_0/scanner/upgrade/converters.py. *)
From Coq Require Import String Ascii List Bool Arith.
From Verif Require Import PyStr PyVal PyValFacts Jp UrlLib Urls SpecUrl Obj ObjFacts Classes_v2_0 Classes_v3_0_0 SpecJson SpecObj SpecSchema SpecConv SpecBody SpecOp SpecDoc SpecGiven SpecMigrate SpecScan ResolveFacts PropertiesObjAux PropertiesScanAux
  Store SpecStore App SpecApp AppFacts4 Main SpecRefs SpecLocal SpecOpen RewriteFacts LocalFacts2 Conv20 Up30 Whole SpecInside SpecWhole ConvFacts WholeFacts PropertiesConvAux PropertiesConv2 PropertiesApp PropertiesUp12 PropertiesRefs PropertiesOpen PropertiesRewrite PropertiesLocal.
Import ListNotations.
Open Scope string_scope. Open Scope nat_scope.

(** ** C74: opening a 2.0 document at 3.0.0 succeeds if: its references point to its own definitions (or
    subschemas of them), global responses and global parameters ([refers_to_targets], [separate_names], and
    [self_contained]: to something the loader keeps); it is well-formed and can be expressed in 3.0
    ([migratable], [expressible_globals]), has no global security requirement (C50), and its OAuth2 flows
    have scopes (C71).  The result is the converted document, and all references of it point to objects of
    it.  [deref] and [normalized_ref] read what the scanners have noted on the 2.0 objects (C06); [deref]
    gives an object of the document. *)
Theorem C74_opens (path2url abspath : string -> string) (app_url : string) (fetch : string -> res json) (merge_fuel f : nat) (from12 : sobj -> res sobj)
    (deref : obj -> res obj) (normalized_ref : obj -> res json) (scheme host path query : string) (d : doc) (root : obj) :
  clean_url scheme host path query -> let url := abs_url scheme host path query in
  fetch url = Ok (JDict d) -> declares d (JStr "2.0") ->
  construct v20_table (JDict d) (BCls "Swagger") (Some url) [] = Ok root -> self_contained "2.0" root -> refers_to_targets d -> separate_names d ->
  migratable deref normalized_ref (path_inside d) d -> expressible_globals d ->
  elements_of (val d "security") = [] -> (forall n s, lookup n (entries_of (val d "securityDefinitions")) = Some (JDict s) -> flow_loads s) ->
  (forall o x, deref o = Ok x -> x = o \/ exists ts, within root ts x) -> (forall o n, normalized_ref o = Ok n -> exists s, n = JStr s) ->
  exists a x reloc root30 result,
    open_document path2url abspath app_url ["1.2"; "2.0"; "3.0.0"] fetch (modules path2url abspath app_url merge_fuel from12 (conversion20 deref normalized_ref)) (fun o _ => Ok o)
      "3.0.0" (S f) url (fresh_app ["1.2"; "2.0"; "3.0.0"]) = (a, Ok (mk_sobj "3.0.0" result [])) /\
    to_openapi deref normalized_ref root = Ok (x, None, reloc) /\ construct v30_table (JDict x) (BCls "OpenApi") (Some "#") [] = Ok root30 /\
    same_objects root30 result /\ self_contained "3.0.0" result.
Proof.
  intros CU url F D C SC RT SN MG EG NS FL DI NT.
  assert (DW : forall o y, wf_obj o -> deref o = Ok y -> wf_obj y).
  { intros o y Wo E. destruct (DI o y E) as [-> |[ts Wy]]; [exact Wo|]. pose proof MG as ((Wd & _) & _). exact (wf_within _ _ _ (WfFacts.construct_wf v20_table (JDict d) Wd (BCls "Swagger") (Some url) root C) Wy). }
  destruct (whole_converted deref normalized_ref d url url root C SC MG EG NS FL RT DW NT) as (x & reloc & root30 & E & W & T & C30 & U).
  destruct (whole_references deref normalized_ref d url root C MG SN x reloc root30 E T C30) as (UM & NM & R). pose proof MG as ((WD & _) & _).
  destruct (C73_opens_migrated path2url abspath app_url fetch merge_fuel f from12 (conversion20 deref normalized_ref) scheme host path query d root root30 (JDict x) reloc CU F D WD C SC) as (a & result & O & SO & SCr & _);
    [unfold conversion20; cbn [so_obj]; fold url; rewrite U; reflexivity|exact W|exact C30|exact UM|exact NM|exact R|].
  exists a, x, reloc, root30, result. auto.
Qed.

(** a document whose operation, body, responses and schemas use references *)
Fixpoint parts (j : json) : list json :=
  j :: match j with
       | JList l => flat_map parts l
       | JDict d => flat_map (fun kv => parts (snd kv)) d
       | _ => []
       end.
Lemma parts_inside : forall j x, In x (parts j) -> inside j x.
Proof.
  apply (ShapeFacts.json_part_ind (fun j => forall x, In x (parts j) -> inside j x)). intros j IH x H.
  destruct j as [| | | | |l|d]; cbn [parts] in H; destruct H as [<-|H]; try apply in_here; try (now elim H); apply in_flat_map in H as (v & Iv & Hv).
  - exact (in_element _ _ _ Iv (IH v Iv x Hv)).
  - destruct v as [k v]. exact (in_entry _ k _ _ Iv (IH v (ex_intro _ k Iv) x Hv)).
Qed.
Lemma inside_parts j x : inside j x -> In x (parts j).
Proof.
  induction 1 as [j|d k v x Iv _ IH|l v x Iv _ IH]; [destruct j; now left| |]; right; apply in_flat_map; [exists (k, v)|exists v]; auto.
Qed.
Definition refs_among (rs : list json) (j : json) : bool :=
  forallb (fun x => match x with JDict d => match lookup "$ref" d with Some (JStr r) => existsb (fun v => match v with JStr s => String.eqb r s | _ => false end) rs | Some _ => false | None => true end | _ => true end) (parts j).
Lemma refs_check rs j (P : json -> Prop) : refs_among rs j = true -> (forall r, In r rs -> P r) -> refs_in P j.
Proof.
  unfold refs_among. intros F A d v Id L. rewrite forallb_forall in F. specialize (F _ (inside_parts _ _ Id)). cbn beta iota in F. rewrite L in F. destruct v as [| | | |r| |]; try discriminate F.
  apply existsb_exists in F as ([| | | |s| |] & Is & E); try discriminate E. apply String.eqb_eq in E. subst. exact (A _ Is).
Qed.
(** the object the "$ref" of an object points to *)
Definition shop_places : list (string * list string) :=
  [("#/definitions/Pet", ["definitions"; "Pet"]); ("#/parameters/limit", ["parameters"; "limit"]); ("#/parameters/pet", ["parameters"; "pet"]); ("#/responses/NotFound", ["responses"; "NotFound"])].
Definition follow (root o : obj) : res obj :=
  match o with
  | OObj _ _ (JDict d) _ => match lookup "$ref" d with
      | Some (JStr r) => match lookup r shop_places with Some ts => resolve v20_table root ts | None => Ok o end
      | _ => Ok o
      end
  | _ => Ok o
  end.
Definition to_ (s : string) : doc := [("$ref", JStr s)].
Definition r_ok : doc := [("description", JStr "ok"); ("schema", JDict (to_ "#/definitions/Pet"))].
Definition r_none : doc := [("description", JStr "none"); ("schema", JDict (to_ "#/definitions/Pet"))].
Definition s_pet : doc := [("type", JStr "object"); ("properties", JDict [("na/me", JDict [("type", JStr "string")]); ("parent", JDict (to_ "#/definitions/Pet")); ("alias", JDict (to_ "#/definitions/Pet/properties/na~1me"))])].
Definition shop_op : doc := [("operationId", JStr "addPet"); ("parameters", JList [JDict (to_ "#/parameters/limit"); JDict (to_ "#/parameters/pet")]); ("responses", JDict [("200", JDict r_ok); ("404", JDict (to_ "#/responses/NotFound"))])].
Definition shop : doc :=
  [("swagger", JStr "2.0"); ("info", JDict [("title", JStr "t"); ("version", JStr "1")]); ("host", JStr "api.com");
   ("paths", JDict [("/pets", JDict [("post", JDict shop_op)])]); ("definitions", JDict [("Pet", JDict s_pet)]);
   ("parameters", JDict [("limit", JDict p_limit); ("pet", JDict p_body)]); ("responses", JDict [("NotFound", JDict r_none)])].
Definition shop_root : obj := built_or (construct v20_table (JDict shop) (BCls "Swagger") (Some "http://h/d/a.json") []).
Notation shop_deref := (follow shop_root).
Lemma shop_refs : refers_to_targets shop.
Proof.
  apply (refs_check [JStr "#/definitions/Pet"; JStr "#/definitions/Pet/properties/na~1me"; JStr "#/parameters/limit"; JStr "#/parameters/pet"; JStr "#/responses/NotFound"]); [vm_compute; reflexivity|].
  intros r H. cbn [In] in H. destruct H as [<-|[<-|[<-|[<-|[<-|[]]]]]].
  - exists ["definitions"; "Pet"]. split; [vm_compute; reflexivity|]. eapply tg_definition; [reflexivity|]. apply sub_here.
  - exists ["definitions"; "Pet"; "properties"; "na/me"]. split; [vm_compute; reflexivity|]. eapply tg_definition; [reflexivity|]. eapply sub_property; [split; [reflexivity|discriminate]|reflexivity|reflexivity|apply sub_here].
  - exists ["parameters"; "limit"]. split; [vm_compute; reflexivity|]. eapply tg_parameter; [discriminate|reflexivity].
  - exists ["parameters"; "pet"]. split; [vm_compute; reflexivity|]. eapply tg_parameter; [discriminate|reflexivity].
  - exists ["responses"; "NotFound"]. split; [vm_compute; reflexivity|]. eapply tg_response. reflexivity.
Qed.
Lemma shop_names : separate_names shop.
Proof.
  intros n (q & L & M) N. change (lookup n [("limit", JDict p_limit); ("pet", JDict p_body)] = Some (JDict q)) in L. cbn [lookup] in L.
  destruct (String.eqb n "limit"); [injection L as <-; discriminate M|]. destruct (String.eqb_spec n "pet") as [->|]; [|discriminate]. split; [cbn; repeat split; discriminate|].
  intros n' q' L' M' P. change (lookup n' [("limit", JDict p_limit); ("pet", JDict p_body)] = Some (JDict q')) in L'. cbn [lookup] in L'.
  destruct (String.eqb_spec n' "limit") as [->|]; [destruct P as [r P]; discriminate P|]. destruct (String.eqb n' "pet"); [|discriminate]. injection L' as <-. discriminate M'.
Qed.
Lemma loaded_refers c p q r : is_reference p = true -> ref_ok p -> (forall path kids, shop_deref (OObj "Reference" path (JDict p) kids) = Ok r) -> loaded (BCls c) (JDict q) r -> refers shop_deref c p q.
Proof.
  intros Ir Ro E L. split; [exact Ro|]. intros o Lo. exists r. split; [|split; [exact L|congruence]]. pose proof (loaded_ref_else _ _ _ _ Lo) as X. unfold is_reference in Ir. rewrite Ir in X. destruct X as [path X]. destruct (construct_cls_obj _ _ _ _ _ X) as (kids & ->). apply E.
Qed.
Lemma plain_refers c q : is_reference q = false -> refers shop_deref c q q.
Proof.
  intros R. split; [intros v H; unfold is_reference, mem in R; rewrite H in R; discriminate|]. intros o L. exists o. pose proof (loaded_ref_else _ _ _ _ L) as X. unfold is_reference in R. rewrite R in X. split; [|auto].
  destruct X as [path X]. destruct (construct_cls_obj _ _ _ _ _ X) as (kids & ->). unfold follow. unfold mem in R. destruct (lookup "$ref" q); [discriminate|reflexivity].
Qed.
Definition at_root_ (ts : list string) : obj := built_or (resolve v20_table shop_root ts).
Lemma pet_resolves : schema_resolves shop_deref (JDict (to_ "#/definitions/Pet")) false.
Proof.
  intros so [path L]. destruct (construct_cls_obj _ _ _ _ _ L) as (kids & ->). exists (at_root_ ["definitions"; "Pet"]), s_pet. split; [vm_compute; reflexivity|]. split; [exists (Some "http://h/d/a.json/definitions/Pet"); vm_compute; reflexivity|reflexivity].
Qed.
Lemma shop_limit : usable shop_deref p_limit. Proof. left. split; [doc_tac|reflexivity]. Qed.
Lemma shop_body : usable shop_deref p_body. Proof. right. right. split; [doc_tac|]. split; [doc_tac|]. exact pet_resolves. Qed.
Lemma shop_pair_limit : refers shop_deref "Parameter" (to_ "#/parameters/limit") p_limit.
Proof.
  apply loaded_refers with (at_root_ ["parameters"; "limit"]); [reflexivity|intros v H; injection H as <-; reflexivity|intros; vm_compute; reflexivity|exists (Some "http://h/d/a.json/parameters/limit"); vm_compute; reflexivity].
Qed.
Lemma shop_pair_pet : refers shop_deref "Parameter" (to_ "#/parameters/pet") p_body.
Proof.
  apply loaded_refers with (at_root_ ["parameters"; "pet"]); [reflexivity|intros v H; injection H as <-; reflexivity|intros; vm_compute; reflexivity|exists (Some "http://h/d/a.json/parameters/pet"); vm_compute; reflexivity].
Qed.
Lemma shop_pair_none : refers shop_deref "Response" (to_ "#/responses/NotFound") r_none.
Proof.
  apply loaded_refers with (at_root_ ["responses"; "NotFound"]); [reflexivity|intros v H; injection H as <-; reflexivity|intros; vm_compute; reflexivity|exists (Some "http://h/d/a.json/responses/NotFound"); vm_compute; reflexivity].
Qed.
Definition shop_params : list (doc * doc) := [(to_ "#/parameters/limit", p_limit); (to_ "#/parameters/pet", p_body)].
Definition shop_responses : list (string * (doc * doc)) := [("200", (r_ok, r_ok)); ("404", (to_ "#/responses/NotFound", r_none))].
Definition shop_requests : list request := [([], []); ([], []); (shop_params, shop_responses); ([], []); ([], []); ([], []); ([], [])].
Lemma response_plain (r : doc) : schema_doc (val r "schema") -> val r "headers" = JNull -> response_doc r.
Proof. intros H1 H2. split; [now right|now left]. Qed.
Lemma shop_path : path_given shop_deref [("post", JDict shop_op)] [] shop_requests.
Proof.
  split; [split; [now left|apply Forall_nil]|]. split; [apply Forall_nil|].
  unfold methods, shop_requests. do 2 (apply Forall2_cons; [left; split; reflexivity|]). apply Forall2_cons; [right; exists shop_op; split; [reflexivity|]|do 4 (apply Forall2_cons; [left; split; reflexivity|]); apply Forall2_nil].
  split; [split; [now right|apply Forall_cons; [exact shop_pair_limit|apply Forall_cons; [exact shop_pair_pet|apply Forall_nil]]]|].
  split; [apply Forall_cons; [exact shop_limit|apply Forall_cons; [exact shop_body|apply Forall_nil]]|].
  split; [|now left]. split; [now right|]. apply Forall_cons; [|apply Forall_cons; [|apply Forall_nil]]; cbn [fst snd].
  - split; [apply plain_refers; reflexivity|]. split; [apply response_plain; [doc_tac|reflexivity]|doc_tac].
  - split; [exact shop_pair_none|]. split; [apply response_plain; [doc_tac|reflexivity]|doc_tac].
Qed.
Ltac part_tac := apply parts_inside; vm_compute; repeat first [left; reflexivity | right].
Lemma shop_migratable : migratable shop_deref no_normalized (path_inside shop) shop.
Proof.
  split. { split; [doc_tac|]. split; [right; eexists; reflexivity|]. split; [intros i H; change (JDict [("title", JStr "t"); ("version", JStr "1")] = JDict i) in H; injection H as <-; split; now left|]. split; [now left|apply Forall_nil]. }
  split; [right; eexists; reflexivity|]. split; [now left|].
  split. { intros n v H. change (lookup n [("Pet", JDict s_pet)] = Some v) in H. cbn [lookup] in H. destruct (String.eqb n "Pet"); [injection H as <-; doc_tac|discriminate]. }
  split. { intros n v H. change (lookup n [("limit", JDict p_limit); ("pet", JDict p_body)] = Some v) in H. cbn [lookup] in H.
    destruct (String.eqb n "limit"); [injection H as <-|destruct (String.eqb n "pet"); [injection H as <-|discriminate]]; eexists; (split; [reflexivity|]); (split; [reflexivity|]); (split; [apply plain_refers; reflexivity|]); [exact shop_limit|exact shop_body]. }
  split. { intros n v H. change (lookup n [("NotFound", JDict r_none)] = Some v) in H. cbn [lookup] in H.
    destruct (String.eqb n "NotFound"); [injection H as <-|discriminate]. eexists. split; [reflexivity|]. split; [reflexivity|]. split; [apply plain_refers; reflexivity|]. apply response_plain; [doc_tac|reflexivity]. }
  split. { intros n v H. discriminate H. }
  intros k v H. change (lookup k [("/pets", JDict [("post", JDict shop_op)])] = Some v) in H. cbn [lookup] in H.
  destruct (String.eqb_spec k "/pets") as [->|]; [|discriminate]. injection H as <-. do 3 eexists. split; [reflexivity|]. split; [exact shop_path|]. split; [|discriminate].
  split; [|split].
  - split; [reflexivity|]. split; [|split].
    + repeat (apply Forall_cons; [intros [Z|Z]; discriminate Z|]). apply Forall_nil.
    + do 2 (apply Forall_cons; [apply Forall_nil|]). apply Forall_cons; [repeat (apply Forall_cons; [intros n h Z; discriminate Z|]); apply Forall_nil|]. do 4 (apply Forall_cons; [apply Forall_nil|]). apply Forall_nil.
    + unfold requests_ok. change (no_merged []) with true. cbv iota. unfold shop_requests. repeat (apply Forall_cons; [unfold one_request; left; vm_compute; repeat constructor|]). apply Forall_nil.
  - cbn [List.app concat map fst snd shop_requests shop_params]. repeat (apply Forall_cons; [split; part_tac|]). apply Forall_nil.
  - cbn [List.app concat map fst snd shop_requests shop_responses]. repeat (apply Forall_cons; [split; part_tac|]). apply Forall_nil.
Qed.
Lemma shop_globals : expressible_globals shop.
Proof.
  split; [|split].
  - intros n q H. change (lookup n [("limit", JDict p_limit); ("pet", JDict p_body)] = Some (JDict q)) in H. cbn [lookup] in H.
    destruct (String.eqb n "limit"); [|destruct (String.eqb n "pet"); [|discriminate]]; apply (f_equal (fun z => match z with Some (JDict c) => c | _ => [] end)) in H; cbn beta iota in H; subst q; intros [Z|Z]; discriminate Z.
  - intros n q H m h Z. change (lookup n [("NotFound", JDict r_none)] = Some (JDict q)) in H. cbn [lookup] in H.
    destruct (String.eqb n "NotFound"); [|discriminate]. apply (f_equal (fun z => match z with Some (JDict c) => c | _ => [] end)) in H; cbn beta iota in H; subst q. discriminate Z.
  - intros n q H. discriminate H.
Qed.
Definition shop_all : list (list string) := [["definitions"; "Pet"]; ["definitions"; "Pet"; "properties"; "na/me"]; ["parameters"; "limit"]; ["parameters"; "pet"]; ["responses"; "NotFound"]].
Lemma shop_inside (o x : obj) : shop_deref o = Ok x -> x = o \/ exists ts, within shop_root ts x.
Proof.
  unfold follow. intros H. destruct o as [|c p s kids| |]; try (injection H as <-; now left). destruct s as [| | | | | |d]; try (injection H as <-; now left).
  destruct (lookup "$ref" d) as [r|]; [|injection H as <-; now left]. destruct r as [| | | |r| |]; try (injection H as <-; now left).
  destruct (lookup r shop_places) as [ts|] eqn:L; [|injection H as <-; now left]. right. exists ts.
  apply PyValFacts.lookup_In in L. apply (f_equal built_or) in H. cbn [built_or] in H. subst x.
  repeat (destruct L as [L|L]; [apply (f_equal snd) in L; cbn [snd] in L; subst ts; apply walk_within; vm_compute; reflexivity|]). destruct L.
Qed.
Definition shop_fetch (u : string) : res json := if String.eqb u "http://h/d/a.json" then Ok (JDict shop) else Err KeyError.
(** all hypotheses of [C74_opens] hold of it *)
Example C74_case :
  clean_url "http" "h" "/d/a.json" "" /\ abs_url "http" "h" "/d/a.json" "" = "http://h/d/a.json" /\ shop_fetch "http://h/d/a.json" = Ok (JDict shop) /\ declares shop (JStr "2.0") /\
  construct v20_table (JDict shop) (BCls "Swagger") (Some "http://h/d/a.json") [] = Ok shop_root /\ self_contained "2.0" shop_root /\ refers_to_targets shop /\ separate_names shop /\
  migratable shop_deref no_normalized (path_inside shop) shop /\ expressible_globals shop /\ elements_of (val shop "security") = [] /\
  (forall n s, lookup n (entries_of (val shop "securityDefinitions")) = Some (JDict s) -> flow_loads s) /\
  (forall o x, shop_deref o = Ok x -> x = o \/ exists ts, within shop_root ts x) /\ (forall o n, no_normalized o = Ok n -> exists s, n = JStr s).
Proof.
  split; [now apply clean_d|]. split; [reflexivity|]. split; [reflexivity|]. split; [split; [discriminate|right; left; split; reflexivity]|].
  split; [vm_compute; reflexivity|].
  split. { apply (references_check "2.0" shop_all); [vm_compute; reflexivity|]. intros us H.
    repeat (destruct H as [<-|H]; [eexists; split; [apply walk_within; vm_compute; reflexivity|do 4 eexists; reflexivity]|]). destruct H. }
  split; [exact shop_refs|]. split; [exact shop_names|]. split; [exact shop_migratable|]. split; [exact shop_globals|]. split; [reflexivity|].
  split; [intros n s H; discriminate H|]. split; [exact shop_inside|]. intros o n H. discriminate H.
Qed.
(** what comes out: the schemas of the global body and of the answer of the operation are references to where
    the definition is now *)
Definition shop_opened : app * res sobj :=
  open_document id_str id_str "" ["1.2"; "2.0"; "3.0.0"] shop_fetch (modules id_str id_str "" 5 (fun o => Ok o) (conversion20 shop_deref no_normalized)) (fun o _ => Ok o)
    "3.0.0" 3 "http://h/d/a.json" (fresh_app ["1.2"; "2.0"; "3.0.0"]).
Example C74_result : exists result,
  snd shop_opened = Ok (mk_sobj "3.0.0" result []) /\
  (exists p, within result ["components"; "requestBodies"; "pet"; "content"; "application/json"; "schema"] p /\
     exists c q k, p = OObj c q (JDict [("$ref", JStr "#/components/schemas/Pet")]) k) /\
  (exists p, within result ["paths"; "/pets"; "post"; "responses"; "404"; "content"; "text/plain"; "schema"] p /\
     exists c q k, p = OObj c q (JDict [("$ref", JStr "#/components/schemas/Pet")]) k).
Proof.
  exists (match snd shop_opened with Ok r => so_obj r | Err _ => OPrim JNull end).
  split; [vm_compute; reflexivity|].
  split; (eexists; split; [apply walk_within; vm_compute; reflexivity|do 3 eexists; vm_compute; reflexivity]).
Qed.
Print Assumptions C74_opens.
