(** * C87: what the references of a Swagger 2.0 document that uses schemas of other documents stand for, and that it opens
    at 3.0.0 with them. *)
From Coq Require Import String Ascii List Bool Arith Lia.
From Verif Require Import PyStr PyVal PyValFacts Jp UrlLib Urls SpecUrl Obj Classes_v2_0 Classes_v3_0_0 SpecJson SpecObj SpecSchema SpecConv SpecBody SpecOp SpecDoc SpecGiven SpecMigrate SpecScan SpecStore SpecApp SpecRefs SpecLocal SpecOpen SpecInside SpecWhole SpecFollow SpecClosed SpecClosed30 SpecClosed23 SpecLibrary SpecFollowAll
  PropertiesObjAux PropertiesScanAux PropertiesConvAux PropertiesRewrite PropertiesLocal PropertiesApp ObjCompare Store App AppFacts2 AppFacts4 AppFacts5 Main Conv20 Up30 Whole Follow FollowAll LocalFacts WfFacts RefFacts LibraryFacts FollowAllFacts FollowAllFacts2 WrittenFacts PropertiesWhole PropertiesClosed PropertiesClosed30 PropertiesClosed23 PropertiesLibrary.
From Verif Require ClosedFacts ClosedFacts30.
Import ListNotations.
Open Scope string_scope. Open Scope nat_scope.
Notation within := SpecObj.within (only parsing).
Notation split := App.split (only parsing).
Notation place := SpecClosed30.place (only parsing).
Notation leads := SpecClosed23.leads (only parsing).

Lemma normalized_text url o n : normalized_in url o = Ok n -> exists s, n = JStr s.
Proof. unfold normalized_in. destruct (normalized v20_table url o) as [[s|]|]; cbn [bind]; intros H; [|discriminate|discriminate]. exists s. now apply Up12Facts.Ok_inj in H. Qed.
(** opening at 2.0, and what is then known of the store *)
Lemma opens20 (path2url abspath : string -> string) (app_url : string) (fetch : string -> res json) (merge_fuel fuel : nat)
    (from12 : sobj -> res sobj) (from20 : sobj -> string -> string -> override -> res (sobj * routes)) (url : string) (d : doc) (root : obj) (places : list (string * builder)) :
  clean url -> fetch url = Ok (JDict d) -> SpecApp.declares d (JStr "2.0") -> wf_json (JDict d) -> construct v20_table (JDict d) (BCls "Swagger") (Some url) [] = Ok root ->
  closed_world path2url abspath fetch url root places -> length places < fuel -> length places < merge_fuel ->
  exists a, open_document path2url abspath app_url ["1.2"; "2.0"; "3.0.0"] fetch (modules path2url abspath app_url merge_fuel from12 from20) (fun o _ => Ok o) "2.0" fuel url (fresh_app ["1.2"; "2.0"; "3.0.0"]) = (a, Ok (mk_sobj "2.0" root [])) /\
    ClosedFacts.Inv path2url abspath fetch url root places (fun _ _ => None) (fun _ => []) (fun _ => False) a.
Proof.
  intros CL F D W C CW LF LM. assert (LL := ClosedFacts.locs_length path2url abspath places). assert (SU := ClosedFacts30.split_place path2url abspath url [] CL). assert (NU := ClosedFacts30.place_ne url [] CL).
  exact (ClosedFacts.opens path2url abspath app_url fetch merge_fuel from12 from20 url d root places CW SU NU F D W C (fun _ _ => None) (fun _ => []) ltac:(lia) fuel (fun _ _ => eq_refl) (fun _ => eq_refl) ltac:(lia)).
Qed.

(** the document opens at 3.0.0: the conversion takes from each reference what has been noted when the
    document was opened at 2.0, and the document need only be well-formed *)
Theorem C87_opens (path2url abspath : string -> string) (app_url : string) (fetch : string -> res json) (merge_fuel fuel : nat) (from12 : sobj -> res sobj)
    (from20 : sobj -> string -> string -> override -> res (sobj * routes)) (url : string) (d : doc) (root : obj) (places : list (string * builder)) (used : list (string * list string)) :
  clean url -> fetch url = Ok (JDict d) -> SpecApp.declares d (JStr "2.0") -> construct v20_table (JDict d) (BCls "Swagger") (Some url) [] = Ok root ->
  closed_world path2url abspath fetch url root places -> library fetch url d places used -> only_references root (JDict d) ->
  well_formed_with fetch url d -> expressible_globals d -> elements_of (val d "security") = [] ->
  (forall n s, lookup n (entries_of (val d "securityDefinitions")) = Some (JDict s) -> flow_loads s) -> separate_names d ->
  length places + length used < fuel -> length places < merge_fuel ->
  let first := open_document path2url abspath app_url ["1.2"; "2.0"; "3.0.0"] fetch (modules path2url abspath app_url merge_fuel from12 from20) (fun o _ => Ok o) "2.0" fuel url (fresh_app ["1.2"; "2.0"; "3.0.0"]) in
  let conv := conversion_all path2url abspath (a_store (fst first)) in
  let modules_ := modules path2url abspath app_url merge_fuel from12 conv in
  let resolve_ := resolve_obj path2url abspath app_url ["1.2"; "2.0"; "3.0.0"] fetch modules_ (fun o _ => Ok o) in
  snd first = Ok (mk_sobj "2.0" root []) /\
  exists root30 reloc a Y, conv (mk_sobj "2.0" root []) url "#" [] = Ok (mk_sobj "3.0.0" root30 [], reloc) /\
    open_document path2url abspath app_url ["1.2"; "2.0"; "3.0.0"] fetch modules_ (fun o _ => Ok o) "3.0.0" fuel url (fresh_app ["1.2"; "2.0"; "3.0.0"]) = (a, Ok (mk_sobj "3.0.0" Y [])) /\
    same_objects root30 Y /\ entry (a_store a) url "#" "3.0.0" = Some (mk_sobj "3.0.0" Y []) /\
    (forall u p o, entry (a_store a) u p "3.0.0" = Some o -> so_version o = "3.0.0" /\ so_apis o = [] /\ exists Z0, library_at fetch url root30 used u p Z0 /\ same_objects Z0 (so_obj o)) /\
    (forall u p o qs c q e' kids' ref', entry (a_store a) u p "3.0.0" = Some o -> within (so_obj o) qs (OObj c q (JDict e') kids') -> In c (referring_classes "3.0.0") -> lookup "$ref" e' = Some (JStr ref') ->
       exists Y0 e kids ref u' ts ts' Z0 Z,
         library_at fetch url root30 used u p Y0 /\ within Y0 qs (OObj c q (JDict e) kids) /\ lookup "$ref" e = Some (JStr ref) /\ leads url reloc u ref u' ts ts' /\
         normalize_jr (Some ref') (Some u) = Ok (Some (place u' ts')) /\
         ((u' = url /\ within root30 ts' Z0) \/ (u' <> url /\ library_at fetch url root30 used u' (pointer ts') Z0)) /\ same_objects Z0 Z /\
         forall parser f remove,
           resolve_ (S f) (mk_query (place u' ts') "3.0.0" parser (Some "3.0.0") remove) a = (a, Ok (mk_sobj "3.0.0" Z [], (u' ++ pointer ts')%string)) /\
           resolve_ (S f) (mk_query (place u' ts) "2.0" parser (Some "3.0.0") remove) a = (a, Ok (mk_sobj "3.0.0" Z [], (u' ++ pointer ts')%string))).
Proof.
  intros CL F D C CW LB OR WF EG NS FL SN LF LM first conv modules_ resolve_. assert (W : wf_json (JDict d)) by (destruct WF as ((W & _) & _); exact W).
  destruct (opens20 path2url abspath app_url fetch merge_fuel fuel from12 from20 url d root places CL F D W C CW ltac:(lia) LM) as (a & E & IV).
  assert (E1 : fst first = a) by (unfold first; now rewrite E). split; [unfold first; now rewrite E|].
  exact (library_opens path2url abspath app_url fetch merge_fuel fuel from12 (deref_all path2url abspath (a_store (fst first)) url) (normalized_in url) conv url d root places used CL F D C CW LB OR
    ltac:(rewrite E1; exact (migrates_all path2url abspath fetch url d root places used CL C CW LB OR a IV W WF)) EG NS FL SN
    ltac:(rewrite E1; exact (deref_of_store_wf path2url abspath fetch url d root places CL C CW a IV W url)) (normalized_text url) eq_refl (fun _ _ _ _ _ => eq_refl) LF LM).
Qed.
(** the same for a document that may also use path items of other documents, in which parameters, responses and the
    schemas of bodies are written out *)
Theorem C87_opens_with_path_items (path2url abspath : string -> string) (app_url : string) (fetch : string -> res json) (merge_fuel fuel : nat) (from12 : sobj -> res sobj)
    (from20 : sobj -> string -> string -> override -> res (sobj * routes)) (url : string) (d : doc) (root : obj) (places : list (string * builder)) (used : list (string * list string)) :
  clean url -> fetch url = Ok (JDict d) -> SpecApp.declares d (JStr "2.0") -> construct v20_table (JDict d) (BCls "Swagger") (Some url) [] = Ok root ->
  closed_world path2url abspath fetch url root places -> written_library fetch url d places used -> only_references root (JDict d) ->
  well_formed_items fetch url d places -> expressible_globals d -> elements_of (val d "security") = [] ->
  (forall n s, lookup n (entries_of (val d "securityDefinitions")) = Some (JDict s) -> flow_loads s) -> separate_names d ->
  length places + length used < fuel -> length places < merge_fuel ->
  let first := open_document path2url abspath app_url ["1.2"; "2.0"; "3.0.0"] fetch (modules path2url abspath app_url merge_fuel from12 from20) (fun o _ => Ok o) "2.0" fuel url (fresh_app ["1.2"; "2.0"; "3.0.0"]) in
  let conv := conversion_all path2url abspath (a_store (fst first)) in
  let modules_ := modules path2url abspath app_url merge_fuel from12 conv in
  let resolve_ := resolve_obj path2url abspath app_url ["1.2"; "2.0"; "3.0.0"] fetch modules_ (fun o _ => Ok o) in
  snd first = Ok (mk_sobj "2.0" root []) /\
  exists root30 reloc a Y, conv (mk_sobj "2.0" root []) url "#" [] = Ok (mk_sobj "3.0.0" root30 [], reloc) /\
    open_document path2url abspath app_url ["1.2"; "2.0"; "3.0.0"] fetch modules_ (fun o _ => Ok o) "3.0.0" fuel url (fresh_app ["1.2"; "2.0"; "3.0.0"]) = (a, Ok (mk_sobj "3.0.0" Y [])) /\
    same_objects root30 Y /\ entry (a_store a) url "#" "3.0.0" = Some (mk_sobj "3.0.0" Y []) /\
    (forall u p o, entry (a_store a) u p "3.0.0" = Some o -> so_version o = "3.0.0" /\ so_apis o = [] /\ exists Z0, item_library_at (deref_all path2url abspath (a_store (fst first))) normalized_in fetch url root30 used u p Z0 /\ same_objects Z0 (so_obj o)) /\
    (forall u p o qs c q e' kids' ref', entry (a_store a) u p "3.0.0" = Some o -> within (so_obj o) qs (OObj c q (JDict e') kids') -> In c (referring_classes "3.0.0") -> lookup "$ref" e' = Some (JStr ref') ->
       exists Y0 e kids ref u' ts ts' Z0 Z,
         item_library_at (deref_all path2url abspath (a_store (fst first))) normalized_in fetch url root30 used u p Y0 /\ within Y0 qs (OObj c q (JDict e) kids) /\ lookup "$ref" e = Some (JStr ref) /\ leads url reloc u ref u' ts ts' /\
         normalize_jr (Some ref') (Some u) = Ok (Some (place u' ts')) /\
         ((u' = url /\ within root30 ts' Z0) \/ (u' <> url /\ item_library_at (deref_all path2url abspath (a_store (fst first))) normalized_in fetch url root30 used u' (pointer ts') Z0)) /\ same_objects Z0 Z /\
         forall parser f remove,
           resolve_ (S f) (mk_query (place u' ts') "3.0.0" parser (Some "3.0.0") remove) a = (a, Ok (mk_sobj "3.0.0" Z [], (u' ++ pointer ts')%string)) /\
           resolve_ (S f) (mk_query (place u' ts) "2.0" parser (Some "3.0.0") remove) a = (a, Ok (mk_sobj "3.0.0" Z [], (u' ++ pointer ts')%string))).
Proof.
  intros CL F D C CW LB OR WF EG NS FL SN LF LM first conv modules_ resolve_. assert (W : wf_json (JDict d)) by (destruct WF as ((W & _) & _); exact W).
  destruct (opens20 path2url abspath app_url fetch merge_fuel fuel from12 from20 url d root places CL F D W C CW ltac:(lia) LM) as (a & E & IV).
  assert (E1 : fst first = a) by (unfold first; now rewrite E). split; [unfold first; now rewrite E|].
  exact (C86_opens_with_path_items path2url abspath app_url fetch merge_fuel fuel from12 (deref_all path2url abspath (a_store (fst first))) normalized_in url d root places used CL F D C CW
    (written_item_library path2url abspath fetch url d root places used _ CW LB) OR ltac:(rewrite E1; exact (own_migrates path2url abspath fetch url d root places used CL C CW OR a IV LB WF)) EG NS FL SN
    ltac:(rewrite E1; exact (deref_of_store_wf path2url abspath fetch url d root places CL C CW a IV W)) normalized_text LF LM).
Qed.
(** what is noted for a reference in a stored object of version 2.0 is what [resolve_obj] answers, without loading or
    changing anything *)
Theorem C87_noted (path2url abspath : string -> string) (app_url : string) (fetch : string -> res json) (merge_fuel fuel : nat)
    (from12 : sobj -> res sobj) (from20 : sobj -> string -> string -> override -> res (sobj * routes)) (url : string) (d : doc) (root : obj) (places : list (string * builder)) :
  clean url -> fetch url = Ok (JDict d) -> SpecApp.declares d (JStr "2.0") -> wf_json (JDict d) -> construct v20_table (JDict d) (BCls "Swagger") (Some url) [] = Ok root ->
  closed_world path2url abspath fetch url root places -> length places < fuel -> length places < merge_fuel ->
  let modules_ := modules path2url abspath app_url merge_fuel from12 from20 in
  let resolve_ := resolve_obj path2url abspath app_url ["1.2"; "2.0"; "3.0.0"] fetch modules_ (fun o _ => Ok o) in
  exists a, open_document path2url abspath app_url ["1.2"; "2.0"; "3.0.0"] fetch modules_ (fun o _ => Ok o) "2.0" fuel url (fresh_app ["1.2"; "2.0"; "3.0.0"]) = (a, Ok (mk_sobj "2.0" root [])) /\
    forall u p o ts c q e kids ref n b, entry (a_store a) u p "2.0" = Some o -> within (so_obj o) ts (OObj c q (JDict e) kids) -> In c (referring_classes "2.0") -> lookup "$ref" e = Some (JStr ref) ->
      normalize_jr (Some ref) (Some u) = Ok (Some n) -> refers_as ts c = Some b ->
      exists u' jp y, noted_all path2url abspath (a_store a) u (OObj c q (JDict e) kids) = Some (u', y) /\ split path2url abspath n = Ok (u', jp) /\
        forall f remove, resolve_ (S f) (mk_query n "2.0" (Some ("2.0", b)) None remove) a = (a, Ok (mk_sobj "2.0" y [], (u' ++ jp)%string)).
Proof.
  intros CL F D W C CW LF LM modules_ resolve_. destruct (opens20 path2url abspath app_url fetch merge_fuel fuel from12 from20 url d root places CL F D W C CW LF LM) as (a & E & IV). exists a. split; [exact E|].
  intros u p o ts c q e kids ref n b EN WI IC L N RA. assert (RF : SpecClosed.refers u (so_obj o) n b) by (exists ts, c, q, e, kids, ref; auto 8).
  assert (NU := ClosedFacts30.place_ne url [] CL). destruct (ClosedFacts.ent20 _ _ _ _ _ _ _ _ _ _ _ _ _ IV EN) as (_ & _ & SO). destruct (ClosedFacts.stored_closed path2url abspath fetch url root places CW _ _ _ SO) as (R1 & R2). assert (IN := R2 _ _ RF).
  destruct (cw_places _ _ _ _ _ _ CW _ b IN) as (u' & us & S & NE & _). assert (CV := ClosedFacts.i_done _ _ _ _ _ _ _ _ _ _ IV _ _ _ _ _ _ EN (fun F => F) RF S).
  destruct (ClosedFacts.get_cov path2url abspath fetch url d root places CW NU W C (fun _ _ => None) (fun _ => []) (fun _ => False) a n b u' (pointer us) IV IN S CV) as (y & G & A & _).
  exists u', (pointer us), y. split; [|split; [exact S|]].
  - assert (RB : oattr v20_table (OObj c q (JDict e) kids) "ref" = Ok (OPrim (JStr ref))).
    { apply (ref_attr "2.0"); [now left| |exact L]. clear - IC. cbn in IC |- *. tauto. }
    unfold noted_all, normalized. rewrite RB. cbn [bind]. destruct (R1 _ _ _ _ _ WI IC) as (e' & Ee & H). injection Ee as <-. rewrite L in H. destruct H as (ref' & n' & Er & RN & _). injection Er as <-.
    assert (T : truthy_str ref = true) by (destruct ref; [congruence|reflexivity]). rewrite T, N, S, G. reflexivity.
  - intros f rm.
    assert (NQ : n <> "") by (intros Z; rewrite Z in S; vm_compute in S; injection S as Z1 _; congruence).
    assert (TU : truthy_str u' = true) by (destruct u'; [congruence|reflexivity]).
    assert (B := resolve_cached path2url abspath app_url ["1.2"; "2.0"; "3.0.0"] fetch modules_ (fun o _ => Ok o) f (mk_query n "2.0" (Some ("2.0", b)) None rm) a u' (pointer us) (pointer us) (mk_sobj "2.0" y []) NQ S eq_refl).
    rewrite TU in B. unfold resolve_. rewrite B; [reflexivity|exact G|].
    destruct A as (c1 & q1 & s1 & k1 & -> & _). reflexivity.
Qed.

(** following the references of a stored schema, through this document and the others, gives the schema at the end of
    the chain, and [CycleDetectionError] exactly when the chain comes back; a schema reference into this document leads
    to a schema of its definitions *)
Theorem C87_deref (path2url abspath : string -> string) (app_url : string) (fetch : string -> res json) (merge_fuel fuel : nat)
    (from12 : sobj -> res sobj) (from20 : sobj -> string -> string -> override -> res (sobj * routes)) (url : string) (d : doc) (root : obj) (places : list (string * builder)) (used : list (string * list string)) :
  clean url -> fetch url = Ok (JDict d) -> SpecApp.declares d (JStr "2.0") -> construct v20_table (JDict d) (BCls "Swagger") (Some url) [] = Ok root ->
  closed_world path2url abspath fetch url root places -> library fetch url d places used -> only_references root (JDict d) -> well_formed_with fetch url d ->
  (forall ts, In (place url ts, BCls "Schema") places -> exists n ts', ts = "definitions" :: n :: ts') ->
  length places < fuel -> length places < merge_fuel ->
  exists a, open_document path2url abspath app_url ["1.2"; "2.0"; "3.0.0"] fetch (modules path2url abspath app_url merge_fuel from12 from20) (fun o _ => Ok o) "2.0" fuel url (fresh_app ["1.2"; "2.0"; "3.0.0"]) = (a, Ok (mk_sobj "2.0" root [])) /\
    forall u jp o ts p s kids, entry (a_store a) u jp "2.0" = Some o -> within (so_obj o) ts (OObj "Schema" p (JDict s) kids) ->
      (exists e p' kids', ends_at fetch url d u (JDict s) e /\ deref_all path2url abspath (a_store a) u (OObj "Schema" p (JDict s) kids) = Ok (OObj "Schema" p' (JDict e) kids')) \/
      (deref_all path2url abspath (a_store a) u (OObj "Schema" p (JDict s) kids) = Err CycleDetectionError /\ forall e, ~ ends_at fetch url d u (JDict s) e).
Proof.
  intros CL F D C CW LB OR WF SD LF LM. assert (W : wf_json (JDict d)) by (destruct WF as ((W & _) & _); exact W).
  destruct (opens20 path2url abspath app_url fetch merge_fuel fuel from12 from20 url d root places CL F D W C CW LF LM) as (a & E & IV). exists a. split; [exact E|].
  exact (deref_all_ends path2url abspath fetch url d root places used CL C CW LB OR a IV W WF SD).
Qed.

(** what [NormalizeRef] notes for path items is what C86 asks for ([items_normalized]), for the document and for every piece *)
Theorem C87_items_normalized u X : items_normalized normalized_in u X.
Proof. intros ts p e kids ref n W L Ne N. exact (normalized_item u X ts p e kids ref n W L Ne N). Qed.
Example C87_items_normalized_case : normalized_in s2_b (OObj "PathItem" None (JDict p3_p) []) = Ok (JStr "http://h/d/b.json#/paths/~1q").
Proof. vm_compute. reflexivity. Qed.

(** ** An example: the body of a request is a schema of another document, by a chain of three references which ends in
    this document *)
Definition t2_body : doc := [("name", JStr "pet"); ("in", JStr "body"); ("schema", jref "b.json#/definitions/Tag")].
Definition t2_ok : doc := [("description", JStr "ok")].
Definition t2_op : doc := [("parameters", JList [JDict t2_body]); ("responses", JDict [("200", JDict t2_ok)])].
Definition t2_pet : doc := [("properties", one "name" (one "type" (JStr "string")))].
Definition t2_d : doc := [("swagger", JStr "2.0"); ("info", JDict [("title", JStr "shop"); ("version", JStr "1")]);
  ("paths", one "/pets" (JDict [("post", JDict t2_op)])); ("definitions", JDict [("Pet", JDict t2_pet)])].
Definition t2_other : json := one "definitions" (JDict [("Tag", jref "#/definitions/Name"); ("Name", jref "a.json#/definitions/Pet")]).
Definition t2_docs := [("http://h/d/a.json", JDict t2_d); ("http://h/d/b.json", t2_other)].
Definition t2_root : obj := match construct v20_table (JDict t2_d) (BCls "Swagger") (Some s2_url) [] with Ok o => o | Err _ => OPrim JNull end.
Example t2_world : closed_world same same (from_docs t2_docs) s2_url t2_root s2_places.
Proof. apply world_check_ok. vm_compute. reflexivity. Qed.
Example t2_library : library (from_docs t2_docs) s2_url t2_d s2_places s2_moved.
Proof.
  assert (A := clean_doc "d/a.json" eq_refl). assert (B := clean_doc "d/b.json" eq_refl). split.
  - intros n b I. destruct I as [[= <- <-]|[[= <- <-]|[[= <- <-]|[]]]].
    + exists s2_b, ["definitions"; "Tag"]. split; [exact B|]. split; [reflexivity|]. right. split; [discriminate|]. split; [now left|reflexivity].
    + exists s2_b, ["definitions"; "Name"]. split; [exact B|]. split; [reflexivity|]. right. split; [discriminate|]. split; [right; now left|reflexivity].
    + exists s2_url, ["definitions"; "Pet"]. split; [exact A|]. split; [reflexivity|]. left. split; [reflexivity|]. split; [|discriminate]. eapply tg_definition; [reflexivity|apply sub_here].
  - intros u ts I. split; [destruct I as [[= <- <-]|[[= <- <-]|[]]]; discriminate|]. intros s X F C.
    destruct I as [[= <- <-]|[[= <- <-]|[]]]; vm_compute in F; apply (f_equal (fun x => match x with Ok (JDict y) => y | _ => [] end)) in F; cbv beta iota in F; subst s;
      vm_compute in C; apply (f_equal built_or) in C; cbn [built_or] in C; subst X; (split; [doc_tac|apply only_references_ok; vm_compute; reflexivity]).
  - intros u ts1 ts2 I1 I2. destruct I1 as [[= <- <-]|[[= <- <-]|[]]], I2 as [[= <-]|[[= <-]|[]]]; intros S; try reflexivity; exfalso; vm_compute in S; discriminate S.
Qed.
Lemma t2_ends : ends_at (from_docs t2_docs) s2_url t2_d s2_url (val t2_body "schema") t2_pet.
Proof.
  assert (B := clean_doc "d/b.json" eq_refl).
  eapply (ea_other _ _ _ s2_url [("$ref", JStr "b.json#/definitions/Tag")] "b.json#/definitions/Tag" s2_b ["definitions"; "Tag"]); [reflexivity|vm_compute; reflexivity|discriminate|exact B|vm_compute; reflexivity|].
  eapply (ea_other _ _ _ s2_b [("$ref", JStr "#/definitions/Name")] "#/definitions/Name" s2_b ["definitions"; "Name"]); [reflexivity|vm_compute; reflexivity|discriminate|exact B|vm_compute; reflexivity|].
  eapply (ea_own _ _ _ s2_b [("$ref", JStr "a.json#/definitions/Pet")] "a.json#/definitions/Pet" "Pet" (JDict t2_pet) []); [reflexivity|vm_compute; reflexivity|reflexivity|apply sub_here|].
  apply ea_here. reflexivity.
Qed.
Definition t2_requests : list (list (doc * doc) * list (string * (doc * doc))) := [([], []); ([], []); ([(t2_body, t2_body)], [("200", (t2_ok, t2_ok))]); ([], []); ([], []); ([], []); ([], [])].
Lemma t2_well_formed : well_formed_with (from_docs t2_docs) s2_url t2_d.
Proof.
  split. { split; [doc_tac|]. split; [right; eexists; reflexivity|]. split; [intros i H; change (JDict [("title", JStr "shop"); ("version", JStr "1")] = JDict i) in H; injection H as <-; split; now left|]. split; [now left|apply Forall_nil]. }
  split; [now left|]. split; [now left|].
  split. { intros n v H. change (lookup n [("Pet", JDict t2_pet)] = Some v) in H. cbn [lookup] in H. destruct (String.eqb n "Pet"); [injection H as <-; doc_tac|discriminate]. }
  split; [intros n v H; discriminate H|]. split; [intros n v H; discriminate H|]. split; [intros n v H; discriminate H|].
  intros k v H. change (lookup k [("/pets", JDict [("post", JDict t2_op)])] = Some v) in H. cbn [lookup] in H. destruct (String.eqb_spec k "/pets") as [->|]; [|discriminate]. injection H as <-.
  exists [("post", JDict t2_op)], [], t2_requests. split; [reflexivity|]. split; [reflexivity|]. split.
  - split; [split; [now left|apply Forall_nil]|].
    unfold methods, t2_requests. do 2 (apply Forall2_cons; [left; split; reflexivity|]). apply Forall2_cons; [right; exists t2_op; split; [reflexivity|]|do 4 (apply Forall2_cons; [left; split; reflexivity|]); apply Forall2_nil].
    split; [split; [now right|]|split; [|now left]].
    + apply Forall_cons; [|apply Forall_nil]. split; [left; split; reflexivity|]. right. right. split; [doc_tac|]. exists t2_pet. split; [exact t2_ends|reflexivity].
    + split; [now right|]. apply Forall_cons; [|apply Forall_nil]. cbn [fst snd]. split; [left; split; reflexivity|]. split; now left.
  - split; [reflexivity|split; [|split]].
    + repeat (apply Forall_cons; [intros [Z|Z]; discriminate Z|]). apply Forall_nil.
    + do 2 (apply Forall_cons; [apply Forall_nil|]). apply Forall_cons; [repeat (apply Forall_cons; [intros n h Z; discriminate Z|]); apply Forall_nil|]. do 4 (apply Forall_cons; [apply Forall_nil|]). apply Forall_nil.
    + unfold requests_ok. change (no_merged []) with true. cbv iota. unfold t2_requests. repeat (apply Forall_cons; [unfold one_request; left; vm_compute; repeat constructor|]). apply Forall_nil.
Qed.
Lemma t2_only : only_references t2_root (JDict t2_d).
Proof.
  intros d v Id L. assert (I := inside_parts _ _ Id : In (JDict d) (parts (JDict t2_d))). vm_compute in I. repeat (match type of I with _ \/ _ => destruct I as [I|I] end); try contradiction; try discriminate I; apply (f_equal (fun x => match x with JDict y => y | _ => [] end)) in I; cbv beta iota in I; subst d; try (vm_compute in L; discriminate L).
  vm_compute in L. apply (f_equal (fun x => match x with Some y => y | _ => JNull end)) in L. cbv beta iota in L. subst v.
  exists ["paths"; "/pets"; "post"; "parameters"; "0"; "schema"], "Schema". do 4 eexists. split.
  - let y := eval vm_compute in t2_root in change t2_root with y.
    eapply wi_child; [vm_compute; reflexivity|]. eapply wi_key; [vm_compute; reflexivity|]. eapply wi_child; [vm_compute; reflexivity|]. eapply wi_child; [vm_compute; reflexivity|].
    eapply (wi_index _ _ _ 0); [vm_compute; auto|vm_compute; reflexivity|]. eapply wi_child; [vm_compute; reflexivity|apply wi_here].
  - split; [cbn; auto|]. split; vm_compute; reflexivity.
Qed.
Example C87_case : clean s2_url /\ from_docs t2_docs s2_url = Ok (JDict t2_d) /\ SpecApp.declares t2_d (JStr "2.0") /\ construct v20_table (JDict t2_d) (BCls "Swagger") (Some s2_url) [] = Ok t2_root /\
  closed_world same same (from_docs t2_docs) s2_url t2_root s2_places /\ library (from_docs t2_docs) s2_url t2_d s2_places s2_moved /\ only_references t2_root (JDict t2_d) /\
  well_formed_with (from_docs t2_docs) s2_url t2_d /\ expressible_globals t2_d /\ elements_of (val t2_d "security") = [] /\
  (forall n s, lookup n (entries_of (val t2_d "securityDefinitions")) = Some (JDict s) -> flow_loads s) /\ separate_names t2_d.
Proof.
  split; [exact (clean_doc "d/a.json" eq_refl)|]. split; [vm_compute; reflexivity|]. split; [apply doc_version_declares; vm_compute; reflexivity|]. split; [vm_compute; reflexivity|].
  split; [exact t2_world|]. split; [exact t2_library|]. split; [exact t2_only|]. split; [exact t2_well_formed|].
  split; [split; [|split]; intros n q H; discriminate H|]. split; [reflexivity|]. split; [intros n s H; discriminate H|]. intros n (q & L & _); discriminate L.
Qed.
(** what is noted for the reference of the body, what it stands for, and what comes out *)
Definition t2_from20 (o : sobj) (url jp : string) (ovr : override) : res (sobj * routes) := Err PyException.
Definition t2_first := open_document same same "" ["1.2"; "2.0"; "3.0.0"] (from_docs t2_docs) (modules same same "" 12 (fun _ => Err PyException) t2_from20) (fun o _ => Ok o) "2.0" 12 s2_url (fresh_app ["1.2"; "2.0"; "3.0.0"]).
Definition t2_store := a_store (fst t2_first).
Definition t2_conv := conversion_all same same t2_store.
Definition t2_opened := open_document same same "" ["1.2"; "2.0"; "3.0.0"] (from_docs t2_docs) (modules same same "" 12 (fun _ => Err PyException) t2_conv) (fun o _ => Ok o) "3.0.0" 12 s2_url (fresh_app ["1.2"; "2.0"; "3.0.0"]).
Definition t2_schema : obj := built_or (resolve v20_table t2_root ["paths"; "/pets"; "post"; "parameters"; "0"; "schema"]).
Example C87_result : ref_at (Ok (mk_sobj "2.0" t2_schema [])) [] = Some (JStr "b.json#/definitions/Tag") /\
  match noted_all same same t2_store s2_url t2_schema with Some (u, x) => u = s2_b /\ ref_at (Ok (mk_sobj "2.0" x [])) [] = Some (JStr "#/definitions/Name") | None => False end /\
  deref_all same same t2_store s2_url t2_schema = resolve v20_table t2_root ["definitions"; "Pet"] /\
  parsed30 (fst t2_opened) = [(s2_url, "#"); (s2_b, "#/definitions/Tag")] /\
  ref_at (snd t2_opened) ["paths"; "/pets"; "post"; "requestBody"; "content"; "application/json"; "schema"] = Some (JStr "http://h/d/b.json#/definitions/Tag").
Proof. vm_compute. repeat split. Qed.
(** *** a ring: the response's schema is a schema of the other document, which comes back to itself *)
Definition t3_ok : doc := [("description", JStr "ok"); ("schema", jref "b.json#/definitions/Tag")].
Definition t3_op : doc := [("responses", JDict [("200", JDict t3_ok)])].
Definition t3_d : doc := [("swagger", JStr "2.0"); ("info", JDict [("title", JStr "shop"); ("version", JStr "1")]);
  ("paths", one "/pets" (JDict [("get", JDict t3_op)])); ("definitions", JDict [("Pet", jref "b.json#/definitions/End")])].
Definition t3_other : json := one "definitions" (JDict [("Tag", jref "#/definitions/Name"); ("Name", jref "#/definitions/Tag"); ("End", one "type" (JStr "string"))]).
Definition t3_docs := [("http://h/d/a.json", JDict t3_d); ("http://h/d/b.json", t3_other)].
Definition t3_root : obj := match construct v20_table (JDict t3_d) (BCls "Swagger") (Some s2_url) [] with Ok o => o | Err _ => OPrim JNull end.
Definition t3_places : list (string * builder) := [("http://h/d/b.json#/definitions/Tag", BCls "Schema"); ("http://h/d/b.json#/definitions/Name", BCls "Schema"); ("http://h/d/b.json#/definitions/End", BCls "Schema")].
Definition t3_used : list (string * list string) := [(s2_b, ["definitions"; "Tag"]); (s2_b, ["definitions"; "Name"]); (s2_b, ["definitions"; "End"])].
Example t3_world : closed_world same same (from_docs t3_docs) s2_url t3_root t3_places.
Proof. apply world_check_ok. vm_compute. reflexivity. Qed.
Example t3_library : library (from_docs t3_docs) s2_url t3_d t3_places t3_used.
Proof.
  assert (B := clean_doc "d/b.json" eq_refl). split.
  - intros n b I. destruct I as [[= <- <-]|[[= <- <-]|[[= <- <-]|[]]]].
    + exists s2_b, ["definitions"; "Tag"]. split; [exact B|]. split; [reflexivity|]. right. split; [discriminate|]. split; [now left|reflexivity].
    + exists s2_b, ["definitions"; "Name"]. split; [exact B|]. split; [reflexivity|]. right. split; [discriminate|]. split; [right; now left|reflexivity].
    + exists s2_b, ["definitions"; "End"]. split; [exact B|]. split; [reflexivity|]. right. split; [discriminate|]. split; [right; right; now left|reflexivity].
  - intros u ts I. split; [destruct I as [[= <- <-]|[[= <- <-]|[[= <- <-]|[]]]]; discriminate|]. intros s X F C.
    destruct I as [[= <- <-]|[[= <- <-]|[[= <- <-]|[]]]]; vm_compute in F; apply (f_equal (fun x => match x with Ok (JDict y) => y | _ => [] end)) in F; cbv beta iota in F; subst s;
      vm_compute in C; apply (f_equal built_or) in C; cbn [built_or] in C; subst X; (split; [doc_tac|apply only_references_ok; vm_compute; reflexivity]).
  - intros u ts1 ts2 I1 I2. destruct I1 as [[= <- <-]|[[= <- <-]|[[= <- <-]|[]]]], I2 as [[= <-]|[[= <-]|[[= <-]|[]]]]; intros S; try reflexivity; exfalso; vm_compute in S; discriminate S.
Qed.
Definition t3_requests : list (list (doc * doc) * list (string * (doc * doc))) := [([], [("200", (t3_ok, t3_ok))]); ([], []); ([], []); ([], []); ([], []); ([], []); ([], [])].
Lemma t3_well_formed : well_formed_with (from_docs t3_docs) s2_url t3_d.
Proof.
  split. { split; [doc_tac|]. split; [right; eexists; reflexivity|]. split; [intros i H; change (JDict [("title", JStr "shop"); ("version", JStr "1")] = JDict i) in H; injection H as <-; split; now left|]. split; [now left|apply Forall_nil]. }
  split; [now left|]. split; [now left|].
  split. { intros n v H. change (lookup n [("Pet", jref "b.json#/definitions/End")] = Some v) in H. cbn [lookup] in H. destruct (String.eqb n "Pet"); [injection H as <-; doc_tac|discriminate]. }
  split; [intros n v H; discriminate H|]. split; [intros n v H; discriminate H|]. split; [intros n v H; discriminate H|].
  intros k v H. change (lookup k [("/pets", JDict [("get", JDict t3_op)])] = Some v) in H. cbn [lookup] in H. destruct (String.eqb_spec k "/pets") as [->|]; [|discriminate]. injection H as <-.
  exists [("get", JDict t3_op)], [], t3_requests. split; [reflexivity|]. split; [reflexivity|]. split.
  - split; [split; [now left|apply Forall_nil]|].
    unfold methods, t3_requests. apply Forall2_cons; [right; exists t3_op; split; [reflexivity|]|do 6 (apply Forall2_cons; [left; split; reflexivity|]); apply Forall2_nil].
    split; [split; [now left|apply Forall_nil]|split; [|now left]].
    split; [now right|]. apply Forall_cons; [|apply Forall_nil]. cbn [fst snd]. split; [left; split; reflexivity|]. split; [right; doc_tac|now left].
  - split; [reflexivity|split; [|split]].
    + repeat (apply Forall_cons; [intros [Z|Z]; discriminate Z|]). apply Forall_nil.
    + apply Forall_cons; [repeat (apply Forall_cons; [intros n h Z; discriminate Z|]); apply Forall_nil|]. do 6 (apply Forall_cons; [apply Forall_nil|]). apply Forall_nil.
    + unfold requests_ok. change (no_merged []) with true. cbv iota. unfold t3_requests. repeat (apply Forall_cons; [unfold one_request; left; vm_compute; repeat constructor|]). apply Forall_nil.
Qed.
Lemma t3_only : only_references t3_root (JDict t3_d).
Proof. apply only_references_ok. vm_compute. reflexivity. Qed.
Example C87_deref_case : clean s2_url /\ from_docs t3_docs s2_url = Ok (JDict t3_d) /\ SpecApp.declares t3_d (JStr "2.0") /\ construct v20_table (JDict t3_d) (BCls "Swagger") (Some s2_url) [] = Ok t3_root /\
  closed_world same same (from_docs t3_docs) s2_url t3_root t3_places /\ library (from_docs t3_docs) s2_url t3_d t3_places t3_used /\ only_references t3_root (JDict t3_d) /\
  well_formed_with (from_docs t3_docs) s2_url t3_d /\ (forall ts, In (place s2_url ts, BCls "Schema") t3_places -> exists n ts', ts = "definitions" :: n :: ts').
Proof.
  split; [exact (clean_doc "d/a.json" eq_refl)|]. split; [vm_compute; reflexivity|]. split; [apply doc_version_declares; vm_compute; reflexivity|]. split; [vm_compute; reflexivity|].
  split; [exact t3_world|]. split; [exact t3_library|]. split; [exact t3_only|]. split; [exact t3_well_formed|].
  intros ts I. exfalso. unfold t3_places in I. destruct I as [I|[I|[I|[]]]]; apply (f_equal fst) in I; cbn [fst] in I; destruct ts; vm_compute in I; discriminate I.
Qed.
Definition t3_store := a_store (fst (open_document same same "" ["1.2"; "2.0"; "3.0.0"] (from_docs t3_docs) (modules same same "" 12 (fun _ => Err PyException) t2_from20) (fun o _ => Ok o) "2.0" 12 s2_url (fresh_app ["1.2"; "2.0"; "3.0.0"]))).
Example C87_ring : deref_all same same t3_store s2_url (built_or (resolve v20_table t3_root ["paths"; "/pets"; "get"; "responses"; "200"; "schema"])) = Err CycleDetectionError /\
  deref_all same same t3_store s2_url (built_or (resolve v20_table t3_root ["definitions"; "Pet"])) = construct v20_table (one "type" (JStr "string")) (BCls "Schema") (Some "http://h/d/b.json#/definitions/End") [].
Proof. vm_compute. split; reflexivity. Qed.
Print Assumptions C87_opens.
Print Assumptions C87_noted.
Print Assumptions C87_deref.
Print Assumptions C87_items_normalized.

(** ** An example: the documents with path items of C86 *)
Ltac empty_tac := left; split; reflexivity.
Lemma p3_written : well_formed_items (from_docs p3_docs) s2_url p3_d p3_places.
Proof.
  destruct p3_migratable as (W1 & W2 & W3 & W4 & _). split; [exact W1|]. split; [exact W2|]. split; [exact W3|]. split; [exact W4|]. split; [intros n v H; discriminate H|]. split; [intros n v H; discriminate H|]. split; [intros n v H; discriminate H|].
  intros k v H. change (lookup k [("/pets", JDict p3_item)] = Some v) in H. cbn [lookup] in H. destruct (String.eqb_spec k "/pets") as [->|]; [|discriminate]. injection H as <-.
  exists p3_item, [], p3_none. split; [reflexivity|]. split; [|split; [reflexivity|expressible_tac]].
  split; [split; [now left|apply Forall_nil]|]. unfold methods, p3_none. do 7 (apply Forall2_cons; [empty_tac|]). apply Forall2_nil.
Qed.
Lemma p3_p_written : written_item p3_p.
Proof.
  exists [], p3_gets. split; [|split; [expressible_tac|reflexivity]]. split; [split; [now left|apply Forall_nil]|]. unfold methods, p3_gets. apply Forall2_cons; [|do 6 (apply Forall2_cons; [empty_tac|]); apply Forall2_nil].
  right. exists p3_get. split; [reflexivity|]. split; [split; [now left|apply Forall_nil]|]. split; [|now left]. split; [now right|]. apply Forall_cons; [|apply Forall_nil]. split; [left; split; reflexivity|]. apply response_plain; [doc_tac|reflexivity].
Qed.
Lemma p3_q_written : written_item p3_q.
Proof.
  exists [], p3_puts. split; [|split; [expressible_tac|reflexivity]]. split; [split; [now left|apply Forall_nil]|]. unfold methods, p3_puts. apply Forall2_cons; [empty_tac|]. apply Forall2_cons; [|do 5 (apply Forall2_cons; [empty_tac|]); apply Forall2_nil].
  right. exists p3_put. split; [reflexivity|]. split; [split; [now left|apply Forall_nil]|]. split; [|now left]. split; [now right|]. apply Forall_cons; [|apply Forall_nil]. split; [left; split; reflexivity|]. apply response_plain; [doc_tac|reflexivity].
Qed.
Lemma p3_written_library : written_library (from_docs p3_docs) s2_url p3_d p3_places p3_used.
Proof.
  split; [exact (il_places _ _ _ _ _ _ _ _ C86_item_library_case)| | |exact (il_apart _ _ _ _ _ _ _ _ C86_item_library_case)].
  2:{ intros u ts b1 b2 I _ I1 I2. transitivity (if string_dec (place u ts) "http://h/d/b.json#/definitions/Tag" then BCls "Schema" else BCls "PathItem"); [clear I2; rename I1 into I2|symmetry; clear I1].
    all: destruct I as [[= <- <-]|[[= <- <-]|[[= <- <-]|[]]]]; destruct I2 as [E2|[E2|[E2|[E2|[]]]]]; pose proof (f_equal fst E2) as E3; pose proof (f_equal snd E2) as E4; cbn [fst snd] in E3, E4; clear E2; (vm_compute in E3; first [discriminate E3 | rewrite <- E4; vm_compute; reflexivity]). }
  intros u ts I. destruct (il_used _ _ _ _ _ _ _ _ C86_item_library_case u ts I) as [N H]. split; [exact N|]. intros b s X CLu I2 F C. destruct (H b s X CLu I2 F C) as (OR & SD & _). split; [exact OR|]. split; [exact SD|]. intros ->.
  destruct I as [[= <- <-]|[[= <- <-]|[[= <- <-]|[]]]]; vm_compute in F; apply (f_equal (fun x => match x with Ok (JDict y) => y | _ => [] end)) in F; cbv beta iota in F; subst s; first [exact p3_p_written|exact p3_q_written|idtac].
  exfalso. destruct I2 as [E|[E|[E|[E|[]]]]]; pose proof (f_equal fst E) as E1; pose proof (f_equal snd E) as E2; cbn [fst snd] in E1, E2; clear E; vm_compute in E1; first [discriminate E1|discriminate E2].
Qed.
Example C87_items_case : clean s2_url /\ from_docs p3_docs s2_url = Ok (JDict p3_d) /\ SpecApp.declares p3_d (JStr "2.0") /\ construct v20_table (JDict p3_d) (BCls "Swagger") (Some s2_url) [] = Ok p3_root /\
  closed_world same same (from_docs p3_docs) s2_url p3_root p3_places /\ written_library (from_docs p3_docs) s2_url p3_d p3_places p3_used /\ only_references p3_root (JDict p3_d) /\
  well_formed_items (from_docs p3_docs) s2_url p3_d p3_places /\ expressible_globals p3_d /\ elements_of (val p3_d "security") = [] /\
  (forall n s, lookup n (entries_of (val p3_d "securityDefinitions")) = Some (JDict s) -> flow_loads s) /\ separate_names p3_d.
Proof.
  destruct C86_items_case as (A1 & A2 & A3 & A4 & A5 & _ & A7 & _ & A9 & A10 & A11 & A12 & _). split; [exact A1|]. split; [exact A2|]. split; [exact A3|]. split; [exact A4|]. split; [exact A5|]. split; [exact p3_written_library|]. split; [exact A7|]. split; [exact p3_written|].
  split; [exact A9|]. split; [exact A10|]. split; [exact A11|exact A12].
Qed.
(** with what has been noted at 2.0, the path items of the other document refer to each other by absolute references *)
Definition p3_first := open_document same same "" ["1.2"; "2.0"; "3.0.0"] (from_docs p3_docs) (modules same same "" 12 (fun _ => Err PyException) (fun _ _ _ _ => Err PyException)) (fun o _ => Ok o)
  "2.0" 12 s2_url (fresh_app ["1.2"; "2.0"; "3.0.0"]).
Definition p3_second := open_document same same "" ["1.2"; "2.0"; "3.0.0"] (from_docs p3_docs) (modules same same "" 12 (fun _ => Err PyException) (conversion_all same same (a_store (fst p3_first)))) (fun o _ => Ok o)
  "3.0.0" 12 s2_url (fresh_app ["1.2"; "2.0"; "3.0.0"]).
Example C87_items_opened_case : parsed30 (fst p3_second) = parsed30 (fst p3_opened) /\ ref_at (snd p3_second) ["paths"; "/pets"] = Some (JStr "http://h/d/b.json#/paths/~1p") /\
  conversion_all same same (a_store (fst p3_first)) (mk_sobj "2.0" p3_root []) s2_url "#" [] = conversion20 no_refs p3_norm (mk_sobj "2.0" p3_root []) s2_url "#" [].
Proof. vm_compute. split; [reflexivity|]. split; reflexivity. Qed.
Print Assumptions C87_opens_with_path_items.
