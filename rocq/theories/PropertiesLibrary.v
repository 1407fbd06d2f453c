(** * C86: a Swagger 2.0 document that uses schemas of other documents opens at 3.0.0. *)
From Coq Require Import String Ascii List Bool Arith Lia.
From Verif Require Import PyStr PyVal PyValFacts Jp UrlLib Urls SpecUrl Obj Classes_v2_0 Classes_v3_0_0 SpecJson SpecObj SpecSchema SpecConv SpecBody SpecOp SpecDoc SpecGiven SpecMigrate SpecScan SpecStore SpecApp SpecRefs SpecLocal SpecOpen SpecInside SpecWhole SpecClosed SpecClosed30 SpecClosed23 SpecLibrary
  PropertiesObjAux PropertiesScanAux PropertiesConvAux PropertiesRewrite PropertiesLocal PropertiesApp ObjCompare Store App AppFacts2 AppFacts4 Main Conv20 Up30 Whole LocalFacts WfFacts LibraryFacts PropertiesWhole PropertiesClosed PropertiesClosed30 PropertiesClosed23.
From Verif Require ClosedFacts.
Import ListNotations.
Open Scope string_scope. Open Scope nat_scope.
Notation within := SpecObj.within (only parsing).
Notation split := App.split (only parsing).
Notation place := SpecClosed30.place (only parsing).
Notation leads := SpecClosed23.leads (only parsing).

(** for a conversion that treats the document, schemas and path items of other documents like [conversion20] *)
Lemma library_opens_at (path2url abspath : string -> string) (app_url : string) (fetch : string -> res json) (merge_fuel fuel : nat) (from12 : sobj -> res sobj)
    (deref : string -> obj -> res obj) (normalized_ref : string -> obj -> res json) (conv : sobj -> string -> string -> override -> res (sobj * routes)) (url : string) (d : doc) (root : obj) (places : list (string * builder)) (used : list (string * list string)) (at_ : obj -> string -> string -> obj -> Prop) :
  clean url -> fetch url = Ok (JDict d) -> SpecApp.declares d (JStr "2.0") -> construct v20_table (JDict d) (BCls "Swagger") (Some url) [] = Ok root ->
  closed_world path2url abspath fetch url root places -> item_library deref normalized_ref fetch url d root places used -> only_references root (JDict d) ->
  migratable (deref url) (normalized_ref url) (path_inside d) d -> expressible_globals d -> elements_of (val d "security") = [] ->
  (forall n s, lookup n (entries_of (val d "securityDefinitions")) = Some (JDict s) -> flow_loads s) -> separate_names d ->
  (forall u o x, wf_obj o -> deref u o = Ok x -> wf_obj x) -> (forall u o n, normalized_ref u o = Ok n -> exists s, n = JStr s) ->
  conv (mk_sobj "2.0" root []) url "#" [] = conversion20 (deref url) (normalized_ref url) (mk_sobj "2.0" root []) url "#" [] ->
  (forall p s kids u jp, conv (mk_sobj "2.0" (OObj "Schema" p s kids) []) u jp [] = conversion20 (deref u) (normalized_ref u) (mk_sobj "2.0" (OObj "Schema" p s kids) []) u jp []) ->
  (forall n p s kids u jp, In (n, BCls "PathItem") places -> conv (mk_sobj "2.0" (OObj "PathItem" p s kids) []) u jp [] = conversion20 (deref u) (normalized_ref u) (mk_sobj "2.0" (OObj "PathItem" p s kids) []) u jp []) ->
  (forall root30 u p Z, converted path2url abspath fetch conv url root30 places used u p Z -> at_ root30 u p Z) ->
  length places + length used < fuel -> length places < merge_fuel ->
  let modules_ := modules path2url abspath app_url merge_fuel from12 conv in
  let resolve_ := resolve_obj path2url abspath app_url ["1.2"; "2.0"; "3.0.0"] fetch modules_ (fun o _ => Ok o) in
  exists root30 reloc a Y, conv (mk_sobj "2.0" root []) url "#" [] = Ok (mk_sobj "3.0.0" root30 [], reloc) /\
    open_document path2url abspath app_url ["1.2"; "2.0"; "3.0.0"] fetch modules_ (fun o _ => Ok o) "3.0.0" fuel url (fresh_app ["1.2"; "2.0"; "3.0.0"]) = (a, Ok (mk_sobj "3.0.0" Y [])) /\
    same_objects root30 Y /\ entry (a_store a) url "#" "3.0.0" = Some (mk_sobj "3.0.0" Y []) /\
    (forall u p o, entry (a_store a) u p "3.0.0" = Some o -> so_version o = "3.0.0" /\ so_apis o = [] /\ exists Z0, at_ root30 u p Z0 /\ same_objects Z0 (so_obj o)) /\
    (forall u p o qs c q e' kids' ref', entry (a_store a) u p "3.0.0" = Some o -> within (so_obj o) qs (OObj c q (JDict e') kids') -> In c (referring_classes "3.0.0") -> lookup "$ref" e' = Some (JStr ref') ->
       exists Y0 e kids ref u' ts ts' Z0 Z,
         at_ root30 u p Y0 /\ within Y0 qs (OObj c q (JDict e) kids) /\ lookup "$ref" e = Some (JStr ref) /\ leads url reloc u ref u' ts ts' /\
         normalize_jr (Some ref') (Some u) = Ok (Some (place u' ts')) /\
         ((u' = url /\ within root30 ts' Z0) \/ (u' <> url /\ at_ root30 u' (pointer ts') Z0)) /\ same_objects Z0 Z /\
         forall parser f remove,
           resolve_ (S f) (mk_query (place u' ts') "3.0.0" parser (Some "3.0.0") remove) a = (a, Ok (mk_sobj "3.0.0" Z [], (u' ++ pointer ts')%string)) /\
           resolve_ (S f) (mk_query (place u' ts) "2.0" parser (Some "3.0.0") remove) a = (a, Ok (mk_sobj "3.0.0" Z [], (u' ++ pointer ts')%string))).
Proof.
  intros CL F D C CW LB OR MG EG NS FL SN DW NT CR CS CP AT LF LM modules_ resolve_. assert (W : wf_json (JDict d)) by (pose proof MG as ((W & _) & _); exact W).
  destruct (library_converts path2url abspath fetch deref normalized_ref url d root places used C CW LB OR MG EG NS FL SN DW NT conv CR CS CP) as (root30 & reloc & E & CV).
  destruct (C85_opens path2url abspath app_url fetch merge_fuel fuel from12 conv url d root root30 reloc places used CL F D W C CW CV LF LM) as (a & Y & O & SO & _ & EN & H1 & H2).
  assert (CL2 := fun u p Z => AT root30 u p Z).
  exists root30, reloc, a, Y. split; [exact E|]. split; [exact O|]. split; [exact SO|]. split; [exact EN|]. split.
  - intros u p o EO. destruct (H1 u p o EO) as (V & A & Z0 & CZ & SZ). split; [exact V|]. split; [exact A|]. exists Z0. split; [exact (CL2 _ _ _ CZ)|exact SZ].
  - intros u p o qs c q e' kids' ref' EO WI IC L. destruct (H2 u p o qs c q e' kids' ref' EO WI IC L) as (Y0 & e & kids & ref & u' & ts & ts' & Z0 & Z & CY & WY & LY & LD & N & AL & SZ & R).
    exists Y0, e, kids, ref, u', ts, ts', Z0, Z. split; [exact (CL2 _ _ _ CY)|]. split; [exact WY|]. split; [exact LY|]. split; [exact LD|]. split; [exact N|]. split; [|split; [exact SZ|exact R]].
    destruct AL as [AL|[N1 CZ]]; [now left|right]. split; [exact N1|exact (CL2 _ _ _ CZ)].
Qed.

(** for a conversion that treats the document and schemas like [conversion20] *)
Lemma library_opens (path2url abspath : string -> string) (app_url : string) (fetch : string -> res json) (merge_fuel fuel : nat) (from12 : sobj -> res sobj)
    (deref : obj -> res obj) (normalized_ref : obj -> res json) (conv : sobj -> string -> string -> override -> res (sobj * routes)) (url : string) (d : doc) (root : obj) (places : list (string * builder)) (used : list (string * list string)) :
  clean url -> fetch url = Ok (JDict d) -> SpecApp.declares d (JStr "2.0") -> construct v20_table (JDict d) (BCls "Swagger") (Some url) [] = Ok root ->
  closed_world path2url abspath fetch url root places -> library fetch url d places used -> only_references root (JDict d) ->
  migratable deref normalized_ref (path_inside d) d -> expressible_globals d -> elements_of (val d "security") = [] ->
  (forall n s, lookup n (entries_of (val d "securityDefinitions")) = Some (JDict s) -> flow_loads s) -> separate_names d ->
  (forall o x, wf_obj o -> deref o = Ok x -> wf_obj x) -> (forall o n, normalized_ref o = Ok n -> exists s, n = JStr s) ->
  conv (mk_sobj "2.0" root []) url "#" [] = conversion20 deref normalized_ref (mk_sobj "2.0" root []) url "#" [] ->
  (forall p s kids u jp, conv (mk_sobj "2.0" (OObj "Schema" p s kids) []) u jp [] = conversion20 deref normalized_ref (mk_sobj "2.0" (OObj "Schema" p s kids) []) u jp []) ->
  length places + length used < fuel -> length places < merge_fuel ->
  let modules_ := modules path2url abspath app_url merge_fuel from12 conv in
  let resolve_ := resolve_obj path2url abspath app_url ["1.2"; "2.0"; "3.0.0"] fetch modules_ (fun o _ => Ok o) in
  exists root30 reloc a Y, conv (mk_sobj "2.0" root []) url "#" [] = Ok (mk_sobj "3.0.0" root30 [], reloc) /\
    open_document path2url abspath app_url ["1.2"; "2.0"; "3.0.0"] fetch modules_ (fun o _ => Ok o) "3.0.0" fuel url (fresh_app ["1.2"; "2.0"; "3.0.0"]) = (a, Ok (mk_sobj "3.0.0" Y [])) /\
    same_objects root30 Y /\ entry (a_store a) url "#" "3.0.0" = Some (mk_sobj "3.0.0" Y []) /\
    (forall u p o, entry (a_store a) u p "3.0.0" = Some o -> so_version o = "3.0.0" /\ so_apis o = [] /\ exists Z0, library_at fetch url root30 used u p Z0 /\ same_objects Z0 (so_obj o)) /\
    (forall u p o qs c q e' kids' ref', entry (a_store a) u p "3.0.0" = Some o -> within (so_obj o) qs (OObj c q (JDict e') kids') -> In c (referring_classes "3.0.0") -> lookup "$ref" e' = Some (JStr ref') ->
       exists Y0 e kids ref u' ts ts' Z0 Z,
         library_at fetch url root30 used u p Y0 /\ within Y0 qs (OObj c q (JDict e) kids) /\ lookup "$ref" e = Some (JStr ref) /\ leads url reloc u ref u' ts ts' /\
         normalize_jr (Some ref') (Some u) = Ok (Some (place u' ts')) /\
         ((u' = url /\ within root30 ts' Z0) \/ (u' <> url /\ library_at fetch url root30 used u' (pointer ts') Z0)) /\ same_objects Z0 Z /\
         forall parser f remove,
           resolve_ (S f) (mk_query (place u' ts') "3.0.0" parser (Some "3.0.0") remove) a = (a, Ok (mk_sobj "3.0.0" Z [], (u' ++ pointer ts')%string)) /\
           resolve_ (S f) (mk_query (place u' ts) "2.0" parser (Some "3.0.0") remove) a = (a, Ok (mk_sobj "3.0.0" Z [], (u' ++ pointer ts')%string))).
Proof.
  intros CL F D C CW LB OR MG EG NS FL SN DW NT CR CS LF LM. pose proof (library_items (fun _ => deref) (fun _ => normalized_ref) path2url abspath fetch url d root places used CW LB) as IL.
  apply (library_opens_at path2url abspath app_url fetch merge_fuel fuel from12 (fun _ => deref) (fun _ => normalized_ref) conv url d root places used (fun root30 => library_at fetch url root30 used) CL F D C CW IL OR MG EG NS FL SN (fun _ => DW) (fun _ => NT) CR CS); [| |exact LF|exact LM].
  - intros n p s kids u jp I. exfalso. destruct (lb_places _ _ _ _ _ LB n _ I) as (u' & ts' & _ & _ & [(_ & _ & Z)|(_ & _ & Z)]); [now elim Z|discriminate Z].
  - intros root30 u p Z. exact (converted_library path2url abspath fetch deref normalized_ref conv url d root30 places used u p Z CS LB).
Qed.

(** A well-formed document that OpenAPI 3.0 can express ([migratable], [expressible_globals], no global
    security requirement (C50), OAuth2 flows with scopes (C71), [separate_names] (C48)) and that uses
    schemas of other documents, in chains and cycles of any length, which may use schemas of it
    ([closed_world], [library]), opens at 3.0.0.  The cache then contains at 3.0.0 nothing but the
    conversion of the document and those of the schemas it uses ([library_at]), with other references; each
    of these references is answered from the cache, without reading or changing anything, by the conversion
    of what the 2.0 reference denoted. *)
Theorem C86_opens (path2url abspath : string -> string) (app_url : string) (fetch : string -> res json) (merge_fuel fuel : nat) (from12 : sobj -> res sobj)
    (deref : obj -> res obj) (normalized_ref : obj -> res json) (url : string) (d : doc) (root : obj) (places : list (string * builder)) (used : list (string * list string)) :
  clean url -> fetch url = Ok (JDict d) -> SpecApp.declares d (JStr "2.0") -> construct v20_table (JDict d) (BCls "Swagger") (Some url) [] = Ok root ->
  closed_world path2url abspath fetch url root places -> library fetch url d places used -> only_references root (JDict d) ->
  migratable deref normalized_ref (path_inside d) d -> expressible_globals d -> elements_of (val d "security") = [] ->
  (forall n s, lookup n (entries_of (val d "securityDefinitions")) = Some (JDict s) -> flow_loads s) -> separate_names d ->
  (forall o x, wf_obj o -> deref o = Ok x -> wf_obj x) -> (forall o n, normalized_ref o = Ok n -> exists s, n = JStr s) ->
  length places + length used < fuel -> length places < merge_fuel ->
  let modules_ := modules path2url abspath app_url merge_fuel from12 (conversion20 deref normalized_ref) in
  let resolve_ := resolve_obj path2url abspath app_url ["1.2"; "2.0"; "3.0.0"] fetch modules_ (fun o _ => Ok o) in
  exists root30 reloc a Y, conversion20 deref normalized_ref (mk_sobj "2.0" root []) url "#" [] = Ok (mk_sobj "3.0.0" root30 [], reloc) /\
    open_document path2url abspath app_url ["1.2"; "2.0"; "3.0.0"] fetch modules_ (fun o _ => Ok o) "3.0.0" fuel url (fresh_app ["1.2"; "2.0"; "3.0.0"]) = (a, Ok (mk_sobj "3.0.0" Y [])) /\
    same_objects root30 Y /\ entry (a_store a) url "#" "3.0.0" = Some (mk_sobj "3.0.0" Y []) /\
    (forall u p o, entry (a_store a) u p "3.0.0" = Some o -> so_version o = "3.0.0" /\ so_apis o = [] /\ exists Z0, library_at fetch url root30 used u p Z0 /\ same_objects Z0 (so_obj o)) /\
    (forall u p o qs c q e' kids' ref', entry (a_store a) u p "3.0.0" = Some o -> within (so_obj o) qs (OObj c q (JDict e') kids') -> In c (referring_classes "3.0.0") -> lookup "$ref" e' = Some (JStr ref') ->
       exists Y0 e kids ref u' ts ts' Z0 Z,
         library_at fetch url root30 used u p Y0 /\ within Y0 qs (OObj c q (JDict e) kids) /\ lookup "$ref" e = Some (JStr ref) /\ leads url reloc u ref u' ts ts' /\
         normalize_jr (Some ref') (Some u) = Ok (Some (place u' ts')) /\
         ((u' = url /\ within root30 ts' Z0) \/ (u' <> url /\ library_at fetch url root30 used u' (pointer ts') Z0)) /\ same_objects Z0 Z /\
         forall parser f remove,
           resolve_ (S f) (mk_query (place u' ts') "3.0.0" parser (Some "3.0.0") remove) a = (a, Ok (mk_sobj "3.0.0" Z [], (u' ++ pointer ts')%string)) /\
           resolve_ (S f) (mk_query (place u' ts) "2.0" parser (Some "3.0.0") remove) a = (a, Ok (mk_sobj "3.0.0" Z [], (u' ++ pointer ts')%string))).
Proof.
  intros CL F D C CW LB OR MG EG NS FL SN DW NT LF LM. exact (library_opens path2url abspath app_url fetch merge_fuel fuel from12 deref normalized_ref (conversion20 deref normalized_ref) url d root places used CL F D C CW LB OR MG EG NS FL SN DW NT eq_refl (fun _ _ _ _ _ => eq_refl) LF LM).
Qed.

(** The same for a document that also uses path items of other documents, that OpenAPI 3.0 can express and
    whose parameters and responses are in them ([item_library]); each path item of the document and of the
    pieces that is a reference is one to what the scanners of 2.0 note for it ([items_normalized]). *)
Theorem C86_opens_with_path_items (path2url abspath : string -> string) (app_url : string) (fetch : string -> res json) (merge_fuel fuel : nat) (from12 : sobj -> res sobj)
    (deref : string -> obj -> res obj) (normalized_ref : string -> obj -> res json) (url : string) (d : doc) (root : obj) (places : list (string * builder)) (used : list (string * list string)) :
  clean url -> fetch url = Ok (JDict d) -> SpecApp.declares d (JStr "2.0") -> construct v20_table (JDict d) (BCls "Swagger") (Some url) [] = Ok root ->
  closed_world path2url abspath fetch url root places -> item_library deref normalized_ref fetch url d root places used -> only_references root (JDict d) ->
  migratable (deref url) (normalized_ref url) (path_inside d) d -> expressible_globals d -> elements_of (val d "security") = [] ->
  (forall n s, lookup n (entries_of (val d "securityDefinitions")) = Some (JDict s) -> flow_loads s) -> separate_names d ->
  (forall u o x, wf_obj o -> deref u o = Ok x -> wf_obj x) -> (forall u o n, normalized_ref u o = Ok n -> exists s, n = JStr s) ->
  length places + length used < fuel -> length places < merge_fuel ->
  let conv := fun o u jp ovr => conversion20 (deref u) (normalized_ref u) o u jp ovr in
  let modules_ := modules path2url abspath app_url merge_fuel from12 conv in
  let resolve_ := resolve_obj path2url abspath app_url ["1.2"; "2.0"; "3.0.0"] fetch modules_ (fun o _ => Ok o) in
  exists root30 reloc a Y, conv (mk_sobj "2.0" root []) url "#" [] = Ok (mk_sobj "3.0.0" root30 [], reloc) /\
    open_document path2url abspath app_url ["1.2"; "2.0"; "3.0.0"] fetch modules_ (fun o _ => Ok o) "3.0.0" fuel url (fresh_app ["1.2"; "2.0"; "3.0.0"]) = (a, Ok (mk_sobj "3.0.0" Y [])) /\
    same_objects root30 Y /\ entry (a_store a) url "#" "3.0.0" = Some (mk_sobj "3.0.0" Y []) /\
    (forall u p o, entry (a_store a) u p "3.0.0" = Some o -> so_version o = "3.0.0" /\ so_apis o = [] /\ exists Z0, item_library_at deref normalized_ref fetch url root30 used u p Z0 /\ same_objects Z0 (so_obj o)) /\
    (forall u p o qs c q e' kids' ref', entry (a_store a) u p "3.0.0" = Some o -> within (so_obj o) qs (OObj c q (JDict e') kids') -> In c (referring_classes "3.0.0") -> lookup "$ref" e' = Some (JStr ref') ->
       exists Y0 e kids ref u' ts ts' Z0 Z,
         item_library_at deref normalized_ref fetch url root30 used u p Y0 /\ within Y0 qs (OObj c q (JDict e) kids) /\ lookup "$ref" e = Some (JStr ref) /\ leads url reloc u ref u' ts ts' /\
         normalize_jr (Some ref') (Some u) = Ok (Some (place u' ts')) /\
         ((u' = url /\ within root30 ts' Z0) \/ (u' <> url /\ item_library_at deref normalized_ref fetch url root30 used u' (pointer ts') Z0)) /\ same_objects Z0 Z /\
         forall parser f remove,
           resolve_ (S f) (mk_query (place u' ts') "3.0.0" parser (Some "3.0.0") remove) a = (a, Ok (mk_sobj "3.0.0" Z [], (u' ++ pointer ts')%string)) /\
           resolve_ (S f) (mk_query (place u' ts) "2.0" parser (Some "3.0.0") remove) a = (a, Ok (mk_sobj "3.0.0" Z [], (u' ++ pointer ts')%string))).
Proof.
  intros CL F D C CW LB OR MG EG NS FL SN DW NT LF LM.
  exact (library_opens_at path2url abspath app_url fetch merge_fuel fuel from12 deref normalized_ref (fun o u jp ovr => conversion20 (deref u) (normalized_ref u) o u jp ovr) url d root places used (fun root30 => item_library_at deref normalized_ref fetch url root30 used) CL F D C CW LB OR MG EG NS FL SN DW NT eq_refl (fun _ _ _ _ _ => eq_refl) (fun _ _ _ _ _ _ _ => eq_refl)
    (fun root30 u p Z => converted_item_library path2url abspath fetch deref normalized_ref url d root places used CW LB DW NT (fun o u jp ovr => conversion20 (deref u) (normalized_ref u) o u jp ovr) (fun _ _ _ _ _ => eq_refl) (fun _ _ _ _ _ _ _ => eq_refl) root30 u p Z) LF LM).
Qed.

(** ** An example: the documents of C85 *)
Definition referredb (X : obj) (v : json) : bool :=
  existsb (fun e => match walk X (fst e) with
    | Some (OObj c _ (JDict d) _) => existsb (String.eqb c) (referring_classes "2.0") &&
        match lookup "$ref" d, v, refers_as (fst e) c with Some (JStr r), JStr s, Some _ => String.eqb r s | _, _, _ => false end
    | _ => false end) (everywhere X).
Lemma referredb_ok X v : referredb X v = true -> referred X v.
Proof.
  unfold referredb. intros H. apply existsb_exists in H as ((qs & x) & _ & H). cbn [fst] in H. destruct (walk X qs) as [[|c p [| | | | | |d] kids| |]|] eqn:W; try discriminate H. apply andb_prop in H as [IC H].
  apply existsb_exists in IC as (c' & IC & E). apply String.eqb_eq in E as <-. destruct (lookup "$ref" d) as [[| | | |r| |]|] eqn:L; try discriminate H. destruct v as [| | | |s| |]; try discriminate H.
  destruct (refers_as qs c) as [b|] eqn:R; [|discriminate H]. apply String.eqb_eq in H as ->. exists qs, c, p, d, kids, b. split; [now apply walk_within|auto].
Qed.
Definition only_referencesb (X : obj) (j : json) : bool := forallb (fun x => match x with JDict d => match lookup "$ref" d with Some v => referredb X v | None => true end | _ => true end) (parts j).
Lemma only_references_ok X j : only_referencesb X j = true -> only_references X j.
Proof. unfold only_referencesb. intros H d v Id L. rewrite forallb_forall in H. specialize (H _ (inside_parts _ _ Id)). cbn beta iota in H. rewrite L in H. now apply referredb_ok. Qed.
Definition s2_get : doc := [("responses", JDict [("200", JDict [("description", JStr "ok"); ("schema", JDict [("type", JStr "array"); ("items", jref "b.json#/definitions/Tag")])])])].
Definition s2_ok : doc := [("description", JStr "ok"); ("schema", JDict [("type", JStr "array"); ("items", jref "b.json#/definitions/Tag")])].
Definition s2_requests : list request := [([], [("200", (s2_ok, s2_ok))]); ([], []); ([], []); ([], []); ([], []); ([], []); ([], [])].
Lemma s2_migratable : migratable no_refs no_normalized (path_inside s2_d) s2_d.
Proof.
  split. { split; [doc_tac|]. split; [right; eexists; reflexivity|]. split; [intros i H; change (JDict [("title", JStr "shop"); ("version", JStr "1")] = JDict i) in H; injection H as <-; split; now left|]. split; [now left|apply Forall_nil]. }
  split; [now left|]. split; [now left|].
  split. { intros n v H. change (lookup n [("Pet", one "properties" (one "name" (one "type" (JStr "string")))); ("Shop", one "properties" (one "pet" (jref "#/definitions/Pet")))] = Some v) in H. cbn [lookup] in H.
    destruct (String.eqb n "Pet"); [injection H as <-; doc_tac|]. destruct (String.eqb n "Shop"); [injection H as <-; doc_tac|discriminate]. }
  split; [intros n v H; discriminate H|]. split; [intros n v H; discriminate H|]. split; [intros n v H; discriminate H|].
  intros k v H. change (lookup k [("/pets", JDict [("get", JDict s2_get)])] = Some v) in H. cbn [lookup] in H. destruct (String.eqb_spec k "/pets") as [->|]; [|discriminate]. injection H as <-.
  exists [("get", JDict s2_get)], [], s2_requests. split; [reflexivity|]. split; [|split; [|discriminate]].
  - split; [split; [now left|apply Forall_nil]|]. split; [apply Forall_nil|]. unfold methods, s2_requests. apply Forall2_cons; [|do 6 (apply Forall2_cons; [left; split; reflexivity|]); apply Forall2_nil].
    right. exists s2_get. split; [reflexivity|]. split; [split; [now left|apply Forall_nil]|]. split; [apply Forall_nil|]. split; [|now left]. split; [now right|]. apply Forall_cons; [|apply Forall_nil]. cbn [fst snd].
    split; [apply no_refs_refers; reflexivity|]. split; [apply response_plain; [doc_tac|reflexivity]|doc_tac].
  - split; [split; [reflexivity|split; [|split]]|split].
    + apply Forall_nil.
    + apply Forall_cons; [apply Forall_cons; [intros n h Z; discriminate Z|apply Forall_nil]|]. do 6 (apply Forall_cons; [apply Forall_nil|]). apply Forall_nil.
    + unfold requests_ok. change (no_merged []) with true. cbv iota. unfold s2_requests. repeat (apply Forall_cons; [unfold one_request; left; vm_compute; repeat constructor|]). apply Forall_nil.
    + apply Forall_nil.
    + cbn [List.app concat map fst snd s2_requests]. apply Forall_cons; [split; part_tac|apply Forall_nil].
Qed.
Example C86_library_case : library (from_docs s2_docs) s2_url s2_d s2_places s2_moved.
Proof.
  assert (A := clean_doc "d/a.json" eq_refl). assert (B := clean_doc "d/b.json" eq_refl). split.
  - intros n b I. destruct I as [[= <- <-]|[[= <- <-]|[[= <- <-]|[]]]].
    + exists s2_b, ["definitions"; "Tag"]. split; [exact B|]. split; [reflexivity|]. right. split; [discriminate|]. split; [now left|reflexivity].
    + exists s2_b, ["definitions"; "Name"]. split; [exact B|]. split; [reflexivity|]. right. split; [discriminate|]. split; [right; now left|reflexivity].
    + exists s2_url, ["definitions"; "Pet"]. split; [exact A|]. split; [reflexivity|]. left. split; [reflexivity|]. split; [|discriminate]. eapply tg_definition; [reflexivity|apply sub_here].
  - intros u ts I. split; [destruct I as [[= <- <-]|[[= <- <-]|[]]]; discriminate|]. intros s X F C.
    destruct I as [[= <- <-]|[[= <- <-]|[]]]; vm_compute in F; apply (f_equal (fun x => match x with Ok (JDict y) => y | _ => [] end)) in F; cbv beta iota in F; subst s;
      vm_compute in C; apply (f_equal built_or) in C; cbn [built_or] in C; subst X; (split; [doc_tac|apply only_references_ok; vm_compute; reflexivity]).
  - intros u ts1 ts2 I1 I2. destruct I1 as [[= <- <-]|[[= <- <-]|[]]], I2 as [[= <-]|[[= <-]|[]]]; intros S; try reflexivity; exfalso; vm_compute in S; discriminate S.
Qed.
Example C86_case : clean s2_url /\ from_docs s2_docs s2_url = Ok (JDict s2_d) /\ SpecApp.declares s2_d (JStr "2.0") /\ construct v20_table (JDict s2_d) (BCls "Swagger") (Some s2_url) [] = Ok s2_root /\
  closed_world same same (from_docs s2_docs) s2_url s2_root s2_places /\ library (from_docs s2_docs) s2_url s2_d s2_places s2_moved /\ only_references s2_root (JDict s2_d) /\
  migratable no_refs no_normalized (path_inside s2_d) s2_d /\ expressible_globals s2_d /\ elements_of (val s2_d "security") = [] /\
  (forall n s, lookup n (entries_of (val s2_d "securityDefinitions")) = Some (JDict s) -> flow_loads s) /\ separate_names s2_d /\
  (forall o x, wf_obj o -> no_refs o = Ok x -> wf_obj x) /\ (forall o n, no_normalized o = Ok n -> exists s, n = JStr s).
Proof.
  destruct C85_case as (A1 & A2 & A3 & _ & A5). split; [exact A1|]. split; [exact A2|]. split; [exact A3|]. split; [exact A5|]. split; [exact C85_world_case|]. split; [exact C86_library_case|].
  split; [apply only_references_ok; vm_compute; reflexivity|]. split; [exact s2_migratable|]. split; [split; [|split]; intros n q H; discriminate H|]. split; [reflexivity|]. split; [intros n s H; discriminate H|].
  split; [intros n (q & L & _); discriminate L|]. split; [intros o x Wo E; injection E as <-; exact Wo|intros o n H; discriminate H].
Qed.
Print Assumptions C86_opens.
(** ** An example: a path item of another document, which refers to another one, and uses a schema that uses
    one of the document *)
Definition p3_get : doc := [("responses", JDict [("200", JDict [("description", JStr "ok"); ("schema", JDict [("type", JStr "array"); ("items", jref "#/definitions/Tag")])])])].
Definition p3_ok : doc := [("description", JStr "ok"); ("schema", JDict [("type", JStr "array"); ("items", jref "#/definitions/Tag")])].
Definition p3_put : doc := [("responses", JDict [("200", JDict [("description", JStr "put"); ("schema", one "type" (JStr "string"))])])].
Definition p3_done : doc := [("description", JStr "put"); ("schema", one "type" (JStr "string"))].
Definition p3_p : doc := [("$ref", JStr "#/paths/~1q"); ("get", JDict p3_get)].
Definition p3_q : doc := [("put", JDict p3_put)].
Definition p3_item : doc := [("$ref", JStr "b.json#/paths/~1p")].
Definition p3_d : doc := [("swagger", JStr "2.0"); ("info", JDict [("title", JStr "shop"); ("version", JStr "1")]); ("paths", JDict [("/pets", JDict p3_item)]);
  ("definitions", JDict [("Pet", one "properties" (one "name" (one "type" (JStr "string"))))])].
Definition p3_other : json := JDict [("paths", JDict [("/p", JDict p3_p); ("/q", JDict p3_q)]); ("definitions", one "Tag" (one "properties" (one "pet" (jref "a.json#/definitions/Pet"))))].
Definition p3_docs := [("http://h/d/a.json", JDict p3_d); ("http://h/d/b.json", p3_other)].
Definition p3_root : obj := match construct v20_table (JDict p3_d) (BCls "Swagger") (Some s2_url) [] with Ok o => o | Err _ => OPrim JNull end.
Definition p3_places : list (string * builder) := [("http://h/d/b.json#/paths/~1p", BCls "PathItem"); ("http://h/d/b.json#/paths/~1q", BCls "PathItem"); ("http://h/d/b.json#/definitions/Tag", BCls "Schema"); ("http://h/d/a.json#/definitions/Pet", BCls "Schema")].
Definition p3_used : list (string * list string) := [(s2_b, ["paths"; "/p"]); (s2_b, ["paths"; "/q"]); (s2_b, ["definitions"; "Tag"])].
(** what the scanners note for the path items of these documents *)
Definition p3_norm (o : obj) : res json := match o with
  | OObj _ _ (JDict d) _ => match lookup "$ref" d with
      | Some (JStr r) => if String.eqb r "#/paths/~1q" then Ok (JStr "http://h/d/b.json#/paths/~1q") else if String.eqb r "b.json#/paths/~1p" then Ok (JStr "http://h/d/b.json#/paths/~1p") else Err KeyError
      | _ => Err KeyError end
  | _ => Err KeyError end.
Definition items_normalizedb (nr : string -> obj -> res json) (u : string) (X : obj) : bool :=
  forallb (fun e => match snd e with
    | OObj c p (JDict d) kids => if String.eqb c "PathItem" then match lookup "$ref" d with
        | Some (JStr ref) => match normalize_jr (Some ref) (Some u), nr u (OObj c p (JDict d) kids) with Ok (Some n), Ok (JStr m) => String.eqb m n | Ok (Some _), _ => false | _, _ => true end
        | _ => true end else true
    | _ => true end) (everywhere X).
Lemma items_normalized_ok nr u X : items_normalizedb nr u X = true -> items_normalized nr u X.
Proof.
  unfold items_normalizedb. intros H ts p e kids ref n W L _ N. rewrite forallb_forall in H. specialize (H _ (everywhere_all _ _ _ W)). cbn [snd String.eqb Ascii.eqb Bool.eqb] in H.
  rewrite L, N in H. destruct (nr _ _) as [[| | | |m| |]|]; try discriminate H. apply String.eqb_eq in H as ->. reflexivity.
Qed.
Definition p3_none : list request := [([], []); ([], []); ([], []); ([], []); ([], []); ([], []); ([], [])].
Definition p3_gets : list request := [([], [("200", (p3_ok, p3_ok))]); ([], []); ([], []); ([], []); ([], []); ([], []); ([], [])].
Definition p3_puts : list request := [([], []); ([], [("200", (p3_done, p3_done))]); ([], []); ([], []); ([], []); ([], []); ([], [])].
Ltac none_tac := left; split; reflexivity.
Lemma p3_item_given : path_given no_refs p3_item [] p3_none.
Proof.
  split; [split; [now left|apply Forall_nil]|]. split; [apply Forall_nil|]. unfold methods, p3_none. do 7 (apply Forall2_cons; [none_tac|]). apply Forall2_nil.
Qed.
Lemma p3_p_given : path_given no_refs p3_p [] p3_gets.
Proof.
  split; [split; [now left|apply Forall_nil]|]. split; [apply Forall_nil|]. unfold methods, p3_gets. apply Forall2_cons; [|do 6 (apply Forall2_cons; [none_tac|]); apply Forall2_nil].
  right. exists p3_get. split; [reflexivity|]. split; [split; [now left|apply Forall_nil]|]. split; [apply Forall_nil|]. split; [|now left]. split; [now right|]. apply Forall_cons; [|apply Forall_nil]. cbn [fst snd].
  split; [apply no_refs_refers; reflexivity|]. split; [apply response_plain; [doc_tac|reflexivity]|doc_tac].
Qed.
Lemma p3_q_given : path_given no_refs p3_q [] p3_puts.
Proof.
  split; [split; [now left|apply Forall_nil]|]. split; [apply Forall_nil|]. unfold methods, p3_puts. apply Forall2_cons; [none_tac|]. apply Forall2_cons; [|do 5 (apply Forall2_cons; [none_tac|]); apply Forall2_nil].
  right. exists p3_put. split; [reflexivity|]. split; [split; [now left|apply Forall_nil]|]. split; [apply Forall_nil|]. split; [|now left]. split; [now right|]. apply Forall_cons; [|apply Forall_nil]. cbn [fst snd].
  split; [apply no_refs_refers; reflexivity|]. split; [apply response_plain; [doc_tac|reflexivity]|doc_tac].
Qed.
Ltac expressible_tac := split; [|split];
  [ apply Forall_nil
  | repeat (apply Forall_cons; [repeat (apply Forall_cons; [intros n h Z; discriminate Z|]); apply Forall_nil|]); apply Forall_nil
  | unfold requests_ok; change (no_merged []) with true; cbv iota; repeat (apply Forall_cons; [unfold one_request; left; vm_compute; repeat constructor|]); apply Forall_nil ].
Lemma p3_migratable : migratable no_refs p3_norm (path_inside p3_d) p3_d.
Proof.
  split. { split; [doc_tac|]. split; [right; eexists; reflexivity|]. split; [intros i H; change (JDict [("title", JStr "shop"); ("version", JStr "1")] = JDict i) in H; injection H as <-; split; now left|]. split; [now left|apply Forall_nil]. }
  split; [now left|]. split; [now left|].
  split. { intros n v H. change (lookup n [("Pet", one "properties" (one "name" (one "type" (JStr "string"))))] = Some v) in H. cbn [lookup] in H.
    destruct (String.eqb n "Pet"); [injection H as <-; doc_tac|discriminate]. }
  split; [intros n v H; discriminate H|]. split; [intros n v H; discriminate H|]. split; [intros n v H; discriminate H|].
  intros k v H. change (lookup k [("/pets", JDict p3_item)] = Some v) in H. cbn [lookup] in H. destruct (String.eqb_spec k "/pets") as [->|]; [|discriminate]. injection H as <-.
  exists p3_item, [], p3_none. split; [reflexivity|]. split; [exact p3_item_given|]. split.
  - split; [split; [reflexivity|expressible_tac]|]. split; apply Forall_nil.
  - intros _ o [path L]. vm_compute in L. injection L as <-. eexists. vm_compute. reflexivity.
Qed.
Lemma p3_p_item : item_given (fun _ => no_refs) s2_b p3_p.
Proof.
  exists [], p3_gets. split; [exact p3_p_given|]. split; [expressible_tac|]. split; [reflexivity|]. split; [apply Forall_nil|]. cbn [concat map fst snd p3_gets List.app]. apply Forall_cons; [split; part_tac|apply Forall_nil].
Qed.
Lemma p3_q_item : item_given (fun _ => no_refs) s2_b p3_q.
Proof.
  exists [], p3_puts. split; [exact p3_q_given|]. split; [expressible_tac|]. split; [reflexivity|]. split; [apply Forall_nil|]. cbn [concat map fst snd p3_puts List.app]. apply Forall_cons; [split; part_tac|apply Forall_nil].
Qed.
Example C86_items_world_case : closed_world same same (from_docs p3_docs) s2_url p3_root p3_places.
Proof. apply world_check_ok. vm_compute. reflexivity. Qed.
Example C86_item_library_case : item_library (fun _ => no_refs) (fun _ => p3_norm) (from_docs p3_docs) s2_url p3_d p3_root p3_places p3_used.
Proof.
  assert (A := clean_doc "d/a.json" eq_refl). assert (B := clean_doc "d/b.json" eq_refl). split.
  - intros n b I. destruct I as [[= <- <-]|[[= <- <-]|[[= <- <-]|[[= <- <-]|[]]]]].
    + exists s2_b, ["paths"; "/p"]. split; [exact B|]. split; [vm_compute; reflexivity|]. right. split; [discriminate|]. split; [now left|now right].
    + exists s2_b, ["paths"; "/q"]. split; [exact B|]. split; [vm_compute; reflexivity|]. right. split; [discriminate|]. split; [right; now left|now right].
    + exists s2_b, ["definitions"; "Tag"]. split; [exact B|]. split; [reflexivity|]. right. split; [discriminate|]. split; [right; right; now left|now left].
    + exists s2_url, ["definitions"; "Pet"]. split; [exact A|]. split; [reflexivity|]. left. split; [reflexivity|]. split; [|discriminate]. eapply tg_definition; [reflexivity|apply sub_here].
  - intros u ts I. split; [destruct I as [[= <- <-]|[[= <- <-]|[[= <- <-]|[]]]]; discriminate|]. intros b s X _ I2 F C.
    assert (EB : b = if string_dec (place u ts) "http://h/d/b.json#/definitions/Tag" then BCls "Schema" else BCls "PathItem").
    { destruct I as [[= <- <-]|[[= <- <-]|[[= <- <-]|[]]]]; destruct I2 as [E2|[E2|[E2|[E2|[]]]]]; pose proof (f_equal fst E2) as E3; pose proof (f_equal snd E2) as E4; cbn [fst snd] in E3, E4; clear E2; (vm_compute in E3; first [discriminate E3 | rewrite <- E4; vm_compute; reflexivity]). }
    destruct I as [[= <- <-]|[[= <- <-]|[[= <- <-]|[]]]]; vm_compute in EB; subst b; vm_compute in F; apply (f_equal (fun x => match x with Ok (JDict y) => y | _ => [] end)) in F; cbv beta iota in F; subst s;
      vm_compute in C; apply (f_equal built_or) in C; cbn [built_or] in C; subst X;
      (split; [apply only_references_ok; vm_compute; reflexivity|]); (split; [first [intros Z; discriminate Z | intros _; doc_tac]|]); intros Z; try discriminate Z;
      (split; [first [exact p3_p_item | exact p3_q_item]|apply items_normalized_ok; vm_compute; reflexivity]).
  - apply items_normalized_ok. vm_compute. reflexivity.
  - intros u ts1 ts2 I1 I2. destruct I1 as [[= <- <-]|[[= <- <-]|[[= <- <-]|[]]]], I2 as [[= <-]|[[= <-]|[[= <-]|[]]]]; intros S; try reflexivity; exfalso; vm_compute in S; discriminate S.
Qed.
Example C86_items_case : clean s2_url /\ from_docs p3_docs s2_url = Ok (JDict p3_d) /\ SpecApp.declares p3_d (JStr "2.0") /\ construct v20_table (JDict p3_d) (BCls "Swagger") (Some s2_url) [] = Ok p3_root /\
  closed_world same same (from_docs p3_docs) s2_url p3_root p3_places /\ item_library (fun _ => no_refs) (fun _ => p3_norm) (from_docs p3_docs) s2_url p3_d p3_root p3_places p3_used /\ only_references p3_root (JDict p3_d) /\
  migratable no_refs p3_norm (path_inside p3_d) p3_d /\ expressible_globals p3_d /\ elements_of (val p3_d "security") = [] /\
  (forall n s, lookup n (entries_of (val p3_d "securityDefinitions")) = Some (JDict s) -> flow_loads s) /\ separate_names p3_d /\
  (forall (u : string) o x, wf_obj o -> no_refs o = Ok x -> wf_obj x) /\ (forall (u : string) o n, p3_norm o = Ok n -> exists s, n = JStr s).
Proof.
  split; [exact (clean_doc "d/a.json" eq_refl)|]. split; [vm_compute; reflexivity|]. split; [apply doc_version_declares; vm_compute; reflexivity|]. split; [vm_compute; reflexivity|]. split; [exact C86_items_world_case|]. split; [exact C86_item_library_case|].
  split; [apply only_references_ok; vm_compute; reflexivity|]. split; [exact p3_migratable|]. split; [split; [|split]; intros n q H; discriminate H|]. split; [reflexivity|]. split; [intros n s H; discriminate H|].
  split; [intros n (q & L & _); discriminate L|]. split; [intros u o x Wo E; injection E as <-; exact Wo|].
  intros u o n H. destruct o as [|c p [| | | | | |d] kids| |]; try discriminate H. cbn [p3_norm] in H. destruct (lookup "$ref" d) as [[| | | |r| |]|]; try discriminate H. destruct (String.eqb r "#/paths/~1q"); [injection H as <-; eauto|]. destruct (String.eqb r "b.json#/paths/~1p"); [injection H as <-; eauto|discriminate H].
Qed.
(** so it opens: what is in the cache at 3.0.0, and the references of the path items and of [Tag] *)
Definition p3_opened := open_document same same "" ["1.2"; "2.0"; "3.0.0"] (from_docs p3_docs) (modules same same "" 12 (fun _ => Err PyException) (conversion20 no_refs p3_norm)) (fun o _ => Ok o)
  "3.0.0" 12 s2_url (fresh_app ["1.2"; "2.0"; "3.0.0"]).
Definition p3_ref (p : string) (ts : list string) : option json := match entry (a_store (fst p3_opened)) s2_b p "3.0.0" with Some o => ref_at (Ok o) ts | None => None end.
Example C86_items_opened_case : parsed30 (fst p3_opened) = [(s2_url, "#"); (s2_b, "#/paths/~1p"); (s2_b, "#/paths/~1q"); (s2_b, "#/definitions/Tag")] /\
  ref_at (snd p3_opened) ["paths"; "/pets"] = Some (JStr "http://h/d/b.json#/paths/~1p") /\
  p3_ref "#/paths/~1p" ["get"; "responses"; "200"; "content"; "text/plain"; "schema"; "items"] = Some (JStr "#/definitions/Tag") /\
  p3_ref "#/definitions/Tag" ["properties"; "pet"] = Some (JStr "http://h/d/a.json#/components/schemas/Pet").
Proof. vm_compute. split; [reflexivity|]. split; [reflexivity|]. split; reflexivity. Qed.
Print Assumptions C86_opens_with_path_items.
