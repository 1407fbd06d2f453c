(** * C87, an example: a document with references to its own parameters, responses and definitions, to a schema of another
    document for a body, and to a path item there; that schema refers back to a definition.  It meets the
    hypotheses of [C87_opens_with_path_items]. *)
From Coq Require Import String Ascii List Bool Arith Lia.
From Verif Require Import PyStr PyVal PyValFacts Jp UrlLib Urls SpecUrl Obj Classes_v2_0 Classes_v3_0_0 SpecJson SpecObj SpecSchema SpecConv SpecBody SpecOp SpecDoc SpecGiven SpecMigrate SpecScan SpecStore SpecApp SpecRefs SpecLocal SpecOpen SpecInside SpecWhole SpecFollow SpecClosed SpecClosed30 SpecClosed23 SpecLibrary SpecFollowAll
  PropertiesObjAux PropertiesScanAux PropertiesConvAux PropertiesConv2 PropertiesMigrate PropertiesRewrite PropertiesLocal PropertiesApp ObjCompare Store App AppFacts2 AppFacts4 AppFacts5 Main Conv20 Up30 Whole Follow FollowAll LocalFacts WfFacts RefFacts LibraryFacts FollowAllFacts FollowAllFacts2 WrittenFacts PropertiesWhole PropertiesClosed PropertiesClosed30 PropertiesClosed23 PropertiesLibrary PropertiesFollowAll.
Import ListNotations.
Open Scope string_scope. Open Scope nat_scope.
Notation within := SpecObj.within (only parsing).
Notation place := SpecClosed30.place (only parsing).

(** a check of [only_references] that also finds what is in lists *)
Fixpoint place_of (o : obj) (ts : list string) : option obj :=
  match ts with
  | [] => Some o
  | t :: ts' => match o with
                | OObj _ _ _ kids => match lookup t kids with Some x => place_of x ts' | None => None end
                | OMap _ _ es => match lookup t es with Some x => place_of x ts' | None => None end
                | OList _ _ es => match find (fun ie => String.eqb (nat_dec (fst ie)) t) (combine (seq 0 (length es)) es) with Some ie => place_of (snd ie) ts' | None => None end
                | OPrim _ => None
                end
  end.
Lemma nth_combine {A} (l : list A) k i x : In (i, x) (combine (seq k (length l)) l) -> nth_error l (i - k) = Some x /\ k <= i.
Proof.
  revert k. induction l as [|a l IH]; intros k H; [destruct H|]. cbn [length seq combine] in H. destruct H as [[= <- <-]|H]; [rewrite Nat.sub_diag; split; [reflexivity|lia]|].
  destruct (IH _ H) as [E L]. split; [|lia]. replace (i - k) with (S (i - S k)) by lia. exact E.
Qed.
Lemma place_of_within : forall ts o x, place_of o ts = Some x -> within o ts x.
Proof.
  induction ts as [|t ts IH]; intros o x H; [injection H as <-; constructor|]. destruct o as [|c p s kids|b p es|b p es]; try discriminate H; cbn [place_of] in H.
  - destruct (lookup t kids) as [y|] eqn:L; [|discriminate H]. eapply wi_child; [exact L|auto].
  - destruct (find _ _) as [[i y]|] eqn:F; [|discriminate H]. apply find_some in F as [I E]. apply String.eqb_eq in E. apply nth_combine in I as [N _]. rewrite Nat.sub_0_r in N. eapply wi_index; [apply ResolveFacts.index_text_nat_dec; symmetry; exact E|exact N|auto].
  - destruct (lookup t es) as [y|] eqn:L; [|discriminate H]. eapply wi_key; [exact L|auto].
Qed.
Definition referredb (X : obj) (v : json) : bool :=
  existsb (fun e => match place_of X (fst e) with
    | Some (OObj c _ (JDict d) _) => existsb (String.eqb c) (referring_classes "2.0") &&
        match lookup "$ref" d, v, refers_as (fst e) c with Some (JStr r), JStr s, Some _ => String.eqb r s | _, _, _ => false end
    | _ => false end) (everywhere X).
Lemma referredb_ok X v : referredb X v = true -> referred X v.
Proof.
  unfold referredb. intros H. apply existsb_exists in H as ((qs & x) & _ & H). cbn [fst] in H. destruct (place_of X qs) as [[|c p [| | | | | |d] kids| |]|] eqn:W; try discriminate H. apply andb_prop in H as [IC H].
  apply existsb_exists in IC as (c' & IC & E). apply String.eqb_eq in E as <-. destruct (lookup "$ref" d) as [[| | | |r| |]|] eqn:L; try discriminate H. destruct v as [| | | |s| |]; try discriminate H.
  destruct (refers_as qs c) as [b|] eqn:R; [|discriminate H]. apply String.eqb_eq in H as ->. exists qs, c, p, d, kids, b. split; [now apply place_of_within|auto].
Qed.
Lemma only_references_check X j : forallb (fun x => match x with JDict d => match lookup "$ref" d with Some v => referredb X v | None => true end | _ => true end) (parts j) = true -> only_references X j.
Proof. intros H d v Id L. rewrite forallb_forall in H. specialize (H _ (inside_parts _ _ Id)). cbn beta iota in H. rewrite L in H. now apply referredb_ok. Qed.

Definition p4_tag : doc := [("properties", one "pet" (jref "a.json#/definitions/Pet"))].
Definition p4_body : doc := [("name", JStr "pet"); ("in", JStr "body"); ("schema", jref "b.json#/definitions/Tag")].
Definition p4_requests : list SpecMigrate.request := [([], []); ([], []); ([(to_ "#/parameters/limit", p_limit); (to_ "#/parameters/pet", p4_body)], shop_responses); ([], []); ([], []); ([], []); ([], [])].
Definition p4_d : doc :=
  [("swagger", JStr "2.0"); ("info", JDict [("title", JStr "t"); ("version", JStr "1")]); ("host", JStr "api.com");
   ("paths", JDict [("/pets", JDict [("post", JDict shop_op)]); ("/tags", JDict p3_item)]); ("definitions", JDict [("Pet", JDict s_pet)]);
   ("parameters", JDict [("limit", JDict p_limit); ("pet", JDict p4_body)]); ("responses", JDict [("NotFound", JDict r_none)])].
Definition p4_docs := [("http://h/d/a.json", JDict p4_d); ("http://h/d/b.json", p3_other)].
Definition p4_root : obj := match construct v20_table (JDict p4_d) (BCls "Swagger") (Some s2_url) [] with Ok o => o | Err _ => OPrim JNull end.
Definition p4_own : list (list string * builder) := [(["definitions"; "Pet"], BCls "Schema"); (["definitions"; "Pet"; "properties"; "na/me"], BCls "Schema"); (["parameters"; "limit"], BRefElse "Reference" (BCls "Parameter")); (["parameters"; "pet"], BRefElse "Reference" (BCls "Parameter")); (["responses"; "NotFound"], BRefElse "Reference" (BCls "Response"))].
Definition p4_places : list (string * builder) := ([("http://h/d/b.json#/paths/~1p", BCls "PathItem"); ("http://h/d/b.json#/paths/~1q", BCls "PathItem"); ("http://h/d/b.json#/definitions/Tag", BCls "Schema")] ++ map (fun x => (place s2_url (fst x), snd x)) p4_own)%list.
Example p4_world : closed_world same same (from_docs p4_docs) s2_url p4_root p4_places.
Proof. apply world_check_ok. vm_compute. reflexivity. Qed.
Lemma p4_targets ts b : In (ts, b) p4_own -> SpecWhole.target p4_d ts /\ b <> BCls "PathItem".
Proof.
  intros I. destruct I as [[= <- <-]|[[= <- <-]|[[= <- <-]|[[= <- <-]|[[= <- <-]|[]]]]]]; (split; [|discriminate]).
  - eapply tg_definition; [reflexivity|]. apply sub_here.
  - eapply tg_definition; [reflexivity|]. eapply sub_property; [split; [reflexivity|discriminate]|reflexivity|reflexivity|apply sub_here].
  - eapply tg_parameter; [discriminate|reflexivity].
  - eapply tg_parameter; [discriminate|reflexivity].
  - eapply tg_response. reflexivity.
Qed.
Lemma p4_library : written_library (from_docs p4_docs) s2_url p4_d p4_places p3_used.
Proof.
  assert (A := clean_doc "d/a.json" eq_refl). assert (B := clean_doc "d/b.json" eq_refl). split.
  - intros n b I. unfold p4_places in I. apply in_app_or in I as [I|I].
    + destruct I as [[= <- <-]|[[= <- <-]|[[= <- <-]|[]]]].
      * exists s2_b, ["paths"; "/p"]. split; [exact B|]. split; [vm_compute; reflexivity|]. right. split; [discriminate|]. split; [now left|now right].
      * exists s2_b, ["paths"; "/q"]. split; [exact B|]. split; [vm_compute; reflexivity|]. right. split; [discriminate|]. split; [right; now left|now right].
      * exists s2_b, ["definitions"; "Tag"]. split; [exact B|]. split; [reflexivity|]. right. split; [discriminate|]. split; [right; right; now left|now left].
    + apply in_map_iff in I as ([ts b'] & [= <- <-] & I). destruct (p4_targets ts b' I) as [T N]. exists s2_url, ts. split; [exact A|]. split; [reflexivity|]. left. auto.
  - intros u ts I. split; [destruct I as [[= <- <-]|[[= <- <-]|[[= <- <-]|[]]]]; discriminate|]. intros b s X _ I2 F C.
    assert (EB : b = if string_dec (place u ts) "http://h/d/b.json#/definitions/Tag" then BCls "Schema" else BCls "PathItem").
    { destruct I as [[= <- <-]|[[= <- <-]|[[= <- <-]|[]]]]; destruct I2 as [E2|[E2|[E2|[E2|[E2|[E2|[E2|[E2|[]]]]]]]]]; pose proof (f_equal fst E2) as E3; pose proof (f_equal snd E2) as E4; cbn [fst snd] in E3, E4; clear E2; (vm_compute in E3; first [discriminate E3 | rewrite <- E4; vm_compute; reflexivity]). }
    destruct I as [[= <- <-]|[[= <- <-]|[[= <- <-]|[]]]]; vm_compute in EB; subst b; vm_compute in F; apply (f_equal (fun x => match x with Ok (JDict y) => y | _ => [] end)) in F; cbv beta iota in F; subst s;
      vm_compute in C; apply (f_equal built_or) in C; cbn [built_or] in C; subst X;
      (split; [apply only_references_ok; vm_compute; reflexivity|]); (split; [first [intros Z; discriminate Z | intros _; doc_tac]|]); intros Z; try discriminate Z;
      first [exact p3_p_written | exact p3_q_written].
  - intros u ts b1 b2 I _ I1 I2. transitivity (if string_dec (place u ts) "http://h/d/b.json#/definitions/Tag" then BCls "Schema" else BCls "PathItem"); [clear I2; rename I1 into I2|symmetry; clear I1].
    all: destruct I as [[= <- <-]|[[= <- <-]|[[= <- <-]|[]]]]; destruct I2 as [E2|[E2|[E2|[E2|[E2|[E2|[E2|[E2|[]]]]]]]]]; pose proof (f_equal fst E2) as E3; pose proof (f_equal snd E2) as E4; cbn [fst snd] in E3, E4; clear E2; (vm_compute in E3; first [discriminate E3 | rewrite <- E4; vm_compute; reflexivity]).
  - exact (wl_apart _ _ _ _ _ p3_written_library).
Qed.
Lemma p4_schema_ends : item_ends_at (from_docs p4_docs) s2_url p4_d p4_places s2_url (jref "b.json#/definitions/Tag") p4_tag.
Proof.
  assert (B := clean_doc "d/b.json" eq_refl).
  eapply (ia_other _ _ _ _ s2_url [("$ref", JStr "b.json#/definitions/Tag")] "b.json#/definitions/Tag" s2_b ["definitions"; "Tag"]); [reflexivity|vm_compute; reflexivity|discriminate|exact B|right; right; now left|vm_compute; reflexivity|].
  apply ia_here. reflexivity.
Qed.
Lemma p4_usable_limit : item_usable (from_docs p4_docs) s2_url p4_d p4_places p_limit. Proof. left. split; [doc_tac|reflexivity]. Qed.
Lemma p4_usable_body : item_usable (from_docs p4_docs) s2_url p4_d p4_places p4_body. Proof. right. right. split; [doc_tac|]. exists p4_tag. split; [exact p4_schema_ends|reflexivity]. Qed.
Lemma p4_path_in : item_path (from_docs p4_docs) s2_url p4_d p4_places [("post", JDict shop_op)] [] p4_requests.
Proof.
  split; [split; [now left|apply Forall_nil]|].
  unfold methods, p4_requests. do 2 (apply Forall2_cons; [left; split; reflexivity|]). apply Forall2_cons; [right; exists shop_op; split; [reflexivity|]|do 4 (apply Forall2_cons; [left; split; reflexivity|]); apply Forall2_nil].
  split; [split; [now right|]|split; [|now left]].
  - apply Forall_cons; [|apply Forall_cons; [|apply Forall_nil]]; (split; [right|]); [exists "limit"|exact p4_usable_limit|exists "pet"|exact p4_usable_body]; (split; [discriminate|split; [vm_compute; reflexivity|reflexivity]]).
  - split; [now right|]. apply Forall_cons; [|apply Forall_cons; [|apply Forall_nil]]; cbn [fst snd].
    + split; [left; split; reflexivity|]. apply response_plain; [doc_tac|reflexivity].
    + split; [right; exists "NotFound"; split; [discriminate|split; [vm_compute; reflexivity|reflexivity]]|]. apply response_plain; [doc_tac|reflexivity].
Qed.
Lemma p4_well_formed : well_formed_items (from_docs p4_docs) s2_url p4_d p4_places.
Proof.
  pose proof shop_migratable as (M1 & M2 & M3 & M4 & M5 & M6 & M7 & _).
  split. { split; [doc_tac|]. split; [right; eexists; reflexivity|]. split; [intros i H; change (JDict [("title", JStr "t"); ("version", JStr "1")] = JDict i) in H; injection H as <-; split; now left|]. split; [now left|apply Forall_nil]. }
  split; [exact M2|]. split; [exact M3|]. split; [exact M4|].
  split. { intros n v H. change (lookup n [("limit", JDict p_limit); ("pet", JDict p4_body)] = Some v) in H. cbn [lookup] in H.
    destruct (String.eqb n "limit"); [injection H as <-|destruct (String.eqb n "pet"); [injection H as <-|discriminate]]; eexists; (split; [reflexivity|]); (split; [reflexivity|]); [exact p4_usable_limit|exact p4_usable_body]. }
  split. { intros n v H. destruct (M6 n v H) as (q & -> & R & _ & D). exists q. split; [reflexivity|]. split; [|exact D]. unfold SpecConv.is_reference, mem in R. destruct (lookup "$ref" q); [discriminate|reflexivity]. }
  split; [exact M7|]. intros k v H. change (lookup k [("/pets", JDict [("post", JDict shop_op)]); ("/tags", JDict p3_item)] = Some v) in H. cbn [lookup] in H.
  destruct (String.eqb_spec k "/pets") as [->|_]; [|destruct (String.eqb_spec k "/tags") as [->|]; [|discriminate]]; injection H as <-.
  - do 3 eexists. split; [reflexivity|]. split; [exact p4_path_in|].
    split; [reflexivity|]. split; [|split].
    + repeat (apply Forall_cons; [intros [Z|Z]; discriminate Z|]). apply Forall_nil.
    + do 2 (apply Forall_cons; [apply Forall_nil|]). apply Forall_cons; [repeat (apply Forall_cons; [intros n h Z; discriminate Z|]); apply Forall_nil|]. do 4 (apply Forall_cons; [apply Forall_nil|]). apply Forall_nil.
    + unfold requests_ok. change (no_merged []) with true. cbv iota. unfold p4_requests. repeat (apply Forall_cons; [unfold one_request; left; vm_compute; repeat constructor|]). apply Forall_nil.
  - exists p3_item, [], p3_none. split; [reflexivity|]. split; [|split; [reflexivity|expressible_tac]].
    split; [split; [now left|apply Forall_nil]|]. unfold methods, p3_none. do 7 (apply Forall2_cons; [left; split; reflexivity|]). apply Forall2_nil.
Qed.
Lemma p4_globals : expressible_globals p4_d.
Proof.
  split; [|split; [exact (proj1 (proj2 shop_globals))|exact (proj2 (proj2 shop_globals))]].
  intros n q H. change (lookup n [("limit", JDict p_limit); ("pet", JDict p4_body)] = Some (JDict q)) in H. cbn [lookup] in H.
  destruct (String.eqb n "limit"); [|destruct (String.eqb n "pet"); [|discriminate]]; apply (f_equal (fun z => match z with Some (JDict c) => c | _ => [] end)) in H; cbn beta iota in H; subst q; intros [Z|Z]; discriminate Z.
Qed.
Lemma p4_names : separate_names p4_d.
Proof.
  intros n (q & L & M) N. change (lookup n [("limit", JDict p_limit); ("pet", JDict p4_body)] = Some (JDict q)) in L. cbn [lookup] in L.
  destruct (String.eqb n "limit"); [injection L as <-; discriminate M|]. destruct (String.eqb_spec n "pet") as [->|]; [|discriminate]. split; [cbn; repeat split; discriminate|].
  intros n' q' L' M' P. change (lookup n' [("limit", JDict p_limit); ("pet", JDict p4_body)] = Some (JDict q')) in L'. cbn [lookup] in L'.
  destruct (String.eqb_spec n' "limit") as [->|]; [destruct P as [r P]; discriminate P|]. destruct (String.eqb n' "pet"); [|discriminate]. injection L' as <-. discriminate M'.
Qed.
Example C87_own_items_case : clean s2_url /\ from_docs p4_docs s2_url = Ok (JDict p4_d) /\ SpecApp.declares p4_d (JStr "2.0") /\ construct v20_table (JDict p4_d) (BCls "Swagger") (Some s2_url) [] = Ok p4_root /\
  closed_world same same (from_docs p4_docs) s2_url p4_root p4_places /\ written_library (from_docs p4_docs) s2_url p4_d p4_places p3_used /\ only_references p4_root (JDict p4_d) /\
  well_formed_items (from_docs p4_docs) s2_url p4_d p4_places /\ expressible_globals p4_d /\ elements_of (val p4_d "security") = [] /\
  (forall n s, lookup n (entries_of (val p4_d "securityDefinitions")) = Some (JDict s) -> flow_loads s) /\ separate_names p4_d.
Proof.
  split; [exact (clean_doc "d/a.json" eq_refl)|]. split; [vm_compute; reflexivity|]. split; [apply doc_version_declares; vm_compute; reflexivity|]. split; [vm_compute; reflexivity|].
  split; [exact p4_world|]. split; [exact p4_library|]. split; [apply only_references_check; vm_compute; reflexivity|]. split; [exact p4_well_formed|]. split; [exact p4_globals|]. split; [reflexivity|].
  split; [intros n s H; discriminate H|]. exact p4_names.
Qed.
(** what comes out: the references of the document, and those of the path item and the schema in "b.json" *)
Definition p4_first := open_document same same "" ["1.2"; "2.0"; "3.0.0"] (from_docs p4_docs) (modules same same "" 12 (fun _ => Err PyException) (fun _ _ _ _ => Err PyException)) (fun o _ => Ok o)
  "2.0" 12 s2_url (fresh_app ["1.2"; "2.0"; "3.0.0"]).
Definition p4_opened := open_document same same "" ["1.2"; "2.0"; "3.0.0"] (from_docs p4_docs) (modules same same "" 12 (fun _ => Err PyException) (conversion_all same same (a_store (fst p4_first)))) (fun o _ => Ok o)
  "3.0.0" 12 s2_url (fresh_app ["1.2"; "2.0"; "3.0.0"]).
Definition p4_ref (p : string) (ts : list string) : option json := match entry (a_store (fst p4_opened)) s2_b p "3.0.0" with Some o => ref_at (Ok o) ts | None => None end.
Example C87_own_items_result : parsed30 (fst p4_opened) = [(s2_url, "#"); (s2_b, "#/definitions/Tag"); (s2_b, "#/paths/~1p"); (s2_b, "#/paths/~1q")] /\
  ref_at (snd p4_opened) ["paths"; "/tags"] = Some (JStr "http://h/d/b.json#/paths/~1p") /\
  match place_of (match snd p4_opened with Ok r => so_obj r | Err _ => OPrim JNull end) ["paths"; "/pets"; "post"; "parameters"; "0"] with Some (OObj _ _ (JDict e) _) => lookup "$ref" e | _ => None end = Some (JStr "#/components/parameters/limit") /\
  ref_at (snd p4_opened) ["components"; "requestBodies"; "pet"; "content"; "application/json"; "schema"] = Some (JStr "http://h/d/b.json#/definitions/Tag") /\
  p4_ref "#/definitions/Tag" ["properties"; "pet"] = Some (JStr "http://h/d/a.json#/components/schemas/Pet").
Proof. vm_compute. repeat split; reflexivity. Qed.
