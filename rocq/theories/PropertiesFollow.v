(** * Property C75: documents that open at OpenAPI 3.0, by conditions on the document alone.
    base.py:123-332, utils.py:101-166, versions/v2_0/main.py, versions/v2_0/scanner/resolve.py, versions/v3_0_0/main.py,
    versions/v2_0/scanner/upgrade/converters.py. *)
From Coq Require Import String Ascii List Bool Arith.
From Verif Require Import PyStr PyVal PyValFacts Jp UrlLib Urls SpecUrl Obj ObjFacts Classes_v2_0 Classes_v3_0_0 SpecJson ShapeFacts SpecObj SpecSchema SpecConv SpecBody SpecOp SpecDoc SpecGiven SpecMigrate SpecScan ResolveFacts PropertiesObjAux PropertiesScanAux
  Store SpecStore App SpecApp AppFacts4 Main SpecRefs SpecLocal SpecOpen RewriteFacts RefFacts LocalFacts LocalFacts2 Conv20 Up30 Whole SpecInside SpecWhole ConvFacts WholeFacts Follow SpecFollow FollowFacts FollowFacts2 FollowFacts3
  PropertiesConvAux PropertiesConv2 PropertiesApp PropertiesUp12 PropertiesRefs PropertiesOpen PropertiesRewrite PropertiesLocal PropertiesWhole.
Import ListNotations.
Open Scope string_scope. Open Scope nat_scope.
Notation within := SpecObj.within (only parsing).

(** ** C75: C74 with the hypotheses on objects discharged.  A Swagger 2.0 document opens at 3.0.0 if all its values have
    the types of the specification ([swagger_doc]), it is well-formed and expressible in 3.0 ([well_formed],
    [expressible_globals]), its references point to its own definitions, responses and parameters, chains of schema references
    of body parameters end (inside [well_formed]), the names of body parameters are [separate_names], it has no global
    security requirement (C50), and its OAuth2 flows have scopes (C71).  The result is the converted document, all
    references of which point to objects of it. *)
Theorem C75_opens (path2url abspath : string -> string) (app_url : string) (fetch : string -> res json) (merge_fuel f : nat) (from12 : sobj -> res sobj)
    (scheme host path query : string) (d : doc) :
  clean_url scheme host path query -> let url := abs_url scheme host path query in
  fetch url = Ok (JDict d) -> declares d (JStr "2.0") ->
  swagger_doc d -> well_formed d -> expressible_globals d -> refers_to_targets d -> separate_names d ->
  elements_of (val d "security") = [] -> (forall n s, lookup n (entries_of (val d "securityDefinitions")) = Some (JDict s) -> flow_loads s) ->
  exists root a x reloc root30 result,
    construct v20_table (JDict d) (BCls "Swagger") (Some url) [] = Ok root /\
    open_document path2url abspath app_url ["1.2"; "2.0"; "3.0.0"] fetch (modules path2url abspath app_url merge_fuel from12 (conversion_in path2url abspath)) (fun o _ => Ok o)
      "3.0.0" (S f) url (fresh_app ["1.2"; "2.0"; "3.0.0"]) = (a, Ok (mk_sobj "3.0.0" result [])) /\
    to_openapi (deref_in path2url abspath url root) (normalized_in url) root = Ok (x, None, reloc) /\ construct v30_table (JDict x) (BCls "OpenApi") (Some "#") [] = Ok root30 /\
    same_objects root30 result /\ self_contained "3.0.0" result.
Proof.
  intros CU url F D SD WF EG RT SN NS FL. subst url. set (url := abs_url scheme host path query) in *. destruct (proj2 (construct_shaped v20_table (JDict d) (BCls "Swagger") (Some url)) (typed_shaped _ _ _ SD)) as [root C]. exists root.
  pose proof (contained path2url abspath scheme d url root C SD RT) as SC. pose proof (migrates path2url abspath scheme host path query CU d url root C SD WF) as MG. pose proof MG as ((WD & _) & _).
  assert (DW : forall o y, wf_obj o -> deref_in path2url abspath url root o = Ok y -> wf_obj y).
  { intros o y. apply FollowFacts2.deref_wf. exact (WfFacts.construct_wf v20_table (JDict d) WD (BCls "Swagger") (Some url) root C). }
  assert (NT : forall o n, normalized_in url o = Ok n -> exists s, n = JStr s).
  { intros o n. unfold normalized_in. destruct (normalized v20_table url o) as [[s|]|]; cbn [bind]; intros H; [|discriminate|discriminate]. exists s. now apply Up12Facts.Ok_inj in H. }
  destruct (whole_converted _ _ d url url root C SC MG EG NS FL RT DW NT) as (x & reloc & root30 & E & W & T & C30 & U).
  destruct (whole_references _ _ d url root C MG SN x reloc root30 E T C30) as (UM & NM & R).
  destruct (C73_opens_migrated path2url abspath app_url fetch merge_fuel f from12 (conversion_in path2url abspath) scheme host path query d root root30 (JDict x) reloc CU F D WD C SC) as (a & result & O & SO & SCr & _);
    [unfold conversion_in, conversion20; cbn [so_obj]; unfold url in U; rewrite U; reflexivity|exact W|exact C30|exact UM|exact NM|exact R|].
  exists a, x, reloc, root30, result. auto 6.
Qed.

(** what the scanner notes on an object [o] of the document with "$ref": the object of the document at the pointer; it is what
    [resolve_obj] answers, without loading or changing anything, when the document is in the cache *)
Theorem C75_noted (path2url abspath : string -> string) (app_url : string) (fetch : string -> res json) (upgrade : string -> option (sobj -> string -> prog (sobj * routes))) (prepare : sobj -> string -> res sobj)
    (f : nat) (scheme host path query : string) (d : doc) (root : obj) :
  clean_url scheme host path query -> let url := abs_url scheme host path query in
  construct v20_table (JDict d) (BCls "Swagger") (Some url) [] = Ok root -> swagger_doc d -> refers_to_targets d ->
  forall ts c p x kids, within root ts (OObj c p (JDict x) kids) -> In c ["Schema"; "Reference"; "PathItem"] -> lookup "$ref" x <> None ->
  exists us y, lookup "$ref" x = Some (JStr (pointer us)) /\ within root us y /\ is_object y /\
    noted path2url abspath url root (OObj c p (JDict x) kids) = Some y /\
    forall a vs parser remove, lookup url (s_objs (a_store a)) = Some [("#", vs)] -> lookup "2.0" vs = Some (mk_sobj "2.0" root []) ->
      resolve_obj path2url abspath app_url ["1.2"; "2.0"; "3.0.0"] fetch upgrade prepare (S f) (mk_query (url ++ pointer us) "2.0" parser (Some "2.0") remove) a
        = (a, Ok (mk_sobj "2.0" y [], (url ++ pointer us)%string)).
Proof.
  intros CU url C SD RT ts c p x kids W Ic Hr. destruct (contained path2url abspath scheme d url root C SD RT ts c p _ kids W Ic) as (x' & E & H). injection E as <-.
  destruct (lookup "$ref" x) as [v|] eqn:L; [|congruence]. destruct H as (_ & us & -> & NE & y & Wy & Oy). exists us, y. split; [reflexivity|]. split; [exact Wy|]. split; [exact Oy|].
  assert (R : refers_by (OObj c p (JDict x) kids) (pointer us)) by (apply (ref_attr "2.0"); [now left|exact Ic|exact L]).
  split; [exact (noted_at path2url abspath scheme host path query CU d url root C _ us y R NE Wy Oy)|]. intros a vs parser remove Es Lv.
  apply (ask_local path2url abspath app_url fetch upgrade prepare f scheme host path query CU a "2.0" (mk_query (url ++ pointer us) "2.0" parser (Some "2.0") remove) (mk_sobj "2.0" root []) us us y);
    [exists vs; split; [exact Es|exact Lv]|reflexivity|reflexivity|exact NE|reflexivity| |exact Oy].
  refine (proj1 (proj2 (within_resolve v20_table us wd20 _ _ _ _ _ C Wy _))). destruct Oy as (? & ? & ? & ? & ->). intros (? & [=]).
Qed.

(** following the references of a schema gives the schema at the end of the chain, or raises CycleDetectionError if there
    is no end *)
Theorem C75_deref (path2url abspath : string -> string) (scheme host path query : string) (d : doc) (root : obj) :
  clean_url scheme host path query -> let url := abs_url scheme host path query in
  construct v20_table (JDict d) (BCls "Swagger") (Some url) [] = Ok root -> well_formed d ->
  (forall n s0 ts x, lookup n (entries_of (val d "definitions")) = Some s0 -> subschema s0 ts (JDict x) -> definition_ref d x) ->
  forall s p o, definition_ref d s -> construct v20_table (JDict s) (BCls "Schema") p [] = Ok o ->
  (exists e p' r, schema_ends d (JDict s) e /\ deref_in path2url abspath url root o = Ok r /\ construct v20_table (JDict e) (BCls "Schema") p' [] = Ok r) \/
  (deref_in path2url abspath url root o = Err CycleDetectionError /\ forall e, ~ schema_ends d (JDict s) e).
Proof.
  intros CU url C WF DR s p o D Co. destruct (deref_ends path2url abspath scheme host path query CU d url root C WF DR s o D (ex_intro _ p Co)) as [(e & r & E & Er & [p' Lr])|H]; [left|right; exact H].
  exists e, p', r. auto.
Qed.

(** a checker for [typed] *)
Fixpoint typed_check (fuel : nat) (T : ctable) (pb : string -> doc -> bool) (b : builder) (j : json) : bool :=
  match fuel with
  | O => false
  | S f =>
      match b, j with
      | BStr, JStr _ => true
      | BListOf b', JList l => forallb (typed_check f T pb b') l
      | BMapOf b', JDict d => forallb (fun kv => typed_check f T pb b' (snd kv)) d
      | BCls c, JDict d =>
          match lookup c T with
          | Some cd => pb c d && forallb (fun ch => match lookup (ch_name ch) d with Some JNull => true | Some v => typed_check f T pb (ch_builder ch) v | None => negb (ch_required ch) end) (c_children cd)
          | None => false
          end
      | BRefElse r b', JDict d => match lookup "$ref" d with Some _ => typed_check f T pb (BCls r) (JDict d) | None => typed_check f T pb b' (JDict d) end
      | BBoolElse b', JBool _ => true
      | BBoolElse b', _ => typed_check f T pb b' j
      | _, _ => false
      end
  end.
Lemma typed_check_ok T (P : string -> doc -> Prop) pb : (forall c d, pb c d = true -> P c d) -> forall fuel b j, typed_check fuel T pb b j = true -> typed T P b j.
Proof.
  intros HP. induction fuel as [|f IH]; [discriminate|]. intros b j H. destruct b as [c|b'|b'| |r b'|b']; cbn [typed_check] in H.
  - destruct j as [| | | | | |d]; try discriminate H. destruct (lookup c T) as [cd|] eqn:E; [|discriminate H]. apply andb_true_iff in H as [Hp Hc]. rewrite forallb_forall in Hc.
    apply ty_object with cd; [exact E|now apply HP| |].
    + intros ch v Ich Lv Nv. specialize (Hc ch Ich). rewrite Lv in Hc. apply IH. destruct v; [congruence|exact Hc..].
    + intros ch Ich Rq N. specialize (Hc ch Ich). rewrite N, Rq in Hc. discriminate Hc.
  - destruct j as [| | | | |l|]; try discriminate H. rewrite forallb_forall in H. apply ty_list. intros x Ix. apply IH. now apply H.
  - destruct j as [| | | | | |d]; try discriminate H. rewrite forallb_forall in H. apply ty_map. intros k x Ix. apply IH. exact (H (k, x) Ix).
  - destruct j; try discriminate H. apply ty_str.
  - destruct j as [| | | | | |d]; try discriminate H. destruct (lookup "$ref" d) as [v|] eqn:E; [apply ty_ref with v|apply ty_noref]; auto.
  - destruct j; try (apply ty_nobool; [discriminate|apply IH; exact H]). apply ty_bool.
Qed.
Definition no_path_ref (c : string) (x : doc) : bool := negb (String.eqb c "PathItem") || negb (mem "$ref" x).
Lemma swagger_check d : typed_check 20 v20_table no_path_ref (BCls "Swagger") (JDict d) = true -> swagger_doc d.
Proof.
  apply typed_check_ok. intros c x H ->. unfold no_path_ref, mem in H. cbn in H. destruct (lookup "$ref" x); [discriminate|reflexivity].
Qed.

Lemma shop_schema_ends : schema_ends shop (JDict (to_ "#/definitions/Pet")) s_pet.
Proof. apply (se_ref shop (to_ "#/definitions/Pet") "Pet" (JDict s_pet) [] (JDict s_pet) s_pet); [vm_compute; reflexivity|reflexivity|apply sub_here|]. apply se_here. reflexivity. Qed.
Lemma shop_usable_limit : usable_in shop p_limit. Proof. left. split; [doc_tac|reflexivity]. Qed.
Lemma shop_usable_body : usable_in shop p_body. Proof. right. right. split; [doc_tac|]. exists s_pet. split; [exact shop_schema_ends|reflexivity]. Qed.
Lemma shop_path_in : path_in shop [("post", JDict shop_op)] [] shop_requests.
Proof.
  split; [split; [now left|apply Forall_nil]|].
  unfold methods, shop_requests. do 2 (apply Forall2_cons; [left; split; reflexivity|]). apply Forall2_cons; [right; exists shop_op; split; [reflexivity|]|do 4 (apply Forall2_cons; [left; split; reflexivity|]); apply Forall2_nil].
  split; [split; [now right|]|split; [|now left]].
  - apply Forall_cons; [|apply Forall_cons; [|apply Forall_nil]]; (split; [right|]); [exists "limit"|exact shop_usable_limit|exists "pet"|exact shop_usable_body]; (split; [discriminate|split; [vm_compute; reflexivity|reflexivity]]).
  - split; [now right|]. apply Forall_cons; [|apply Forall_cons; [|apply Forall_nil]]; cbn [fst snd].
    + split; [left; split; reflexivity|]. apply response_plain; [doc_tac|reflexivity].
    + split; [right; exists "NotFound"; split; [discriminate|split; [vm_compute; reflexivity|reflexivity]]|]. apply response_plain; [doc_tac|reflexivity].
Qed.
Lemma shop_well_formed : well_formed shop.
Proof.
  pose proof shop_migratable as (M1 & M2 & M3 & M4 & M5 & M6 & M7 & M8).
  split; [exact M1|]. split; [exact M2|]. split; [exact M3|]. split; [exact M4|].
  split. { intros n v H. change (lookup n [("limit", JDict p_limit); ("pet", JDict p_body)] = Some v) in H. cbn [lookup] in H.
    destruct (String.eqb n "limit"); [injection H as <-|destruct (String.eqb n "pet"); [injection H as <-|discriminate]]; eexists; (split; [reflexivity|]); (split; [reflexivity|]); [exact shop_usable_limit|exact shop_usable_body]. }
  split. { intros n v H. destruct (M6 n v H) as (q & -> & R & _ & D). exists q. split; [reflexivity|]. split; [|exact D]. unfold SpecConv.is_reference, mem in R. destruct (lookup "$ref" q); [discriminate|reflexivity]. }
  split; [exact M7|]. intros k v H. change (lookup k [("/pets", JDict [("post", JDict shop_op)])] = Some v) in H. cbn [lookup] in H.
  destruct (String.eqb_spec k "/pets") as [->|]; [|discriminate]. injection H as <-. do 3 eexists. split; [reflexivity|]. split; [exact shop_path_in|].
  split; [reflexivity|]. split; [|split].
  - repeat (apply Forall_cons; [intros [Z|Z]; discriminate Z|]). apply Forall_nil.
  - do 2 (apply Forall_cons; [apply Forall_nil|]). apply Forall_cons; [repeat (apply Forall_cons; [intros n h Z; discriminate Z|]); apply Forall_nil|]. do 4 (apply Forall_cons; [apply Forall_nil|]). apply Forall_nil.
  - unfold requests_ok. change (no_merged []) with true. cbv iota. unfold shop_requests. repeat (apply Forall_cons; [unfold one_request; left; vm_compute; repeat constructor|]). apply Forall_nil.
Qed.
(** all hypotheses of [C75_opens] hold of the document of C74 *)
Example C75_case :
  clean_url "http" "h" "/d/a.json" "" /\ abs_url "http" "h" "/d/a.json" "" = "http://h/d/a.json" /\ shop_fetch "http://h/d/a.json" = Ok (JDict shop) /\ declares shop (JStr "2.0") /\
  swagger_doc shop /\ well_formed shop /\ expressible_globals shop /\ refers_to_targets shop /\ separate_names shop /\ elements_of (val shop "security") = [] /\
  (forall n s, lookup n (entries_of (val shop "securityDefinitions")) = Some (JDict s) -> flow_loads s).
Proof.
  split; [now apply clean_d|]. split; [reflexivity|]. split; [reflexivity|]. split; [split; [discriminate|right; left; split; reflexivity]|].
  split; [apply swagger_check; vm_compute; reflexivity|]. split; [exact shop_well_formed|]. split; [exact shop_globals|]. split; [exact shop_refs|]. split; [exact shop_names|]. split; [reflexivity|].
  intros n s H. discriminate H.
Qed.
(** what comes out *)
Definition shop_followed : app * res sobj :=
  open_document id_str id_str "" ["1.2"; "2.0"; "3.0.0"] shop_fetch (modules id_str id_str "" 5 (fun o => Ok o) (conversion_in id_str id_str)) (fun o _ => Ok o)
    "3.0.0" 3 "http://h/d/a.json" (fresh_app ["1.2"; "2.0"; "3.0.0"]).
Example C75_result : exists result,
  snd shop_followed = Ok (mk_sobj "3.0.0" result []) /\
  (exists p, within result ["components"; "requestBodies"; "pet"; "content"; "application/json"; "schema"] p /\
     exists c q k, p = OObj c q (JDict [("$ref", JStr "#/components/schemas/Pet")]) k) /\
  (exists p, within result ["paths"; "/pets"; "post"; "requestBody"; "content"; "application/json"; "schema"] p /\
     exists c q k, p = OObj c q (JDict [("$ref", JStr "#/components/schemas/Pet")]) k).
Proof.
  exists (match snd shop_followed with Ok r => so_obj r | Err _ => OPrim JNull end).
  split; [vm_compute; reflexivity|].
  split; (eexists; split; [apply walk_within; vm_compute; reflexivity|do 3 eexists; vm_compute; reflexivity]).
Qed.
(** a chain of two references, and one without end: "A" refers to "B", "B" to "A"; "C" to "D", "D" to "E" *)
Definition rings : doc :=
  [("swagger", JStr "2.0");
   ("definitions", JDict [("A", JDict (to_ "#/definitions/B")); ("B", JDict (to_ "#/definitions/A")); ("C", JDict (to_ "#/definitions/D")); ("D", JDict (to_ "#/definitions/E")); ("E", JDict [("type", JStr "string")])])].
Definition rings_root : obj := built_or (construct v20_table (JDict rings) (BCls "Swagger") (Some "http://h/d/a.json") []).
Definition ring (n : string) : obj := built_or (resolve v20_table rings_root ["definitions"; n]).
Example C75_deref_case :
  deref_in id_str id_str "http://h/d/a.json" rings_root (ring "A") = Err CycleDetectionError /\
  deref_in id_str id_str "http://h/d/a.json" rings_root (ring "C") = Ok (ring "E") /\ ring "E" <> OPrim JNull.
Proof. split; [vm_compute; reflexivity|]. split; [vm_compute; reflexivity|]. vm_compute. discriminate. Qed.
Print Assumptions C75_opens.
Print Assumptions C75_noted.
Print Assumptions C75_deref.
