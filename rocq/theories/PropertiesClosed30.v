(** * C79: a set of OpenAPI 3.0.0 documents that refer to each other opens, with every reference answered. *)
From Coq Require Import String Ascii List Bool Arith Lia.
From Verif Require Import PyStr PyVal PyValFacts Jp UrlLib Urls SpecUrl Obj Classes_v3_0_0 SpecJson SpecObj SpecScan SpecStore SpecDoc SpecApp SpecRefs SpecLocal SpecOpen SpecClosed SpecClosed30
  PropertiesObjAux PropertiesScanAux PropertiesRewrite PropertiesLocal PropertiesApp RelocFacts ObjCompare Store App AppFacts2 AppFacts4 Main LocalFacts RewriteFacts ClosedFacts30 ClosedFacts30b PropertiesClosed.
Import ListNotations.
Open Scope string_scope. Open Scope nat_scope.
Notation within := SpecObj.within (only parsing).
Notation split := App.split (only parsing).

(** The document [root] at [url] and everything reached from it by references, in any number of
    documents, in chains and cycles of any length, opens at 3.0.0, provided they form a
    [closed_world30].  The answer [Y] is the document as it was built, but for its references: each of
    them is now a pointer into the document, or absolute ([absolute]).  Only the document and the
    places referred to are in the cache, each as it was built but for its references, which still refer
    to the same places; and every reference of every object there is answered from the cache, without
    reading or changing anything, by an object that was made from the value the reference denotes
    ([whole u]: the document at [u], of which [fetch] returns the parts). *)
Theorem C79_opens (path2url abspath : string -> string) (app_url : string) (fetch : string -> res json) (merge_fuel fuel : nat)
    (from12 : sobj -> res sobj) (from20 : sobj -> string -> string -> override -> res (sobj * routes))
    (url : string) (d : list (string * json)) (root : obj) (places : list (string * list string * builder)) (whole : string -> json) :
  clean url -> fetch url = Ok (JDict d) -> declares d (JStr "3.0.0") -> wf_json (JDict d) ->
  construct v30_table (JDict d) (BCls "OpenApi") (Some url) [] = Ok root -> unmixed root -> no_media_examples root -> closed_world30 fetch url root places ->
  whole url = JDict d -> (forall u ts b j, In (u, ts, b) places -> u <> url -> fetch (place u ts) = Ok j -> jget (whole u) ts j) ->
  length places < fuel -> length places < merge_fuel ->
  let resolve_ := resolve_obj path2url abspath app_url ["1.2"; "2.0"; "3.0.0"] fetch (modules path2url abspath app_url merge_fuel from12 from20) (fun o _ => Ok o) in
  exists a Y, open_document path2url abspath app_url ["1.2"; "2.0"; "3.0.0"] fetch (modules path2url abspath app_url merge_fuel from12 from20) (fun o _ => Ok o)
              "3.0.0" fuel url (fresh_app ["1.2"; "2.0"; "3.0.0"]) = (a, Ok (mk_sobj "3.0.0" Y [])) /\
    same_objects root Y /\
    (forall qs c p e kids ref, within root qs (OObj c p (JDict e) kids) -> In c (referring_classes "3.0.0") -> lookup "$ref" e = Some (JStr ref) ->
       exists u ts e' kids', clean u /\ normalize_jr (Some ref) (Some url) = Ok (Some (place u ts)) /\
         within Y qs (OObj c p (JDict e') kids') /\ lookup "$ref" e' = Some (JStr (absolute ref u ts))) /\
    entry (a_store a) url "#" "3.0.0" = Some (mk_sobj "3.0.0" Y []) /\
    (forall u p v o, entry (a_store a) u p v = Some o -> v = "3.0.0" /\ exists X,
       ((u = url /\ p = "#" /\ X = root) \/ (u <> url /\ exists ts b, In (u, ts, b) places /\ p = pointer ts /\ piece30 fetch u ts b X)) /\
       same_objects X (so_obj o) /\ forall u' ts b, refers30 u (so_obj o) u' ts b <-> refers30 u X u' ts b) /\
    (forall u p o u' ts b f remove, entry (a_store a) u p "3.0.0" = Some o -> refers30 u (so_obj o) u' ts b ->
       exists c q s kids j,
         resolve_ (S f) (mk_query (place u' ts) "3.0.0" (Some ("3.0.0", b)) (Some "3.0.0") remove) a = (a, Ok (mk_sobj "3.0.0" (OObj c q s kids) [], (u' ++ pointer ts)%string)) /\
         jget (whole u') ts j /\ same_but_refs j s).
Proof.
  intros CL F D W C UN NM CW WU WH LF LM. assert (LL := locs_length places).
  destruct (opens path2url abspath app_url fetch merge_fuel from12 from20 url d root places CW CL F D W C UN NM ltac:(lia) fuel ltac:(lia)) as (a & w & E & FU & I & EN).
  exists a, (rewrite_refs w root). split; [exact E|]. split; [apply rewrite_same|]. split.
  { intros qs c p e kids ref WI IC L. exact (opened_refs fetch url d root places CW CL W C UN NM w qs c p e kids ref FU WI IC L). }
  split; [exact EN|]. split.
  - intros u p v o EO. destruct (i_ent _ _ _ _ _ _ I _ _ _ _ EO) as (EV & _ & _ & X & w' & O & G & ES). split; [exact EV|]. exists X. split; [exact O|]. rewrite ES. split; [apply rewrite_same|].
    intros u' ts b. destruct (original_built fetch url d root places CW CL W C UN NM _ _ _ O) as (CU & c & q & s & kids & j & base & b0 & _ & _ & C0 & _ & NB & _).
    exact (refers_same u X j b0 base CU C0 NB w' u' ts b G).
  - intros u p o u' ts b f rm EO RF.
    destruct (answered path2url abspath app_url fetch merge_fuel from12 from20 url d root places CW CL W C UN NM a f u p o u' ts b rm I EO RF) as (c & q & s & kids & j & R & SB & J).
    exists c, q, s, kids, j. split; [exact R|]. split; [|exact SB]. destruct J as [(-> & J)|(NE & b1 & ts1 & rest & j1 & I1 & -> & F1 & J)]; [now rewrite WU|].
    eapply jget_join; [exact (WH u' ts1 b1 j1 I1 NE F1)|exact J].
Qed.

(** ** Closed sets of documents can be recognised *)
(** what may be declared at [qs] of [X] *)
Definition slots (X : obj) (qs : list string) : list builder :=
  flat_map (fun e => match strip (fst e) qs, snd e with
    | Some [k], OObj c _ _ _ => match lookup c v30_table with
        | Some cd => flat_map (fun ch => if String.eqb (ch_name ch) k then ch_builder ch :: match ch_builder ch with BBoolElse b => [b] | _ => [] end else []) (c_children cd)
        | None => [] end
    | Some [k; _], OObj c _ _ _ => match lookup c v30_table with
        | Some cd => flat_map (fun ch => if String.eqb (ch_name ch) k then match ch_builder ch with BListOf b | BMapOf b => [b] | _ => [] end else []) (c_children cd)
        | None => [] end
    | _, _ => []
    end) (everywhere X).
Lemma strip_app a b : strip a (a ++ b) = Some b.
Proof. induction a as [|x a IH]; [now destruct b|]. cbn [List.app strip]. now rewrite String.eqb_refl. Qed.
Lemma slots_all X us ks owner b : within X us owner -> declared_slot v30_table owner ks b -> In b (slots X (us ++ ks)).
Proof.
  intros W D. apply in_flat_map. exists (us, owner). split; [now apply everywhere_all|]. cbn [fst snd]. rewrite strip_app. destruct D as [c p s kids cd ch b L I E|c p s kids cd ch b k L I E]; rewrite L; apply in_flat_map; exists ch; (split; [exact I|]); rewrite String.eqb_refl.
  - destruct E as [<- | E]; [now left|]. rewrite E. right. now left.
  - destruct E as [E|E]; rewrite E; now left.
Qed.
Definition at_place (n : string) (q : string * list string * builder) : bool := String.eqb n (place (fst (fst q)) (snd (fst q))).
Definition refs_okb30 (url : string) (X : obj) (places : list (string * list string * builder)) : bool :=
  forallb (fun e => match snd e with
    | OObj c _ s _ => if existsb (String.eqb c) (referring_classes "3.0.0") then
        match s with
        | JDict d => match lookup "$ref" d with
                     | None => negb (String.eqb c "Reference")
                     | Some (JStr ref) => negb (String.eqb ref "") &&
                         match normalize_jr (Some ref) (Some url) with
                         | Ok (Some n) => existsb (at_place n) places &&
                             forallb (fun b => existsb (fun q => at_place n q && builder_eqb b (snd q)) places)
                               (if String.eqb c "Reference" then filter (fun b => match b with BRefElse r _ => String.eqb r "Reference" | _ => false end) (slots X (fst e)) else [BCls c])
                         | _ => false
                         end
                     | _ => false
                     end
        | _ => false
        end else true
    | _ => true
    end) (everywhere X).
Definition all_clean (places : list (string * list string * builder)) : Prop := forall u ts b, In (u, ts, b) places -> clean u.
Lemma refs_okb30_ok url X places : all_clean places -> refs_okb30 url X places = true -> refs_closed30 url X places.
Proof.
  intros AC H. unfold refs_okb30 in H. rewrite forallb_forall in H. split.
  - intros ts c p s kids W IN. specialize (H _ (everywhere_all _ _ _ W)). cbn [snd fst] in H.
    assert (E : existsb (String.eqb c) (referring_classes "3.0.0") = true) by (apply existsb_exists; exists c; split; [exact IN|apply String.eqb_refl]). rewrite E in H.
    destruct s as [| | | | | |d]; try discriminate H. exists d. split; [reflexivity|]. destruct (lookup "$ref" d) as [r|]; [|now apply String.eqb_neq, negb_true_iff].
    destruct r as [| | | |r| |]; try discriminate H. apply andb_prop in H as [H1 H2]. destruct (normalize_jr (Some r) (Some url)) as [[n|]|] eqn:N; try discriminate H2. apply andb_prop in H2 as [H2 _].
    apply existsb_exists in H2 as (((u & us) & b) & IP & H2). unfold at_place in H2. cbn [fst snd] in H2. apply String.eqb_eq in H2 as ->.
    exists r, u, us. split; [reflexivity|]. split; [now apply String.eqb_neq, negb_true_iff|]. split; [exact (AC _ _ _ IP)|exact N].
  - intros u us b (ts & c & p & d & kids & ref & W & IN & L & CU & N & EX). specialize (H _ (everywhere_all _ _ _ W)). cbn [snd fst] in H.
    assert (E : existsb (String.eqb c) (referring_classes "3.0.0") = true) by (apply existsb_exists; exists c; split; [exact IN|apply String.eqb_refl]). rewrite E, L, N in H.
    apply andb_prop in H as [_ H]. apply andb_prop in H as [_ H]. rewrite forallb_forall in H.
    assert (J : In b (if String.eqb c "Reference" then filter (fun b => match b with BRefElse r _ => String.eqb r "Reference" | _ => false end) (slots X ts) else [BCls c])).
    { unfold expected_at in EX. destruct (String.eqb c "Reference"); [|left; now rewrite EX]. destruct EX as (vs & ks & owner & b' & -> & WO & DS & EB). apply filter_In. split; [exact (slots_all _ _ _ _ _ WO DS)|]. now rewrite EB. }
    specialize (H _ J). apply existsb_exists in H as (((u' & us') & b') & IP & H). unfold at_place in H. cbn [fst snd] in H. apply andb_prop in H as [A B].
    apply String.eqb_eq in A. apply ObjCompareFacts.builder_eqb_eq in B as <-. destruct (place_inj _ _ _ _ CU (AC _ _ _ IP) A) as (-> & ->). exact IP.
Qed.
Definition the_piece30 (fetch : string -> res json) (u : string) (ts : list string) (b : builder) : option obj :=
  match fetch (place u ts) with
  | Ok (JDict d) => match doc_version (JDict d), construct v30_table (JDict d) b (Some (place u ts)) [] with
                    | Ok None, Ok X => if wf_jsonb (JDict d) && unmixedb X && forallb media_plain (everywhere X) then Some X else None
                    | _, _ => None
                    end
  | _ => None
  end.
Lemma the_piece30_ok fetch u ts b X : the_piece30 fetch u ts b = Some X -> piece30 fetch u ts b X.
Proof.
  unfold the_piece30, piece30. destruct (fetch (place u ts)) as [[| | | | | |d]|]; try discriminate. destruct (doc_version (JDict d)) as [[v|]|] eqn:V; try discriminate.
  destruct (construct v30_table (JDict d) b (Some (place u ts)) []) as [x|] eqn:C; [|discriminate].
  destruct (wf_jsonb (JDict d) && unmixedb x && forallb media_plain (everywhere x)) eqn:W; [|discriminate]. apply andb_prop in W as [W M]. apply andb_prop in W as [W U].
  intros [= <-]. exists d. split; [reflexivity|]. split; [now apply doc_version_none|]. split; [now apply wf_jsonb_ok|]. split; [exact C|]. split; [now apply unmixedb_ok|now apply media_check].
Qed.
Definition world_check30 (fetch : string -> res json) (url : string) (root : obj) (places : list (string * list string * builder)) : bool :=
  refs_okb30 url root places &&
  forallb (fun q => match q with (u, ts, b) =>
        if String.eqb u url then object_atb root ts b
        else match the_piece30 fetch u ts b with
             | Some X => refs_okb30 u X places &&
                 forallb (fun q' => match q' with (u', ts', b') => negb (String.eqb u u') || negb (startswith (pointer ts) (pointer ts')) ||
                       match strip ts ts' with Some rest => object_atb X rest b' | None => false end end) places
             | None => false
             end
    end) places.
Lemma world_check30_ok fetch url root places : all_clean places -> world_check30 fetch url root places = true -> closed_world30 fetch url root places.
Proof.
  intros AC H. unfold world_check30 in H. apply andb_prop in H as [H1 H2]. rewrite forallb_forall in H2. split; [now apply refs_okb30_ok| |].
  - intros u ts b IN. specialize (H2 _ IN). cbn [fst snd] in H2. split; [exact (AC _ _ _ IN)|].
    destruct (String.eqb u url) eqn:U; [left; split; [now apply String.eqb_eq|now apply object_atb_ok]|right]. split; [now apply String.eqb_neq|].
    destruct (the_piece30 fetch u ts b) as [X|] eqn:P; [|discriminate H2]. exists X. split; [now apply the_piece30_ok|]. apply andb_prop in H2 as [H3 _]. now apply refs_okb30_ok.
  - intros u ts1 b1 ts2 b2 X I1 I2 NU SW P. specialize (H2 _ I1). cbn [fst snd] in H2. apply String.eqb_neq in NU. rewrite NU in H2. destruct (the_piece30 fetch u ts1 b1) as [X'|] eqn:PX; [|discriminate H2].
    assert (X' = X) as ->. { apply the_piece30_ok in PX as (d & F & _ & _ & C & _). destruct P as (d' & F' & _ & _ & C' & _). congruence. }
    apply andb_prop in H2 as [_ H3]. rewrite forallb_forall in H3. specialize (H3 _ I2). cbn [fst snd] in H3. rewrite String.eqb_refl, SW in H3. cbn [negb orb] in H3.
    destruct (strip ts1 ts2) as [rest|] eqn:ST; [|discriminate H3]. apply strip_ok in ST. exists rest. split; [exact ST|now apply object_atb_ok].
Qed.

(** ** An example: four documents, with references of several kinds, cycles, chains, and a whole document *)
Definition one (k : string) (v : json) : json := JDict [(k, v)].
Definition o3_main : json := JDict [("openapi", JStr "3.0.0"); ("info", JDict [("title", JStr "shop"); ("version", JStr "1")]);
  ("paths", JDict [("/pets", jref "paths.json#/pets");
     ("/own", one "get" (JDict [("parameters", JList [jref "types.json#/params/limit"; jref "#/components/parameters/own"]);
        ("responses", JDict [("200", JDict [("description", JStr "ok"); ("content", one "application/json" (one "schema" (jref "#/components/schemas/Pet")))]); ("default", jref "types.json#/responses/error")])]))]);
  ("components", JDict [("parameters", one "own" (JDict [("name", JStr "own"); ("in", JStr "query"); ("schema", one "type" (JStr "boolean"))]));
     ("schemas", one "Pet" (one "properties" (JDict [("mother", jref "#/components/schemas/Pet"); ("tag", jref "types.json#/schemas/Tag"); ("nick", jref "types.json#/schemas/Tag/properties/text")])))])].
Definition o3_types : json := JDict [
  ("params", one "limit" (JDict [("name", JStr "limit"); ("in", JStr "query"); ("schema", jref "single.json")]));
  ("responses", one "error" (JDict [("description", JStr "error"); ("headers", one "X-Tag" (JDict [("schema", jref "#/schemas/Tag")]))]));
  ("schemas", one "Tag" (one "properties" (JDict [("pet", jref "main.json#/components/schemas/Pet"); ("up", jref "#/schemas/Tag"); ("text", JDict [("type", JStr "string")])])))].
Definition o3_single : json := JDict [("type", JStr "integer"); ("x-more", JBool true)].
Definition o3_paths : json := JDict [("pets", jref "#/more"); ("more", jref "main.json#/paths/~1own")].
Definition o3_docs := [("http://h/d/main.json", o3_main); ("http://h/d/types.json", o3_types); ("http://h/d/single.json", o3_single); ("http://h/d/paths.json", o3_paths)].
Definition o3_url : string := "http://h/d/main.json".
Definition built30 (j : json) : obj := match construct v30_table j (BCls "OpenApi") (Some o3_url) [] with Ok o => o | Err _ => OPrim JNull end.
Definition o3_root : obj := built30 o3_main.
Definition rf (c : string) : builder := BRefElse "Reference" (BCls c).
Definition o3_places : list (string * list string * builder) :=
  [("http://h/d/paths.json", ["pets"], BCls "PathItem"); ("http://h/d/paths.json", ["more"], BCls "PathItem"); (o3_url, ["paths"; "/own"], BCls "PathItem");
   ("http://h/d/types.json", ["params"; "limit"], rf "Parameter"); (o3_url, ["components"; "parameters"; "own"], rf "Parameter");
   (o3_url, ["components"; "schemas"; "Pet"], rf "Schema"); ("http://h/d/types.json", ["responses"; "error"], rf "Response");
   ("http://h/d/types.json", ["schemas"; "Tag"], rf "Schema"); ("http://h/d/types.json", ["schemas"; "Tag"; "properties"; "text"], rf "Schema"); ("http://h/d/single.json", [], rf "Schema")].
Lemma clean_doc (path : string) : free_ofb "?#;" (String "/" path) = true -> clean (abs_url "http" "h" (String "/" path) "").
Proof. intros F. exists "http", "h", (String "/" path), "". split; [now apply clean_d|reflexivity]. Qed.
Lemma o3_clean : all_clean o3_places.
Proof.
  assert (A := clean_doc "d/main.json" eq_refl). assert (B := clean_doc "d/paths.json" eq_refl). assert (C := clean_doc "d/types.json" eq_refl). assert (D := clean_doc "d/single.json" eq_refl).
  intros u ts b I. repeat (destruct I as [[= <- _ _]|I]; [assumption|]). contradiction.
Qed.
Example C79_world_case : closed_world30 (from_docs o3_docs) o3_url o3_root o3_places.
Proof. apply world_check30_ok; [exact o3_clean|]. vm_compute. reflexivity. Qed.
Example C79_case :
  let d := match o3_main with JDict d => d | _ => [] end in
  clean o3_url /\ from_docs o3_docs o3_url = Ok (JDict d) /\ SpecApp.declares d (JStr "3.0.0") /\ wf_json (JDict d) /\
  construct v30_table (JDict d) (BCls "OpenApi") (Some o3_url) [] = Ok o3_root /\ unmixed o3_root /\ no_media_examples o3_root /\ the_doc o3_docs o3_url = JDict d /\
  (forall u ts b j, In (u, ts, b) o3_places -> u <> o3_url -> from_docs o3_docs (place u ts) = Ok j -> jget (the_doc o3_docs u) ts j).
Proof.
  split; [exact (clean_doc "d/main.json" eq_refl)|]. split; [vm_compute; reflexivity|]. split; [apply doc_version_declares; vm_compute; reflexivity|]. split; [apply wf_jsonb_ok; vm_compute; reflexivity|].
  split; [vm_compute; reflexivity|]. split; [apply unmixedb_ok; vm_compute; reflexivity|]. split; [apply media_check; vm_compute; reflexivity|]. split; [reflexivity|].
  intros u ts b j I _ F. apply (from_docs_whole _ (place u ts)); [apply split_place; exact (o3_clean _ _ _ I)|exact F].
Qed.
(** so it opens, with what was read in the cache *)
Definition opened30 docs fuel := open_document same same "" ["1.2"; "2.0"; "3.0.0"] (from_docs docs) (modules same same "" 12 (fun _ => Err PyException) (fun _ _ _ _ => Err PyException)) (fun o _ => Ok o)
  "3.0.0" fuel o3_url (fresh_app ["1.2"; "2.0"; "3.0.0"]).
Definition ref_at (r : res sobj) (ts : list string) : option json :=
  match r with Ok o => match walk (so_obj o) ts with Some (OObj _ _ (JDict d) _) => lookup "$ref" d | _ => None end | Err _ => None end.
Example C79_opened_case : parsed (fst (opened30 o3_docs 12)) =
  [("http://h/d/paths.json", "#/more"); ("http://h/d/paths.json", "#/pets"); ("http://h/d/types.json", "#/responses/error"); ("http://h/d/single.json", "#");
   ("http://h/d/types.json", "#/params/limit"); ("http://h/d/types.json", "#/schemas/Tag"); ("http://h/d/main.json", "#")] /\
  map (ref_at (snd (opened30 o3_docs 12))) [["paths"; "/pets"]; ["components"; "schemas"; "Pet"; "properties"; "mother"]; ["components"; "schemas"; "Pet"; "properties"; "tag"]] =
  [Some (JStr "http://h/d/paths.json#/pets"); Some (JStr "#/components/schemas/Pet"); Some (JStr "http://h/d/types.json#/schemas/Tag")].
Proof. vm_compute. split; reflexivity. Qed.

(** ** The conditions are needed *)
(** Without the condition on prefixes: the schemas "Petx" and "Pet" of another document, in the order in
    which "Pet" is read first.  The set is closed otherwise, and opens; but "Petx" was never read, and the
    reference to it is answered with the object made from "Pet". *)
Definition p3_main : json := JDict [("openapi", JStr "3.0.0"); ("components", one "schemas" (JDict [("A", jref "models.json#/Pet"); ("B", jref "models.json#/Petx")]))].
Definition p3_models : json := JDict [("Pet", JDict [("type", JStr "string")]); ("Petx", JDict [("type", JStr "integer")])].
Definition p3_docs := [("http://h/d/main.json", p3_main); ("http://h/d/models.json", p3_models)].
Definition p3_places : list (string * list string * builder) := [("http://h/d/models.json", ["Pet"], rf "Schema"); ("http://h/d/models.json", ["Petx"], rf "Schema")].
Definition p3_asked := resolve_obj same same "" ["1.2"; "2.0"; "3.0.0"] (from_docs p3_docs) (modules same same "" 12 (fun _ => Err PyException) (fun _ _ _ _ => Err PyException)) (fun o _ => Ok o)
  5 (mk_query "http://h/d/models.json#/Petx" "3.0.0" (Some ("3.0.0", rf "Schema")) (Some "3.0.0") true) (fst (opened30 p3_docs 12)).
Lemma p3_clean : all_clean p3_places.
Proof. assert (A := clean_doc "d/models.json" eq_refl). intros u ts b I. repeat (destruct I as [[= <- _ _]|I]; [assumption|]). contradiction. Qed.
Theorem C79_prefix_refuted :
  (refs_closed30 o3_url (built30 p3_main) p3_places /\
   forall u ts b, In (u, ts, b) p3_places -> exists X, piece30 (from_docs p3_docs) u ts b X /\ refs_closed30 u X p3_places) /\
  (exists o, snd (opened30 p3_docs 12) = Ok o) /\
  refers30 o3_url (built30 p3_main) "http://h/d/models.json" ["Petx"] (rf "Schema") /\
  exists o q, snd p3_asked = Ok (o, "http://h/d/models.json#/Petx") /\ so_obj o = OObj "Schema" q (JDict [("type", JStr "string")]) [].
Proof.
  split; [split|split; [eexists; vm_compute; reflexivity|split]].
  - apply refs_okb30_ok; [exact p3_clean|]. vm_compute. reflexivity.
  - intros u ts b [[= <- <- <-]|[[= <- <- <-]|[]]].
    + eexists. split; [apply the_piece30_ok; vm_compute; reflexivity|]. apply refs_okb30_ok; [exact p3_clean|]. vm_compute. reflexivity.
    + eexists. split; [apply the_piece30_ok; vm_compute; reflexivity|]. apply refs_okb30_ok; [exact p3_clean|]. vm_compute. reflexivity.
  - exists ["components"; "schemas"; "B"], "Reference". do 3 eexists. exists "models.json#/Petx". split; [apply walk_within; vm_compute; reflexivity|].
    split; [now left|]. split; [vm_compute; reflexivity|]. split; [exact (clean_doc "d/models.json" eq_refl)|]. split; [vm_compute; reflexivity|].
    exists ["components"], ["schemas"; "B"]. do 2 eexists. split; [reflexivity|]. split; [apply walk_within; vm_compute; reflexivity|]. split; [|reflexivity].
    apply (ds_element v30_table "Components" _ _ _ (match lookup "Components" v30_table with Some cd => cd | None => mk_class [] [] [] [] [] end) (mk_child "schemas" (BMapOf (rf "Schema")) false) (rf "Schema") "B");
      [vm_compute; reflexivity|vm_compute; tauto|right; reflexivity].
  - do 2 eexists. split; vm_compute; reflexivity.
Qed.
(** A place that does not exist: opening fails. *)
Theorem C79_dangling_refuted :
  exists docs e, refs_closed30 o3_url (built30 p3_main) p3_places /\ from_docs docs o3_url = Ok p3_main /\ snd (opened30 docs 12) = Err e.
Proof.
  exists [("http://h/d/main.json", p3_main); ("http://h/d/models.json", JDict [("Petx", JDict [])])].
  exists KeyError. split; [apply refs_okb30_ok; [exact p3_clean|]; vm_compute; reflexivity|]. split; vm_compute; reflexivity.
Qed.
Print Assumptions C79_opens.
