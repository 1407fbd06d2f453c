(** * C78: a set of Swagger 2.0 documents that refer to each other opens, with every reference answered. *)
From Coq Require Import String Ascii List Bool Arith Lia.
From Verif Require Import PyStr PyVal PyValFacts Jp UrlLib Urls Obj Classes_v2_0 SpecJson SpecObj SpecScan SpecStore SpecDoc SpecApp SpecLocal PropertiesObjAux PropertiesRewrite PropertiesLocal PropertiesApp RelocFacts
  ObjCompare Store App AppFacts2 AppFacts4 Main LocalFacts SpecClosed ClosedFacts.
Import ListNotations.
Open Scope string_scope. Open Scope nat_scope.
Notation within := SpecObj.within (only parsing).
Notation split := App.split (only parsing).

Lemma jget_join j ts1 j1 : jget j ts1 j1 -> forall ts2 j2, jget j1 ts2 j2 -> jget j (ts1 ++ ts2) j2.
Proof. induction 1; intros ts2 j2 J; cbn [List.app]; [exact J|econstructor; eauto|econstructor; eauto]. Qed.

(** The document [root] at [url] and everything reached from it by references -- schemas, parameters,
    responses and path items, in any number of documents, in chains and cycles of any length -- open at
    2.0, provided they form a [closed_world].  The answer is the document as it was built.  Only the
    document and the places referred to are in the cache; and every reference of every object there is
    answered from the cache, without reading or changing anything, by an object that was made from the
    value the reference denotes ([whole u]: the document at [u], of which [fetch] returns the parts). *)
Theorem C78_opens (path2url abspath : string -> string) (app_url : string) (fetch : string -> res json) (merge_fuel fuel : nat)
    (from12 : sobj -> res sobj) (from20 : sobj -> string -> string -> override -> res (sobj * routes))
    (url : string) (d : list (string * json)) (root : obj) (places : list (string * builder)) (whole : string -> json) :
  url <> "" -> split path2url abspath url = Ok (url, "#") -> fetch url = Ok (JDict d) -> declares d (JStr "2.0") -> wf_json (JDict d) ->
  construct v20_table (JDict d) (BCls "Swagger") (Some url) [] = Ok root -> closed_world path2url abspath fetch url root places ->
  whole url = JDict d -> (forall n b u ts j, In (n, b) places -> split path2url abspath n = Ok (u, pointer ts) -> u <> url -> fetch n = Ok j -> jget (whole u) ts j) ->
  length places < fuel -> length places < merge_fuel ->
  let resolve_ := resolve_obj path2url abspath app_url ["1.2"; "2.0"; "3.0.0"] fetch (modules path2url abspath app_url merge_fuel from12 from20) (fun o _ => Ok o) in
  exists a, open_document path2url abspath app_url ["1.2"; "2.0"; "3.0.0"] fetch (modules path2url abspath app_url merge_fuel from12 from20) (fun o _ => Ok o)
              "2.0" fuel url (fresh_app ["1.2"; "2.0"; "3.0.0"]) = (a, Ok (mk_sobj "2.0" root [])) /\
    entry (a_store a) url "#" "2.0" = Some (mk_sobj "2.0" root []) /\
    (forall u p v o, entry (a_store a) u p v = Some o -> v = "2.0" /\
       ((u = url /\ p = "#" /\ so_obj o = root) \/ (u <> url /\ exists n b, In (n, b) places /\ split path2url abspath n = Ok (u, p) /\ piece fetch n b (so_obj o)))) /\
    (forall u p o n b f remove, entry (a_store a) u p "2.0" = Some o -> refers u (so_obj o) n b ->
       exists u' ts c q s kids, split path2url abspath n = Ok (u', pointer ts) /\
         resolve_ (S f) (mk_query n "2.0" (Some ("2.0", b)) None remove) a = (a, Ok (mk_sobj "2.0" (OObj c q s kids) [], (u' ++ pointer ts)%string)) /\
         jget (whole u') ts s).
Proof.
  intros NU SU F D W C CW WU WH LF LM. assert (LL := locs_length path2url abspath places).
  destruct (opens path2url abspath app_url fetch merge_fuel from12 from20 url d root places CW SU NU F D W C (fun _ _ => None) (fun _ => []) ltac:(lia) fuel (fun _ _ => eq_refl) (fun _ => eq_refl) ltac:(lia)) as (a & E & I).
  exists a. split; [exact E|]. split; [exact (i_root _ _ _ _ _ _ _ _ _ _ I)|]. split.
  - intros u p v o EN. destruct (i_ent _ _ _ _ _ _ _ _ _ _ I _ _ _ _ EN) as [EV|(EV & _ & _ & H)]; [exfalso; subst v; rewrite (i_there _ _ _ _ _ _ _ _ _ _ I) in EN; discriminate EN|]. destruct H as [(-> & -> & ER)|(NE & n & b & ts & IN & S & _ & P)]; (split; [exact EV|]); [auto|]. right. eauto 8.
  - intros u p o n b f rm EN RF.
    destruct (answered path2url abspath app_url fetch merge_fuel from12 from20 url d root places CW NU W C (fun _ _ => None) (fun _ => []) a f u p o n b rm I EN RF) as (u' & ts & c & q & s & kids & S & R & J).
    exists u', ts, c, q, s, kids. split; [exact S|]. split; [exact R|]. destruct J as [(-> & J)|(NE & n1 & b1 & ts1 & rest & j1 & I1 & S1 & -> & F1 & J)]; [now rewrite WU|].
    eapply jget_join; [exact (WH n1 b1 u' ts1 j1 I1 S1 NE F1)|exact J].
Qed.

(** ** Closed sets of documents can be recognised *)
Definition refs_okb (url : string) (X : obj) (places : list (string * builder)) : bool :=
  forallb (fun e => match snd e with
    | OObj c _ s _ => if existsb (String.eqb c) (referring_classes "2.0") then
        match s with
        | JDict d => match lookup "$ref" d with
                     | None => negb (String.eqb c "Reference")
                     | Some (JStr ref) => negb (String.eqb ref "") &&
                         match normalize_jr (Some ref) (Some url) with
                         | Ok (Some n) => negb (String.eqb n "") &&
                             match refers_as (fst e) c with Some b => existsb (fun q => String.eqb n (fst q) && builder_eqb b (snd q)) places | None => true end
                         | _ => false
                         end
                     | _ => false
                     end
        | _ => false
        end else true
    | _ => true
    end) (everywhere X).
Definition object_atb (X : obj) (ts : list string) (b : builder) : bool :=
  match walk X ts with Some (OObj c _ _ _) => negb (builder_eqb b (BCls "PathItem")) || String.eqb c "PathItem" | _ => false end.
Definition the_piece (fetch : string -> res json) (n : string) (b : builder) : option obj :=
  match fetch n with
  | Ok (JDict d) => match doc_version (JDict d), construct v20_table (JDict d) b (Some n) [] with
                    | Ok None, Ok X => if wf_jsonb (JDict d) then Some X else None
                    | _, _ => None
                    end
  | _ => None
  end.
Fixpoint strip (a b : list string) : option (list string) :=
  match a, b with
  | [], _ => Some b
  | x :: a', y :: b' => if String.eqb x y then strip a' b' else None
  | _, [] => None
  end.
Definition tokens (jp : string) : list string := match jp with String _ r => tl (jp_split r) | EmptyString => [] end.
Definition world_check (path2url abspath : string -> string) (fetch : string -> res json) (url : string) (root : obj) (places : list (string * builder)) : bool :=
  refs_okb url root places &&
  forallb (fun nb => match split path2url abspath (fst nb) with
    | Ok (u, p) => String.eqb p (pointer (tokens p)) && negb (String.eqb u "") &&
        (if String.eqb u url then object_atb root (tokens p) (snd nb)
         else match the_piece fetch (fst nb) (snd nb) with
              | Some X => refs_okb u X places &&
                  forallb (fun nb' => match split path2url abspath (fst nb') with
                    | Ok (u', p') => negb (String.eqb u u') || negb (startswith p p') ||
                        match strip (tokens p) (tokens p') with Some rest => object_atb X rest (snd nb') | None => false end
                    | Err _ => false
                    end) places
              | None => false
              end)
    | Err _ => false
    end) places.
Lemma refs_okb_ok url X places : refs_okb url X places = true -> refs_closed url X places.
Proof.
  intros H. unfold refs_okb in H. rewrite forallb_forall in H. split.
  - intros ts c p s kids W IN. specialize (H _ (everywhere_all _ _ _ W)). cbn [snd fst] in H.
    assert (E : existsb (String.eqb c) (referring_classes "2.0") = true) by (apply existsb_exists; exists c; split; [exact IN|apply String.eqb_refl]). rewrite E in H.
    destruct s as [| | | | | |d]; try discriminate H. exists d. split; [reflexivity|]. destruct (lookup "$ref" d) as [r|]; [|now apply String.eqb_neq, negb_true_iff].
    destruct r as [| | | |r| |]; try discriminate H. apply andb_prop in H as [H1 H2]. destruct (normalize_jr (Some r) (Some url)) as [[n|]|] eqn:N; try discriminate H2. apply andb_prop in H2 as [H2 _].
    exists r, n. split; [reflexivity|]. split; [now apply String.eqb_neq, negb_true_iff|]. split; [exact N|now apply String.eqb_neq, negb_true_iff].
  - intros n b (ts & c & p & d & kids & ref & W & IN & L & N & RA). specialize (H _ (everywhere_all _ _ _ W)). cbn [snd fst] in H.
    assert (E : existsb (String.eqb c) (referring_classes "2.0") = true) by (apply existsb_exists; exists c; split; [exact IN|apply String.eqb_refl]). rewrite E, L, N, RA in H.
    apply andb_prop in H as [_ H]. apply andb_prop in H as [_ H]. apply existsb_exists in H as ((n' & b') & IP & H). cbn [fst snd] in H. apply andb_prop in H as [A B].
    apply String.eqb_eq in A as <-. apply ObjCompareFacts.builder_eqb_eq in B as <-. exact IP.
Qed.
Lemma object_atb_ok X ts b : object_atb X ts b = true -> object_at X ts b.
Proof.
  unfold object_atb. destruct (walk X ts) as [[|c p s kids| |]|] eqn:W; try discriminate. intros H. exists c, p, s, kids. split; [now apply walk_within|].
  intros ->. rewrite ObjCompareFacts.builder_eqb_refl in H. now apply String.eqb_eq.
Qed.
Lemma the_piece_ok fetch n b X : the_piece fetch n b = Some X -> piece fetch n b X.
Proof.
  unfold the_piece, piece. destruct (fetch n) as [[| | | | | |d]|]; try discriminate. destruct (doc_version (JDict d)) as [[v|]|] eqn:V; try discriminate. destruct (construct v20_table (JDict d) b (Some n) []) as [x|] eqn:C; [|discriminate].
  destruct (wf_jsonb (JDict d)) eqn:W; [|discriminate]. intros [= <-]. exists d. split; [reflexivity|]. split; [now apply doc_version_none|]. split; [now apply wf_jsonb_ok|exact C].
Qed.
Lemma strip_ok : forall a b rest, strip a b = Some rest -> b = (a ++ rest)%list.
Proof.
  induction a as [|x a IH]; intros [|y b] rest H; cbn [strip] in H; try discriminate H; [now injection H as <-|now injection H as <-|].
  destruct (String.eqb x y) eqn:E; [|discriminate H]. apply String.eqb_eq in E as <-. cbn [List.app]. now rewrite <- (IH _ _ H).
Qed.
Lemma world_check_ok path2url abspath fetch url root places : world_check path2url abspath fetch url root places = true -> closed_world path2url abspath fetch url root places.
Proof.
  intros H. unfold world_check in H. apply andb_prop in H as [H1 H2]. rewrite forallb_forall in H2. split; [now apply refs_okb_ok| |].
  - intros n b IN. specialize (H2 _ IN). cbn [fst snd] in H2. destruct (split path2url abspath n) as [[u p]|]; [|discriminate H2]. apply andb_prop in H2 as [H2 H3]. apply andb_prop in H2 as [H2 H4].
    apply String.eqb_eq in H2. exists u, (tokens p). rewrite <- H2. split; [reflexivity|]. split; [now apply String.eqb_neq, negb_true_iff|].
    destruct (String.eqb u url) eqn:U; [left; split; [now apply String.eqb_eq|now apply object_atb_ok]|right]. split; [now apply String.eqb_neq|].
    destruct (the_piece fetch n b) as [X|] eqn:P; [|discriminate H3]. exists X. split; [now apply the_piece_ok|]. apply andb_prop in H3 as [H3 _]. now apply refs_okb_ok.
  - intros n1 b1 n2 b2 u ts1 ts2 X I1 I2 NU S1 S2 SW P. specialize (H2 _ I1). cbn [fst snd] in H2. rewrite S1 in H2. apply andb_prop in H2 as [H2 H3]. apply andb_prop in H2 as [H2 _].
    apply String.eqb_eq, pointer_inj in H2. apply String.eqb_neq in NU. rewrite NU in H3. destruct (the_piece fetch n1 b1) as [X'|] eqn:PX; [|discriminate H3].
    assert (X' = X) as ->. { apply the_piece_ok in PX as (d & F & _ & _ & C). destruct P as (d' & F' & _ & _ & C'). congruence. }
    apply andb_prop in H3 as [_ H3]. rewrite forallb_forall in H3. specialize (H3 _ I2). cbn [fst snd] in H3. rewrite S2, String.eqb_refl, SW in H3. cbn [negb orb] in H3. rewrite <- H2 in H3.
    destruct (strip ts1 (tokens (pointer ts2))) as [rest|] eqn:ST; [|discriminate H3]. apply strip_ok in ST. exists rest. split; [|now apply object_atb_ok].
    rewrite <- ST, pointer_tail. symmetry. exact (tail_split ts2).
Qed.

(** ** An example: three documents, with references of all four kinds, cycles and chains *)
Fixpoint jwalk (j : json) (ts : list string) : option json :=
  match ts with
  | [] => Some j
  | t :: ts' => match j with JDict d => match lookup t d with Some x => jwalk x ts' | None => None end | _ => None end
  end.
Lemma jwalk_ok : forall ts j x, jwalk j ts = Some x -> jget j ts x.
Proof.
  induction ts as [|t ts IH]; intros j x H; [injection H as <-; constructor|]. destruct j as [| | | | | |d]; try discriminate H. cbn [jwalk] in H.
  destruct (lookup t d) as [y|] eqn:L; [|discriminate H]. econstructor; [exact L|auto].
Qed.
(** fetching from a set of documents *)
Definition from_docs (docs : list (string * json)) (n : string) : res json :=
  match split same same n with
  | Ok (u, p) => match lookup u docs with Some j => match jwalk j (tokens p) with Some x => Ok x | None => Err KeyError end | None => Err KeyError end
  | Err e => Err e
  end.
Definition the_doc (docs : list (string * json)) (u : string) : json := match lookup u docs with Some j => j | None => JNull end.
Lemma from_docs_whole docs n u ts j : split same same n = Ok (u, pointer ts) -> from_docs docs n = Ok j -> jget (the_doc docs u) ts j.
Proof.
  unfold from_docs, the_doc. intros ->. destruct (lookup u docs) as [D|]; [|discriminate]. rewrite pointer_tail. change (tokens ("#" ++ tail_of ts)) with (tl (jp_split (tail_of ts))). rewrite tail_split.
  destruct (jwalk D ts) as [x|] eqn:E; [|discriminate]. intros [= <-]. now apply jwalk_ok.
Qed.
Definition jref (r : string) : json := JDict [("$ref", JStr r)].
Definition shop_main : json := JDict [("swagger", JStr "2.0"); ("info", JDict [("title", JStr "shop"); ("version", JStr "1")]);
  ("paths", JDict [("/pets", JDict [("get", JDict [("parameters", JList [jref "common.json#/parameters/limit"; jref "#/parameters/offset"]);
      ("responses", JDict [("200", JDict [("description", JStr "ok"); ("schema", JDict [("type", JStr "array"); ("items", jref "models.json#/definitions/Pet")])]); ("default", jref "common.json#/responses/error")])])]);
    ("/pets/{id}", jref "common.json#/paths/~1pets~1{id}")]);
  ("parameters", JDict [("offset", JDict [("name", JStr "offset"); ("in", JStr "query"); ("type", JStr "integer")])]);
  ("definitions", JDict [("Owner", JDict [("properties", JDict [("pets", JDict [("type", JStr "array"); ("items", jref "models.json#/definitions/Pet")])])])])].
Definition shop_common : json := JDict [
  ("parameters", JDict [("limit", JDict [("name", JStr "limit"); ("in", JStr "query"); ("type", JStr "integer")])]);
  ("responses", JDict [("error", JDict [("description", JStr "error"); ("schema", jref "models.json#/definitions/Error")])]);
  ("paths", JDict [("/pets/{id}", JDict [("get", JDict [("responses", JDict [("default", jref "#/responses/error")])])])])].
Definition shop_models : json := JDict [("definitions", JDict [
  ("Pet", JDict [("properties", JDict [("owner", jref "main.json#/definitions/Owner"); ("mother", jref "#/definitions/Pet"); ("name", jref "#/definitions/Pet/properties/nick"); ("nick", JDict [("type", JStr "string")])])]);
  ("Error", JDict [("allOf", JList [jref "#/definitions/Base"])]); ("Base", JDict [("type", JStr "object")])])].
Definition shop_docs := [("http://h/d/main.json", shop_main); ("http://h/d/common.json", shop_common); ("http://h/d/models.json", shop_models)].
Definition shop_url : string := "http://h/d/main.json".
Definition shop_root : obj := match construct v20_table shop_main (BCls "Swagger") (Some shop_url) [] with Ok o => o | Err _ => OPrim JNull end.
Definition pb : builder := BRefElse "Reference" (BCls "Parameter").
Definition rb : builder := BRefElse "Reference" (BCls "Response").
Definition shop_places : list (string * builder) :=
  [("http://h/d/common.json#/parameters/limit", pb); ("http://h/d/main.json#/parameters/offset", pb); ("http://h/d/models.json#/definitions/Pet", BCls "Schema"); ("http://h/d/common.json#/responses/error", rb);
   ("http://h/d/common.json#/paths/~1pets~1{id}", BCls "PathItem"); ("http://h/d/models.json#/definitions/Error", BCls "Schema"); ("http://h/d/models.json#/definitions/Base", BCls "Schema");
   ("http://h/d/main.json#/definitions/Owner", BCls "Schema"); ("http://h/d/models.json#/definitions/Pet/properties/nick", BCls "Schema")].
Example C78_world_case : closed_world same same (from_docs shop_docs) shop_url shop_root shop_places.
Proof. apply world_check_ok. vm_compute. reflexivity. Qed.
Example C78_case :
  let d := match shop_main with JDict d => d | _ => [] end in
  shop_url <> "" /\ split same same shop_url = Ok (shop_url, "#") /\ from_docs shop_docs shop_url = Ok (JDict d) /\ SpecApp.declares d (JStr "2.0") /\ wf_json (JDict d) /\
  construct v20_table (JDict d) (BCls "Swagger") (Some shop_url) [] = Ok shop_root /\ the_doc shop_docs shop_url = JDict d /\
  (forall n b u ts j, In (n, b) shop_places -> split same same n = Ok (u, pointer ts) -> u <> shop_url -> from_docs shop_docs n = Ok j -> jget (the_doc shop_docs u) ts j).
Proof.
  split; [discriminate|]. split; [vm_compute; reflexivity|]. split; [vm_compute; reflexivity|]. split; [apply doc_version_declares; vm_compute; reflexivity|]. split; [apply wf_jsonb_ok; vm_compute; reflexivity|].
  split; [vm_compute; reflexivity|]. split; [reflexivity|]. intros n b u ts j _ S _ F. now apply (from_docs_whole _ n).
Qed.
(** so it opens, with what was read in the cache *)
Definition opened docs fuel := open_document same same "" ["1.2"; "2.0"; "3.0.0"] (from_docs docs) (modules same same "" 12 (fun _ => Err PyException) (fun _ _ _ _ => Err PyException)) (fun o _ => Ok o)
  "2.0" fuel shop_url (fresh_app ["1.2"; "2.0"; "3.0.0"]).
Example C78_opened_case : snd (opened shop_docs 12) = Ok (mk_sobj "2.0" shop_root []) /\ parsed (fst (opened shop_docs 12)) =
  [("http://h/d/common.json", "#/parameters/limit"); ("http://h/d/models.json", "#/definitions/Base"); ("http://h/d/models.json", "#/definitions/Error"); ("http://h/d/common.json", "#/responses/error");
   ("http://h/d/common.json", "#/paths/~1pets~1{id}"); ("http://h/d/models.json", "#/definitions/Pet"); ("http://h/d/main.json", "#")].
Proof. vm_compute. split; reflexivity. Qed.

(** ** The conditions are needed *)
(** Without the condition on prefixes: definitions "Petx" and "Pet" in another document, used in this
    order (references are followed from the last to the first).  The set is closed otherwise, and opens; but "Petx" was never read, and the reference to it
    is answered with the object made from "Pet". *)
Definition petx_main : json := JDict [("swagger", JStr "2.0"); ("definitions", JDict [("A", jref "models.json#/definitions/Petx"); ("B", jref "models.json#/definitions/Pet")])].
Definition petx_models : json := JDict [("definitions", JDict [("Pet", JDict [("type", JStr "string")]); ("Petx", JDict [("type", JStr "integer")])])].
Definition petx_docs := [("http://h/d/main.json", petx_main); ("http://h/d/models.json", petx_models)].
Definition petx_root : obj := match construct v20_table petx_main (BCls "Swagger") (Some shop_url) [] with Ok o => o | Err _ => OPrim JNull end.
Definition petx_places : list (string * builder) := [("http://h/d/models.json#/definitions/Pet", BCls "Schema"); ("http://h/d/models.json#/definitions/Petx", BCls "Schema")].
Definition petx_asked := resolve_obj same same "" ["1.2"; "2.0"; "3.0.0"] (from_docs petx_docs) (modules same same "" 12 (fun _ => Err PyException) (fun _ _ _ _ => Err PyException)) (fun o _ => Ok o)
  5 (mk_query "http://h/d/models.json#/definitions/Petx" "2.0" (Some ("2.0", BCls "Schema")) None true) (fst (opened petx_docs 12)).
Theorem C78_prefix_refuted :
  (refs_closed shop_url petx_root petx_places /\
   forall n b, In (n, b) petx_places -> exists ts X, split same same n = Ok ("http://h/d/models.json", pointer ts) /\ piece (from_docs petx_docs) n b X /\ refs_closed "http://h/d/models.json" X petx_places) /\
  snd (opened petx_docs 12) = Ok (mk_sobj "2.0" petx_root []) /\
  refers shop_url petx_root "http://h/d/models.json#/definitions/Petx" (BCls "Schema") /\
  exists o q, snd petx_asked = Ok (o, "http://h/d/models.json#/definitions/Petx") /\ so_obj o = OObj "Schema" q (JDict [("type", JStr "string")]) [].
Proof.
  split; [split|split; [vm_compute; reflexivity|split]].
  - apply refs_okb_ok. vm_compute. reflexivity.
  - intros n b [[= <- <-]|[[= <- <-]|[]]].
    + exists ["definitions"; "Pet"]. eexists. split; [vm_compute; reflexivity|]. split; [apply the_piece_ok; vm_compute; reflexivity|]. apply refs_okb_ok. vm_compute. reflexivity.
    + exists ["definitions"; "Petx"]. eexists. split; [vm_compute; reflexivity|]. split; [apply the_piece_ok; vm_compute; reflexivity|]. apply refs_okb_ok. vm_compute. reflexivity.
  - exists ["definitions"; "A"], "Schema". do 3 eexists. exists "models.json#/definitions/Petx". split; [apply walk_within; vm_compute; reflexivity|].
    split; [now left|]. split; [vm_compute; reflexivity|]. split; vm_compute; reflexivity.
  - do 2 eexists. split; vm_compute; reflexivity.
Qed.
(** A place that does not exist: opening fails. *)
Theorem C78_dangling_refuted :
  exists docs e, refs_closed shop_url petx_root petx_places /\ from_docs docs shop_url = Ok petx_main /\ snd (opened docs 12) = Err e.
Proof.
  exists [("http://h/d/main.json", petx_main); ("http://h/d/models.json", JDict [("definitions", JDict [("Petx", JDict [])])])].
  exists KeyError. split; [apply refs_okb_ok; vm_compute; reflexivity|]. split; vm_compute; reflexivity.
Qed.
Print Assumptions C78_opens.
