(** * C85: a set of Swagger 2.0 documents that refer to each other opens at 3.0.0, with every reference answered. *)
From Coq Require Import String Ascii List Bool Arith Lia.
From Verif Require Import PyStr PyVal PyValFacts Jp UrlLib Urls SpecUrl Obj Classes_v2_0 Classes_v3_0_0 SpecJson SpecObj SpecScan SpecStore SpecDoc SpecApp SpecRefs SpecLocal SpecOpen SpecClosed SpecClosed30 SpecClosed23
  PropertiesObjAux PropertiesScanAux PropertiesConvAux PropertiesRewrite PropertiesLocal PropertiesApp RelocFacts ObjCompare Store App AppFacts2 AppFacts4 Main Whole LocalFacts RewriteFacts ClosedFacts23 PropertiesClosed PropertiesClosed30.
From Verif Require ClosedFacts ClosedFacts.
Import ListNotations.
Open Scope string_scope. Open Scope nat_scope.
Notation within := SpecObj.within (only parsing).
Notation split := App.split (only parsing).

(** The Swagger 2.0 document [root] at [url] and everything reached from it by references, in any number
    of documents, in chains and cycles of any length, opens at 3.0.0, provided they form a [closed_world]
    and what is needed of them can be converted ([converts]); path items may refer to path items of any
    document, which are then merged one after the other.  The answer [Y] is the conversion
    [root30] of the document, but for its references: each of them now refers to the place to which the
    conversion has moved what it referred to, as a pointer into the document, or absolute.  At 3.0.0 the cache
    contains conversions only, of the document and of places referred to, each with its references
    rewritten; and each reference of each of them is answered from the cache, without reading or
    changing anything, by the conversion [Z0] of what the 2.0 reference denoted; the place of 2.0 gives the same. *)
Theorem C85_opens (path2url abspath : string -> string) (app_url : string) (fetch : string -> res json) (merge_fuel fuel : nat)
    (from12 : sobj -> res sobj) (from20 : sobj -> string -> string -> override -> res (sobj * routes))
    (url : string) (d : list (string * json)) (root root30 : obj) (reloc : routes) (places : list (string * builder)) (moved : list (string * list string)) :
  clean url -> fetch url = Ok (JDict d) -> declares d (JStr "2.0") -> wf_json (JDict d) -> construct v20_table (JDict d) (BCls "Swagger") (Some url) [] = Ok root ->
  closed_world path2url abspath fetch url root places -> converts path2url abspath fetch from20 url root root30 reloc places moved ->
  length places + length moved < fuel -> length places < merge_fuel ->
  let resolve_ := resolve_obj path2url abspath app_url ["1.2"; "2.0"; "3.0.0"] fetch (modules path2url abspath app_url merge_fuel from12 from20) (fun o _ => Ok o) in
  exists a Y, open_document path2url abspath app_url ["1.2"; "2.0"; "3.0.0"] fetch (modules path2url abspath app_url merge_fuel from12 from20) (fun o _ => Ok o)
              "3.0.0" fuel url (fresh_app ["1.2"; "2.0"; "3.0.0"]) = (a, Ok (mk_sobj "3.0.0" Y [])) /\
    same_objects root30 Y /\
    (forall qs c p e kids ref, within root30 qs (OObj c p (JDict e) kids) -> In c (referring_classes "3.0.0") -> lookup "$ref" e = Some (JStr ref) ->
       exists u ts ts' e' kids', leads url reloc url ref u ts ts' /\ within Y qs (OObj c p (JDict e') kids') /\ lookup "$ref" e' = Some (JStr (absolute ref u ts'))) /\
    entry (a_store a) url "#" "3.0.0" = Some (mk_sobj "3.0.0" Y []) /\
    (forall u p o, entry (a_store a) u p "3.0.0" = Some o -> so_version o = "3.0.0" /\ so_apis o = [] /\
       exists Z0, converted path2url abspath fetch from20 url root30 places moved u p Z0 /\ same_objects Z0 (so_obj o)) /\
    (forall u p o qs c q e' kids' ref', entry (a_store a) u p "3.0.0" = Some o -> within (so_obj o) qs (OObj c q (JDict e') kids') -> In c (referring_classes "3.0.0") -> lookup "$ref" e' = Some (JStr ref') ->
       exists Y0 e kids ref u' ts ts' Z0 Z,
         converted path2url abspath fetch from20 url root30 places moved u p Y0 /\ within Y0 qs (OObj c q (JDict e) kids) /\ lookup "$ref" e = Some (JStr ref) /\ leads url reloc u ref u' ts ts' /\
         normalize_jr (Some ref') (Some u) = Ok (Some (place u' ts')) /\
         ((u' = url /\ within root30 ts' Z0) \/ (u' <> url /\ converted path2url abspath fetch from20 url root30 places moved u' (pointer ts') Z0)) /\ same_objects Z0 Z /\
         forall parser f remove,
           resolve_ (S f) (mk_query (place u' ts') "3.0.0" parser (Some "3.0.0") remove) a = (a, Ok (mk_sobj "3.0.0" Z [], (u' ++ pointer ts')%string)) /\
           resolve_ (S f) (mk_query (place u' ts) "2.0" parser (Some "3.0.0") remove) a = (a, Ok (mk_sobj "3.0.0" Z [], (u' ++ pointer ts')%string))).
Proof.
  intros CL F D W C CW CV LF LM. assert (LL := ClosedFacts.locs_length path2url abspath places). assert (L3 := locs30_length moved).
  destruct (opens30 path2url abspath app_url fetch merge_fuel from12 from20 url d root root30 reloc places moved CW CL F D W C CV ltac:(lia) fuel ltac:(lia)) as (a & w & E & FU & J & EN).
  assert (CONV : forall u p X Y, original path2url abspath fetch from20 url root root30 places moved u p X Y -> converted path2url abspath fetch from20 url root30 places moved u p Y).
  { intros u p X Y [(-> & -> & _ & ->)|(N & _ & ts & n & b & H)]; [now left|right]. split; [exact N|]. exists ts, n, b, X. exact H. }
  exists a, (rewrite_refs w root30). split; [exact E|]. split; [apply rewrite_same|]. split.
  { intros qs c p e kids ref WI IC L. exact (opened30_refs path2url abspath fetch from20 url root root30 reloc places moved CL CV w qs c p e kids ref FU WI IC L). }
  split; [exact EN|]. split.
  - intros u p o EO. destruct (entry_origin path2url abspath fetch from20 url root root30 reloc places moved _ a u p "3.0.0" o J EO eq_refl) as (V & A & X & Z0 & O & SO).
    split; [exact V|]. split; [exact A|]. exists Z0. split; [exact (CONV _ _ _ _ O)|exact SO].
  - intros u p o qs c q e' kids' ref' EO WI IC L.
    destruct (answered30 path2url abspath app_url fetch merge_fuel from12 from20 url root root30 reloc places moved CL CV a u p o qs c q e' kids' ref' J EO WI IC L)
      as (ref & X & Y0 & e & kids & u' & ts & ts' & Z0 & Z & O & W0 & L0 & LD & N & SO & B & R1 & R2).
    exists Y0, e, kids, ref, u', ts, ts', Z0, Z. split; [exact (CONV _ _ _ _ O)|]. split; [exact W0|]. split; [exact L0|]. split; [exact LD|]. split; [exact N|]. split.
    { destruct B as [B|(N1 & X' & O')]; [now left|right]. split; [exact N1|exact (CONV _ _ _ _ O')]. }
    split; [exact SO|]. intros parser f rm. split; [apply R1|apply R2].
Qed.

(** ** Conversions of closed sets can be recognised *)
(** [hops]: where references lead, and where that has been moved *)
Definition leadsb (url : string) (reloc : routes) (u ref : string) (h : string * list string * list string) : bool :=
  match h with (u', ts, ts') =>
    match normalize_jr (Some ref) (Some u) with Ok (Some n) => String.eqb n (place u' ts) | _ => false end &&
    if String.eqb u' url then match patch_jp (pointer ts) [("#", RMap reloc)] with Ok p => String.eqb p (pointer ts') | Err _ => false end
    else if list_eq_dec string_dec ts' ts then true else false
  end.
Definition refersb (u : string) (X : obj) (n : string) : bool :=
  existsb (fun e => match walk X (fst e) with
    | Some (OObj c _ (JDict d) _) => existsb (String.eqb c) (referring_classes "2.0") &&
        match lookup "$ref" d with
        | Some (JStr ref) => match normalize_jr (Some ref) (Some u), refers_as (fst e) c with Ok (Some m), Some _ => String.eqb m n | _, _ => false end
        | _ => false end
    | _ => false end) (everywhere X).
(** ... as something of the class [k] *)
Definition refersb_as (u : string) (X : obj) (n k : string) : bool :=
  existsb (fun e => match walk X (fst e) with
    | Some (OObj c _ (JDict d) _) => existsb (String.eqb c) (referring_classes "2.0") &&
        match lookup "$ref" d with
        | Some (JStr ref) => match normalize_jr (Some ref) (Some u), refers_as (fst e) c with Ok (Some m), Some (BCls b) => String.eqb m n && String.eqb b k | _, _ => false end
        | _ => false end
    | _ => false end) (everywhere X).
Definition refs_movedb (url : string) (root30 : obj) (reloc : routes) (moved : list (string * list string)) (hops : list (string * list string * list string)) (u : string) (X Y : obj) : bool :=
  forallb (fun e => match snd e with
    | OObj c _ s _ => if existsb (String.eqb c) (referring_classes "3.0.0") then
        match s with
        | JDict d => match lookup "$ref" d with
            | None => negb (String.eqb c "Reference")
            | Some (JStr ref) => negb (String.eqb ref "") &&
                existsb (fun h => leadsb url reloc u ref h && match h with (u', ts, ts') =>
                  (negb (String.eqb c "PathItem") || (if list_eq_dec string_dec ts' ts then true else false) && refersb_as u X (place u' ts) "PathItem") &&
                  if String.eqb u' url then match walk root30 ts' with Some (OObj c' _ _ _) => negb (String.eqb c "PathItem") || String.eqb c' "PathItem" | _ => false end
                  else (if in_dec (fun a b => match string_dec (fst a) (fst b), list_eq_dec string_dec (snd a) (snd b) with
                            | left E1, left E2 => left (eq_trans (surjective_pairing a) (eq_trans (f_equal2 pair E1 E2) (eq_sym (surjective_pairing b))))
                            | right N, _ => right (fun E => N (f_equal fst E)) | _, right N => right (fun E => N (f_equal snd E)) end) (u', ts) moved then true else false)
                       && refersb u X (place u' ts) end) hops
            | _ => false end
        | _ => false end
      else true
    | _ => true end) (everywhere Y).
Lemma refersb_ok u X n : refersb u X n = true -> exists b, refers u X n b.
Proof.
  unfold refersb. intros H. apply existsb_exists in H as ((qs & x) & _ & H). cbn [fst] in H. destruct (walk X qs) as [[|c p [| | | | | |d] kids| |]|] eqn:W; try discriminate H. apply andb_prop in H as [IC H].
  apply existsb_exists in IC as (c' & IC & E). apply String.eqb_eq in E as <-. destruct (lookup "$ref" d) as [[| | | |ref| |]|] eqn:L; try discriminate H.
  destruct (normalize_jr (Some ref) (Some u)) as [[m|]|] eqn:N; try discriminate H. destruct (refers_as qs c) as [b|] eqn:R; [|discriminate H]. apply String.eqb_eq in H as ->.
  exists b, qs, c, p, d, kids, ref. split; [now apply walk_within|auto].
Qed.
Lemma refersb_as_ok u X n k : refersb_as u X n k = true -> refers u X n (BCls k).
Proof.
  unfold refersb_as. intros H. apply existsb_exists in H as ((qs & x) & _ & H). cbn [fst] in H. destruct (walk X qs) as [[|c p [| | | | | |d] kids| |]|] eqn:W; try discriminate H. apply andb_prop in H as [IC H].
  apply existsb_exists in IC as (c' & IC & E). apply String.eqb_eq in E as <-. destruct (lookup "$ref" d) as [[| | | |ref| |]|] eqn:L; try discriminate H.
  destruct (normalize_jr (Some ref) (Some u)) as [[m|]|] eqn:N; try discriminate H. destruct (refers_as qs c) as [[b| | | | |]|] eqn:R; try discriminate H. apply andb_prop in H as [H1 H2]. apply String.eqb_eq in H1 as ->. apply String.eqb_eq in H2 as ->.
  exists qs, c, p, d, kids, ref. split; [now apply walk_within|auto].
Qed.
Definition known_hops (hops : list (string * list string * list string)) : Prop := forall u ts ts', In (u, ts, ts') hops -> clean u.
Lemma leadsb_ok url reloc hops u ref u' ts ts' : known_hops hops -> In (u', ts, ts') hops -> leadsb url reloc u ref (u', ts, ts') = true -> leads url reloc u ref u' ts ts'.
Proof.
  intros K I H. unfold leadsb in H. apply andb_prop in H as [H1 H2]. split; [exact (K _ _ _ I)|]. destruct (normalize_jr (Some ref) (Some u)) as [[n|]|]; try discriminate H1. apply String.eqb_eq in H1 as ->. split; [reflexivity|].
  destruct (String.eqb_spec u' url) as [E|N].
  - left. split; [exact E|]. destruct (patch_jp _ _) as [p|]; [|discriminate H2]. apply String.eqb_eq in H2 as ->. reflexivity.
  - right. split; [exact N|]. destruct (list_eq_dec string_dec ts' ts); [assumption|discriminate H2].
Qed.
Lemma refs_movedb_ok url root30 reloc moved hops u X Y : known_hops hops -> refs_movedb url root30 reloc moved hops u X Y = true -> refs_moved url root30 reloc moved u X Y.
Proof.
  intros K H qs c p s kids W IC. unfold refs_movedb in H. rewrite forallb_forall in H. specialize (H _ (everywhere_all _ _ _ W)). cbn [snd] in H.
  assert (E : existsb (String.eqb c) (referring_classes "3.0.0") = true) by (apply existsb_exists; exists c; split; [exact IC|apply String.eqb_refl]). rewrite E in H.
  destruct s as [| | | | | |d]; try discriminate H. exists d. split; [reflexivity|]. destruct (lookup "$ref" d) as [r|]; [|now apply String.eqb_neq, negb_true_iff].
  destruct r as [| | | |ref| |]; try discriminate H. apply andb_prop in H as [H2 H3].
  apply existsb_exists in H3 as (((u' & ts) & ts') & I & H3). apply andb_prop in H3 as [H3 H4]. apply andb_prop in H4 as [H5 H4]. exists ref, u', ts, ts'. split; [reflexivity|]. split; [now apply String.eqb_neq, negb_true_iff|]. split; [exact (leadsb_ok _ _ _ _ _ _ _ _ K I H3)|].
  assert (PI : c = "PathItem" -> ts' = ts /\ refers u X (place u' ts) (BCls "PathItem")).
  { intros ->. cbn [String.eqb Ascii.eqb Bool.eqb negb orb] in H5. apply andb_prop in H5 as [H6 H7]. split; [destruct (list_eq_dec string_dec ts' ts); [assumption|discriminate H6]|now apply refersb_as_ok]. }
  destruct (String.eqb_spec u' url) as [EU|NU].
  - split; [intros _|split; [contradiction|exact PI]]. destruct (walk root30 ts') as [[|c' p' s' k'| |]|] eqn:WK; try discriminate H4. exists c', p', s', k'. split; [now apply walk_within|]. intros ->. cbn [String.eqb Ascii.eqb Bool.eqb negb orb] in H4. now apply String.eqb_eq.
  - split; [contradiction|]. split; [intros _|exact PI]. apply andb_prop in H4 as [H4 H8]. destruct (in_dec _ _ _) as [IM|]; [|discriminate H4]. split; [exact IM|]. now apply refersb_ok.
Qed.
(** a place that is converted *)
Definition is_item (X : obj) : bool := match X with OObj c _ _ _ => String.eqb c "PathItem" | _ => false end.
Definition becomes_ok (path2url abspath : string -> string) (fetch : string -> res json) (from20 : sobj -> string -> string -> override -> res (sobj * routes)) (url : string) (root30 : obj) (reloc : routes)
    (moved : list (string * list string)) (hops : list (string * list string * list string)) (u : string) (ts : list string) (n : string) (b : builder) : bool :=
  match the_piece fetch n b with
  | Some X => match from20 (mk_sobj "2.0" X []) u (pointer ts) [] with
      | Ok (mk_sobj _ (OObj c q y kids) _, _) => negb (String.eqb c "Reference") && (negb (is_item X) || String.eqb c "PathItem") && wf_jsonb y && unmixedb (OObj c q y kids) && forallb media_plain (everywhere (OObj c q y kids)) &&
          refs_movedb url root30 reloc moved hops u X (OObj c q y kids)
      | _ => false end
  | None => false
  end.
Definition apartb (path2url abspath : string -> string) (places : list (string * builder)) (moved : list (string * list string)) : bool :=
  forallb (fun nb => match split path2url abspath (fst nb) with
    | Ok (u, p) => forallb (fun e => negb (String.eqb u (fst e)) || String.eqb p (pointer (snd e)) || negb (startswith p (pointer (snd e)) || startswith (pointer (snd e)) p)) moved
    | Err _ => true end) places.
Lemma apartb_ok path2url abspath places moved : apartb path2url abspath places moved = true ->
  forall n b u ts1 ts2, In (n, b) places -> In (u, ts2) moved -> split path2url abspath n = Ok (u, pointer ts1) -> startswith (pointer ts1) (pointer ts2) = true \/ startswith (pointer ts2) (pointer ts1) = true -> ts1 = ts2.
Proof.
  unfold apartb. rewrite forallb_forall. intros H n b u ts1 ts2 I1 I2 S SW. specialize (H _ I1). cbn [fst] in H. rewrite S in H. rewrite forallb_forall in H. specialize (H _ I2). cbn [fst snd] in H. rewrite String.eqb_refl in H. cbn [negb orb] in H.
  apply orb_prop in H as [H|H]; [now apply ClosedFacts.pointer_inj, String.eqb_eq|]. apply negb_true_iff, orb_false_iff in H as [H1 H2]. destruct SW; congruence.
Qed.

(** ** An example: two documents, with references in both directions and a chain *)
Definition s2_main : json := JDict [("swagger", JStr "2.0"); ("info", JDict [("title", JStr "shop"); ("version", JStr "1")]);
  ("paths", one "/pets" (one "get" (one "responses" (one "200" (JDict [("description", JStr "ok"); ("schema", JDict [("type", JStr "array"); ("items", jref "b.json#/definitions/Tag")])])))));
  ("definitions", JDict [("Pet", one "properties" (one "name" (one "type" (JStr "string")))); ("Shop", one "properties" (one "pet" (jref "#/definitions/Pet")))])].
Definition s2_other : json := one "definitions" (JDict [
  ("Tag", one "properties" (JDict [("label", jref "#/definitions/Name"); ("pet", jref "a.json#/definitions/Pet"); ("up", jref "#/definitions/Tag")])); ("Name", one "type" (JStr "string"))]).
Definition s2_docs := [("http://h/d/a.json", s2_main); ("http://h/d/b.json", s2_other)].
Definition s2_url : string := "http://h/d/a.json".
Definition s2_b : string := "http://h/d/b.json".
Definition s2_from20 := conversion20 no_refs no_normalized.
Definition s2_root : obj := match construct v20_table s2_main (BCls "Swagger") (Some s2_url) [] with Ok o => o | Err _ => OPrim JNull end.
Definition s2_done : res (sobj * routes) := s2_from20 (mk_sobj "2.0" s2_root []) s2_url "#" [].
Definition s2_root30 : obj := match s2_done with Ok (o, _) => so_obj o | Err _ => OPrim JNull end.
Definition s2_reloc : routes := match s2_done with Ok (_, r) => r | Err _ => [] end.
Definition s2_places : list (string * builder) := [("http://h/d/b.json#/definitions/Tag", BCls "Schema"); ("http://h/d/b.json#/definitions/Name", BCls "Schema"); ("http://h/d/a.json#/definitions/Pet", BCls "Schema")].
Definition s2_moved : list (string * list string) := [(s2_b, ["definitions"; "Tag"]); (s2_b, ["definitions"; "Name"])].
Definition s2_hops : list (string * list string * list string) :=
  [(s2_b, ["definitions"; "Tag"], ["definitions"; "Tag"]); (s2_b, ["definitions"; "Name"], ["definitions"; "Name"]); (s2_url, ["definitions"; "Pet"], ["components"; "schemas"; "Pet"])].
Lemma s2_clean : known_hops s2_hops.
Proof.
  assert (A := clean_doc "d/a.json" eq_refl). assert (B := clean_doc "d/b.json" eq_refl). intros u ts b I. repeat (destruct I as [[= <- _ _]|I]; [assumption|]). contradiction.
Qed.
Example C85_world_case : closed_world same same (from_docs s2_docs) s2_url s2_root s2_places.
Proof. apply world_check_ok. vm_compute. reflexivity. Qed.
Definition s2_d : list (string * json) := match s2_main with JDict d => d | _ => [] end.
Definition spec_of (o : obj) : json := match o with OObj _ _ s _ => s | _ => JNull end.
Lemma s2_piece u ts n b X : In (u, ts) s2_moved -> In (n, b) s2_places -> split same same n = Ok (u, pointer ts) -> piece (from_docs s2_docs) n b X -> the_piece (from_docs s2_docs) n b = Some X /\ place u ts = n /\ b = BCls "Schema" /\ u = s2_b.
Proof.
  intros I1 I2 S P. destruct P as (d & F & DN & W & C). assert (E : b = BCls "Schema") by (destruct I2 as [[= <- <-]|[[= <- <-]|[[= <- <-]|[]]]]; reflexivity). subst b.
  assert (T : exists Y, the_piece (from_docs s2_docs) n (BCls "Schema") = Some Y).
  { destruct I2 as [[= <-]|[[= <-]|[[= <-]|[]]]]; eexists; vm_compute; reflexivity. }
  destruct T as (Y & T). assert (T' := T). apply the_piece_ok in T' as (d' & F' & _ & _ & C'). assert (Y = X) as -> by congruence. split; [exact T|].
  destruct I1 as [[= <- <-]|[[= <- <-]|[]]], I2 as [[= <-]|[[= <-]|[[= <-]|[]]]]; try (exfalso; vm_compute in S; discriminate S); repeat split.
Qed.
Example C85_converts_case : converts same same (from_docs s2_docs) s2_from20 s2_url s2_root s2_root30 s2_reloc s2_places s2_moved.
Proof.
  split.
  - vm_compute. reflexivity.
  - exists (spec_of s2_root30). split; [apply wf_jsonb_ok; vm_compute; reflexivity|vm_compute; reflexivity].
  - split; [apply unmixedb_ok; vm_compute; reflexivity|apply media_check; vm_compute; reflexivity].
  - vm_compute. reflexivity.
  - apply (refs_movedb_ok _ _ _ _ s2_hops); [exact s2_clean|vm_compute; reflexivity].
  - intros u ts I1. split; [destruct I1 as [[= <- <-]|[[= <- <-]|[]]]; discriminate|]. intros n b X I2 S P. destruct (s2_piece u ts n b X I1 I2 S P) as (T & <- & -> & ->). clear P S I2.
    destruct I1 as [[= <-]|[[= <-]|[]]]; vm_compute in T; apply (f_equal (fun x => match x with Some y => y | None => X end)) in T; cbv beta iota in T; subst X.
    + eexists. exists (one "properties" (JDict [("label", jref "#/definitions/Name"); ("pet", jref "a.json#/definitions/Pet"); ("up", jref "#/definitions/Tag")])). exists "Schema".
      split; [vm_compute; reflexivity|]. split; [discriminate|]. split; [apply wf_jsonb_ok; vm_compute; reflexivity|]. split; [vm_compute; reflexivity|]. split; [apply unmixedb_ok; vm_compute; reflexivity|].
      split; [apply media_check; vm_compute; reflexivity|]. split; [apply (refs_movedb_ok _ _ _ _ s2_hops); [exact s2_clean|vm_compute; reflexivity]|discriminate].
    + eexists. exists (one "type" (JStr "string")). exists "Schema".
      split; [vm_compute; reflexivity|]. split; [discriminate|]. split; [apply wf_jsonb_ok; vm_compute; reflexivity|]. split; [vm_compute; reflexivity|]. split; [apply unmixedb_ok; vm_compute; reflexivity|].
      split; [apply media_check; vm_compute; reflexivity|]. split; [apply (refs_movedb_ok _ _ _ _ s2_hops); [exact s2_clean|vm_compute; reflexivity]|discriminate].
  - apply apartb_ok. vm_compute. reflexivity.
Qed.
Example C85_case : clean s2_url /\ from_docs s2_docs s2_url = Ok (JDict s2_d) /\ SpecApp.declares s2_d (JStr "2.0") /\ wf_json (JDict s2_d) /\ construct v20_table (JDict s2_d) (BCls "Swagger") (Some s2_url) [] = Ok s2_root.
Proof.
  split; [exact (clean_doc "d/a.json" eq_refl)|]. split; [vm_compute; reflexivity|]. split; [apply doc_version_declares; vm_compute; reflexivity|]. split; [apply wf_jsonb_ok; vm_compute; reflexivity|]. vm_compute. reflexivity.
Qed.
(** so it opens: what is in the cache at 3.0.0, and what has been written *)
Definition opened23 docs fuel := open_document same same "" ["1.2"; "2.0"; "3.0.0"] (from_docs docs) (modules same same "" 12 (fun _ => Err PyException) s2_from20) (fun o _ => Ok o)
  "3.0.0" fuel s2_url (fresh_app ["1.2"; "2.0"; "3.0.0"]).
Definition parsed30 (a : app) : list (string * string) := flat_map (fun uc => flat_map (fun pc => match lookup "3.0.0" (snd pc) with Some _ => [(fst uc, fst pc)] | None => [] end) (snd uc)) (s_objs (a_store a)).
Definition tag_of (a : app) (ts : list string) : option json := match entry (a_store a) s2_b "#/definitions/Tag" "3.0.0" with Some o => ref_at (Ok o) ts | None => None end.
Example C85_opened_case : parsed30 (fst (opened23 s2_docs 12)) = [(s2_url, "#"); (s2_b, "#/definitions/Tag"); (s2_b, "#/definitions/Name")] /\
  map (ref_at (snd (opened23 s2_docs 12))) [["components"; "schemas"; "Shop"; "properties"; "pet"]; ["paths"; "/pets"; "get"; "responses"; "200"; "content"; "text/plain"; "schema"; "items"]] =
    [Some (JStr "#/components/schemas/Pet"); Some (JStr "http://h/d/b.json#/definitions/Tag")] /\
  map (tag_of (fst (opened23 s2_docs 12))) [["properties"; "label"]; ["properties"; "pet"]; ["properties"; "up"]] =
    [Some (JStr "#/definitions/Name"); Some (JStr "http://h/d/a.json#/components/schemas/Pet"); Some (JStr "#/definitions/Tag")].
Proof. vm_compute. split; [reflexivity|]. split; reflexivity. Qed.

(** ** Path items in another document: [/pets] and [/shops] of the document are path items of the other
    one, of which one refers to the other, and that one to the document again *)
Definition p2_b : string := "http://h/d/b.json".
Definition p2_main : json := JDict [("swagger", JStr "2.0"); ("paths", JDict [("/pets", jref "b.json#/paths/~1p"); ("/shops", jref "b.json#/paths/~1q");
  ("/home", one "get" (one "responses" (one "200" (one "description" (JStr "ok")))))])].
Definition p2_other : json := one "paths" (JDict [("/p", JDict [("$ref", JStr "#/paths/~1q"); ("get", one "responses" (one "200" (one "description" (JStr "p"))))]); ("/q", jref "a.json#/paths/~1home")]).
Definition p2_docs := [("http://h/d/a.json", p2_main); ("http://h/d/b.json", p2_other)].
Definition p2_norm (o : obj) : res json := match o with
  | OObj _ _ (JDict d) _ => match lookup "$ref" d with Some (JStr r) => Ok (JStr (if String.eqb r "#/paths/~1q" then "http://h/d/b.json#/paths/~1q" else if startswith "a.json" r then "http://h/d/" ++ r else if startswith "b.json" r then "http://h/d/" ++ r else r)) | _ => Ok JNull end
  | _ => Ok JNull end.
Definition p2_from20 := conversion20 no_refs p2_norm.
Definition p2_root : obj := match construct v20_table p2_main (BCls "Swagger") (Some s2_url) [] with Ok o => o | Err _ => OPrim JNull end.
Definition p2_done : res (sobj * routes) := p2_from20 (mk_sobj "2.0" p2_root []) s2_url "#" [].
Definition p2_root30 : obj := match p2_done with Ok (o, _) => so_obj o | Err _ => OPrim JNull end.
Definition p2_reloc : routes := match p2_done with Ok (_, r) => r | Err _ => [] end.
Definition p2_opened := open_document same same "" ["1.2"; "2.0"; "3.0.0"] (from_docs p2_docs) (modules same same "" 12 (fun _ => Err PyException) p2_from20) (fun o _ => Ok o)
  "3.0.0" 12 s2_url (fresh_app ["1.2"; "2.0"; "3.0.0"]).
Definition p2_places : list (string * builder) := [("http://h/d/b.json#/paths/~1p", BCls "PathItem"); ("http://h/d/b.json#/paths/~1q", BCls "PathItem"); ("http://h/d/a.json#/paths/~1home", BCls "PathItem")].
Definition p2_moved : list (string * list string) := [(p2_b, ["paths"; "/p"]); (p2_b, ["paths"; "/q"])].
Definition p2_hops : list (string * list string * list string) := [(p2_b, ["paths"; "/p"], ["paths"; "/p"]); (p2_b, ["paths"; "/q"], ["paths"; "/q"]); (s2_url, ["paths"; "/home"], ["paths"; "/home"])].
Lemma p2_clean : known_hops p2_hops.
Proof.
  assert (A := clean_doc "d/a.json" eq_refl). assert (B := clean_doc "d/b.json" eq_refl). intros u ts b I. repeat (destruct I as [[= <- _ _]|I]; [assumption|]). contradiction.
Qed.
Example C85_paths_world_case : closed_world same same (from_docs p2_docs) s2_url p2_root p2_places.
Proof. apply world_check_ok. vm_compute. reflexivity. Qed.
Definition p2_Y (n : string) (ts : list string) : obj := match the_piece (from_docs p2_docs) n (BCls "PathItem") with
  | Some X => match p2_from20 (mk_sobj "2.0" X []) p2_b (pointer ts) [] with Ok (o, _) => so_obj o | Err _ => OPrim JNull end
  | None => OPrim JNull end.
Lemma p2_piece u ts n b X : In (u, ts) p2_moved -> In (n, b) p2_places -> split same same n = Ok (u, pointer ts) -> piece (from_docs p2_docs) n b X -> the_piece (from_docs p2_docs) n b = Some X /\ place u ts = n /\ b = BCls "PathItem" /\ u = p2_b.
Proof.
  intros I1 I2 S P. destruct P as (d & F & DN & W & C). assert (E : b = BCls "PathItem") by (destruct I2 as [[= <- <-]|[[= <- <-]|[[= <- <-]|[]]]]; reflexivity). subst b.
  assert (T : exists Y, the_piece (from_docs p2_docs) n (BCls "PathItem") = Some Y).
  { destruct I2 as [[= <-]|[[= <-]|[[= <-]|[]]]]; eexists; vm_compute; reflexivity. }
  destruct T as (Y & T). assert (T' := T). apply the_piece_ok in T' as (d' & F' & _ & _ & C'). assert (Y = X) as -> by congruence. split; [exact T|].
  destruct I1 as [[= <- <-]|[[= <- <-]|[]]], I2 as [[= <-]|[[= <-]|[[= <-]|[]]]]; try (exfalso; vm_compute in S; discriminate S); repeat split.
Qed.
Example C85_paths_converts_case : converts same same (from_docs p2_docs) p2_from20 s2_url p2_root p2_root30 p2_reloc p2_places p2_moved.
Proof.
  split.
  - vm_compute. reflexivity.
  - exists (spec_of p2_root30). split; [apply wf_jsonb_ok; vm_compute; reflexivity|vm_compute; reflexivity].
  - split; [apply unmixedb_ok; vm_compute; reflexivity|apply media_check; vm_compute; reflexivity].
  - vm_compute. reflexivity.
  - apply (refs_movedb_ok _ _ _ _ p2_hops); [exact p2_clean|vm_compute; reflexivity].
  - intros u ts I1. split; [destruct I1 as [[= <- <-]|[[= <- <-]|[]]]; discriminate|]. intros n b X I2 S P. destruct (p2_piece u ts n b X I1 I2 S P) as (T & <- & -> & ->). clear P S I2.
    exists (p2_Y (place p2_b ts) ts), (spec_of (p2_Y (place p2_b ts) ts)), "PathItem".
    destruct I1 as [[= <-]|[[= <-]|[]]]; vm_compute in T; apply (f_equal (fun x => match x with Some y => y | None => X end)) in T; cbv beta iota in T; subst X;
      (split; [vm_compute; reflexivity|]; split; [discriminate|]; split; [apply wf_jsonb_ok; vm_compute; reflexivity|]; split; [vm_compute; reflexivity|]; split; [apply unmixedb_ok; vm_compute; reflexivity|];
       split; [apply media_check; vm_compute; reflexivity|]; split; [apply (refs_movedb_ok _ _ _ _ p2_hops); [exact p2_clean|vm_compute; reflexivity]|reflexivity]).
  - apply apartb_ok. vm_compute. reflexivity.
Qed.
(** so it opens: what is in the cache at 3.0.0, and what the references say *)
Example C85_paths_case : parsed30 (fst p2_opened) = [(s2_url, "#"); (p2_b, "#/paths/~1q"); (p2_b, "#/paths/~1p")] /\
  map (fun k => ref_at (snd p2_opened) ["paths"; k]) ["/pets"; "/shops"] = [Some (JStr "http://h/d/b.json#/paths/~1p"); Some (JStr "http://h/d/b.json#/paths/~1q")] /\
  map (fun p => match entry (a_store (fst p2_opened)) p2_b p "3.0.0" with Some o => ref_at (Ok o) [] | None => None end) ["#/paths/~1p"; "#/paths/~1q"] = [Some (JStr "http://h/d/b.json#/paths/~1q"); Some (JStr "http://h/d/a.json#/paths/~1home")].
Proof. vm_compute. split; [reflexivity|]. split; reflexivity. Qed.

(** ** The conditions are needed *)
(** A response in another document: the set is closed, and opens at 2.0, but not at 3.0.0: only some
    kinds of objects can be converted alone, and a response is none of them. *)
Definition r2_main : json := JDict [("swagger", JStr "2.0"); ("paths", one "/pets" (one "get" (one "responses" (one "default" (jref "b.json#/responses/error")))))].
Definition r2_other : json := one "responses" (one "error" (one "description" (JStr "error"))).
Definition r2_docs := [("http://h/d/a.json", r2_main); ("http://h/d/b.json", r2_other)].
Definition r2_places : list (string * builder) := [("http://h/d/b.json#/responses/error", PropertiesClosed.rb)].
Definition r2_root : obj := match construct v20_table r2_main (BCls "Swagger") (Some s2_url) [] with Ok o => o | Err _ => OPrim JNull end.
Definition r2_error : obj := match the_piece (from_docs r2_docs) "http://h/d/b.json#/responses/error" PropertiesClosed.rb with Some X => X | None => OPrim JNull end.
Definition r2_deref (o : obj) : res obj := match o with OObj c _ _ _ => if String.eqb c "Reference" then Ok r2_error else Ok o | _ => Ok o end.
Definition r2_opened (version : string) := snd (open_document same same "" ["1.2"; "2.0"; "3.0.0"] (from_docs r2_docs)
  (modules same same "" 12 (fun _ => Err PyException) (conversion20 r2_deref no_normalized)) (fun o _ => Ok o) version 12 s2_url (fresh_app ["1.2"; "2.0"; "3.0.0"])).
Theorem C85_response_refuted : closed_world same same (from_docs r2_docs) s2_url r2_root r2_places /\ r2_opened "2.0" = Ok (mk_sobj "2.0" r2_root []) /\ r2_opened "3.0.0" = Err PyException.
Proof. split; [apply world_check_ok; vm_compute; reflexivity|]. split; vm_compute; reflexivity. Qed.
Print Assumptions C85_opens.
