(** * Property C73: every document that only refers to itself opens.
    base.py:123-332, versions/v2_0/main.py, versions/v3_0_0/main.py and the scanners they run. *)
From Coq Require Import String Ascii List Bool Arith.
From Verif Require Import PyStr PyVal PyValFacts Jp UrlLib Urls SpecUrl Obj ObjFacts Classes_v2_0 Classes_v3_0_0 SpecJson SpecObj SpecScan ResolveFacts PropertiesObjAux PropertiesScanAux
  Store App SpecApp AppFacts4 Main SpecDoc SpecRefs SpecLocal SpecOpen RewriteFacts LocalFacts2 Conv20 Up30 Whole PropertiesConvAux PropertiesConv2 PropertiesApp PropertiesUp12 PropertiesRefs PropertiesOpen PropertiesRewrite.
Import ListNotations.
Open Scope string_scope. Open Scope nat_scope.

(** ** C73: opening (load, migrate to [V], store, return) a 2.0 document at 2.0 succeeds, with the object
    made from it unchanged, if every "$ref" of it is a pointer to an object of the document -- also to
    itself or to something that refers back.  [url] is any absolute location, [fetch] any getter that
    answers the document for it; what it answers for other locations does not matter.  One level of
    nested resolving ([S f]) is enough, however deep or long the chains of references are. *)
Theorem C73_opens_20 (path2url abspath : string -> string) (app_url : string) (fetch : string -> res json) (merge_fuel f : nat)
    (from12 : sobj -> res sobj) (from20 : sobj -> string -> string -> override -> res (sobj * routes))
    (scheme host path query : string) (d : list (string * json)) (root : obj) :
  clean_url scheme host path query -> let url := abs_url scheme host path query in
  fetch url = Ok (JDict d) -> declares d (JStr "2.0") -> wf_json (JDict d) ->
  construct v20_table (JDict d) (BCls "Swagger") (Some url) [] = Ok root -> self_contained "2.0" root ->
  exists a, open_document path2url abspath app_url ["1.2"; "2.0"; "3.0.0"] fetch (modules path2url abspath app_url merge_fuel from12 from20) (fun o _ => Ok o)
              "2.0" (S f) url (fresh_app ["1.2"; "2.0"; "3.0.0"]) = (a, Ok (mk_sobj "2.0" root [])).
Proof.
  intros CU url F D W C. exact (opens_20 path2url abspath app_url fetch merge_fuel f from12 from20 scheme host path query CU d root F D W C (even_built _ _ _ _ _ (or_intror eq_refl) C)).
Qed.

(** the same for a 3.0.0 document at 3.0.0 *)
Theorem C73_opens_30 (path2url abspath : string -> string) (app_url : string) (fetch : string -> res json) (merge_fuel f : nat)
    (from12 : sobj -> res sobj) (from20 : sobj -> string -> string -> override -> res (sobj * routes))
    (scheme host path query : string) (d : list (string * json)) (root : obj) :
  clean_url scheme host path query -> let url := abs_url scheme host path query in
  fetch url = Ok (JDict d) -> declares d (JStr "3.0.0") -> wf_json (JDict d) ->
  construct v30_table (JDict d) (BCls "OpenApi") (Some url) [] = Ok root -> unmixed root -> no_media_examples root -> self_contained "3.0.0" root ->
  exists a, open_document path2url abspath app_url ["1.2"; "2.0"; "3.0.0"] fetch (modules path2url abspath app_url merge_fuel from12 from20) (fun o _ => Ok o)
              "3.0.0" (S f) url (fresh_app ["1.2"; "2.0"; "3.0.0"]) = (a, Ok (mk_sobj "3.0.0" root [])).
Proof. intros CU url. exact (opens_30 path2url abspath app_url fetch merge_fuel f from12 from20 scheme host path query CU d root). Qed.

(** a self-contained 2.0 document also opens at 3.0.0, by way of any conversion that makes a 3.0.0 object
    of it (C71 says for which documents the one of the code does) and reports where things moved, such
    that every reference of the converted object, relocated by that report, points to an object.  The
    result is the converted object up to its references, it is self-contained, and every reference has
    been relocated as the report says. *)
Theorem C73_opens_migrated (path2url abspath : string -> string) (app_url : string) (fetch : string -> res json) (merge_fuel f : nat)
    (from12 : sobj -> res sobj) (from20 : sobj -> string -> string -> override -> res (sobj * routes))
    (scheme host path query : string) (d : list (string * json)) (root root30 : obj) (x : json) (reloc : routes) :
  clean_url scheme host path query -> let url := abs_url scheme host path query in
  fetch url = Ok (JDict d) -> declares d (JStr "2.0") -> wf_json (JDict d) ->
  construct v20_table (JDict d) (BCls "Swagger") (Some url) [] = Ok root -> self_contained "2.0" root ->
  from20 (mk_sobj "2.0" root []) url "#" [] = Ok (mk_sobj "3.0.0" root30 [], reloc) ->
  wf_json x -> construct v30_table x (BCls "OpenApi") (Some "#") [] = Ok root30 -> unmixed root30 -> no_media_examples root30 ->
  references "3.0.0" (fun ts => exists ts', ts' <> [] /\ patch_jp (pointer ts) [("#", RMap reloc)] = Ok (pointer ts') /\ holds_object root30 ts') root30 ->
  exists a result,
    open_document path2url abspath app_url ["1.2"; "2.0"; "3.0.0"] fetch (modules path2url abspath app_url merge_fuel from12 from20) (fun o _ => Ok o)
      "3.0.0" (S f) url (fresh_app ["1.2"; "2.0"; "3.0.0"]) = (a, Ok (mk_sobj "3.0.0" result [])) /\
    same_objects root30 result /\ self_contained "3.0.0" result /\
    forall ts c p d kids us, within root30 ts (OObj c p (JDict d) kids) -> In c ["Reference"; "PathItem"] -> lookup "$ref" d = Some (JStr (pointer us)) ->
      exists us' d' kids', patch_jp (pointer us) [("#", RMap reloc)] = Ok (pointer us') /\
        within result ts (OObj c p (JDict d') kids') /\ lookup "$ref" d' = Some (JStr (pointer us')).
Proof.
  intros CU url F D W C S C20 Wx C30 U30 NM R.
  destruct (opens_2030 path2url abspath app_url fetch merge_fuel f from12 from20 scheme host path query CU d root root30 x reloc F D W C (even_built _ _ _ _ _ (or_intror eq_refl) C) S C20 Wx C30 U30 NM R) as (a & u & O & SC & M).
  exists a, (rewrite_refs u root30). split; [exact O|]. split; [apply rewrite_same|]. split; [exact SC|exact M].
Qed.

(** ** the hypotheses can be met *)
(** everything in an object, with its place *)
Fixpoint everywhere (o : obj) : list (list string * obj) :=
  ([], o) ::
  match o with
  | OPrim _ => []
  | OObj _ _ _ kids => flat_map (fun kv => map (fun e => (fst kv :: fst e, snd e)) (everywhere (snd kv))) kids
  | OList _ _ es => concat (map (fun ie => map (fun e => (nat_dec (fst ie) :: fst e, snd e)) (snd ie)) (combine (seq 0 (length es)) (map everywhere es)))
  | OMap _ _ es => flat_map (fun kv => map (fun e => (fst kv :: fst e, snd e)) (everywhere (snd kv))) es
  end.
Lemma nth_combine_seq {A} (l : list A) : forall i k x, nth_error l i = Some x -> In (k + i, x) (combine (seq k (length l)) l).
Proof.
  induction l as [|y l IH]; intros [|i] k x H; cbn in *; try discriminate H.
  - injection H as <-. left. now rewrite Nat.add_0_r.
  - right. replace (k + S i) with (S k + i) by now rewrite Nat.add_succ_r. now apply IH.
Qed.
Lemma everywhere_all o ts x : within o ts x -> In (ts, x) (everywhere o).
Proof.
  induction 1 as [o|c p s kids k o ts o' L _ IH|b p es i s e ts o' IT N _ IH|b p es k e ts o' L _ IH].
  - destruct o; now left.
  - right. apply in_flat_map. exists (k, o). split; [now apply PyValFacts.lookup_In|]. apply in_map_iff. now exists (ts, o').
  - right. apply in_concat. exists (map (fun e => (nat_dec i :: fst e, snd e)) (everywhere e)). split.
    + apply in_map_iff. exists (i, everywhere e). split; [reflexivity|]. rewrite <- (map_length everywhere es). change i with (0 + i) at 1. apply nth_combine_seq. now rewrite nth_error_map, N.
    + apply index_text_nat_dec in IT as ->. apply in_map_iff. now exists (ts, o').
  - right. apply in_flat_map. exists (k, e). split; [now apply PyValFacts.lookup_In|]. apply in_map_iff. now exists (ts, o').
Qed.
Definition notnil {A} (l : list A) : bool := match l with [] => false | _ => true end.
Definition refersb (V : string) (places : list (list string)) (e : list string * obj) : bool :=
  match snd e with
  | OObj c _ s _ => if existsb (String.eqb c) (referring_classes V) then
      match s with
      | JDict d => match lookup "$ref" d with
                   | None => negb (String.eqb c "Reference")
                   | Some (JStr r) => negb (String.eqb c "PathItem") && existsb (fun us => String.eqb r (pointer us) && notnil us) places
                   | _ => false
                   end
      | _ => false
      end else true
  | _ => true
  end.
Lemma references_check V places (Good : list string -> Prop) root :
  forallb (refersb V places) (everywhere root) = true -> (forall us, In us places -> Good us) -> references V Good root.
Proof.
  intros H G ts c p s kids W I. rewrite forallb_forall in H. specialize (H _ (everywhere_all _ _ _ W)). unfold refersb in H. cbn [snd] in H.
  assert (E : existsb (String.eqb c) (referring_classes V) = true) by (apply existsb_exists; exists c; split; [exact I|apply String.eqb_refl]). rewrite E in H.
  destruct s as [| | | | | |d]; try discriminate H. exists d. split; [reflexivity|]. destruct (lookup "$ref" d) as [r|].
  - destruct r as [| | | |r| |]; try discriminate H. apply andb_prop in H as [H1 H2]. split; [now apply String.eqb_neq, negb_true_iff|].
    apply existsb_exists in H2 as (us & J & H2). apply andb_prop in H2 as [H2 N]. apply String.eqb_eq in H2 as ->. exists us. split; [reflexivity|]. split; [now destruct us|auto].
  - now apply String.eqb_neq, negb_true_iff.
Qed.
Definition media_plain (e : list string * obj) : bool :=
  match snd e with OObj c _ _ kids => negb (String.eqb c "MediaType" && PyVal.mem "examples" kids) | _ => true end.
Lemma media_check root : forallb media_plain (everywhere root) = true -> no_media_examples root.
Proof.
  intros H ts p s kids W. rewrite forallb_forall in H. specialize (H _ (everywhere_all _ _ _ W)). unfold media_plain, PyVal.mem in H. cbn [snd] in H.
  now destruct (lookup "examples" kids).
Qed.
Definition free_ofb (bad s : string) : bool := forallb (fun c => negb (existsb (Ascii.eqb c) (chars bad))) (chars s).
Lemma free_of_check bad s : free_ofb bad s = true -> free_of bad s.
Proof.
  intros H c I B. unfold free_ofb in H. rewrite forallb_forall in H. specialize (H _ I). apply negb_true_iff in H.
  assert (X : existsb (Ascii.eqb c) (chars bad) = true) by (apply existsb_exists; exists c; split; [exact B|apply Ascii.eqb_refl]). congruence.
Qed.
Lemma clean_d (path : string) : free_ofb "?#;" (String "/" path) = true -> clean_url "http" "h" (String "/" path) "".
Proof.
  intros F. split; [discriminate|]. split; [repeat (apply Forall_cons; [cbn; tauto|]); constructor|].
  split; [now apply free_of_check|]. split; [now apply free_of_check|]. split; [now apply free_of_check|]. split; [right; now eexists|left; discriminate].
Qed.
Definition built_or (r : res obj) : obj := match r with Ok o => o | Err _ => OPrim JNull end.
Definition root_a : obj := built_or (construct v20_table a_document (BCls "Swagger") (Some "http://h/d/a.json") []).
Definition root_c : obj := built_or (construct v30_table doc_3 (BCls "OpenApi") (Some "http://h/d/c.json") []).
(** the 2.0 document of C70, whose definition refers to itself *)
Example C73_case_20 :
  clean_url "http" "h" "/d/a.json" "" /\ abs_url "http" "h" "/d/a.json" "" = "http://h/d/a.json" /\ one_doc "http://h/d/a.json" = Ok a_document /\
  (exists d, a_document = JDict d /\ declares d (JStr "2.0")) /\ wf_json a_document /\
  construct v20_table a_document (BCls "Swagger") (Some "http://h/d/a.json") [] = Ok root_a /\ self_contained "2.0" root_a /\
  exists p s kids, within root_a ["definitions"; "A"; "properties"; "a"] (OObj "Schema" p s kids).
Proof.
  split; [now apply clean_d|]. split; [reflexivity|]. split; [reflexivity|]. split; [eexists; split; [reflexivity|]; split; [discriminate|right; left; split; reflexivity]|].
  split; [exact (wf_jsonb_ok a_document eq_refl)|]. split; [vm_compute; reflexivity|].
  split; [|do 3 eexists; apply walk_within; vm_compute; reflexivity].
  apply (references_check "2.0" [["definitions"; "A"]]); [vm_compute; reflexivity|]. intros us [<-|[]].
  eexists. split; [apply walk_within; vm_compute; reflexivity|do 4 eexists; reflexivity].
Qed.
(** the 3.0.0 document of C69 *)
Example C73_case_30 :
  clean_url "http" "h" "/d/c.json" "" /\ abs_url "http" "h" "/d/c.json" "" = "http://h/d/c.json" /\ fetch_3 "http://h/d/c.json" = Ok doc_3 /\
  (exists d, doc_3 = JDict d /\ declares d (JStr "3.0.0")) /\ wf_json doc_3 /\
  construct v30_table doc_3 (BCls "OpenApi") (Some "http://h/d/c.json") [] = Ok root_c /\ unmixed root_c /\ no_media_examples root_c /\ self_contained "3.0.0" root_c.
Proof.
  split; [now apply clean_d|]. split; [reflexivity|]. split; [reflexivity|]. split; [eexists; split; [reflexivity|]; split; [discriminate|right; right; split; [|split]; reflexivity]|].
  split; [exact (wf_jsonb_ok doc_3 eq_refl)|]. split; [vm_compute; reflexivity|]. split; [apply unmixedb_ok; vm_compute; reflexivity|].
  split; [apply media_check; vm_compute; reflexivity|].
  apply (references_check "3.0.0" [["components"; "parameters"; "q"]; ["components"; "schemas"; "S"]]); [vm_compute; reflexivity|].
  intros us [<-|[<-|[]]]; eexists; (split; [apply walk_within; vm_compute; reflexivity|do 4 eexists; reflexivity]).
Qed.
(** the 2.0 document again, with the conversion of the code: "#/definitions/A" moves to
    "#/components/schemas/A" *)
Example C73_case_migrated :
  conversion20 no_refs no_normalized (mk_sobj "2.0" root_a []) "http://h/d/a.json" "#" [] = Ok (mk_sobj "3.0.0" (so_obj (fst root_30)) [], snd root_30) /\
  (exists x, wf_json x /\ construct v30_table x (BCls "OpenApi") (Some "#") [] = Ok (so_obj (fst root_30))) /\
  unmixed (so_obj (fst root_30)) /\ no_media_examples (so_obj (fst root_30)) /\
  references "3.0.0" (fun ts => exists ts', ts' <> [] /\ patch_jp (pointer ts) [("#", RMap (snd root_30))] = Ok (pointer ts') /\ holds_object (so_obj (fst root_30)) ts') (so_obj (fst root_30)).
Proof.
  split; [vm_compute; reflexivity|].
  split; [exists (match so_obj (fst root_30) with OObj _ _ s _ => s | _ => JNull end); split; [apply wf_jsonb_ok; vm_compute; reflexivity|vm_compute; reflexivity]|].
  split; [apply unmixedb_ok; vm_compute; reflexivity|]. split; [apply media_check; vm_compute; reflexivity|].
  apply (references_check "3.0.0" [["definitions"; "A"]]); [vm_compute; reflexivity|]. intros us [<-|[]].
  exists ["components"; "schemas"; "A"]. split; [discriminate|]. split; [vm_compute; reflexivity|].
  eexists. split; [apply walk_within; vm_compute; reflexivity|do 4 eexists; reflexivity].
Qed.
(** [no_media_examples] is needed: this valid document, without any reference, does not open *)
Definition doc_examples : json := JDict [("openapi", JStr "3.0.0"); ("info", JDict [("title", JStr "t"); ("version", JStr "1")]);
  ("paths", JDict [("/p", JDict [("get", JDict [
     ("responses", JDict [("200", JDict [("description", JStr "ok"); ("content", JDict [("application/json", JDict [("examples", JDict [("e", JDict [("summary", JStr "s")])])])])])])])])])].
Theorem C73_media_examples_refuted : exists root,
  construct v30_table doc_examples (BCls "OpenApi") (Some "http://h/d/c.json") [] = Ok root /\ unmixed root /\ self_contained "3.0.0" root /\
  snd (open_with (fun _ => Ok doc_examples) "3.0.0" "http://h/d/c.json") = Err AttributeError.
Proof.
  eexists. split; [vm_compute; reflexivity|]. split; [apply unmixedb_ok; vm_compute; reflexivity|]. split; [|vm_compute; reflexivity].
  apply (references_check "3.0.0" []); [vm_compute; reflexivity|]. intros us [].
Qed.
(** and that the targets exist is needed *)
Definition doc_dangling : json := JDict [("swagger", JStr "2.0"); ("info", JDict [("title", JStr "t"); ("version", JStr "1")]);
  ("paths", JDict []); ("definitions", JDict [("A", JDict [("$ref", JStr "#/definitions/B")])])].
Example C73_dangling : exists e, snd (open_with (fun _ => Ok doc_dangling) "2.0" "http://h/d/a.json") = Err e.
Proof. eexists. vm_compute. reflexivity. Qed.
Print Assumptions C73_opens_20.
Print Assumptions C73_opens_30.
Print Assumptions C73_opens_migrated.
Print Assumptions C73_media_examples_refuted.
