(** * Properties C01-C14: helpers of pyopenapi/utils.py. *)
From Coq Require Import String Ascii List Bool Arith NArith ZArith Permutation.
From Verif Require Import PyStr PyVal Jp SpecJp JpFacts Scope SpecScope ScopeFacts UrlLib Urls SpecUrl UrlFacts UrlFacts2
  UrlFacts3 Deref SpecDeref DerefFacts CompareContainer SpecJson CompareFacts PropertiesUtilsAux.
Import ListNotations.
Open Scope string_scope.

(** ** C01: compose then split *)
Theorem C01_split_of_compose_with_base (tokens : list string) (base p : string) :
  base <> "" -> jp_compose (SList tokens) (Some base) = Some p -> jp_split p = (jp_split base ++ tokens)%list.
Proof. exact (compose_split_base tokens base p). Qed.
Print Assumptions C01_split_of_compose_with_base.
(** composing always gives a pointer *)
Theorem C01_compose_total (tokens : list string) (base : option string) : exists p, jp_compose (SList tokens) base = Some p.
Proof. now exists (jp_join tokens base). Qed.

Theorem C01_split_of_compose_no_base (tokens : list string) (p : string) :
  tokens <> [""] -> jp_compose (SList tokens) None = Some p -> jp_split p = tokens.
Proof. exact (compose_split_nobase tokens p). Qed.
Print Assumptions C01_split_of_compose_no_base.

(** the excluded case really is different *)
Theorem C01_single_empty_token_refuted : exists tokens p,
  jp_compose (SList tokens) None = Some p /\ jp_split p <> tokens.
Proof. exists [""], "". split; [reflexivity|discriminate]. Qed.
Print Assumptions C01_single_empty_token_refuted.

Example C01_example : jp_compose (SList ["a/b"; "~1"; ""; "~"]) (Some "#") = Some "#/a~1b/~01//~0"
  /\ jp_split "#/a~1b/~01//~0" = ["#"; "a/b"; "~1"; ""; "~"].
Proof. split; reflexivity. Qed.

(** ** C02: RFC 6901 *)
Theorem C02_split_is_rfc6901 (s : string) : s <> "" -> exists pieces,
  String.concat "/" pieces = s /\ Forall no_slash pieces /\ jp_split s = map rfc_unescape pieces.
Proof. exact (jp_split_pieces s). Qed.
Print Assumptions C02_split_is_rfc6901.

Theorem C02_compose_of_split (s : string) : rfc_wellformed s -> jp_compose (SList (jp_split s)) None = Some s.
Proof. exact (split_compose s). Qed.
Print Assumptions C02_compose_of_split.

Example C02_example : rfc_wellformed "#/paths/~1a~1{b~0}/get" /\ jp_split "#/paths/~1a~1{b~0}/get" = ["#"; "paths"; "/a/{b~}"; "get"].
Proof. repeat split. Qed.

(** ** C03: associative and injective *)
Theorem C03_compose_assoc (a b : list string) (base p q : string) :
  base <> "" -> jp_compose (SList a) (Some base) = Some p -> jp_compose (SList b) (Some p) = Some q ->
  jp_compose (SList (a ++ b)) (Some base) = Some q.
Proof. exact (compose_assoc a b base p q). Qed.
Print Assumptions C03_compose_assoc.

Theorem C03_compose_injective (a b : list string) (base : string) :
  base <> "" -> jp_compose (SList a) (Some base) = jp_compose (SList b) (Some base) -> a = b.
Proof. exact (compose_inj a b base). Qed.
Print Assumptions C03_compose_injective.

Theorem C03_compose_injective_no_base (a b : list string) :
  jp_compose (SList a) None = jp_compose (SList b) None -> a <> [""] -> b <> [""] -> a = b.
Proof. exact (compose_inj_nobase a b). Qed.
Print Assumptions C03_compose_injective_no_base.

Example C03_example : jp_compose (SList ["a"; "b/c"]) (Some "#") <> jp_compose (SList ["a"; "b"; "c"]) (Some "#").
Proof. discriminate. Qed.

(** ** C04: scopes *)
Theorem C04_compose_assoc (a b c : option string) (sep : string) :
  scope_compose (scope_compose a b sep) c sep = scope_compose a (scope_compose b c sep) sep.
Proof. exact (scope_compose_assoc a b c sep). Qed.
Print Assumptions C04_compose_assoc.

Theorem C04_absent_is_neutral (a : option string) (sep : string) :
  scope_compose a None sep = a /\ scope_compose None a sep = a.
Proof. exact (conj (scope_compose_none_r a sep) (scope_compose_none_l a sep)). Qed.
Print Assumptions C04_absent_is_neutral.

(** composing non-empty names which do not contain the first character of the separator, then
    splitting, gives the names back *)
Theorem C04_split_of_compose (c : ascii) (sep' n : string) (names : list string) :
  Forall (fun m => m <> "" /\ free_of (String c "") m) (n :: names) ->
  exists s, fold_left (fun a b => scope_compose a b (String c sep')) (map Some names) (Some n) = Some s
            /\ s = composed (String c sep') (n :: names)
            /\ scope_split (Some s) (String c sep') = Ok (map Some (n :: names)).
Proof. exact (scope_roundtrip_free c sep' n names). Qed.
Print Assumptions C04_split_of_compose.

Example C04_example : scope_compose (Some "pet") (Some "Pet") SCOPE_SEPARATOR = Some "pet!##!Pet"
  /\ scope_split (Some "pet!##!Pet") SCOPE_SEPARATOR = Ok [Some "pet"; Some "Pet"].
Proof. split; reflexivity. Qed.

(** a name ending with the beginning of the separator is not split back *)
Theorem C04_split_overlap_refuted : exists sep a b s,
  scope_compose (Some a) (Some b) sep = Some s /\ (forall p q, a <> p ++ sep ++ q) /\ (forall p q, b <> p ++ sep ++ q) /\
  scope_split (Some s) sep <> Ok [Some a; Some b].
Proof. exact scope_overlap_witness. Qed.
Print Assumptions C04_split_overlap_refuted.

(** ** C05: ScopeDict *)
Theorem C05_exact {A : Type} (sep : string) (d : list (string * A)) (k : string) (v : A) :
  NoDup (map fst d) -> In (k, v) d -> scopedict_get sep d (KName k) = Ok v.
Proof. exact (fun Hd => sd_exact sep d Hd k v). Qed.

Theorem C05_unique_suffix {A : Type} (sep : string) (d : list (string * A)) (k k' : string) (v : A) :
  NoDup (map fst d) -> ~ In k (map fst d) -> In (k', v) d ->
  (forall x, In x (map fst d) /\ ends_with x k <-> x = k') -> scopedict_get sep d (KName k) = Ok v.
Proof. exact (fun Hd => sd_unique_suffix sep d Hd k k' v). Qed.

Theorem C05_unique_last_name {A : Type} (sep : string) (d : list (string * A)) (k x y k' : string) (v : A) :
  sep <> "" -> NoDup (map fst d) -> ~ In k (map fst d) -> x <> y ->
  In x (map fst d) -> ends_with x k -> In y (map fst d) -> ends_with y k ->
  In (k', v) d ->
  (forall z, (In z (map fst d) /\ ends_with z k /\ exists n, last_name sep z n /\ last_name sep k n) <-> z = k') ->
  scopedict_get sep d (KName k) = Ok v.
Proof. exact (fun Hsep Hd => sd_multi_last sep d Hsep Hd k x y k' v). Qed.

Theorem C05_ambiguous {A : Type} (sep : string) (d : list (string * A)) (k x y : string) :
  sep <> "" -> ~ In k (map fst d) -> x <> y ->
  In x (map fst d) -> ends_with x k -> In y (map fst d) -> ends_with y k ->
  (~ exists k', forall z, (In z (map fst d) /\ ends_with z k /\ exists n, last_name sep z n /\ last_name sep k n) <-> z = k') ->
  scopedict_get sep d (KName k) = Err ValueError.
Proof. exact (fun Hsep => sd_multi_ambiguous sep d Hsep k x y). Qed.

Theorem C05_missing {A : Type} (sep : string) (d : list (string * A)) (k : string) :
  (forall x, In x (map fst d) -> ~ ends_with x k) -> scopedict_get sep d (KName k) = Err KeyError.
Proof. exact (sd_none sep d k). Qed.

Theorem C05_order_independent {A : Type} (sep : string) (d : list (string * A)) (d' : list (string * A)) (key : scope_key) :
  NoDup (map fst d) -> Permutation d d' -> scopedict_get sep d key = scopedict_get sep d' key.
Proof. exact (sd_perm sep d d' key). Qed.
Print Assumptions C05_exact.
Print Assumptions C05_unique_suffix.
Print Assumptions C05_unique_last_name.
Print Assumptions C05_ambiguous.
Print Assumptions C05_missing.
Print Assumptions C05_order_independent.

Example C05_example_unique : scopedict_get "!##!" [("a!##!Pet", 1); ("b!##!User", 2)] (KName "User") = Ok 2.
Proof. reflexivity. Qed.
Example C05_example_last : scopedict_get "!##!" [("a!##!Pet", 1); ("b!##!BigPet", 2)] (KName "Pet") = Ok 1.
Proof. reflexivity. Qed.
Example C05_example_ambiguous : scopedict_get "!##!" [("a!##!Pet", 1); ("b!##!Pet", 2)] (KName "Pet") = Err ValueError.
Proof. reflexivity. Qed.

(** ** C06: deref *)
Theorem C06_deref_total (h : heap) (visited : list nat) (i : nat) :
  closed h ->
  (exists j l, deref h visited i = Ok (j, (visited ++ l)%list) /\ chain h i l j /\ terminal h j /\ NoDup l
               /\ forall x, In x l -> ~ In x visited)
  \/ (deref h visited i = Err CycleDetectionError /\
      (In i visited \/ exists l j k, chain h i l j /\ links_to h j k /\ In k (visited ++ l))).
Proof. exact (deref_total h visited i). Qed.
Print Assumptions C06_deref_total.

Theorem C06_deref_finite_chain (h : heap) (visited l : list nat) (i j : nat) :
  closed h -> chain h i l j -> terminal h j -> (forall x, In x l -> ~ In x visited) ->
  deref h visited i = Ok (j, (visited ++ l)%list).
Proof. exact (deref_finite h visited i l j). Qed.
Print Assumptions C06_deref_finite_chain.

Theorem C06_deref_cycle_iff (h : heap) (i : nat) :
  closed h ->
  (deref h [] i = Err CycleDetectionError <-> exists l j k, chain h i l j /\ links_to h j k /\ In k l).
Proof. exact (deref_cycle_iff h i). Qed.
Print Assumptions C06_deref_cycle_iff.

Theorem C06_deref_guarded (h : heap) (visited : list nat) (i : nat) :
  closed h -> (exists l j, chain h i l j /\ In j visited) -> deref h visited i = Err CycleDetectionError.
Proof. exact (fun Hc H => deref_guarded_conv h visited i Hc (or_intror H)). Qed.
Print Assumptions C06_deref_guarded.

Example C06_example_chain :
  let h := [mk_node true (Some (Some 1)) None; mk_node true (Some (Some 2)) None; mk_node false None None] in
  deref h [] 0 = Ok (2, [0; 1; 2]).
Proof. reflexivity. Qed.
Example C06_example_cycle :
  let h := [mk_node true (Some (Some 1)) None; mk_node true (Some (Some 0)) None] in
  deref h [] 0 = Err CycleDetectionError.
Proof. reflexivity. Qed.

(** ** C07: normalize_jr *)
Theorem C07_absolute_unchanged (u jp : string) (url : option string) :
  has_scheme u -> free_of "#" u -> normalize_jr (Some (u ++ frag jp)) url = Ok (Some (u ++ frag jp)).
Proof. exact (normalize_absolute u jp url). Qed.
Print Assumptions C07_absolute_unchanged.

Theorem C07_local_attached_to_base (jp url : string) :
  url <> "" -> normalize_jr (Some ("#" ++ jp)) (Some url) = Ok (Some (url ++ frag jp)).
Proof. exact (nj_local jp url). Qed.
Print Assumptions C07_local_attached_to_base.

Theorem C07_relative_resolved s h dsegs file rsegs q jp out :
  clean_url s h (slash_path (dsegs ++ [file])) q ->
  clean_url s h (slash_path (dsegs ++ rsegs)) q ->
  dsegs <> [] -> rel_path rsegs <> "" ->
  Forall (fun s => s <> "" /\ seg_ok s) dsegs -> seg_ok file -> Forall seg_ok rsegs ->
  ~ has_scheme (rel_path rsegs) ->
  dots_removed (dsegs ++ rsegs) out ->
  normalize_jr (Some (rel_path rsegs ++ frag jp)) (Some (abs_url s h (slash_path (dsegs ++ [file])) q))
  = Ok (Some (abs_url s h (path_of out) q ++ frag jp)).
Proof. exact (normalize_relative s h dsegs file rsegs q jp out). Qed.
Print Assumptions C07_relative_resolved.

Theorem C07_normalising_again_is_identity s h p q jp url :
  clean_url s h p q -> normalize_jr (Some (abs_url s h p q ++ frag jp)) url = Ok (Some (abs_url s h p q ++ frag jp)).
Proof. exact (normalize_again s h p q jp url). Qed.
Print Assumptions C07_normalising_again_is_identity.

(** a document directly below the root gets an empty first path segment *)
Theorem C07_root_document s h file rsegs q jp out :
  clean_url s h (slash_path [file]) q -> clean_url s h (slash_path ("" :: rsegs)) q ->
  rel_path rsegs <> "" -> seg_ok file -> Forall seg_ok rsegs -> ~ has_scheme (rel_path rsegs) ->
  dots_removed ("" :: rsegs) out ->
  normalize_jr (Some (rel_path rsegs ++ frag jp)) (Some (abs_url s h (slash_path [file]) q))
  = Ok (Some (abs_url s h (path_of out) q ++ frag jp)).
Proof. exact (normalize_rootdoc s h file rsegs q jp out). Qed.
Print Assumptions C07_root_document.

Theorem C07_root_document_refuted :
  normalize_jr (Some "User.json") (Some "http://test.com/swagger.json") = Ok (Some "http://test.com//User.json")
  /\ normalize_jr (Some "User.json") (Some "file:///swagger.json") = Ok (Some "file://User.json/").
Proof. split; reflexivity. Qed.
Print Assumptions C07_root_document_refuted.

Example C07_example :
  normalize_jr (Some "../b/./User.json#/definitions/U") (Some "http://test.com/api/a/swagger.json?x=1")
  = Ok (Some "http://test.com/api/b/User.json?x=1#/definitions/U").
Proof. reflexivity. Qed.

(** ** C08: derelativise_url *)
Theorem C08_dot_segments_removed s h segs q out :
  clean_url s h (slash_path segs) q -> segs <> [] -> Forall seg_ok segs -> dots_removed segs out ->
  derelativise_url (abs_url s h (slash_path segs) q) = abs_url s h (path_of out) q.
Proof. exact (derelativise_spec s h segs q out). Qed.
Print Assumptions C08_dot_segments_removed.

(** dot-segment removal always has exactly one result *)
Theorem C08_removal_exists (segs : list string) : exists out, dots_removed segs out.
Proof. exact (dots_removed_exists segs). Qed.
Theorem C08_removal_unique (segs o1 o2 : list string) : dots_removed segs o1 -> dots_removed segs o2 -> o1 = o2.
Proof. exact (dots_removed_unique segs o1 o2). Qed.
Print Assumptions C08_removal_exists.
Print Assumptions C08_removal_unique.

Theorem C08_plain_unchanged s h segs q :
  clean_url s h (slash_path segs) q -> segs <> [] -> Forall seg_ok segs -> Forall plain segs ->
  derelativise_url (abs_url s h (slash_path segs) q) = abs_url s h (slash_path segs) q.
Proof. exact (derelativise_plain s h segs q). Qed.
Print Assumptions C08_plain_unchanged.

Theorem C08_idempotent s h segs q :
  clean_url s h (slash_path segs) q -> segs <> [] -> Forall seg_ok segs ->
  derelativise_url (derelativise_url (abs_url s h (slash_path segs) q))
  = derelativise_url (abs_url s h (slash_path segs) q).
Proof. exact (derelativise_idem s h segs q). Qed.
Print Assumptions C08_idempotent.

Theorem C08_cancels_parent s h a x d b q :
  clean_url s h (slash_path (a ++ x :: d :: b)) q -> clean_url s h (slash_path (a ++ b)) q ->
  (a ++ b)%list <> [] -> Forall seg_ok (a ++ x :: d :: b) -> plain x -> up d ->
  derelativise_url (abs_url s h (slash_path (a ++ x :: d :: b)) q)
  = derelativise_url (abs_url s h (slash_path (a ++ b)) q).
Proof. exact (derelativise_cancel s h a x d b q). Qed.
Print Assumptions C08_cancels_parent.

Example C08_example : derelativise_url "http://h/a/../../b/./c/..../d" = "http://h/b/d".
Proof. reflexivity. Qed.
Example C08_example_clean : clean_url "http" "h" (slash_path ["a"; ".."; "b"]) "" /\ Forall seg_ok ["a"; ".."; "b"]
  /\ dots_removed ["a"; ".."; "b"] ["b"].
Proof. exact c08_witness. Qed.

(** ** C09: jr_split, for every behaviour of the file-path oracles *)
Theorem C09_split_reference p2u ap s h p q f :
  clean_url s h p q -> jr_split p2u ap (abs_url s h p q ++ "#" ++ f) = Ok (abs_url s h p q, "#" ++ f).
Proof. exact (jr_split_abs p2u ap s h p q f). Qed.
Theorem C09_split_no_fragment p2u ap s h p q :
  clean_url s h p q -> jr_split p2u ap (abs_url s h p q) = Ok (abs_url s h p q, "#").
Proof. exact (jr_split_nofrag p2u ap s h p q). Qed.
Theorem C09_split_local p2u ap f : jr_split p2u ap ("#" ++ f) = Ok ("", "#" ++ f).
Proof. exact (jr_split_local p2u ap f). Qed.
Print Assumptions C09_split_reference.
Print Assumptions C09_split_no_fragment.
Print Assumptions C09_split_local.
Example C09_example p2u ap : jr_split p2u ap "http://petstore.io/v2/swagger.json?k=1#/definitions/Pet"
  = Ok ("http://petstore.io/v2/swagger.json?k=1", "#/definitions/Pet").
Proof. reflexivity. Qed.

(** ** C10: url_join *)
Theorem C10_exactly_one_slash s h p n q (b1 b2 : bool) :
  clean_url s h (opt_slash_r b1 p) q -> ~ ends_with p "/" -> (forall r, n <> String "/" r) ->
  url_join (abs_url s h (opt_slash_r b1 p) q) (opt_slash_l b2 n) = abs_url s h (p ++ "/" ++ n) q.
Proof. exact (url_join_spec s h p n q b1 b2). Qed.
Print Assumptions C10_exactly_one_slash.
Example C10_example : url_join "http://h/a/?q=1" "/b.json" = "http://h/a/b.json?q=1"
  /\ url_join "http://h/a?q=1" "b.json" = "http://h/a/b.json?q=1".
Proof. split; reflexivity. Qed.

(** ** C11: url_dirname *)
Theorem C11_other_unchanged s h p q :
  clean_url s h p q -> ~ ends_with p "json" -> ~ ends_with p "yaml" ->
  url_dirname (abs_url s h p q) = abs_url s h p q.
Proof. exact (url_dirname_other s h p q). Qed.
Theorem C11_file_name_dropped s h dir file q :
  clean_url s h (dir ++ "/" ++ file) q -> dir <> "" -> ~ ends_with dir "/" -> free_of "/" file ->
  (ends_with file "json" \/ ends_with file "yaml") ->
  url_dirname (abs_url s h (dir ++ "/" ++ file) q) = abs_url s h dir q.
Proof. exact (url_dirname_file s h dir file q). Qed.
Theorem C11_root_file_name_dropped s h file q :
  clean_url s h ("/" ++ file) q -> free_of "/" file -> (ends_with file "json" \/ ends_with file "yaml") ->
  url_dirname (abs_url s h ("/" ++ file) q) = abs_url s h "/" q.
Proof. exact (url_dirname_rootfile s h file q). Qed.
Print Assumptions C11_other_unchanged.
Print Assumptions C11_file_name_dropped.
Print Assumptions C11_root_file_name_dropped.
Example C11_example : url_dirname "http://h/a/swagger.json?q" = "http://h/a?q" /\ url_dirname "http://h/a/b" = "http://h/a/b"
  /\ url_dirname "http://h/a/myjson" = "http://h/a".
Proof. repeat split. Qed.

(** ** C12: patch_path *)
Theorem C12_loadable_extension (base path : string) :
  exists e, valid_ext e /\ ends_with (patch_path base path) e /\
            (patch_path base path = path \/ patch_path base path = path ++ e).
Proof. exact (patch_path_spec base path). Qed.
Theorem C12_idempotent (base path : string) : patch_path base (patch_path base path) = patch_path base path.
Proof. exact (patch_path_idem base path). Qed.
Print Assumptions C12_loadable_extension.
Print Assumptions C12_idempotent.
Example C12_example : patch_path "/a/swagger.yaml" "/a/pet" = "/a/pet.yaml" /\ patch_path "/a" "/a/pet.yml" = "/a/pet.yml".
Proof. split; reflexivity. Qed.

(** ** C13: version detection *)
Theorem C13_precedence (d : list (string * json)) :
  (forall v, lookup "swaggerVersion" d = Some v -> get_swagger_version d = Some v) /\
  (forall v, lookup "swaggerVersion" d = None -> lookup "swagger" d = Some v -> get_swagger_version d = Some v) /\
  (lookup "swaggerVersion" d = None -> lookup "swagger" d = None -> get_swagger_version d = lookup "openapi" d).
Proof. exact (version_precedence d). Qed.
Theorem C13_other_keys_irrelevant (d e : list (string * json)) :
  (forall k, In k ["swaggerVersion"; "swagger"; "openapi"] -> lookup k d = lookup k e) ->
  get_swagger_version d = get_swagger_version e.
Proof. exact (version_other_keys d e). Qed.
Print Assumptions C13_precedence.
Print Assumptions C13_other_keys_irrelevant.
Example C13_example : get_swagger_version [("openapi", JStr "3.0.0"); ("swagger", JStr "2.0")] = Some (JStr "2.0").
Proof. reflexivity. Qed.

(** ** C14: compare_container *)
Theorem C14_no_difference_means_equal (src dst : json) :
  wf_json src -> wf_json dst -> compare_container src dst [] [] = Ok [] -> jequiv src dst.
Proof. exact (compare_container_sound src dst). Qed.
Theorem C14_reordered_documents_are_equal (src dst : json) :
  wf_json src -> wf_json dst -> homogeneous src -> reordered src dst -> compare_container src dst [] [] = Ok [].
Proof. exact (compare_container_complete src dst). Qed.
Theorem C14_reflexive (src : json) : wf_json src -> homogeneous src -> compare_container src src [] [] = Ok [].
Proof. exact (compare_container_refl src). Qed.
Print Assumptions C14_no_difference_means_equal.
Print Assumptions C14_reordered_documents_are_equal.
Print Assumptions C14_reflexive.
Example C14_example :
  compare_container (JDict [("a", JList [JInt 1; JInt 2]); ("b", JStr "x")])
                    (JDict [("b", JStr "x"); ("a", JList [JInt 2; JInt 1])]) [] [] = Ok []
  /\ compare_container (JDict [("a", JInt 1)]) (JDict [("a", JInt 2); ("b", JNull)]) [] []
     = Ok [("b", WKey); ("a", WValue (JInt 1) (JInt 2))].
Proof. split; reflexivity. Qed.
(** a list with elements of different types is rejected, not compared *)
Theorem C14_mixed_list_refuted : exists src, wf_json src /\ compare_container src src [] [] = Err ValueError.
Proof. exists (JList [JInt 1; JStr "a"]). repeat split. Qed.
Print Assumptions C14_mixed_list_refuted.
