(** * Properties C26-C28: pyopenapi/migration/scan.py. *)
From Coq Require Import String Ascii List Bool Arith.
From Verif Require Import PyStr PyVal Jp SpecJp Obj SpecJson SpecObj SpecTables Classes_v1_2 Classes_v2_0 Classes_v3_0_0 Scan SpecScan
  PropertiesObjAux PropertiesScanAux DispatchFacts.
Import ListNotations.
Open Scope string_scope. Open Scope nat_scope.

(** ** C26: the traversal *)
(** it ends, whatever the tree and the leaves *)
Theorem C26_terminates (T : ctable) (o : obj) (leaves : list string) :
  exists n r, forall fuel, n <= fuel -> default_tree_traversal T fuel o leaves = Ok r.
Proof. exact (traversal_terminates T o leaves). Qed.
(** the tree of a document: the root first, every object not below a leaf, no object twice *)
Theorem C26_every_object_once (T : ctable) (c : string) (j : json) (root : obj) (leaves : list string) (fuel : nat) (r : list (string * obj)) :
  repo_table T -> wf_json j -> construct T j (BCls c) (Some "#") [] = Ok root -> unmixed root ->
  default_tree_traversal T fuel root leaves = Ok r ->
  (exists r', r = ("#", root) :: r') /\
  NoDup (map (fun po => get_path (snd po)) r) /\
  (forall o', In o' (map snd r) <-> exists ts, visible leaves root ts o').
Proof. exact (built_once T c j root leaves fuel r). Qed.
(** in 1.2 and 2.0 no list or map mixes objects and containers *)
Theorem C26_every_object_once_v1_v2 (T : ctable) (c : string) (j : json) (root : obj) (leaves : list string) (fuel : nat) (r : list (string * obj)) :
  T = v12_table \/ T = v20_table -> wf_json j -> construct T j (BCls c) (Some "#") [] = Ok root ->
  default_tree_traversal T fuel root leaves = Ok r ->
  (exists r', r = ("#", root) :: r') /\
  NoDup (map (fun po => get_path (snd po)) r) /\
  (forall o', In o' (map snd r) <-> exists ts, visible leaves root ts o').
Proof. exact (built_once_even T c j root leaves fuel r). Qed.
Print Assumptions C26_terminates.
Print Assumptions C26_every_object_once.
Print Assumptions C26_every_object_once_v1_v2.
(** in 3.0.0 a callback reference under the key "x/y" hides the path item "y" of the callback "x" *)
Definition C26_doc : json :=
  JDict [("responses", JDict []); ("callbacks", JDict [("x", JDict [("y", JDict [])]); ("x/y", JDict [("$ref", JStr "#/z")])])].
Theorem C26_mixed_refuted : exists root r o' ts,
  wf_json C26_doc /\ construct v30_table C26_doc (BCls "Operation") (Some "#") [] = Ok root /\
  default_tree_traversal v30_table 9 root [] = Ok r /\ visible [] root ts o' /\ ~ In o' (map snd r).
Proof.
  do 2 eexists. exists (OObj "PathItem" (Some "#/callbacks/x/y") (JDict []) []), ["callbacks"; "x"; "y"]. split; [exact (wf_jsonb_ok C26_doc eq_refl)|].
  split; [vm_compute; reflexivity|]. split; [vm_compute; reflexivity|]. split.
  - split; [eapply wi_child; [reflexivity|]; eapply wi_key; [reflexivity|]; eapply wi_key; [reflexivity|]; constructor|]. split; [do 4 eexists; reflexivity|]. intros. intros [].
  - cbn. intros H. repeat (destruct H as [H|H]; [discriminate|]). exact H.
Qed.
Print Assumptions C26_mixed_refuted.
Definition C26_tree : json :=
  JDict [("info", JDict [("title", JStr "t")]); ("paths", JDict [("/a", JDict [("get", JDict [("responses", JDict [])])]); ("/b", JDict [])])].
Example C26_example : exists root r,
  wf_json C26_tree /\ construct v20_table C26_tree (BCls "Swagger") (Some "#") [] = Ok root /\
  default_tree_traversal v20_table 20 root ["Info"] = Ok r /\
  map fst r = ["#"; "#/paths/~1b"; "#/paths/~1a"; "#/paths/~1a/get"; "#/info"].
Proof. do 2 eexists. split; [exact (wf_jsonb_ok C26_tree eq_refl)|]. split; [vm_compute; reflexivity|]. split; vm_compute; reflexivity. Qed.

(** ** C27: the paths *)
Theorem C27_paths (T : ctable) (c : string) (j : json) (root : obj) (leaves : list string) (fuel : nat) (r : list (string * obj)) :
  repo_table T -> wf_json j -> construct T j (BCls c) (Some "#") [] = Ok root -> unmixed root ->
  default_tree_traversal T fuel root leaves = Ok r ->
  NoDup (map fst r) /\
  forall p o', In (p, o') r ->
  exists ts, visible leaves root ts o' /\ (shallow root ts -> p = jp_join ts (Some "#") /\ get_path o' = Some p).
Proof. exact (built_paths T c j root leaves fuel r). Qed.
(** in 2.0 without any condition *)
Theorem C27_paths_v2 (c : string) (j : json) (root : obj) (leaves : list string) (fuel : nat) (r : list (string * obj)) :
  wf_json j -> construct v20_table j (BCls c) (Some "#") [] = Ok root ->
  default_tree_traversal v20_table fuel root leaves = Ok r ->
  NoDup (map fst r) /\
  forall p o', In (p, o') r -> get_path o' = Some p /\ exists ts, visible leaves root ts o' /\ p = jp_join ts (Some "#").
Proof. exact (v20_paths c j root leaves fuel r). Qed.
Print Assumptions C27_paths.
Print Assumptions C27_paths_v2.
(** below a map of maps the path is not the pointer of the object *)
Definition C27_doc : json := JDict [("responses", JDict []); ("callbacks", JDict [("x", JDict [("{$request.body#/url}", JDict [])])])].
Theorem C27_nested_refuted : exists root r p o',
  wf_json C27_doc /\ construct v30_table C27_doc (BCls "Operation") (Some "#") [] = Ok root /\ unmixed root /\
  default_tree_traversal v30_table 9 root [] = Ok r /\ In (p, o') r /\
  p = "#/callbacks/x~1{$request.body#~01url}" /\ get_path o' = Some "#/callbacks/x/{$request.body#~1url}".
Proof.
  do 4 eexists. split; [exact (wf_jsonb_ok C27_doc eq_refl)|]. split; [vm_compute; reflexivity|]. split.
  - apply unmixedb_ok. reflexivity.
  - split; [vm_compute; reflexivity|]. split; [right; left; reflexivity|]. split; reflexivity.
Qed.
Print Assumptions C27_nested_refuted.
Example C27_example : exists root r,
  construct v20_table C26_tree (BCls "Swagger") (Some "#") [] = Ok root /\ default_tree_traversal v20_table 20 root [] = Ok r /\
  exists o', In ("#/paths/~1a/get", o') r /\ get_path o' = Some "#/paths/~1a/get".
Proof. do 2 eexists. split; [vm_compute; reflexivity|]. split; [vm_compute; reflexivity|]. eexists. split; [do 3 right; left; reflexivity|reflexivity]. Qed.

(** ** C28: dispatch *)
Theorem C28_calls (S R : Type) (T : ctable) (is_base : string -> bool) (fuel : nat)
    (rts : list (registrations S R * option (R -> S -> res S))) (routes : list (route S R)) (root : obj) (leaves : list string)
    (visited : list (string * obj)) (s : S) :
  Forall2 (registered is_base) rts routes ->
  default_tree_traversal T fuel root leaves = Ok visited ->
  scan T fuel routes (Some root) leaves s = perform_all (calls_for visited rts) s.
Proof. exact (scan_calls T is_base fuel rts routes root leaves visited s). Qed.
(** the older [Scanner] also runs the handlers of base classes *)
Theorem C28_scanner_calls (S R : Type) (T : ctable) (is_base : string -> bool) (mro : string -> list string) (fuel : nat)
    (rts : list (registrations S R * option (R -> S -> res S))) (routes : list (route S R)) (root : obj) (leaves : list string)
    (visited : list (string * obj)) (s : S) :
  Forall2 (registered is_base) rts routes ->
  default_tree_traversal T fuel root leaves = Ok visited ->
  scanner_scan T mro fuel routes (Some root) leaves s = perform_all (calls_along mro visited rts) s.
Proof. exact (scanner_calls T is_base mro fuel rts routes root leaves visited s). Qed.
(** an exception in a handler ends the scan *)
Theorem C28_exception_ends_scan (S R : Type) (ks ks' : list (call S R)) (k : call S R) (s s1 : S) (e : exn) :
  perform_all ks s = Ok s1 -> perform k s1 = Err e -> perform_all (ks ++ k :: ks')%list s = Err e.
Proof. exact (perform_raises ks ks' k s s1 e). Qed.
Theorem C28_register_checks (S R : Type) (is_base : string -> bool) (d : dispatcher S R) (ts : list string) (h : handler S R) (t : string) :
  In t ts -> is_base t = false -> register is_base d ts h = Err ValueError.
Proof. exact (register_raises is_base d ts h t). Qed.
Theorem C28_no_root (S R : Type) (T : ctable) (mro : string -> list string) (fuel : nat) (routes : list (route S R)) (leaves : list string) (s : S) :
  scan T fuel routes None leaves s = Err ValueError /\ scanner_scan T mro fuel routes None leaves s = Err ValueError.
Proof. exact (conj eq_refl eq_refl). Qed.
Print Assumptions C28_calls.
Print Assumptions C28_scanner_calls.
Print Assumptions C28_exception_ends_scan.
Print Assumptions C28_register_checks.
Print Assumptions C28_no_root.
Definition C28_log (tag : string) : handler (list string) string := fun p _ s => Ok (s, (tag ++ p)%string).
Definition C28_result : string -> list string -> res (list string) := fun r s => Ok (s ++ [r])%list.
Definition C28_regs : registrations (list string) string :=
  [(["PathItem"; "Swagger"], C28_log "a "); (["Info"], C28_log "b "); (["PathItem"], C28_log "c ")].
Example C28_example : exists root rt,
  construct v20_table C26_tree (BCls "Swagger") (Some "#") [] = Ok root /\
  registered (fun _ => true) (C28_regs, Some C28_result) rt /\
  scan v20_table 20 [rt] (Some root) [] [] =
  Ok ["a #"; "a #/paths/~1b"; "c #/paths/~1b"; "a #/paths/~1a"; "c #/paths/~1a"; "b #/info"].
Proof.
  do 2 eexists. split; [vm_compute; reflexivity|]. split.
  - exists [None; None], [None]. eexists. split; [reflexivity|]. split; [reflexivity|]. intros x Hx. repeat (destruct Hx as [<-|Hx]; [reflexivity|]). destruct Hx.
  - vm_compute. reflexivity.
Qed.
