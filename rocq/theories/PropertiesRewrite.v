(** * Property C72: to what the references of a 3.0.0 object are rewritten.
    versions/v3_0_0/scanner/resolve.py:37-70, base.py:265-332. *)
From Coq Require Import String Ascii List Bool Arith.
From Verif Require Import PyStr PyVal Jp UrlLib Urls Obj Classes_v2_0 Classes_v3_0_0 SpecJson SpecObj SpecScan PropertiesObjAux PropertiesScanAux
  Store SpecStore App SpecApp AppFacts4 Main SpecRefs RefFacts RewriteFacts2 Conv20 Up30 Whole PropertiesConvAux PropertiesConv2 PropertiesApp PropertiesUp12 PropertiesOpen.
Import ListNotations.
Open Scope string_scope. Open Scope nat_scope.

(** ** C72: if the upgrade module of 3.0.0 succeeds for a loaded document, then every path item or
    Reference in it, however deep, that has a "$ref" has in the result, at the same place, the reference
    to where the normalised reference was found: a local reference the new pointer, every other reference
    the new location ([written_for]).  Nothing else of it changes.  [ask] is any [resolve_obj] and
    [requests] the list of its answered calls. *)
Theorem C72_rewritten_30 (ask : query -> M (sobj * string)) (path2url abspath : string -> string) (app_url : string) (fuel : nat)
    (from20 : sobj -> string -> string -> override -> res (sobj * routes)) (o : sobj) (jref : string) (a a' : app) (r : sobj * routes)
    (j : json) (c base url jp : string)
    (ts : list string) (cx : string) (px : option string) (d : list (string * json)) (kids : list (string * obj)) (ref : string) :
  so_version o = "3.0.0" -> wf_json j -> construct v30_table j (BCls c) (Some base) [] = Ok (so_obj o) -> base <> "" -> unmixed (so_obj o) -> c <> "Reference" ->
  split path2url abspath jref = Ok (url, jp) ->
  run ask (upgrade300 path2url abspath app_url fuel from20 o jref) a = (a', Ok r) ->
  within (so_obj o) ts (OObj cx px (JDict d) kids) -> In cx ["PathItem"; "Reference"] -> lookup "$ref" d = Some (JStr ref) -> ref <> "" ->
  exists n b a0 y new ref' d' kids', normalize_jr (Some ref) (Some url) = Ok (Some n) /\
    In (a0, mk_query n (if String.eqb (a_original a0) "3.0.0" then "3.0.0" else "2.0") (Some ("3.0.0", b)) (Some "3.0.0") true, (y, new))
       (requests ask (upgrade300 path2url abspath app_url fuel from20 o jref) a) /\
    written_for path2url abspath ref new ref' /\
    within (so_obj (fst r)) ts (OObj cx px (JDict d') kids') /\ lookup "$ref" d' = Some (JStr ref') /\
    (forall k, k <> "$ref" -> lookup k kids = None -> lookup k d' = lookup k d).
Proof. exact (rewritten_30 ask path2url abspath app_url fuel from20 o jref a a' r j c base url jp ts cx px d kids ref). Qed.
(** the same for the 3.0.0 object made from a 2.0 object by any conversion; [found] as in C69 *)
Theorem C72_rewritten_converted (ask : query -> M (sobj * string)) (path2url abspath : string -> string) (app_url : string) (fuel : nat)
    (from20 : sobj -> string -> string -> override -> res (sobj * routes)) (o o' : sobj) (reloc : routes) (found : option (list (string * sobj)))
    (jref : string) (a a' : app) (r : sobj * routes)
    (j : json) (c base url jp : string)
    (ts : list string) (cx : string) (px : option string) (d : list (string * json)) (kids : list (string * obj)) (ref : string) :
  so_version o = "2.0" -> snd (store_get_under (a_store a) url jp "3.0.0" false) = Ok found -> from20 o url jp (overrides found) = Ok (o', reloc) ->
  wf_json j -> construct v30_table j (BCls c) (Some base) [] = Ok (so_obj o') -> base <> "" -> unmixed (so_obj o') -> c <> "Reference" ->
  split path2url abspath jref = Ok (url, jp) ->
  run ask (upgrade300 path2url abspath app_url fuel from20 o jref) a = (a', Ok r) ->
  within (so_obj o') ts (OObj cx px (JDict d) kids) -> In cx ["PathItem"; "Reference"] -> lookup "$ref" d = Some (JStr ref) -> ref <> "" ->
  exists n b a0 y new ref' d' kids', normalize_jr (Some ref) (Some url) = Ok (Some n) /\
    In (a0, mk_query n (if String.eqb (a_original a0) "3.0.0" then "3.0.0" else "2.0") (Some ("3.0.0", b)) (Some "3.0.0") true, (y, new))
       (requests ask (upgrade300 path2url abspath app_url fuel from20 o jref) a) /\
    written_for path2url abspath ref new ref' /\
    within (so_obj (fst r)) ts (OObj cx px (JDict d') kids') /\ lookup "$ref" d' = Some (JStr ref') /\
    (forall k, k <> "$ref" -> lookup k kids = None -> lookup k d' = lookup k d).
Proof. exact (rewritten_converted ask path2url abspath app_url fuel from20 o o' reloc found jref a a' r j c base url jp ts cx px d kids ref). Qed.
(** and where something is found: [resolve_obj] answers with the document of the reference (the app's
    own one, if there is none) and the pointer relocated to the wanted version by the routes known when
    it answers; a pointer of the wanted version is kept.  [so_base]: an object or a container, not a raw
    value. *)
Theorem C72_location (path2url abspath : string -> string) (app_url : string) (versions : list string) (fetch : string -> res json)
    (upgrade : string -> option (sobj -> string -> prog (sobj * routes))) (prepare : sobj -> string -> res sobj) (fuel : nat) (q : query) (a a' : app) (y : sobj) (new : string) :
  resolve_obj path2url abspath app_url versions fetch upgrade prepare fuel q a = (a', Ok (y, new)) -> so_base y = true ->
  exists url0 jp jp', split path2url abspath (q_jref q) = Ok (url0, jp) /\ new = ((if truthy_str url0 then url0 else app_url) ++ jp')%string /\
    ((q_from q = target_version q /\ jp' = jp) \/
     store_relocate (a_store a') (if truthy_str url0 then url0 else app_url) jp (q_from q) (Some (target_version q)) = Ok jp').
Proof. exact (answer_location path2url abspath app_url versions fetch upgrade prepare fuel q a a' y new). Qed.

(** the hypotheses can be met: the 2.0 document of C70 on its way to 3.0.0 *)
Definition ex_ask : query -> M (sobj * string) :=
  resolve_obj id_str id_str "" ["1.2"; "2.0"; "3.0.0"] one_doc (modules id_str id_str "" 5 (conversion12 sep12) (conversion20 no_refs no_normalized)) (fun o _ => Ok o) 9.
Definition at_20 : app := fst (open_with one_doc "2.0" "http://h/d/a.json").
Definition root_20 : sobj := match snd (open_with one_doc "2.0" "http://h/d/a.json") with Ok o => o | Err _ => mk_sobj "" (OPrim JNull) [] end.
Definition root_30 : sobj * routes := match conversion20 no_refs no_normalized root_20 "http://h/d/a.json" "#" [] with Ok r => r | Err _ => (mk_sobj "" (OPrim JNull) [], []) end.
(** walking through children and maps *)
Fixpoint walk (o : obj) (ts : list string) : option obj :=
  match ts with
  | [] => Some o
  | t :: ts' => match o with
                | OObj _ _ _ kids => match lookup t kids with Some x => walk x ts' | None => None end
                | OMap _ _ es => match lookup t es with Some x => walk x ts' | None => None end
                | _ => None
                end
  end.
Lemma walk_within : forall ts o x, walk o ts = Some x -> within o ts x.
Proof.
  induction ts as [|t ts IH]; intros o x H; [injection H as <-; constructor|]. destruct o as [|c p s kids|b p es|b p es]; try discriminate H; cbn [walk] in H.
  - destruct (lookup t kids) as [y|] eqn:L; [|discriminate H]. eapply wi_child; [exact L|auto].
  - destruct (lookup t es) as [y|] eqn:L; [|discriminate H]. eapply wi_key; [exact L|auto].
Qed.
Definition a_place : list string := ["components"; "schemas"; "A"; "properties"; "a"].
Definition a_run := run ex_ask (upgrade300 id_str id_str "" 5 (conversion20 no_refs no_normalized) root_20 "http://h/d/a.json") at_20.
Definition a_result : sobj * routes := match snd a_run with Ok r => r | Err _ => root_30 end.
Example C72_case :
  so_version root_20 = "2.0" /\ (exists found, snd (store_get_under (a_store at_20) "http://h/d/a.json" "#" "3.0.0" false) = Ok found /\
    conversion20 no_refs no_normalized root_20 "http://h/d/a.json" "#" (overrides found) = Ok root_30) /\
  (exists j, wf_json j /\ construct v30_table j (BCls "OpenApi") (Some "#") [] = Ok (so_obj (fst root_30))) /\ unmixed (so_obj (fst root_30)) /\
  split id_str id_str "http://h/d/a.json" = Ok ("http://h/d/a.json", "#") /\
  snd a_run = Ok a_result /\
  (exists px kids, within (so_obj (fst root_30)) a_place (OObj "Reference" px (JDict [("$ref", JStr "#/definitions/A")]) kids)) /\
  (exists px kids, within (so_obj (fst a_result)) a_place (OObj "Reference" px (JDict [("$ref", JStr "#/components/schemas/A")]) kids)) /\
  written_for id_str id_str "#/definitions/A" "http://h/d/a.json#/components/schemas/A" "#/components/schemas/A".
Proof.
  split; [vm_compute; reflexivity|]. split; [eexists; split; vm_compute; reflexivity|].
  split; [exists (match so_obj (fst root_30) with OObj _ _ s _ => s | _ => JNull end); split; [apply wf_jsonb_ok; vm_compute; reflexivity|vm_compute; reflexivity]|].
  split; [apply unmixedb_ok; vm_compute; reflexivity|]. split; [vm_compute; reflexivity|]. split; [vm_compute; reflexivity|].
  split; [exists (Some "#/components/schemas/A/properties/a"), []; apply walk_within; vm_compute; reflexivity|].
  split; [exists (Some "#/components/schemas/A/properties/a"), []; apply walk_within; vm_compute; reflexivity|].
  exists "http://h/d/a.json". vm_compute. reflexivity.
Qed.
(** the hypotheses of C65_migrates can be met: a definition of this document, wanted for 3.0.0 *)
Example C65_migrates_case : let q := mk_query "http://h/d/a.json#/definitions/A" "2.0" (Some ("2.0", BCls "Schema")) (Some "3.0.0") true in
  split id_str id_str (q_jref q) = Ok ("http://h/d/a.json", "#/definitions/A") /\
  store_relocate (a_store at_20) "http://h/d/a.json" "#/definitions/A" "2.0" (Some "3.0.0") = Ok "#/definitions/A" /\
  store_get so_resolve (a_store at_20) "http://h/d/a.json" "#/definitions/A" "3.0.0" = Ok None /\
  (exists o v, store_get_until so_truthy so_resolve (a_store at_20) "http://h/d/a.json" "#/definitions/A" "2.0" (Some "3.0.0") = Ok (Some (o, "#/definitions/A", v))) /\
  exists a' y, ex_ask q at_20 = (a', Ok (y, "http://h/d/a.json#/definitions/A")) /\ so_version y = "3.0.0".
Proof.
  split; [vm_compute; reflexivity|]. split; [vm_compute; reflexivity|]. split; [vm_compute; reflexivity|].
  split; [do 2 eexists; vm_compute; reflexivity|]. do 2 eexists. split; vm_compute; reflexivity.
Qed.
Print Assumptions C72_rewritten_30.
Print Assumptions C72_rewritten_converted.
Print Assumptions C72_location.
