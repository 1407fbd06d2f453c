(** * Properties C51, C60, C61, C65: pyopenapi/migration/base.py and versions/*/main.py. *)
From Coq Require Import String Ascii List Bool Arith Sorted Permutation.
From Verif Require Import PyStr PyVal Jp UrlLib Urls Obj Store SpecStore StoreFacts App SpecApp AppFacts AppFacts2 AppFacts4 AppFacts5 Main MainFacts.
Import ListNotations.
Open Scope string_scope. Open Scope nat_scope.

(** ** C51: migration.  [migrate_traced] is [migrate_obj] with the list of the calls of upgrade modules,
    each with the object it was given.  The modules, the preparation of objects and the answers to
    [resolve_obj] are arbitrary. *)
Theorem C51_trace (path2url abspath : string -> string) (known : list string) (upgrade : string -> option (sobj -> string -> prog (sobj * routes)))
    (prepare : sobj -> string -> res sobj) (ask : query -> M (sobj * string)) (o : sobj) (jref to : string) (a : app) :
  migrate_obj path2url abspath known upgrade prepare ask o jref to a =
  (fst (fst (migrate_traced path2url abspath known upgrade prepare ask o jref to a)), snd (migrate_traced path2url abspath known upgrade prepare ask o jref to a)).
Proof. unfold migrate_obj. now destruct (migrate_traced _ _ _ _ _ _ _ _ _ a) as [[a' t] r]. Qed.
(** an unsupported target is rejected before any step, and nothing changes *)
Theorem C51_unsupported (path2url abspath : string -> string) (known : list string) (upgrade : string -> option (sobj -> string -> prog (sobj * routes)))
    (prepare : sobj -> string -> res sobj) (ask : query -> M (sobj * string)) (o : sobj) (jref to : string) (a : app) :
  ~ In to known -> migrate_traced path2url abspath known upgrade prepare ask o jref to a = (a, [], Err ValueError).
Proof. exact (migrate_unsupported path2url abspath known upgrade prepare ask o jref to a). Qed.
(** on success the calls are exactly those for the versions from that of the object up to the target,
    oldest first, once each; every call gets what the one before returned (prepared), the last result
    is returned; it is stored for the target version; without any call nothing is stored; for a root
    object the current version becomes the target *)
Theorem C51_steps (path2url abspath : string -> string) (known : list string) (upgrade : string -> option (sobj -> string -> prog (sobj * routes)))
    (prepare : sobj -> string -> res sobj) (ask : query -> M (sobj * string)) (o o' : sobj) (jref to w : string) (a a' : app) (calls : list (string * sobj)) :
  ascending known -> swagger_version o = Ok w ->
  migrate_traced path2url abspath known upgrade prepare ask o jref to a = (a', calls, Ok o') ->
  steps_between known w to (map fst calls) /\
  handed_on (upgraded upgrade prepare ask jref) o calls o' /\
  (calls = [] -> o' = o /\ a_store a' = a_store a) /\
  (calls <> [] -> exists url jp jp', split path2url abspath jref = Ok (url, jp) /\ entry (a_store a') url jp' to = Some o') /\
  (is_root o' = true -> a_current a' = Some to).
Proof. intros A V H. now destruct (migrate_ok path2url abspath known upgrade prepare ask o jref to a a' calls o' w H A V) as (x & _ & R). Qed.
(** [steps_between] determines the list *)
Theorem C51_steps_unique (known : list string) (from to : string) (vs vs' : list string) :
  steps_between known from to vs -> steps_between known from to vs' -> vs = vs'.
Proof. exact (steps_unique known from to vs vs'). Qed.
(** after one step the object is stored at the place its pointer is relocated to *)
Theorem C51_stored_at (path2url abspath : string -> string) (known : list string) (upgrade : string -> option (sobj -> string -> prog (sobj * routes)))
    (prepare : sobj -> string -> res sobj) (ask : query -> M (sobj * string)) (o o' x : sobj) (jref to w : string) (a a' : app) :
  ascending known -> swagger_version o = Ok w ->
  migrate_traced path2url abspath known upgrade prepare ask o jref to a = (a', [(to, x)], Ok o') ->
  exists url jp jp', split path2url abspath jref = Ok (url, jp) /\ store_relocate (a_store a') url jp w (Some to) = Ok jp' /\ entry (a_store a') url jp' to = Some o'.
Proof. intros A V H. exact (migrate_one path2url abspath known upgrade prepare ask o jref to a a' o' w x H A V). Qed.
(** on failure the calls are a prefix of those, handed on in the same way; a version that cannot be
    parsed is a ValueError before any call *)
Theorem C51_failure (path2url abspath : string -> string) (known : list string) (upgrade : string -> option (sobj -> string -> prog (sobj * routes)))
    (prepare : sobj -> string -> res sobj) (ask : query -> M (sobj * string)) (o : sobj) (jref to w : string) (a a' : app) (calls : list (string * sobj)) (e : exn) :
  ascending known -> In to known -> swagger_version o = Ok w ->
  migrate_traced path2url abspath known upgrade prepare ask o jref to a = (a', calls, Err e) ->
  (calls = [] /\ (forall x, strict_version w <> Ok x) /\ a' = a /\ e = ValueError) \/
  exists vs n o', steps_between known w to vs /\ map fst calls = firstn n vs /\
    (handed_on (upgraded upgrade prepare ask jref) o calls o' \/
     exists before v, calls = (before ++ [(v, o')])%list /\ handed_on (upgraded upgrade prepare ask jref) o before o').
Proof. intros A I V H. exact (migrate_err path2url abspath known upgrade prepare ask o jref to a a' calls e w H A I V). Qed.
(** the supported versions: the packages (or modules) whose names start with "v", in ascending order *)
Theorem C51_supported (modules : list (string * bool)) (is_pkg : bool) (vs : list string) :
  get_supported_versions modules is_pkg = Ok vs ->
  Permutation vs (map (fun n => dots (sdrop 1 n)) (filter (startswith "v") (map fst (filter (fun m => Bool.eqb (snd m) is_pkg) modules)))) /\
  StronglySorted version_le vs.
Proof. exact (supported_spec modules is_pkg vs). Qed.

(** the hypotheses can be met: two steps from 1.2 to 3.0.0 *)
Definition ex_obj (version c : string) : sobj := mk_sobj version (OObj c None (JDict []) []) [].
Definition ex_upgrade (v : string) : option (sobj -> string -> prog (sobj * routes)) :=
  if String.eqb v "1.2" then Some (fun o _ => Done (Ok (o, [])))
  else if String.eqb v "2.0" then Some (fun _ _ => Done (Ok (ex_obj "2.0" "Swagger", [])))
  else if String.eqb v "3.0.0" then Some (fun _ _ => Done (Ok (ex_obj "3.0.0" "OpenApi", [("definitions", RStr "components/schemas")])))
  else None.
Definition ex_known := ["1.2"; "2.0"; "3.0.0"].
Definition ex_ask : query -> M (sobj * string) := fun _ => lift (Err PyException).
Example C51_supported_case :
  get_supported_versions [("__init__", false); ("v3_0_0", true); ("v1_2", true); ("comm", false); ("v2_0", true); ("v4", false)] true = Ok ex_known.
Proof. vm_compute. reflexivity. Qed.
Example C51_ascending_case : ascending ex_known.
Proof.
  assert (A : version_lt "1.2" "2.0") by (eexists; eexists; repeat split; vm_compute; reflexivity).
  assert (C : version_lt "2.0" "3.0.0") by (eexists; eexists; repeat split; vm_compute; reflexivity).
  unfold ex_known. apply asc_cons; [exact A|]. apply asc_cons; [exact C|]. eapply asc_one. vm_compute. reflexivity.
Qed.
Example C51_two_steps_case :
  let '(a, calls, r) := migrate_traced (fun x => x) (fun x => x) ex_known ex_upgrade (fun o _ => Ok o) ex_ask (ex_obj "1.2" "ResourceListing") "http://h/d/a.json" "3.0.0" (fresh_app ex_known) in
  map fst calls = ["1.2"; "2.0"; "3.0.0"] /\ r = Ok (ex_obj "3.0.0" "OpenApi") /\ a_current a = Some "3.0.0" /\
  entry (a_store a) "http://h/d/a.json" "#" "3.0.0" = Some (ex_obj "3.0.0" "OpenApi").
Proof. vm_compute. auto. Qed.
Example C51_one_step_case :
  let '(a, calls, r) := migrate_traced (fun x => x) (fun x => x) ex_known ex_upgrade (fun o _ => Ok o) ex_ask (ex_obj "3.0.0" "Schema") "http://h/d/a.json#/definitions/A" "3.0.0" (fresh_app ex_known) in
  calls = [("3.0.0", ex_obj "3.0.0" "Schema")] /\ entry (a_store a) "http://h/d/a.json" "#/definitions/A" "3.0.0" = Some (ex_obj "3.0.0" "OpenApi").
Proof. vm_compute. auto. Qed.
Example C51_unsupported_case : ~ In "4.0" ex_known.
Proof. intros [H|[H|[H|[]]]]; discriminate H. Qed.

(** ** C60: opening a document ends, whatever cycles its references form, and parses each location at
    most once.  [fuel] bounds the depth of nested resolutions; [merge_fuel] the length of a chain of
    references of path items.  The documents are given by a finite set of urls and a finite set of
    reference strings; all are of one version; for 3.0.0, where references are rewritten when they are
    resolved, the set is closed under this.  The exception: a cached object which answers null. *)
Theorem C60_terminates (path2url abspath : string -> string) (app_url : string) (merge_fuel : nat) (from12 : sobj -> res sobj)
    (from20 : sobj -> string -> string -> override -> res (sobj * routes)) (prepare : sobj -> string -> res sobj) (fetch : string -> res json)
    (V : string) (urls refs : list string) (fuel : nat) (jref url jp : string) :
  V = "2.0" \/ V = "3.0.0" ->
  (forall jref d v, fetch jref = Ok (JDict d) -> declares d v -> v = JStr V) ->
  known_documents (split path2url abspath) fetch urls refs ->
  (V = "3.0.0" -> closed_under_resolving (split path2url abspath) urls refs) ->
  (forall o jref o', prepare o jref = Ok o' -> so_obj o' = so_obj o) ->
  split path2url abspath jref = Ok (url, jp) -> In url urls ->
  length urls * length refs < fuel ->
  let (a, r) := open_document path2url abspath app_url ["1.2"; "2.0"; "3.0.0"] fetch (modules path2url abspath app_url merge_fuel from12 from20) prepare V fuel jref
                  (fresh_app ["1.2"; "2.0"; "3.0.0"]) in
  nulls a <> [] \/ (NoDup (parsed a) /\ ~ too_deep a).
Proof. exact (opening_ends path2url abspath app_url merge_fuel from12 from20 prepare fetch V urls refs fuel jref url jp). Qed.

Lemma known_urls_check (sp : string -> res (string * string)) (urls refs : list string) :
  forallb (fun u => forallb (fun r => match normalize_jr (Some r) (Some u) with
    | Ok (Some n) => match sp n with Ok (u', _) => existsb (String.eqb u') urls && negb (String.eqb u' "") | Err _ => false end
    | _ => true end) refs) urls = true ->
  forall r url n, In r refs -> In url urls -> normalize_jr (Some r) (Some url) = Ok (Some n) ->
    exists url' jp', sp n = Ok (url', jp') /\ In url' urls /\ url' <> "".
Proof.
  intros H r url n HR HU E. rewrite forallb_forall in H. specialize (H url HU). rewrite forallb_forall in H. specialize (H r HR).
  rewrite E in H. destruct (sp n) as [[u' jp']|e]; [|discriminate H]. apply andb_prop in H. destruct H as [A B].
  apply existsb_exists in A. destruct A as (x & X & EQ). apply String.eqb_eq in EQ. subst x. exists u', jp'. repeat split; [exact X|].
  intros ->. discriminate B.
Qed.
(** two documents which refer to each other and to themselves *)
Definition doc_B : json := JDict [("properties", JDict [("a", JDict [("$ref", JStr "a.json#/definitions/A")]); ("b", JDict [("$ref", JStr "#/definitions/B")])])].
Definition doc_a : json := JDict [("swagger", JStr "2.0"); ("paths", JDict [("/p", JDict [("$ref", JStr "b.json#/paths/~1q")])]);
  ("definitions", JDict [("A", JDict [("properties", JDict [("b", JDict [("$ref", JStr "b.json#/definitions/B")])])])])].
Definition doc_q : json := JDict [("$ref", JStr "a.json#/paths/~1p"); ("get", JDict [("responses", JDict [])])].
Definition ex_fetch (j : string) : res json :=
  if String.eqb j "http://h/d/a.json" then Ok doc_a
  else if String.eqb j "http://h/d/b.json#/definitions/B" then Ok doc_B
  else if String.eqb j "http://h/d/b.json#/paths/~1q" then Ok doc_q
  else Err KeyError.
Definition ex_urls := ["http://h/d/a.json"; "http://h/d/b.json"].
Definition ex_refs := ["b.json#/paths/~1q"; "b.json#/definitions/B"; "a.json#/definitions/A"; "#/definitions/B"; "a.json#/paths/~1p"].
Definition same (x : string) : string := x.
Example C60_documents_case : known_documents (split same same) ex_fetch ex_urls ex_refs.
Proof.
  split.
  - intros jref src url jp r. unfold ex_fetch. destruct (String.eqb jref _); [|destruct (String.eqb jref _); [|destruct (String.eqb jref _); [|discriminate]]];
      intros [= <-] _ _ I; vm_compute in I; repeat (destruct I as [<-|I]; [vm_compute; auto 10|]); destruct I.
  - apply known_urls_check. vm_compute. reflexivity.
Qed.
Example C60_version_case : forall jref d v, ex_fetch jref = Ok (JDict d) -> declares d v -> v = JStr "2.0".
Proof.
  intros jref d v. unfold ex_fetch. destruct (String.eqb jref _); [|destruct (String.eqb jref _); [|destruct (String.eqb jref _); [|discriminate]]]; intros [= <-] (N & H); vm_compute in H;
    (destruct H as [H|[[_ H]|(_ & H & H')]]; [discriminate H|congruence|congruence]).
Qed.
Example C60_opens_case :
  let (a, r) := open_document same same "" ["1.2"; "2.0"; "3.0.0"] ex_fetch (modules same same "" 5 (fun _ => Err PyException) (fun _ _ _ _ => Err PyException)) (fun o _ => Ok o) "2.0" 11 "http://h/d/a.json"
                  (fresh_app ["1.2"; "2.0"; "3.0.0"]) in
  parsed a = [("http://h/d/b.json", "#/paths/~1q"); ("http://h/d/b.json", "#/definitions/B"); ("http://h/d/a.json", "#")] /\ nulls a = [] /\
  exists o, r = Ok o.
Proof. vm_compute. eauto. Qed.
(** two documents of 3.0.0 which refer to each other *)
Lemma closed_check (sp : string -> res (string * string)) (urls refs : list string) :
  forallb (fun u => forallb (fun r => match normalize_jr (Some r) (Some u) with
    | Ok (Some n) => match sp n with
        | Ok (u', jp') => forallb (fun w => if startswith "#" r then match sp w with Ok (_, r') => existsb (String.eqb r') refs | Err _ => true end else existsb (String.eqb w) refs) [(u' ++ jp')%string; jp']
        | Err _ => true end
    | _ => true end) refs) urls = true -> closed_under_resolving sp urls refs.
Proof.
  intros H r url n u' jp' w r' HR HU E SN HW HA. rewrite forallb_forall in H. specialize (H url HU). rewrite forallb_forall in H. specialize (H r HR).
  rewrite E, SN in H. rewrite forallb_forall in H. assert (IW : In w [(u' ++ jp')%string; jp']) by (destruct HW as [-> | ->]; [now left|right; now left]). specialize (H w IW).
  unfold assigned_ref in HA. destruct (startswith "#" r).
  - destruct HA as (u & SW). rewrite SW in H. apply existsb_exists in H as (x & X & EQ). apply String.eqb_eq in EQ. now subst x.
  - subst r'. apply existsb_exists in H as (x & X & EQ). apply String.eqb_eq in EQ. now subst x.
Qed.
Definition doc_a3 : json := JDict [("openapi", JStr "3.0.0"); ("info", JDict [("title", JStr "t"); ("version", JStr "1")]); ("paths", JDict []);
  ("components", JDict [("schemas", JDict [("A", JDict [("properties", JDict [("b", JDict [("$ref", JStr "b.json#/B")]); ("a", JDict [("$ref", JStr "#/components/schemas/A")])])])])])].
Definition doc_B3 : json := JDict [("properties", JDict [("a", JDict [("$ref", JStr "a.json#/components/schemas/A")])])].
Definition ex_fetch3 (j : string) : res json :=
  if String.eqb j "http://h/d/a.json" then Ok doc_a3
  else if String.eqb j "http://h/d/b.json#/B" then Ok doc_B3
  else Err KeyError.
Definition ex_refs3 := ["b.json#/B"; "#/components/schemas/A"; "a.json#/components/schemas/A"; "http://h/d/b.json#/B"; "http://h/d/a.json#/components/schemas/A"; "#/B"].
Example C60_documents_case_30 :
  known_documents (split same same) ex_fetch3 ex_urls ex_refs3 /\ closed_under_resolving (split same same) ex_urls ex_refs3 /\
  (forall jref d v, ex_fetch3 jref = Ok (JDict d) -> declares d v -> v = JStr "3.0.0") /\
  let (a, r) := open_document same same "" ["1.2"; "2.0"; "3.0.0"] ex_fetch3 (modules same same "" 5 (fun _ => Err PyException) (fun _ _ _ _ => Err PyException)) (fun o _ => Ok o) "3.0.0" 13 "http://h/d/a.json"
                  (fresh_app ["1.2"; "2.0"; "3.0.0"]) in
  parsed a = [("http://h/d/b.json", "#/B"); ("http://h/d/a.json", "#")] /\ nulls a = [] /\ exists o, r = Ok o.
Proof.
  split; [|split; [|split]].
  - split.
    + intros jref src url jp r. unfold ex_fetch3. destruct (String.eqb jref _); [|destruct (String.eqb jref _); [|discriminate]];
        intros [= <-] _ _ I; vm_compute in I; repeat (destruct I as [<-|I]; [vm_compute; auto 10|]); destruct I.
    + apply known_urls_check. vm_compute. reflexivity.
  - apply closed_check. vm_compute. reflexivity.
  - intros jref d v. unfold ex_fetch3. destruct (String.eqb jref _); [|destruct (String.eqb jref _); [|discriminate]]; intros [= <-] (N & H); vm_compute in H;
      (destruct H as [H|[[_ H]|(_ & H & H')]]; [discriminate H|congruence|congruence]).
  - vm_compute. eauto.
Qed.
(** the exception is needed: the entry "#/definitions/Pet" is a string prefix of
    "#/definitions/Petx/title", answers null for it, and the same location is parsed again and again *)
Definition doc_T : json := JDict [("properties", JDict [("self", JDict [("$ref", JStr "#/definitions/Petx/title")])])].
Definition doc_m : json := JDict [("swagger", JStr "2.0");
  ("definitions", JDict [("A", JDict [("$ref", JStr "b.json#/definitions/Petx/title")]); ("B", JDict [("$ref", JStr "b.json#/definitions/Pet")])])].
Definition bad_fetch (j : string) : res json :=
  if String.eqb j "http://h/d/a.json" then Ok doc_m
  else if String.eqb j "http://h/d/b.json#/definitions/Petx/title" then Ok doc_T
  else if String.eqb j "http://h/d/b.json#/definitions/Pet" then Ok (JDict [])
  else Err KeyError.
Theorem C60_null_refuted :
  known_documents (split same same) bad_fetch ["http://h/d/a.json"; "http://h/d/b.json"] ["b.json#/definitions/Petx/title"; "b.json#/definitions/Pet"; "#/definitions/Petx/title"] /\
  let (a, r) := open_document same same "" ["1.2"; "2.0"; "3.0.0"] bad_fetch (modules same same "" 5 (fun _ => Err PyException) (fun _ _ _ _ => Err PyException)) (fun o _ => Ok o) "2.0" 12 "http://h/d/a.json"
                  (fresh_app ["1.2"; "2.0"; "3.0.0"]) in
  too_deep a /\ ~ NoDup (parsed a).
Proof.
  split.
  - split.
    + intros jref src url jp r. unfold bad_fetch. destruct (String.eqb jref _); [|destruct (String.eqb jref _); [|destruct (String.eqb jref _); [|discriminate]]];
        intros [= <-] _ _ I; vm_compute in I; repeat (destruct I as [<-|I]; [vm_compute; auto 10|]); destruct I.
    + apply known_urls_check. vm_compute. reflexivity.
  - vm_compute. split; [auto 20|]. intros N. inversion N as [|x l NI _]. subst. apply NI. now left.
Qed.

(** ** C61: documents are parsed by their declared version *)
(** the given parser has no influence if a version is declared *)
Theorem C61_parser_ignored (path2url abspath : string -> string) (fetch : string -> res json) (jref : string) (d : list (string * json)) (v : json)
    (p p' : option parser) (remove : bool) (a : app) :
  fetch jref = Ok (JDict d) -> declares d v -> load_obj path2url abspath fetch jref p remove a = load_obj path2url abspath fetch jref p' remove a.
Proof. exact (load_ignores_parser path2url abspath fetch jref d v p p' remove a). Qed.
(** with nothing cached, 1.2 gives a ResourceListing, 2.0 a Swagger, 3.0.0 an OpenApi object, made
    from the document; every other version raises NotImplementedError *)
Theorem C61_by_version (path2url abspath : string -> string) (fetch : string -> res json) (jref url jp : string) (d : list (string * json)) (v : json)
    (p : option parser) (remove : bool) (a a' : app) (o : sobj) :
  fetch jref = Ok (JDict d) -> declares d v -> split path2url abspath jref = Ok (url, jp) -> not_cached a url jp (Some v) ->
  load_obj path2url abspath fetch jref p remove a = (a', Ok o) ->
  (v = JStr "1.2" /\ so_version o = "1.2" /\ instance "ResourceListing" (JDict d) (so_obj o)) \/
  (v = JStr "2.0" /\ so_version o = "2.0" /\ instance "Swagger" (JDict d) (so_obj o) /\ entry (a_store a') url jp "2.0" = Some o /\ a_original a' = "2.0") \/
  (v = JStr "3.0.0" /\ so_version o = "3.0.0" /\ instance "OpenApi" (JDict d) (so_obj o) /\ entry (a_store a') url jp "3.0.0" = Some o /\ a_original a' = "3.0.0").
Proof.
  intros F DE S NC L. assert (DV : doc_version (JDict d) = Ok (Some v)) by now apply doc_version_declares.
  rewrite (load_fresh _ _ _ _ _ _ _ _ _ _ _ F DV S NC) in L. destruct (after_under a url jp (Some v) remove) as [s [ovr|e]]; [|discriminate L]. cbv zeta in L.
  destruct (parse fetch (JDict d) jref url (Some v) (overrides ovr) p) as [[[o1 v'] url']|e] eqn:PA; [|discriminate L]. destruct (so_truthy o1); [|discriminate L].
  destruct (store_set so_base s o1 url' jp v') as [s'|e] eqn:SS; [|discriminate L]. injection L as <- <-.
  destruct (parse_version _ _ _ _ _ _ _ _ _ _ PA) as [(E & -> & SV & I)|[(E & -> & SV & I & ->)|(E & -> & SV & I & ->)]]; [left|right; left|right; right]; (split; [exact E|]; split; [exact SV|]).
  - exact I.
  - split; [exact I|]. cbn [a_store a_original]. split; [exact (set_entry_here _ _ _ _ _ _ SS)|]. destruct I as (path & kids & EO). unfold is_root. rewrite EO, SV. reflexivity.
  - split; [exact I|]. cbn [a_store a_original]. split; [exact (set_entry_here _ _ _ _ _ _ SS)|]. destruct I as (path & kids & EO). unfold is_root. rewrite EO, SV. reflexivity.
Qed.
Theorem C61_other_version (path2url abspath : string -> string) (fetch : string -> res json) (jref url jp : string) (d : list (string * json)) (v : json)
    (p : option parser) (remove : bool) (a : app) :
  fetch jref = Ok (JDict d) -> declares d v -> v <> JStr "1.2" -> v <> JStr "2.0" -> v <> JStr "3.0.0" ->
  split path2url abspath jref = Ok (url, jp) -> not_cached a url jp (Some v) ->
  exists e, snd (load_obj path2url abspath fetch jref p remove a) = Err e /\ (remove = false -> e = NotImplementedError).
Proof.
  intros F DE N1 N2 N3 S NC. assert (DV : doc_version (JDict d) = Ok (Some v)) by now apply doc_version_declares.
  rewrite (load_fresh _ _ _ _ _ _ _ _ _ _ _ F DV S NC). destruct (after_under a url jp (Some v) remove) as [s [ovr|e]] eqn:AU.
  - cbv zeta. rewrite parse_other by assumption. eexists. split; [reflexivity|auto].
  - exists e. split; [reflexivity|]. intros ->. exfalso. unfold after_under in AU. destruct (version_key (Some v)); [|discriminate AU].
    unfold store_get_under in AU. cbn [andb] in AU. destruct (lookup url (s_objs (a_store a))) as [[|]|]; discriminate AU.
Qed.
(** without a declared version the given parser makes the object, stored for the version of the parser;
    without a parser: NotImplementedError *)
Theorem C61_no_version (path2url abspath : string -> string) (fetch : string -> res json) (jref url jp : string) (d : list (string * json))
    (p : option parser) (remove : bool) (a a' : app) (o : sobj) :
  fetch jref = Ok (JDict d) -> declares_none d -> split path2url abspath jref = Ok (url, jp) -> not_cached a url jp None ->
  load_obj path2url abspath fetch jref p remove a = (a', Ok o) ->
  exists version b, p = Some (version, b) /\ construct (table_of version) (JDict d) b (Some jref) [] = Ok (so_obj o) /\ so_version o = version /\
    entry (a_store a') url jp (match so_obj o with OObj _ _ _ _ => version | _ => "" end) = Some o.
Proof.
  intros F DE S NC L. assert (DV : doc_version (JDict d) = Ok None) by now apply doc_version_none.
  rewrite (load_fresh _ _ _ _ _ _ _ _ _ _ _ F DV S NC) in L. destruct (after_under a url jp None remove) as [s [ovr|e]]; [|discriminate L]. cbv zeta in L.
  destruct (parse fetch (JDict d) jref url None (overrides ovr) p) as [[[o1 v'] url']|e] eqn:PA; [|discriminate L]. destruct (so_truthy o1); [|discriminate L].
  destruct (store_set so_base s o1 url' jp v') as [s'|e] eqn:SS; [|discriminate L]. injection L as <- <-.
  destruct (parse_none _ _ _ _ _ _ _ _ _ PA) as (pv & b & E & C & SV & -> & ->). exists pv, b. split; [exact E|]. split; [exact C|]. split; [exact SV|]. exact (set_entry_here _ _ _ _ _ _ SS).
Qed.
Theorem C61_no_parser (path2url abspath : string -> string) (fetch : string -> res json) (jref url jp : string) (d : list (string * json)) (remove : bool) (a : app) :
  fetch jref = Ok (JDict d) -> declares_none d -> split path2url abspath jref = Ok (url, jp) -> not_cached a url jp None ->
  exists e, snd (load_obj path2url abspath fetch jref None remove a) = Err e /\ (remove = false -> e = NotImplementedError).
Proof.
  intros F DE S NC. assert (DV : doc_version (JDict d) = Ok None) by now apply doc_version_none.
  rewrite (load_fresh _ _ _ _ _ _ _ _ _ _ _ F DV S NC). destruct (after_under a url jp None remove) as [s [ovr|e]] eqn:AU.
  - cbv zeta. eexists. split; [reflexivity|auto].
  - exists e. split; [reflexivity|]. intros ->. exfalso. unfold after_under in AU. cbn [version_key] in AU.
    unfold store_get_under in AU. cbn [andb] in AU. destruct (lookup url (s_objs (a_store a))) as [[|]|]; discriminate AU.
Qed.
(** a document that is no dict cannot be loaded *)
Theorem C61_no_dict (path2url abspath : string -> string) (fetch : string -> res json) (jref : string) (src : json) (p : option parser) (remove : bool) (a : app) :
  fetch jref = Ok src -> (forall d, src <> JDict d) -> load_obj path2url abspath fetch jref p remove a = (a, Err AttributeError).
Proof. intros F N. apply (load_version_err _ _ _ _ _ _ _ src _ F). destruct src; try reflexivity. now destruct (N d). Qed.
(** what is cached for the declared version is returned, and nothing changes *)
Theorem C61_cached (path2url abspath : string -> string) (fetch : string -> res json) (jref url jp : string) (d : list (string * json)) (v : json)
    (p : option parser) (remove : bool) (a : app) (o : sobj) :
  fetch jref = Ok (JDict d) -> declares d v -> split path2url abspath jref = Ok (url, jp) ->
  cached_for a url jp (Some v) = Ok (Some o) -> so_truthy o = true -> load_obj path2url abspath fetch jref p remove a = (a, Ok o).
Proof. intros F DE S C T. apply doc_version_declares in DE. exact (load_cached _ _ _ _ _ _ _ _ _ _ _ _ F DE S C T). Qed.
(** loading again gives the same object (2.0, 3.0.0) *)
Theorem C61_loaded_once (path2url abspath : string -> string) (fetch : string -> res json) (versions : list string) (jref url jp v : string) (d : list (string * json))
    (p p' : option parser) (remove remove' : bool) (a a' : app) (o : sobj) :
  reachable versions a -> fetch jref = Ok (JDict d) -> declares d (JStr v) -> v = "2.0" \/ v = "3.0.0" ->
  split path2url abspath jref = Ok (url, jp) -> (forall p0 o', prefix_of p0 jp -> entry (a_store a) url p0 v = Some o' -> p0 = jp) ->
  cached_for a url jp (Some (JStr v)) = Ok None ->
  load_obj path2url abspath fetch jref p remove a = (a', Ok o) ->
  load_obj path2url abspath fetch jref p' remove' a' = (a', Ok o).
Proof. intros RE F DE HV S ON NC L. exact (proj2 (load_again path2url abspath fetch versions jref p p' remove remove' a a' d v url jp o RE F DE HV S ON NC L)). Qed.
(** not for 1.2: the listing is cached under the url of its last API declaration *)
Definition listing_fetch (j : string) : res json :=
  if String.eqb j "http://h/d/list.json" then Ok (JDict [("swaggerVersion", JStr "1.2"); ("apis", JList [JDict [("path", JStr "/pet.json")]])])
  else if String.eqb j "http://h/d/pet.json" then Ok (JDict [("swaggerVersion", JStr "1.2"); ("basePath", JStr "http://h"); ("apis", JList [])])
  else Err KeyError.
Theorem C61_listing_refuted :
  exists o a, load_obj same same listing_fetch "http://h/d/list.json" None false (fresh_app ex_known) = (a, Ok o) /\
    entry (a_store a) "http://h/d/list.json" "#" "1.2" = None /\ entry (a_store a) "http://h/d/pet.json" "#" "1.2" = Some o /\
    length (parsed (fst (load_obj same same listing_fetch "http://h/d/list.json" None false a))) = 2.
Proof.
  exists (match snd (load_obj same same listing_fetch "http://h/d/list.json" None false (fresh_app ex_known)) with Ok o => o | Err _ => mk_sobj "" (OPrim JNull) [] end),
    (fst (load_obj same same listing_fetch "http://h/d/list.json" None false (fresh_app ex_known))).
  split; [vm_compute; reflexivity|]. split; [vm_compute; reflexivity|]. split; vm_compute; reflexivity.
Qed.
(** the hypotheses can be met *)
Example C61_loads_case :
  declares [("swagger", JStr "2.0"); ("openapi", JStr "3.0.0")] (JStr "2.0") /\
  (let (a, r) := load_obj same same ex_fetch "http://h/d/a.json" None true (fresh_app ex_known) in
   a_original a = "2.0" /\ (exists o, r = Ok o /\ instance "Swagger" doc_a (so_obj o) /\ entry (a_store a) "http://h/d/a.json" "#" "2.0" = Some o)) /\
  (let (a, r) := load_obj same same ex_fetch "http://h/d/b.json#/definitions/B" (Some ("2.0", BCls "Schema")) true (fresh_app ex_known) in
   exists o, r = Ok o /\ instance "Schema" doc_B (so_obj o) /\ entry (a_store a) "http://h/d/b.json" "#/definitions/B" "2.0" = Some o) /\
  (exists calls, a_store (fresh_app ex_known) = run_ops so_base ex_known calls).
Proof.
  split; [split; [discriminate|right; left; auto]|]. split; [|split].
  - vm_compute. split; [reflexivity|]. eexists. split; [reflexivity|]. split; [eexists; eexists; reflexivity|reflexivity].
  - vm_compute. eexists. split; [reflexivity|]. split; [eexists; eexists; reflexivity|reflexivity].
  - exists []. reflexivity.
Qed.

(** ** C65: resolving a reference *)
(** an empty reference is rejected *)
Theorem C65_empty (path2url abspath : string -> string) (app_url : string) (versions : list string) (fetch : string -> res json)
    (upgrade : string -> option (sobj -> string -> prog (sobj * routes))) (prepare : sobj -> string -> res sobj) (fuel : nat) (q : query) (a : app) :
  q_jref q = "" -> resolve_obj path2url abspath app_url versions fetch upgrade prepare (S fuel) q a = (a, Err ValueError).
Proof. exact (resolve_empty path2url abspath app_url versions fetch upgrade prepare fuel q a). Qed.
(** an object in the store for the wanted version, at the pointer relocated to that version, is the
    answer, with its new reference: no document is loaded, nothing is converted, nothing changes *)
Theorem C65_cached (path2url abspath : string -> string) (app_url : string) (versions : list string) (fetch : string -> res json)
    (upgrade : string -> option (sobj -> string -> prog (sobj * routes))) (prepare : sobj -> string -> res sobj) (fuel : nat) (q : query) (a : app)
    (url jp jp' : string) (o : sobj) :
  q_jref q <> "" -> split path2url abspath (q_jref q) = Ok (url, jp) -> url <> "" ->
  (if String.eqb (q_from q) (target_version q) then Ok jp else store_relocate (a_store a) url jp (q_from q) (Some (target_version q))) = Ok jp' ->
  store_get so_resolve (a_store a) url jp' (target_version q) = Ok (Some o) -> so_base o = true ->
  resolve_obj path2url abspath app_url versions fetch upgrade prepare (S fuel) q a = (a, Ok (o, (url ++ jp')%string)).
Proof.
  intros NE S NU R G B. assert (T : truthy_str url = true) by (destruct url; [congruence|reflexivity]).
  assert (H := resolve_cached path2url abspath app_url versions fetch upgrade prepare fuel q a url jp jp' o NE S). rewrite T in H. exact (H R G B).
Qed.
(** a reference without a document is taken in the document of the app *)
Theorem C65_own_document (path2url abspath : string -> string) (app_url : string) (versions : list string) (fetch : string -> res json)
    (upgrade : string -> option (sobj -> string -> prog (sobj * routes))) (prepare : sobj -> string -> res sobj) (fuel : nat) (q : query) (a : app) (jp : string) :
  q_jref q <> "" -> app_url <> "" -> split path2url abspath (q_jref q) = Ok ("", jp) -> split path2url abspath (app_url ++ jp) = Ok (app_url, jp) ->
  resolve_obj path2url abspath app_url versions fetch upgrade prepare (S fuel) q a =
  resolve_obj path2url abspath app_url versions fetch upgrade prepare (S fuel) (mk_query (app_url ++ jp) (q_from q) (q_parser q) (q_to q) (q_remove q)) a.
Proof. intros NE NA S S'. now apply (resolve_own path2url abspath app_url versions fetch upgrade prepare fuel q _ a jp). Qed.
(** if nothing is in the store for any version in between, a document is loaded only if the reference
    is of the original version; otherwise an exception is raised and nothing changes *)
Theorem C65_no_source (path2url abspath : string -> string) (app_url : string) (versions : list string) (fetch : string -> res json)
    (upgrade : string -> option (sobj -> string -> prog (sobj * routes))) (prepare : sobj -> string -> res sobj) (fuel : nat) (q : query) (a : app)
    (url jp jp' : string) :
  q_jref q <> "" -> split path2url abspath (q_jref q) = Ok (url, jp) -> url <> "" ->
  (if String.eqb (q_from q) (target_version q) then Ok jp else store_relocate (a_store a) url jp (q_from q) (Some (target_version q))) = Ok jp' ->
  store_get so_resolve (a_store a) url jp' (target_version q) = Ok None ->
  store_get_until so_truthy so_resolve (a_store a) url jp (q_from q) (Some (target_version q)) = Ok None ->
  q_from q <> a_original a ->
  resolve_obj path2url abspath app_url versions fetch upgrade prepare (S fuel) q a = (a, Err PyException).
Proof. exact (resolve_no_source path2url abspath app_url versions fetch upgrade prepare fuel q a url jp jp'). Qed.
(** if nothing is in the store for the wanted version, what is returned is the newest object in the
    store of an older version, migrated from the location where it is -- or, if there is none, the
    loaded document, migrated from the reference itself, which then is of the original version *)
Theorem C65_migrates (path2url abspath : string -> string) (app_url : string) (versions : list string) (fetch : string -> res json)
    (upgrade : string -> option (sobj -> string -> prog (sobj * routes))) (prepare : sobj -> string -> res sobj) (fuel : nat) (q : query) (a a' : app)
    (url jp jp' : string) (y : sobj) (new : string) :
  q_jref q <> "" -> split path2url abspath (q_jref q) = Ok (url, jp) -> url <> "" ->
  (if String.eqb (q_from q) (target_version q) then Ok jp else store_relocate (a_store a) url jp (q_from q) (Some (target_version q))) = Ok jp' ->
  store_get so_resolve (a_store a) url jp' (target_version q) = Ok None ->
  resolve_obj path2url abspath app_url versions fetch upgrade prepare (S fuel) q a = (a', Ok (y, new)) ->
  exists o place a0 o1 a1,
    migrate_obj path2url abspath versions upgrade prepare (resolve_obj path2url abspath app_url versions fetch upgrade prepare fuel) o place (target_version q) a0 = (a1, Ok o1) /\
    (if so_truthy o1 then prepare o1 place = Ok y else y = o1) /\ a' = a1 /\
    ((exists j v, store_get_until so_truthy so_resolve (a_store a) url jp (q_from q) (Some (target_version q)) = Ok (Some (o, j, v)) /\ place = (url ++ j)%string /\ a0 = a) \/
     (store_get_until so_truthy so_resolve (a_store a) url jp (q_from q) (Some (target_version q)) = Ok None /\ q_from q = a_original a /\
      place = q_jref q /\ load_obj path2url abspath fetch (q_jref q) (q_parser q) (q_remove q) a = (a0, Ok o))).
Proof. exact (resolve_migrates path2url abspath app_url versions fetch upgrade prepare fuel q a a' url jp jp' y new). Qed.
(** the hypotheses can be met *)
Definition opened_app : app :=
  fst (open_document same same "http://h/d/a.json" ex_known ex_fetch (modules same same "http://h/d/a.json" 5 (fun _ => Err PyException) (fun _ _ _ _ => Err PyException)) (fun o _ => Ok o) "2.0" 11 "http://h/d/a.json" (fresh_app ex_known)).
Definition ex_resolve (q : query) := resolve_obj same same "http://h/d/a.json" ex_known ex_fetch (modules same same "http://h/d/a.json" 5 (fun _ => Err PyException) (fun _ _ _ _ => Err PyException)) (fun o _ => Ok o) 11 q opened_app.
Example C65_answers_case :
  (exists o, snd (ex_resolve (mk_query "#/definitions/A" "2.0" None None false)) = Ok (o, "http://h/d/a.json#/definitions/A") /\ so_base o = true) /\
  (exists o, snd (ex_resolve (mk_query "http://h/d/b.json#/definitions/B/properties/a" "2.0" None None false)) = Ok (o, "http://h/d/b.json#/definitions/B/properties/a") /\ so_base o = true) /\
  snd (ex_resolve (mk_query "http://h/d/c.json#/definitions/C" "3.0.0" None None false)) = Err PyException /\
  snd (ex_resolve (mk_query "" "2.0" None None false)) = Err ValueError.
Proof. vm_compute. split; [eexists; split; reflexivity|]. split; [eexists; split; reflexivity|]. auto. Qed.
Print Assumptions C51_steps.
Print Assumptions C60_terminates.
Print Assumptions C61_by_version.
Print Assumptions C65_cached.
Print Assumptions C65_migrates.
