(** * Properties C35, C62, C64: pyopenapi/migration/resolve.py and getter.py. *)
From Coq Require Import String Ascii List Bool Arith.
From Verif Require Import PyStr PyVal Jp UrlLib Urls SpecUrl Obj SpecObj ResolveFacts Getter SpecGetter GetterFacts.
Import ListNotations.
Open Scope string_scope. Open Scope nat_scope.

(** ** C35: the resolver, for every history of calls.  Each call comes with the world of that moment:
    the getter passed, and what the network and the file system answer. *)
(** once a non-empty document was obtained no request is made and nothing changes, whatever the world is like now *)
Theorem C35_fetched_once (path2url abspath : string -> string) (hook : option (string -> string)) (default_getter : option getter)
    (calls : list rcall) (c : rcall) (url jp : string) (d : json) :
  first_offer path2url abspath hook default_getter url calls d ->
  jr_split path2url abspath (r_jref c) = Ok (url, jp) ->
  fst (resolver_resolve path2url abspath hook default_getter (resolver_run path2url abspath hook default_getter calls) c) =
  (resolver_run path2url abspath hook default_getter calls, false).
Proof. intros F S. now rewrite (resolve_cached path2url abspath hook default_getter calls c url jp d S F). Qed.
(** the result is the evaluation of the pointer on that document *)
Theorem C35_evaluates (path2url abspath : string -> string) (hook : option (string -> string)) (default_getter : option getter)
    (calls : list rcall) (c : rcall) (url : string) (tokens : list string) (d v : json) :
  first_offer path2url abspath hook default_getter url calls d ->
  jr_split path2url abspath (r_jref c) = Ok (url, jp_join tokens (Some "#")) ->
  jget d tokens v ->
  snd (resolver_resolve path2url abspath hook default_getter (resolver_run path2url abspath hook default_getter calls) c) = Ok v.
Proof.
  intros F S G. rewrite (resolve_cached path2url abspath hook default_getter calls c url _ d S F). cbn [snd]. rewrite tl_pointer. exact (walk_jget d tokens v G).
Qed.
(** and only that: a pointer that does not exist in the document never gives a value *)
Theorem C35_nothing_else (path2url abspath : string -> string) (hook : option (string -> string)) (default_getter : option getter)
    (calls : list rcall) (c : rcall) (url : string) (tokens : list string) (d v : json) :
  first_offer path2url abspath hook default_getter url calls d ->
  jr_split path2url abspath (r_jref c) = Ok (url, jp_join tokens (Some "#")) ->
  Forall plain_token tokens ->
  snd (resolver_resolve path2url abspath hook default_getter (resolver_run path2url abspath hook default_getter calls) c) = Ok v ->
  jget d tokens v.
Proof.
  intros F S P. rewrite (resolve_cached path2url abspath hook default_getter calls c url _ d S F). cbn [snd]. rewrite tl_pointer. exact (jget_walk tokens d v P).
Qed.
(** as long as no non-empty document was obtained a request is made -- failures and empty documents are not
    remembered -- and a failure is passed on *)
Theorem C35_retried (path2url abspath : string -> string) (hook : option (string -> string)) (default_getter : option getter)
    (calls : list rcall) (c : rcall) (url jp : string) :
  (forall d, ~ first_offer path2url abspath hook default_getter url calls d) ->
  jr_split path2url abspath (r_jref c) = Ok (url, jp) ->
  snd (fst (resolver_resolve path2url abspath hook default_getter (resolver_run path2url abspath hook default_getter calls) c)) = true.
Proof. intros N S. exact (proj1 (resolve_fresh path2url abspath hook default_getter calls c url jp S N)). Qed.
Theorem C35_failure_passed_on (path2url abspath : string -> string) (hook : option (string -> string)) (default_getter : option getter)
    (calls : list rcall) (c : rcall) (url jp : string) (e : exn) :
  (forall d, ~ first_offer path2url abspath hook default_getter url calls d) ->
  jr_split path2url abspath (r_jref c) = Ok (url, jp) ->
  fetch default_getter c (load_url hook url) = Err e ->
  snd (resolver_resolve path2url abspath hook default_getter (resolver_run path2url abspath hook default_getter calls) c) = Err e.
Proof. intros N S F. rewrite (proj2 (resolve_fresh path2url abspath hook default_getter calls c url jp S N)), F. reflexivity. Qed.
Theorem C35_empty_rejected (path2url abspath : string -> string) (hook : option (string -> string)) (default_getter : option getter)
    (calls : list rcall) (c : rcall) (url jp : string) (d : json) :
  (forall d, ~ first_offer path2url abspath hook default_getter url calls d) ->
  jr_split path2url abspath (r_jref c) = Ok (url, jp) ->
  fetch default_getter c (load_url hook url) = Ok d -> truthy d = false ->
  snd (resolver_resolve path2url abspath hook default_getter (resolver_run path2url abspath hook default_getter calls) c) = Err PyException.
Proof. intros N S F T. rewrite (proj2 (resolve_fresh path2url abspath hook default_getter calls c url jp S N)), F. cbn [bind]. now rewrite T. Qed.
(** the first answer is evaluated in the same way *)
Theorem C35_first_answer (path2url abspath : string -> string) (hook : option (string -> string)) (default_getter : option getter)
    (calls : list rcall) (c : rcall) (url : string) (tokens : list string) (d v : json) :
  (forall d, ~ first_offer path2url abspath hook default_getter url calls d) ->
  jr_split path2url abspath (r_jref c) = Ok (url, jp_join tokens (Some "#")) ->
  fetch default_getter c (load_url hook url) = Ok d -> truthy d = true -> jget d tokens v ->
  snd (resolver_resolve path2url abspath hook default_getter (resolver_run path2url abspath hook default_getter calls) c) = Ok v.
Proof.
  intros N S F T G. rewrite (proj2 (resolve_fresh path2url abspath hook default_getter calls c url _ S N)), F. cbn [bind]. rewrite T, tl_pointer. exact (walk_jget d tokens v G).
Qed.
(** who is asked: the getter of the call; else the local file for a file url; else the default getter; else the network *)
Theorem C35_getter_choice (default_getter : option getter) (jref : string) (g : option getter) (remote local : string -> res json) (url : string) :
  let ask x := match x with GClass open => open url | GObject next => next end in
  let is_file := u_scheme (urlparse url) = "file" /\ u_path (urlparse url) <> "" in
  (forall x, g = Some x -> fetch default_getter (mk_call jref g remote local) url = ask x) /\
  (g = None -> is_file -> fetch default_getter (mk_call jref g remote local) url = local (path_join (u_netloc (urlparse url)) (u_path (urlparse url)))) /\
  (g = None -> ~ is_file -> forall x, default_getter = Some x -> fetch default_getter (mk_call jref g remote local) url = ask x) /\
  (g = None -> ~ is_file -> default_getter = None -> fetch default_getter (mk_call jref g remote local) url = remote url).
Proof. exact (fetch_choice default_getter jref g remote local url). Qed.
(** indices are read with int(): negative ones count from the end *)
Theorem C35_negative_index_refuted :
  exists d tokens v, walk d tokens = Ok v /\ forall v', ~ jget d tokens v'.
Proof.
  exists (JList [JStr "a"; JStr "b"]), ["-1"], (JStr "b"). split; [vm_compute; reflexivity|].
  intros v' G. inversion G as [| |l i s v0 ts r I]; subst. exact (negative_not_index i I).
Qed.
Print Assumptions C35_fetched_once.
Print Assumptions C35_evaluates.
Print Assumptions C35_nothing_else.
Print Assumptions C35_retried.
Print Assumptions C35_failure_passed_on.
Print Assumptions C35_empty_rejected.
Print Assumptions C35_first_answer.
Print Assumptions C35_getter_choice.
Print Assumptions C35_negative_index_refuted.
(** a history: a failing request, an empty one, a good one, then a reference after the network went away *)
Definition x_doc : json := JDict [("definitions", JDict [("a/b", JDict [("type", JStr "object")])]); ("tags", JList [JStr "t0"; JStr "t1"])].
Definition x_call (jref : string) (answer : res json) : rcall := mk_call jref None (fun _ => answer) (fun _ => Err PyException).
Definition x_history : list rcall :=
  [x_call "http://h/s.json" (Err PyException); x_call "http://h/s.json" (Ok (JDict [])); x_call "http://h/s.json#/tags" (Ok x_doc)].
Example C35_example :
  first_offer (fun s => s) (fun s => s) None None "http://h/s.json" x_history x_doc /\
  (forall d, ~ first_offer (fun s => s) (fun s => s) None None "http://h/s.json" (firstn 2 x_history) d) /\
  jr_split (fun s => s) (fun s => s) "http://h/s.json#/definitions/a~1b" = Ok ("http://h/s.json", jp_join ["definitions"; "a/b"] (Some "#")) /\
  jget x_doc ["definitions"; "a/b"] (JDict [("type", JStr "object")]) /\
  jget x_doc ["tags"; "1"] (JStr "t1") /\
  resolver_resolve (fun s => s) (fun s => s) None None (resolver_run (fun s => s) (fun s => s) None None x_history)
    (x_call "http://h/s.json#/definitions/a~1b" (Err PyException)) = ([("http://h/s.json", x_doc)], false, Ok (JDict [("type", JStr "object")])) /\
  Forall plain_token ["definitions"; "a/b"; "10"; "0"; ""].
Proof.
  assert (N1 : forall d, ~ offers (fun s => s) (fun s => s) None None "http://h/s.json" (x_call "http://h/s.json" (Err PyException)) d).
  { intros d (_ & H & _). vm_compute in H. discriminate. }
  assert (N2 : forall d, ~ offers (fun s => s) (fun s => s) None None "http://h/s.json" (x_call "http://h/s.json" (Ok (JDict []))) d).
  { intros d (_ & H & T). vm_compute in H. injection H as <-. vm_compute in T. discriminate. }
  split; [|split; [|split; [|split; [|split; [|split]]]]].
  - apply fo_later; [exact N1|]. apply fo_later; [exact N2|]. apply fo_here. split; [eexists; vm_compute; reflexivity|]. split; vm_compute; reflexivity.
  - intros d F. inversion F as [? ? ? O|? ? ? _ F']; subst; [now apply (N1 d)|]. inversion F' as [? ? ? O|? ? ? _ F'']; subst; [now apply (N2 d)|]. inversion F''.
  - vm_compute; reflexivity.
  - eapply jg_key; [reflexivity|]. eapply jg_key; [reflexivity|]. constructor.
  - eapply jg_key; [reflexivity|]. eapply (jg_idx _ 1); [reflexivity|reflexivity|]. constructor.
  - vm_compute; reflexivity.
  - apply Forall_forall. intros x Hx. repeat (destruct Hx as [<-|Hx]; [intros c r H; try discriminate H; injection H as <- <-; repeat split; intros; discriminate || reflexivity|]). destruct Hx.
Qed.

(** ** C62: getters.  [json_loads] and [yaml_load] are arbitrary. *)
Theorem C62_in_order (json_loads yaml_load : string -> option (res json)) (path2dict : list (string * loaded)) (urls : list string) (n i : nat) :
  i < n ->
  nth_error (requests json_loads yaml_load (dict_load path2dict) n urls) i =
  Some (match nth_error urls i with
        | Some u => match lookup u path2dict with Some l => parse_loaded json_loads yaml_load l | None => Ok (JDict []) end
        | None => Err StopIteration
        end).
Proof. exact (dict_requests json_loads yaml_load path2dict urls n i). Qed.
(** the same for every getter, even one whose [load] raises: the url is consumed *)
Theorem C62_every_getter (json_loads yaml_load : string -> option (res json)) (load : string -> res loaded) (urls : list string) (n i : nat) :
  i < n ->
  nth_error (requests json_loads yaml_load load n urls) i =
  Some (match nth_error urls i with
        | Some u => match load u with Ok l => parse_loaded json_loads yaml_load l | Err e => Err e end
        | None => Err StopIteration
        end).
Proof. exact (any_requests json_loads yaml_load load urls n i). Qed.
(** the kind of document is recognised by its first character *)
Theorem C62_text (json_loads yaml_load : string -> option (res json)) (s : string) :
  parse_loaded json_loads yaml_load (LText (String "{" s)) = match json_loads (String "{" s) with Some r => r | None => Err PyException end /\
  (forall c, c <> "{"%char -> parse_loaded json_loads yaml_load (LText (String c s)) = match yaml_load (String c s) with Some r => r | None => Err PyException end).
Proof. exact (parse_text json_loads yaml_load s). Qed.
Theorem C62_no_urls : dict_getter [] = Err IndexError /\ (forall u us, dict_getter (u :: us) = Ok (u :: us)).
Proof. split; reflexivity. Qed.
Print Assumptions C62_in_order.
Print Assumptions C62_every_getter.
Print Assumptions C62_text.
Print Assumptions C62_no_urls.
Example C62_example :
  requests (fun _ => None) (fun s => Some (Ok (JStr s))) (dict_load [("b", LDict [("x", JBool true)]); ("c", LText "y"); ("d", LText "{"); ("e", LOther)]) 7 ["a"; "b"; "c"; "d"; "e"; "b"] =
  [Ok (JDict []); Ok (JDict [("x", JBool true)]); Ok (JStr "y"); Err PyException; Err ValueError; Ok (JDict [("x", JBool true)]); Err StopIteration].
Proof. vm_compute; reflexivity. Qed.

(** ** C64: which local file is opened, for every file system *)
(** a path with a known extension is opened itself *)
Theorem C64_file (isfile : string -> bool) (abspath : string -> string) (p : string) :
  plain_path p -> none_in isfile p default_names -> valid_ext (splitext_ext p) -> ~ valid_ext (splitext_ext (dirname p)) ->
  local_file isfile abspath p = Ok p.
Proof. exact (local_a_file_opens isfile abspath p). Qed.
(** in a directory the first of the default names is opened *)
Theorem C64_directory (isfile : string -> bool) (abspath : string -> string) (p : string) (better : list string) (n : string) (worse : list string) :
  plain_path p -> default_names = (better ++ n :: worse)%list -> (forall m, In m default_names -> endswith m p = false) ->
  none_in isfile p better -> isfile (path_join p n) = true -> ~ valid_ext (splitext_ext p) ->
  local_file isfile abspath p = Ok (path_join p n).
Proof. exact (local_directory isfile abspath p better n worse). Qed.
(** otherwise ".json" is added, or else ".yaml" *)
Theorem C64_json_added (isfile : string -> bool) (abspath : string -> string) (p : string) :
  plain_path p -> none_in isfile p default_names -> ~ names_a_file p -> isfile (p ++ ".json") = true ->
  local_file isfile abspath p = Ok (p ++ ".json")%string.
Proof. exact (local_json isfile abspath p). Qed.
Theorem C64_yaml_added (isfile : string -> bool) (abspath : string -> string) (p : string) :
  plain_path p -> none_in isfile p default_names -> ~ names_a_file p -> isfile (p ++ ".json") = false -> isfile (p ++ ".yaml") = true ->
  splitext_ext (p ++ ".yaml") = ".yaml" ->
  local_file isfile abspath p = Ok (p ++ ".yaml")%string.
Proof. exact (local_yaml isfile abspath p). Qed.
Theorem C64_missing (isfile : string -> bool) (abspath : string -> string) (p : string) :
  plain_path p -> none_in isfile p default_names -> ~ names_a_file p -> isfile (p ++ ".json") = false -> isfile (p ++ ".yaml") = false ->
  local_file isfile abspath p = Err ValueError.
Proof. exact (local_missing isfile abspath p). Qed.
(** a directory named *.yaml, and an extension that only ends with "json": a file that does not exist is opened *)
Theorem C64_existing_file_refuted :
  local_file (String.eqb "/api.yaml/swagger.json") (fun s => s) "/api.yaml/swagger.json" = Ok "/api.yaml/swagger.json.yaml" /\
  local_file (String.eqb "/a.geojson") (fun s => s) "/a.geojson" = Ok "/a.geojson.json".
Proof. split; vm_compute; reflexivity. Qed.
(** ".yml" is not tried *)
Theorem C64_yml_refuted : local_file (String.eqb "/a.yml") (fun s => s) "/a" = Err ValueError.
Proof. vm_compute; reflexivity. Qed.
Print Assumptions C64_file.
Print Assumptions C64_directory.
Print Assumptions C64_json_added.
Print Assumptions C64_yaml_added.
Print Assumptions C64_missing.
Print Assumptions C64_existing_file_refuted.
Print Assumptions C64_yml_refuted.
Example C64_example :
  plain_path "/data/api" /\ (forall m, In m default_names -> endswith m "/data/api" = false) /\ ~ valid_ext (splitext_ext "/data/api") /\
  ~ names_a_file "/data/api" /\ plain_path "/data/x.yml" /\ valid_ext (splitext_ext "/data/x.yml") /\
  local_file (String.eqb "/data/api/swagger.yaml") (fun s => s) "/data/api" = Ok "/data/api/swagger.yaml" /\
  local_file (String.eqb "/data/api.yaml") (fun s => s) "/data/api" = Ok "/data/api.yaml".
Proof.
  assert (E : forall m, In m default_names -> endswith m "/data/api" = false).
  { intros m H. repeat (destruct H as [<-|H]; [reflexivity|]). destruct H. }
  split; [split; reflexivity|]. split; [exact E|]. split; [intros [H|[H|H]]; discriminate|]. split.
  { intros [(n & Hn & H)|(e & He & H)]; [rewrite E in H by exact Hn; discriminate|]. repeat (destruct He as [<-|He]; [discriminate|]). destruct He. }
  split; [split; reflexivity|]. split; [right; right; reflexivity|]. split; vm_compute; reflexivity.
Qed.
