(** * Facts about App.v: loading. *)
From Coq Require Import String List Bool Arith Lia.
From Verif Require Import PyStr PyStrFacts PyVal PyValFacts Jp Urls Obj Store SpecStore StoreFacts StoreFacts2 App SpecApp.
Import ListNotations.
Open Scope string_scope. Open Scope nat_scope.

Lemma doc_version_declares d v : doc_version (JDict d) = Ok (Some v) <-> declares d v.
Proof.
  unfold doc_version, get_swagger_version, declares. split.
  - intros H. injection H as H. destruct (lookup "swaggerVersion" d) as [x|].
    { destruct x; try discriminate H; injection H as <-; (split; [discriminate|auto]). }
    destruct (lookup "swagger" d) as [x|].
    { destruct x; try discriminate H; injection H as <-; (split; [discriminate|auto]). }
    destruct (lookup "openapi" d) as [x|]; [|discriminate H]. destruct x; try discriminate H; injection H as <-; (split; [discriminate|auto]).
  - intros (N & [H|[[H1 H]|(H1 & H2 & H)]]); rewrite ?H1, ?H2, H; destruct v; congruence.
Qed.
Lemma doc_version_none d : doc_version (JDict d) = Ok None <-> declares_none d.
Proof.
  split.
  - intros H v D. apply doc_version_declares in D. congruence.
  - intros H. destruct (doc_version (JDict d)) as [[v|]|e] eqn:E; [|reflexivity|discriminate E]. apply doc_version_declares in E. now destruct (H v).
Qed.

Section Load.
  Variables (path2url abspath : string -> string) (fetch : string -> res json).
  Notation load := (load_obj path2url abspath fetch).
  Notation split := (split path2url abspath).

  Lemma cached_step a url jp v : match version_key v with Some k => get_obj url jp k | None => ret None end a = (a, cached_for a url jp v).
  Proof. unfold cached_for, version_key, get_obj, ret. destruct v as [[| | | |[|c s]| |]|]; reflexivity. Qed.
  Definition after_under (a : app) (url jp : string) (v : option json) (remove : bool) : store sobj * res (option (list (string * sobj))) :=
    match version_key v with Some k => store_get_under (a_store a) url jp k remove | None => (a_store a, Ok None) end.
  Lemma under_step a url jp v r : match version_key v with Some k => get_under url jp k r | None => ret None end a =
    (with_store a (fst (after_under a url jp v r)), snd (after_under a url jp v r)).
  Proof.
    unfold after_under, get_under, ret. destruct (version_key v) as [k|]; [now destruct (store_get_under _ _ _ _ _)|].
    cbn [fst snd]. now destruct a.
  Qed.

  Lemma load_cached jref p r a src v url jp o : fetch jref = Ok src -> doc_version src = Ok v -> split jref = Ok (url, jp) ->
    cached_for a url jp v = Ok (Some o) -> so_truthy o = true -> load jref p r a = (a, Ok o).
  Proof.
    intros F V S C T. unfold load_obj, bindm, lift. rewrite F, V, S. rewrite cached_step, C, T. reflexivity.
  Qed.
  Lemma load_fresh jref p r a src v url jp : fetch jref = Ok src -> doc_version src = Ok v -> split jref = Ok (url, jp) -> not_cached a url jp v ->
    load jref p r a =
      let (s, u) := after_under a url jp v r in
      match u with
      | Err e => (with_store a s, Err e)
      | Ok ovr =>
          let a1 := with_event (with_store a s) (EParse url jp) in
          match parse fetch src jref url v (overrides ovr) p with
          | Err e => (a1, Err e)
          | Ok (o, v', url') =>
              if so_truthy o then
                match store_set so_base s o url' jp v' with
                | Err e => (a1, Err e)
                | Ok s' => (mk_app s' (if is_root o then so_version o else a_original a) (a_current a) (EParse url jp :: a_log a), Ok o)
                end
              else (a1, Err PyException)
          end
      end.
  Proof.
    intros F V S C. unfold load_obj, bindm at 1 2 3, lift. rewrite F, V, S. unfold bindm at 1. rewrite cached_step.
    assert (K : exists c, cached_for a url jp v = Ok c /\ match c with Some o => so_truthy o | None => false end = false).
    { destruct C as [C|(o & C & T)]; [exists None|exists (Some o)]; auto. }
    destruct K as (c & -> & ->). unfold bindm at 1. rewrite under_step. destruct (after_under a url jp v r) as [s u]. cbn [fst snd].
    destruct u as [ovr|e]; [|reflexivity]. unfold bindm at 1, emit. unfold bindm at 1.
    destruct (parse fetch src jref url v (overrides ovr) p) as [[[o v'] url']|e]; [|reflexivity].
    destruct (so_truthy o); [|reflexivity]. unfold bindm, set_obj. cbn [a_store with_event with_store].
    destruct (store_set so_base s o url' jp v') as [s'|e]; [|reflexivity]. unfold ret, set_original. now destruct (is_root o).
  Qed.

  (** what is parsed *)
  Lemma construct_class tbl j c path ovr o : construct tbl j (BCls c) path ovr = Ok o -> instance c j o.
  Proof.
    intros H. destruct j; cbn in H;
      (destruct (split_override ovr) as [m|]; [|discriminate H]; cbn [bind] in H; destruct (lookup c tbl) as [cd|]; [|discriminate H];
       match type of H with bind ?x _ = _ => destruct x as [kids|]; [|discriminate H] end; cbn [bind] in H; injection H as <-; exists path, kids; reflexivity).
  Qed.
  Lemma parse_version src jref url v ovr p o v' url' : parse fetch src jref url (Some v) ovr p = Ok (o, v', url') ->
    (v = JStr "1.2" /\ v' = "1.2" /\ so_version o = "1.2" /\ instance "ResourceListing" src (so_obj o)) \/
    (v = JStr "2.0" /\ v' = "2.0" /\ so_version o = "2.0" /\ instance "Swagger" src (so_obj o) /\ url' = url) \/
    (v = JStr "3.0.0" /\ v' = "3.0.0" /\ so_version o = "3.0.0" /\ instance "OpenApi" src (so_obj o) /\ url' = url).
  Proof.
    unfold parse. destruct v as [| | | |v| |]; try discriminate. destruct (String.eqb_spec v "1.2") as [->|].
    - destruct (construct _ _ _ _ _) as [x|] eqn:C; [|discriminate]. cbn [bind]. destruct (resource_paths x) as [ps|]; [|discriminate]. cbn [bind].
      destruct (load_apis _ _ _ ps) as [[apis u]|]; [|discriminate]. cbn [bind fst snd]. intros H. injection H as <- <- <-. left. apply construct_class in C. auto.
    - destruct (String.eqb_spec v "2.0") as [->|].
      + destruct (construct _ _ _ _ _) as [x|] eqn:C; [|discriminate]. cbn [bind]. intros H. injection H as <- <- <-. right. left. apply construct_class in C. auto.
      + destruct (String.eqb_spec v "3.0.0") as [->|]; [|discriminate].
        destruct (construct _ _ _ _ _) as [x|] eqn:C; [|discriminate]. cbn [bind]. intros H. injection H as <- <- <-. right. right. apply construct_class in C. auto.
  Qed.
  Lemma parse_other src jref url v ovr p : v <> JStr "1.2" -> v <> JStr "2.0" -> v <> JStr "3.0.0" -> parse fetch src jref url (Some v) ovr p = Err NotImplementedError.
  Proof.
    intros A B C. unfold parse. destruct v as [| | | |v| |]; try reflexivity.
    destruct (String.eqb_spec v "1.2") as [->|]; [congruence|]. destruct (String.eqb_spec v "2.0") as [->|]; [congruence|]. destruct (String.eqb_spec v "3.0.0") as [->|]; [congruence|]. reflexivity.
  Qed.
  Lemma parse_none src jref url ovr p o v' url' : parse fetch src jref url None ovr p = Ok (o, v', url') ->
    exists pv b, p = Some (pv, b) /\ construct (table_of pv) src b (Some jref) [] = Ok (so_obj o) /\ so_version o = pv /\ url' = url /\
                 v' = match so_obj o with OObj _ _ _ _ => pv | _ => "" end.
  Proof.
    unfold parse. destruct p as [[pv b]|]; [|discriminate]. destruct (construct _ _ _ _ _) as [x|] eqn:C; [|discriminate]. cbn [bind]. intros H. injection H as <- <- <-.
    exists pv, b. cbn [so_obj so_version]. auto.
  Qed.
  Lemma parse_ignores src jref url v ovr p p' : parse fetch src jref url (Some v) ovr p = parse fetch src jref url (Some v) ovr p'.
  Proof. unfold parse. now destruct v. Qed.
  Lemma load_split_err jref p r a src v e : fetch jref = Ok src -> doc_version src = Ok v -> split jref = Err e -> load jref p r a = (a, Err e).
  Proof. intros F V S. unfold load_obj, bindm, lift. now rewrite F, V, S. Qed.
  Lemma load_cached_err jref p r a src v url jp e : fetch jref = Ok src -> doc_version src = Ok v -> split jref = Ok (url, jp) ->
    cached_for a url jp v = Err e -> load jref p r a = (a, Err e).
  Proof. intros F V S C. unfold load_obj, bindm, lift. rewrite F, V, S. now rewrite cached_step, C. Qed.
  Lemma load_fetch_err jref p r a e : fetch jref = Err e -> load jref p r a = (a, Err e).
  Proof. intros F. unfold load_obj, bindm, lift. now rewrite F. Qed.
  Lemma load_version_err jref p r a src e : fetch jref = Ok src -> doc_version src = Err e -> load jref p r a = (a, Err e).
  Proof. intros F V. unfold load_obj, bindm, lift. now rewrite F, V. Qed.
  Lemma load_ignores_parser jref d v p p' r a : fetch jref = Ok (JDict d) -> declares d v -> load jref p r a = load jref p' r a.
  Proof.
    intros F D. apply doc_version_declares in D. destruct (split jref) as [[url jp]|e] eqn:S.
    2:{ now rewrite !(load_split_err _ _ _ _ _ _ _ F D S). }
    destruct (cached_for a url jp (Some v)) as [[o|]|e] eqn:C.
    - destruct (so_truthy o) eqn:T.
      + now rewrite !(load_cached _ _ _ _ _ _ _ _ _ F D S C T).
      + rewrite !(load_fresh _ _ _ _ _ _ _ _ F D S) by (right; eauto). destruct (after_under a url jp (Some v) r) as [s [u|e]]; [|reflexivity]. now rewrite (parse_ignores _ _ _ _ _ p p').
    - rewrite !(load_fresh _ _ _ _ _ _ _ _ F D S) by (left; exact C). destruct (after_under a url jp (Some v) r) as [s [u|e]]; [|reflexivity]. now rewrite (parse_ignores _ _ _ _ _ p p').
    - now rewrite !(load_cached_err _ _ _ _ _ _ _ _ _ F D S C).
  Qed.
End Load.
