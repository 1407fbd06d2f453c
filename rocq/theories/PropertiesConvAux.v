(** * Small lemmas and helpers for the examples of PropertiesConv1 and PropertiesConv2. *)
From Coq Require Import String Ascii List Bool Arith.
From Verif Require Import PyStr PyVal Obj Classes_v2_0 SpecJson SpecObj SpecSchema SpecConv SpecBody SpecOp SpecDoc SpecGiven Store Conv20.
From Verif Require Import ConvFacts SchemaFacts SchemaFacts2 ParamFacts BodyFacts PathFacts2 DocFacts DocFacts2 RelocFacts RelocFacts2 RelocFacts3 RelocFacts4 ParamListFacts OpFacts2 UrlLib SpecUrl Up30Facts.
Import ListNotations.
Open Scope string_scope. Open Scope nat_scope.

(** ** for examples *)
(** the object loaded from a concrete document *)
Definition load (c : string) (d : doc) : obj := match construct v20_table (JDict d) (BCls c) (Some "#") [] with Ok o => o | Err _ => OPrim JNull end.
(** nothing is a reference *)
Definition no_refs (o : obj) : res obj := Ok o.
Definition no_normalized (o : obj) : res json := Err AttributeError.
Ltac norm_arg f := lazymatch goal with |- f ?x => let y := eval vm_compute in x in change (f y) end.
Ltac doc_tac :=
  lazymatch goal with
  | |- schema_doc _ => norm_arg schema_doc; constructor;
      [first [left; vm_compute; reflexivity | right; doc_tac]
      |first [left; vm_compute; reflexivity | right; eexists; split; [vm_compute; reflexivity|doc_tac]]
      |first [left; vm_compute; reflexivity | right; eexists; split; [vm_compute; reflexivity|doc_tac]]
      |first [left; vm_compute; reflexivity | right; left; eexists; vm_compute; reflexivity | right; right; doc_tac]
      |first [left; vm_compute; reflexivity | right; eexists; vm_compute; reflexivity]
      |first [left; vm_compute; reflexivity | right; eexists; vm_compute; reflexivity]]
  | |- items_doc _ => norm_arg items_doc; constructor; first [left; vm_compute; reflexivity | right; doc_tac]
  | |- Forall _ (_ :: _) => constructor; [cbn [fst snd]; doc_tac|doc_tac]
  | |- Forall _ [] => constructor
  | |- param_doc _ => split; [first [left; vm_compute; reflexivity | right; doc_tac]|split; [first [left; vm_compute; reflexivity | right; doc_tac]|first [left; vm_compute; reflexivity | right; eexists; vm_compute; reflexivity]]]
  | |- form_param _ => split; [doc_tac|split; [vm_compute; reflexivity|split; [vm_compute; reflexivity|eexists; vm_compute; reflexivity]]]
  | |- body_param _ => split; [doc_tac|split; [vm_compute; reflexivity|split; [vm_compute; discriminate|vm_compute; discriminate]]]
  | |- wf_json _ => vm_compute; repeat first [apply conj | exact I | apply NoDup_nil | apply NoDup_cons; [cbn; intuition discriminate|]]
  | |- loaded _ _ _ => exists (Some "#"); vm_compute; reflexivity
  end.
Lemma no_refs_schema s (b : bool) : is_text "file" (val s "type") = b -> schema_resolves no_refs (JDict s) b.
Proof. intros H so L. exists so, s. auto. Qed.
Lemma no_refs_refers c q : is_reference q = false -> refers no_refs c q q.
Proof.
  intros R. split.
  - intros v H. unfold is_reference, mem in R. rewrite H in R. discriminate.
  - intros o L. exists o. split; [reflexivity|]. split; [|auto]. pose proof (loaded_ref_else _ _ _ _ L) as X. unfold is_reference in R. rewrite R in X. exact X.
Qed.
Lemma no_refs_given q o : is_reference q = false -> loaded (BCls "Parameter") (JDict q) o -> param_given no_refs q q o.
Proof.
  intros R L. exists o. split; [reflexivity|]. split; [exact L|]. rewrite R. split; [|auto].
  intros v H. unfold is_reference, mem in R. rewrite H in R. discriminate.
Qed.

(** ** C36 *)
Lemma style_table_result f i t se : to_style_and_explode f i t = Ok se ->
  (exists f' i', f = JStr f' /\ i = JStr i' /\ In (f', i', se) style_table) \/
  (se = no_style /\ forall f' i' se', f = JStr f' -> i = JStr i' -> ~ In (f', i', se') style_table).
Proof.
  intros H. apply style_result in H. subst se. unfold style_spec.
  destruct f as [| | | |f| |]; try (right; split; [reflexivity|intros ? ? ? H; discriminate H]).
  destruct i as [| | | |i| |]; try (right; split; [reflexivity|intros ? ? ? _ H; discriminate H]).
  unfold style_lookup. destruct (find _ _) as [[[f' i'] se]|] eqn:E.
  - left. exists f, i. split; [reflexivity|]. split; [reflexivity|]. apply find_some in E as [I X]. cbn [fst snd] in X. apply andb_true_iff in X as [X Y].
    apply String.eqb_eq in X, Y. now subst.
  - right. split; [reflexivity|]. intros f' i' se' X Y I. injection X as <-. injection Y as <-. pose proof (find_none _ _ E _ I) as Z. cbn [fst snd] in Z.
    rewrite !String.eqb_refl in Z. discriminate.
Qed.
Lemma style_raises_iff f i t e : to_style_and_explode f i t = Err e <->
  e = SchemaError /\ (f = JStr "ssv" \/ f = JStr "pipes") /\ ~ (i = JStr "query" /\ t = JStr "array").
Proof.
  split.
  - intros H. pose proof (style_errors f i t e H) as ->. split; [reflexivity|]. now apply style_raises.
  - intros (-> & H). now apply style_raises.
Qed.
Lemma table_wire f i se items : In (f, i, se) style_table ->
  to_style_and_explode (JStr f) (JStr i) (JStr "array") = Ok se /\ exists w, wire20 f items = Some w /\ wire30 i se items = Some w.
Proof.
  intros H. cbn in H. repeat (destruct H as [H|H]; [injection H as <- <- <-; split; [reflexivity|eexists; split; reflexivity]|]). destruct H.
Qed.

Lemma empty_holds t : body_holds t [] [].
Proof.
  unfold body_holds, has_media, body_properties, body_required, body_encoding, media, subd, arr. generalize (form_type t). intros ft. cbn.
  split; [split; intros X; exfalso; apply X; reflexivity|]. split; [constructor|]. split; [reflexivity|]. split; [destruct ft; constructor|]. auto.
Qed.

(** ** C42, C43 *)
Lemma path_item_one_body deref nr d o ps root cs pr x reloc m od :
  loaded (BCls "PathItem") (JDict d) o -> params_at deref (val d "parameters") ps -> Forall (fun pq => param_doc (snd pq)) ps ->
  to_path_item deref nr o root cs pr = Ok (x, reloc) ->
  (exists pq, In pq ps /\ is_merged (snd pq) = true) -> In m methods -> val d m = JDict od ->
  exists y b, lookup m x = Some (JDict y) /\ lookup "requestBody" y = Some (JDict b) /\ lookup internal_body x = Some (JDict b).
Proof.
  intros L P D H (pq & I & M) Im Ev. destruct (path_item_operation deref nr d o ps root cs pr x reloc m od L P D H Im Ev) as (op & y & body & b0 & _ & _ & X).
  destruct (no_merged ps) eqn:N.
  - exfalso. unfold no_merged in N. rewrite forallb_forall in N. apply N in I. rewrite M in I. discriminate.
  - destruct X as (b & E1 & E2). exists (with_body y (Some b)), b. split; [exact E2|]. split; [|exact E1]. cbn [with_body]. rewrite BodyFacts.lookup_set. reflexivity.
Qed.
Lemma mime_file cs t : In t (valid_mime_types (mk_pctx true true false) cs) <-> sent_with cs file_media_types "multipart/form-data" t.
Proof. exact (mime_form [("type", JStr "file")] cs t). Qed.
Lemma mime_only_form cs t : In t (valid_mime_types (mk_pctx true false true) cs) <-> sent_with cs form_media_types "application/x-www-form-urlencoded" t.
Proof. exact (mime_form [] cs t). Qed.

(** ** C38: references to definitions *)
Lemma valid_document deref nr d o x sec reloc simple target target' s so s' inst :
  loaded (BCls "Swagger") (JDict d) o -> document d -> to_openapi deref nr o = Ok (x, sec, reloc) ->
  (forall n t, lookup n (entries_of (val d "definitions")) = Some t -> schema_doc t /\ file_free t) ->
  (forall r t, target r = Some t -> exists n, r = JStr (pointer ["definitions"; n]) /\ lookup n (entries_of (val d "definitions")) = Some t) ->
  (forall n tokens t', target (JStr (pointer ["definitions"; n])) <> None -> patch_jp (pointer ["definitions"; n]) (at_root reloc) = Ok (pointer tokens) -> jget (JDict x) tokens t' ->
     target' (JStr (pointer ["definitions"; n])) = Some t') ->
  (forall r, target r = None -> target' r = None) ->
  wf_json s -> schema_doc s -> file_free s -> loaded (BCls "Schema") s so -> to_schema false so = Ok s' ->
  ((forall n, valid simple target n s inst) <-> (forall n, valid simple target' n (JDict s') inst)).
Proof.
  intros L D E Hd Ht Ht' Hn W S F Ls Es.
  assert (Im : schema_image s (JDict s')).
  { destruct Ls as [p Lp]. destruct (schema_converted s p W S) as (o' & d' & C & T & I). congruence. }
  assert (X : forall n, valid simple target n s inst <-> valid simple target' n (JDict s') inst).
  { intros n. apply valid_preserved; [|exact S|exact F|exact Im]. intros r. destruct (target r) as [t|] eqn:Et.
    - destruct (Ht r t Et) as (m & -> & Lm). destruct (Hd m t Lm) as [St Ft].
      destruct (definition_reference deref nr d o x sec reloc m t [] t L D E Lm St (sub_here t)) as (Pt & r' & J & Ir).
      exists r'. split; [|auto]. apply (Ht' m ["components"; "schemas"; m] r'); [congruence|exact Pt|exact J].
    - exact (Hn r Et). }
  split; intros H n; apply X, H.
Qed.

(** ** C46 *)
Lemma document_names deref nr d o x sec reloc :
  loaded (BCls "Swagger") (JDict d) o -> document d -> plain_params deref d -> to_openapi deref nr o = Ok (x, sec, reloc) ->
  keys (subd "paths" x) = keys (entries_of (val d "paths")) /\
  keys (subd "schemas" (subd "components" x)) = keys (entries_of (val d "definitions")) /\
  keys (subd "responses" (subd "components" x)) = keys (entries_of (val d "responses")) /\
  keys (subd "securitySchemes" (subd "components" x)) = keys (entries_of (val d "securityDefinitions")) /\
  (exists tags, lookup "tags" x = some_list tags /\ Forall2 (fun t t' => exists td td', t = JDict td /\ t' = JDict td' /\ tag_image td td') (elements_of (val d "tags")) tags) /\
  (forall n, mem n (subd "parameters" (subd "components" x)) = true <-> (exists q, lookup n (entries_of (val d "parameters")) = Some (JDict q) /\ is_merged q = false)) /\
  (forall n, mem n (subd "requestBodies" (subd "components" x)) = true <-> merged_name d n) /\
  (forall k v, lookup k x = Some v -> In k ["openapi"; "info"; "servers"; "paths"; "tags"; "externalDocs"; "components"]) /\
  (forall k v, lookup k (subd "components" x) = Some v -> In k ["schemas"; "parameters"; "requestBodies"; "responses"; "securitySchemes"]).
Proof.
  intros L (W & D1 & D2 & D3 & D4) P E.
  destruct (to_openapi_ok deref nr d o x sec reloc L W D1 D2 D3 D4 E) as (url & paths & schemas & ys & resps & secs & _ & _ & _ & _ & _ & Ht & Hp & Ep & Hs & Es & Hg & Eg1 & Eg2 & Hr & Er & Hc & Ec & Hk & _ & _ & Hx & _).
  assert (S : forall k y l, lookup k y = some_dict l -> subd k y = l) by (intros k y l H; unfold subd; rewrite H; destruct l; reflexivity).
  unfold components in *. rewrite (S _ _ _ Ep), (S _ _ _ Es), (S _ _ _ Er), (S _ _ _ Ec), (S _ _ _ Eg1), (S _ _ _ Eg2).
  split. { clear - Hp. induction Hp as [|a b l m (E & _) _ IH]; [reflexivity|]. unfold keys in *. cbn [map]. cbn [fst]. congruence. }
  split; [exact (each_keys _ _ _ _ Hs)|]. split; [exact (each_keys _ _ _ _ Hr)|]. split; [exact (each_keys _ _ _ _ Hc)|]. split; [exact Ht|].
  pose proof (nodup_entries d "parameters" W) as Nd. pose proof (global_nodup deref _ _ Hg Nd) as Ny.
  split; [|split; [|split]].
  - intros n. unfold mem. rewrite lookup_as_doc. unfold other_ones. rewrite (lookup_filter _ ys n Ny). cbn [snd]. destruct (lookup n ys) as [y|] eqn:Ey.
    + destruct (global_lookup_back deref _ _ n y Hg Ey) as (v & o' & Lv & Lo & Ef). destruct (P n v Lv) as (q & -> & Rq & Rf & Pq). destruct y as [dd c]. cbn [snd].
      pose proof (from_parameter_kind deref q q o' None [] dd c (plain_given deref q o' Rq Rf Lo) Ef) as Ei. rewrite Ei. rewrite Lv.
      destruct (is_merged q) eqn:M; cbn [negb]; split; try discriminate; try reflexivity; [|eauto]. intros (q' & Eq & M'). injection Eq as <-. congruence.
    + split; [discriminate|]. intros (q & Lv & _). destruct (global_lookup deref _ _ n _ Hg Lv) as (o' & y & Ey' & _). congruence.
  - intros n. unfold mem. rewrite lookup_as_doc. destruct (lookup n (body_ones ys)) as [y|] eqn:Ey.
    + split; [|reflexivity]. intros _. exact (proj2 (proj1 (body_ones_spec deref nr d ys n Hg Nd P y) Ey)).
    + split; [discriminate|]. intros M. pose proof M as (q & Lv & _). destruct (global_lookup deref _ _ n _ Hg Lv) as (o' & y & Ey' & _).
      rewrite (proj2 (body_ones_spec deref nr d ys n Hg Nd P y) (conj Ey' M)) in Ey. discriminate.
  - intros k v H. destruct (in_dec string_dec k ["openapi"; "info"; "servers"; "paths"; "tags"; "externalDocs"; "components"]) as [I|I]; [exact I|]. rewrite (Hx k I) in H. discriminate.
  - intros k v H. destruct (in_dec string_dec k ["schemas"; "parameters"; "requestBodies"; "responses"; "securitySchemes"]) as [I|I]; [exact I|]. rewrite (Hk k I) in H. discriminate.
Qed.
Lemma path_x deref nr d o p v : loaded (BCls "Swagger") (JDict d) o -> document d -> lookup p (entries_of (val d "paths")) = Some v -> startswith "x-" p = true ->
  forall r, to_openapi deref nr o <> Ok r.
Proof.
  intros L (W & D1 & D2 & D3 & D4) Lp X [[x sec] reloc] E.
  destruct (to_openapi_ok deref nr d o x sec reloc L W D1 D2 D3 D4 E) as (url & paths & schemas & ys & resps & secs & _ & _ & _ & _ & _ & _ & Hp & _).
  clear -Hp Lp X. induction Hp as [|[k j] b l m (E & S & _) _ IH]; [discriminate|]. cbn [lookup fst] in *. destruct (String.eqb_spec p k) as [->|]; [congruence|auto].
Qed.
Lemma operation_in_document deref nr d o x sec reloc p m pd od ps qs rs :
  loaded (BCls "Swagger") (JDict d) o -> document d -> to_openapi deref nr o = Ok (x, sec, reloc) ->
  lookup p (entries_of (val d "paths")) = Some (JDict pd) -> params_at deref (val pd "parameters") ps -> Forall (fun pq => param_doc (snd pq)) ps ->
  In m methods -> val pd m = JDict od -> wf_json (JDict od) -> params_at deref (val od "parameters") qs -> Forall (fun pq => param_doc (snd pq)) qs ->
  responses_at deref (val od "responses") rs -> object_or_null (val od "externalDocs") ->
  exists y y0 url, jget (JDict x) ["paths"; p; m] (JDict y) /\ operation_image (fun s => with_scheme s url) (texts (val d "produces")) od qs rs y0 /\
    (forall k, k <> "requestBody" -> lookup k y = lookup k y0) /\ lookup "servers" x = Some (JList [JDict [("url", JStr url)]]).
Proof.
  intros L (W & D1 & D2 & D3 & D4) E Lp P Pd Im Ev Wo Q Qd R Ho.
  destruct (to_openapi_ok deref nr d o x sec reloc L W D1 D2 D3 D4 E) as (url & paths & schemas & ys & resps & secs & _ & _ & _ & Es & _ & _ & Hp & Ep & _).
  destruct (path_lookup deref nr _ _ _ _ _ p _ Hp Lp) as (po & y & r & Lo & Et & _ & Ly).
  destruct (path_item_operation deref nr pd po ps url _ _ y r m od Lo P Pd Et Im Ev) as (op & y0 & body & b0 & Lop & Eo & X).
  destruct (to_operation_ok deref od op qs rs b0 url _ _ y0 body Lop Wo Q R Ho Qd Eo) as (Im0 & _).
  assert (Y : exists b, lookup m y = Some (JDict (with_body y0 b))) by (destruct (no_merged ps); [destruct X as [_ X]; eauto|destruct X as (b & _ & X); eauto]).
  destruct Y as [b Y]. exists (with_body y0 b), y0, url. split.
  { eapply jg_key; [rewrite Ep; exact (some_dict_lookup _ _ _ _ Ly eq_refl)|]. eapply jg_key; [exact Ly|]. eapply jg_key; [exact Y|constructor]. }
  split; [exact Im0|]. split; [|exact Es]. intros k Hk. destruct b as [b|]; [|reflexivity]. cbn [with_body]. rewrite BodyFacts.lookup_set. destruct (String.eqb_spec "requestBody" k); [congruence|reflexivity].
Qed.
(** ** C49 *)
Lemma document_server deref nr d o x sec reloc :
  loaded (BCls "Swagger") (JDict d) o -> document d -> to_openapi deref nr o = Ok (x, sec, reloc) ->
  text_or_null (val d "host") -> text_or_null (val d "basePath") -> ~ In "" (texts (val d "schemes")) ->
  (text_of (val d "host") <> "" \/ (Forall (fun s => In s ["http"; "https"; "ws"; "wss"]) (texts (val d "schemes")) /\ startswith "//" (text_of (val d "basePath")) = false)) ->
  lookup "servers" x = Some (JList [JDict [("url", JStr (server_text (text_of (val d "host")) (text_of (val d "basePath")) (texts (val d "schemes"))))]]).
Proof.
  intros L (W & D1 & D2 & D3 & D4) E H1 H2 H3 H4.
  destruct (to_openapi_ok deref nr d o x sec reloc L W D1 D2 D3 D4 E) as (url & paths & schemas & ys & resps & secs & Eu & _ & _ & Es & _).
  rewrite (server_url_ok d o L H1 H2 H3 H4) in Eu. injection Eu as <-. exact Es.
Qed.
Lemma operation_servers deref d o ps rs body body' scheme host path pr cs x :
  loaded (BCls "Operation") (JDict d) o -> wf_json (JDict d) -> params_at deref (val d "parameters") ps -> responses_at deref (val d "responses") rs ->
  object_or_null (val d "externalDocs") -> Forall (fun pq => param_doc (snd pq)) ps -> ~ In "" (texts (val d "schemes")) ->
  scheme <> "" -> Forall scheme_letter (chars scheme) -> host <> "" -> free_of "/?#" host -> free_of "?#" path -> (path = "" \/ exists p, path = String "/" p) ->
  to_operation deref o body (scheme ++ "://" ++ host ++ path) pr cs = Ok (x, body') ->
  lookup "servers" x = some_list (map (fun s => JDict [("url", JStr (s ++ "://" ++ host ++ path))]) (texts (val d "schemes"))).
Proof.
  intros L W P R E D N S1 S2 H1 H2 H3 H4 H. destruct (to_operation_ok deref d o ps rs body _ pr cs x body' L W P R E D H) as ((_ & _ & _ & _ & _ & _ & Es & _) & _).
  rewrite Es. f_equal. apply map_ext_in. intros s I. rewrite with_scheme_abs; try assumption; [reflexivity|]. intros ->. contradiction.
Qed.
Lemma docs_ok d o : loaded (BCls "ExternalDocumentation") (JDict d) o -> exists x, to_external_docs o = Ok x /\ docs_image d x.
Proof. exact (external_docs_ok o d). Qed.
