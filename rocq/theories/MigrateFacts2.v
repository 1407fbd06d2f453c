(** * When the migration to OpenAPI 3.0 succeeds: documents. *)
From Coq Require Import String Ascii List Bool Arith Lia.
From Verif Require Import PyStr PyStrFacts PyVal PyValFacts Jp JpFacts UrlLib Obj ObjFacts Classes_v2_0 TablesFacts SpecJson ShapeFacts DumpFacts SpecObj SpecSchema SpecConv SpecBody SpecOp SpecDoc Store Conv20 ConvFacts SchemaFacts SchemaFacts2 ParamFacts BodyFacts BodyFacts2 ParamListFacts ParamListFacts2 ParamListFacts3 OpFacts OpFacts2 PathFacts PathFacts2 DocFacts DocFacts2 TotalFacts SpecGiven SpecMigrate MigrateFacts CompareFacts.
Import ListNotations.
Open Scope string_scope. Open Scope nat_scope.

Lemma scheme_outcome s o : loaded (BCls "SecurityScheme") (JDict s) o -> text_or_null (val s "flow") ->
  outcome (to_security_scheme o) (val s "type" = JStr "oauth2" -> val s "flow" <> JNull /\ val s "flow" <> JStr "").
Proof.
  intros L Hf. unfold to_security_scheme. rewrite (gfield_none_val "SecurityScheme" s o "type" L eq_refl). cbn [bind]. change (fval "SecurityScheme" s "type") with (val s "type").
  eapply (outcome_bind _ _ _ (val s "type" = JStr "oauth2" -> val s "flow" <> JNull /\ val s "flow" <> JStr "")); [|auto|].
  - destruct (json_is_str "basic" (val s "type")); [apply outcome_ok|]. destruct (json_is_str "oauth2" (val s "type")) eqn:Eo; [|apply outcome_ok].
    apply json_is_str_spec in Eo. unfold to_flows. rewrite (gfield_val "SecurityScheme" s o "flow" L eq_refl). cbn [bind].
    destruct Hf as [Hf|[f Hf]]; rewrite Hf; cbn [truthy negb bind].
    + right. split; [reflexivity|]. intros X. destruct (X Eo). congruence.
    + destruct f as [|c f]; [right; split; [reflexivity|]; intros X; destruct (X Eo); congruence|]. cbn [truthy_str negb key_of bind].
      destruct (generate_fields_ok o (val s) ["authorizationUrl"; "tokenUrl"]) as (gs & -> & _ & G).
      { intros n Hn. repeat (destruct Hn as [<-|Hn]; [match goal with |- gfield_none o ?n = _ => exact (gfield_none_val "SecurityScheme" s o n L eq_refl) end|]). destruct Hn. }
      cbn [bind]. destruct (gattr_child "SecurityScheme" s o "scopes" _ L eq_refl) as [[Hv Gc]|(Hv & ko & Gc & Lk & _)]; rewrite Gc; cbn [bind]; [apply outcome_ok|].
      rewrite (map_dump BStr _ _ raw_str Lk). cbn [bind]. destruct (truthy_obj ko); apply outcome_ok.
  - intros r _. destruct (generate_fields_ok o (val s) ["description"; "name"; "in"]) as (fs & -> & _).
    { intros n Hn. repeat (destruct Hn as [<-|Hn]; [match goal with |- gfield_none o ?n = _ => exact (gfield_none_val "SecurityScheme" s o n L eq_refl) end|]). destruct Hn. }
    cbn [bind]. apply outcome_ok.
Qed.

Lemma plain_loaded r c q e : is_reference q = false -> loaded (BCls c) (JDict q) e -> loaded (BRefElse r (BCls c)) (JDict q) e.
Proof. intros I [pth L]. exists pth. rewrite construct_eq in *. cbn [select py_in bind]. unfold is_reference in I. rewrite I. exact L. Qed.
Lemma val_entries (d : dict) k n v : wf_json (JDict d) -> lookup n (entries_of (val d k)) = Some v -> wf_json v.
Proof.
  intros W H. pose proof (wf_val d k W) as Wv. destruct (val d k) as [| | | | | |l] eqn:E; try discriminate. cbn [entries_of] in H. apply wf_dict in Wv as [_ F]. apply TablesFacts.lookup_In in H. exact (F _ _ H).
Qed.
Section Doc.
  Variables (deref : obj -> res obj) (normalized_ref : obj -> res json).
  (** a loop over the entries of an object *)
  Lemma loop_outcome {S} (b : builder) (g : S -> string * obj -> res S) (P : string -> json -> Prop) (l : dict) es :
    NoDup (keys l) -> Forall2 (fun x e => fst x = fst e /\ loaded b (snd x) (snd e)) l es ->
    (forall n v e acc, lookup n l = Some v -> loaded b v e -> outcome (g acc (n, e)) (P n v)) ->
    forall acc, outcome (foldM g es acc) (forall n v, lookup n l = Some v -> P n v).
  Proof.
    intros N F H. set (C := forall n v, lookup n l = Some v -> P n v).
    assert (G : forall l' es', Forall2 (fun x e => fst x = fst e /\ loaded b (snd x) (snd e)) l' es' -> (forall x, In x l' -> In x l) -> forall acc, outcome (foldM g es' acc) C).
    { clear F. induction 1 as [|[n v] [n' e] l' es' [E L] F IH]; intros I acc; cbn [foldM]; [apply outcome_ok|]. cbn [fst snd] in *. subst n'.
      assert (Ln : lookup n l = Some v) by (apply CompareFacts.in_lookup_wf; [exact N|apply I; now left]).
      eapply outcome_bind; [exact (H n v e acc Ln L)|intros X; exact (X n v Ln)|]. intros a _. apply IH. intros x Hx. apply I. now right. }
    intros acc. exact (G l es F (fun x h => h) acc).
  Qed.
  Lemma params_map_outcome (l : dict) es :
    NoDup (keys l) -> Forall2 (fun x e => fst x = fst e /\ loaded (BCls "Parameter") (snd x) (snd e)) l es ->
    (forall n v, lookup n l = Some v -> exists q, v = JDict q /\ is_reference q = false /\ refers deref "Parameter" q q /\ usable deref q) ->
    outcome (convert_global_params deref es) (forall n v, lookup n l = Some v -> forall q, v = JDict q -> format_ok q).
  Proof.
    intros N F H. unfold convert_global_params. apply (loop_outcome (BCls "Parameter") _ (fun n v => forall q, v = JDict q -> format_ok q) l es N F).
    intros n v e [[ps bs] rl] Ln Le. cbn [fst snd]. destruct (H n v Ln) as (q & -> & Ir & R & U).
    assert (G : param_given deref q q e). { exact (refers_param deref q q e R (plain_loaded _ _ _ _ Ir Le)). }
    eapply outcome_bind; [apply (outcome_of _ (format_ok q)); [exact (from_parameter_total deref q q e None [] G U body_ok_nil)|]| |intros [d c] _; apply outcome_ok].
    - intros Fq. destruct (step_fresh deref q q e None [] [] G U body_ok_nil Fq) as (d & c & E & _); [|eauto]. apply fresh_none. left. cbn [filter]. destruct (merges (q, q)); cbn; lia.
    - intros X. exact (X q eq_refl).
  Qed.
  Lemma server_total d o : loaded (BCls "Swagger") (JDict d) o -> text_or_null (val d "host") -> text_or_null (val d "basePath") -> exists u, server_url o = Ok u.
  Proof.
    intros L Hh Hb. unfold server_url. rewrite (gfield_val "Swagger" d o "host" L eq_refl), (gfield_val "Swagger" d o "basePath" L eq_refl). cbn [bind].
    assert (T : forall j, text_or_null j -> exists t, text_or_none j = Ok t) by (intros j [-> |[t ->]]; eexists; reflexivity).
    destruct (T _ Hh) as [h ->]. destruct (T _ Hb) as [b ->]. cbn [bind]. destruct (child_strs "Swagger" d o "schemes" L eq_refl) as (sx & -> & _). cbn [bind]. eauto.
  Qed.
  Theorem openapi_outcome path_ok d o : loaded (BCls "Swagger") (JDict d) o -> migratable deref normalized_ref path_ok d ->
    outcome (to_openapi deref normalized_ref o) ((forall k ps ops, path_ok k ps ops -> good_path k ps ops) /\ expressible_globals d).
  Proof.
    intros L ((W & Hi & Hil & He & Ht) & Hh & Hb & Hd & Hp & Hr & Hs & Hpa). unfold to_openapi. set (C := _ /\ expressible_globals d).
    assert (Xi : exists ki, gattr o "info" = Ok ki /\ forall ret, exists r, (if truthy_obj ki then (y <- to_info ki ;; Ok (dict_set "info" (JDict y) ret)) else Ok ret) = Ok r).
    { destruct (gattr_child "Swagger" d o "info" _ L eq_refl) as [[Hv G]|(Hv & ko & G & Lk & _)]; [exists (OPrim JNull); split; [exact G|intros ret; eexists; reflexivity]|].
      destruct Hi as [Hi|(i & Hi)]; [contradiction|]. rewrite Hi in Lk. destruct (Hil i Hi) as [H1 H2]. destruct (info_ok i ko Lk H1 H2) as (x' & E' & _). exists ko. split; [exact G|]. intros ret. rewrite E'. cbn [bind]. destruct (truthy_obj ko); eauto. }
    destruct Xi as (ki & -> & Ei). cbn [bind]. destruct (Ei [("openapi", JStr "3.0.0")]) as [r0 ->]. cbn [bind].
    destruct (server_total d o L Hh Hb) as [url ->]. cbn [bind].
    destruct (child_strs "Swagger" d o "consumes" L eq_refl) as (cx & -> & _). destruct (child_strs "Swagger" d o "produces" L eq_refl) as (px & -> & _). cbn [bind].
    destruct (map_child "Swagger" d o "paths" (BCls "PathItem") L eq_refl) as (kp & -> & Mp). cbn [bind].
    eapply (outcome_bind _ _ _ C); [|auto|].
    { destruct Mp as [[_ ->]|(es & _ & -> & -> & F)]; [apply outcome_ok|]. cbn [bind]. eapply (outcome_bind _ _ _ C); [|auto|intros x _; apply outcome_ok]. unfold convert_paths.
      eapply outcome_weak; [apply (loop_outcome (BCls "PathItem") _ (fun n v => C) _ es (nodup_entries d "paths" W) F)|auto].
      intros n v e [acc racc] Ln Le. cbn [fst snd]. destruct (Hpa n v Ln) as (p & ps & ops & -> & Gv & Po & Nr). destruct (startswith "x-" n) eqn:Ex.
      - right. split; [reflexivity|]. intros [G _]. destruct (G n ps ops Po). congruence.
      - eapply outcome_bind; [exact (path_outcome deref normalized_ref p e ps ops url (strs cx) (strs px) Le Gv (fun T => Nr T e Le))| |intros x _; apply outcome_ok]. intros [G _]. exact (proj2 (G n ps ops Po)). }
    intros [ret1 rel1] _. assert (Xs : exists so, gattr o "security" = Ok so) by (destruct (gattr_child "Swagger" d o "security" _ L eq_refl) as [[_ G]|(_ & ko & G & _)]; eauto). destruct Xs as [so ->]. cbn [bind].
    assert (Xt : exists kt, gattr o "tags" = Ok kt /\ forall ret, exists r, (if truthy_obj kt then (es <- elems kt ;; xs <- mapM (fun t => rmap JDict (to_tag t)) es ;; Ok (dict_set "tags" (JList xs) ret)) else Ok ret) = Ok r).
    { destruct (gattr_child "Swagger" d o "tags" _ L eq_refl) as [[Hv G]|(Hv & ko & G & Lk & _)]; [exists (OPrim JNull); split; [exact G|intros ret; eexists; reflexivity]|]. exists ko. split; [exact G|]. intros ret.
      destruct (loaded_list _ _ _ Lk) as (l & p & es & El & -> & F). rewrite El in Ht. cbn [elements_of] in Ht. cbn [elems bind].
      destruct (mapM_ok_ex (fun t => rmap JDict (to_tag t)) es) as [ys Ey].
      { intros t It. clear -F Ht It. induction F as [|j e l es Lj F IH]; [destruct It|]. inversion Ht as [|? ? (td & -> & Hx) Ht']; subst. destruct It as [<-|It]; [|now apply IH]. destruct (tag_ok td e Lj Hx) as (x & E & _). exists (JDict x). unfold rmap. now rewrite E. }
      rewrite Ey. cbn [bind]. match goal with |- context [if ?b then _ else _] => destruct b end; eexists; reflexivity. }
    destruct Xt as (kt & -> & Et). cbn [bind]. destruct (Et ret1) as [r2 ->]. cbn [bind].
    destruct (opt_part "Swagger" d o "externalDocs" "ExternalDocumentation" to_external_docs docs_image L eq_refl ltac:(discriminate) (fun x ko => external_docs_ok ko x) He) as (kd & ed & -> & Ed & _). cbn [bind]. rewrite Ed. cbn [bind].
    destruct (map_child "Swagger" d o "definitions" (BCls "Schema") L eq_refl) as (k1 & -> & M1). destruct (map_child "Swagger" d o "parameters" (BCls "Parameter") L eq_refl) as (k2 & -> & M2).
    destruct (map_child "Swagger" d o "responses" (BCls "Response") L eq_refl) as (k3 & -> & M3). destruct (map_child "Swagger" d o "securityDefinitions" (BCls "SecurityScheme") L eq_refl) as (k4 & -> & M4). cbn [bind].
    eapply (outcome_bind _ _ _ True); [|auto|intros cr1 _].
    { destruct M1 as [[_ ->]|(es & _ & -> & -> & F)]; [apply outcome_ok|]. cbn [bind]. eapply (outcome_bind _ _ _ True); [|auto|intros x _; apply outcome_ok]. unfold convert_each.
      eapply outcome_weak; [apply (loop_outcome (BCls "Schema") _ (fun n v => True) _ es (nodup_entries d "definitions" W) F)|auto].
      intros n v e acc Ln Le. cbn [fst snd]. destruct (to_schema_image (osize e) v e (val_entries d _ n v W Ln) (Hd n v Ln) Le (le_n _)) as (s' & E & _). unfold to_schema. rewrite E. apply outcome_ok. }
    eapply (outcome_bind _ _ _ C); [|auto|intros cr2 _].
    { destruct M2 as [[_ ->]|(es & _ & -> & -> & F)]; [apply outcome_ok|]. cbn [bind]. eapply outcome_bind; [exact (params_map_outcome _ es (nodup_entries d "parameters" W) F Hp)| |intros [[ps bs] rl] _; apply outcome_ok].
      intros [_ (G & _)] n v Ln q ->. exact (G n q Ln). }
    eapply (outcome_bind _ _ _ C); [|auto|intros cr3 _].
    { destruct M3 as [[_ ->]|(es & _ & -> & -> & F)]; [apply outcome_ok|]. cbn [bind]. eapply (outcome_bind _ _ _ C); [|auto|intros x _; apply outcome_ok]. unfold convert_each.
      eapply outcome_weak; [apply (loop_outcome (BCls "Response") _ (fun n v => C) _ es (nodup_entries d "responses" W) F)|auto].
      intros n v e acc Ln Le. cbn [fst snd]. destruct (Hr n v Ln) as (q & -> & Ir & Rf & Rd).
      eapply outcome_bind; [exact (response_outcome deref q q e _ (refers_response deref q q e Rf (plain_loaded _ _ _ _ Ir Le)) Rd (val_entries d _ n _ W Ln))| |intros x _; apply outcome_ok]. intros [_ (_ & G & _)]. exact (G n q Ln). }
    eapply (outcome_bind _ _ _ C); [|auto|intros cr4 _; apply outcome_ok].
    destruct M4 as [[_ ->]|(es & _ & -> & -> & F)]; [apply outcome_ok|]. cbn [bind]. eapply (outcome_bind _ _ _ C); [|auto|intros x _; apply outcome_ok]. unfold convert_each.
    eapply outcome_weak; [apply (loop_outcome (BCls "SecurityScheme") _ (fun n v => C) _ es (nodup_entries d "securityDefinitions" W) F)|auto].
    intros n v e acc Ln Le. cbn [fst snd]. destruct (Hs n v Ln) as (s & -> & Tf). eapply outcome_bind; [exact (scheme_outcome s e Le Tf)| |intros x _; apply outcome_ok]. intros [_ (_ & _ & G)]. exact (G n s Ln).
  Qed.
End Doc.
