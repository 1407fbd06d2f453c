(** Proofs about form, file and body parameters: one step of the conversion. *)
From Coq Require Import String Ascii List Bool Arith Lia.
From Verif Require Import PyStr PyStrFacts PyVal PyValFacts Jp UrlLib Obj ObjFacts Classes_v2_0 TablesFacts SpecJson ShapeFacts DumpFacts SpecObj SpecSchema SpecConv SpecBody Store Conv20 ConvFacts SchemaFacts SchemaFacts2 ParamFacts.
Import ListNotations.
Open Scope string_scope. Open Scope nat_scope.

Lemma is_text_spec s j : is_text s j = json_is_str s j.
Proof. destruct j; try reflexivity. cbn. apply String.eqb_sym. Qed.
Lemma gattr_none_undeclared_ok c j o name : loaded (BCls c) j o -> undeclared c name = true -> gattr_none o name = Ok (OPrim JNull).
Proof. apply gattr_none_undeclared. Qed.

(** ** the schema of a form parameter *)
Lemma form_schema_ok q r : loaded (BCls "Parameter") (JDict q) r -> param_doc q -> val q "schema" = JNull ->
  exists s, to_schema true r = Ok s /\ lookup "nullable" s = None /\
    (forall s', (forall k, lookup k s' = if String.eqb "nullable" k then nullable q else lookup k s) -> form_schema q s').
Proof.
  intros L (Hi & _ & Hr) Hs. unfold to_schema. destruct (osize r) as [|n] eqn:En; [pose proof (osize_pos r); lia|]. cbn [to_schema_n].
  rewrite (gfield_none_val "Parameter" q r "$ref" L eq_refl). cbn [bind]. change (fval "Parameter" q "$ref") with JNull. cbn [truthy].
  rewrite (gfield_none_val "Parameter" q r "type" L eq_refl). cbn [bind]. change (fval "Parameter" q "type") with (val q "type").
  unfold form_schema, is_file_param. rewrite is_text_spec. destruct (json_is_str "file" (val q "type")).
  { eexists. split; [reflexivity|]. split; [reflexivity|]. intros s' F. split; [rewrite F; reflexivity|]. split; [rewrite F; reflexivity|]. split; [rewrite F; reflexivity|].
    intros k Hk. rewrite F. cbn [lookup]. destruct (String.eqb_spec "nullable" k) as [<-|]; [destruct Hk; in_list|].
    destruct (String.eqb_spec k "type") as [->|]; [destruct Hk; in_list|]. destruct (String.eqb_spec k "format") as [->|]; [destruct Hk; in_list|reflexivity]. }
  destruct (generate_fields_ok r (fval "Parameter" q) SCHEMA_FIELDS) as (fs & -> & Nf & F).
  { intros k Hk. apply (gfield_none_val "Parameter" q r k L). repeat (destruct Hk as [<-|Hk]; [reflexivity|]). destruct Hk. }
  cbn [bind]. rewrite (gfield_none_val "Parameter" q r "required" L eq_refl). cbn [bind]. change (fval "Parameter" q "required") with (val q "required").
  assert (Er : match val q "required" with JList (x :: l) => dict_set "required" (JList (x :: l)) fs | _ => fs end = fs) by (destruct Hr as [->|(b & ->)]; reflexivity).
  rewrite Er. clear Er. rewrite (gattr_none_undeclared "Parameter" _ r "allOf" L eq_refl). cbn [bind truthy_obj truthy].
  assert (It : exists x, (forall ret : dict, (y <- gattr_none r "items" ;; if truthy_obj y then (x <- from_items_n n y ;; Ok (dict_set "items" (JDict x) ret)) else Ok ret) = Ok (opt_set "items" x ret)) /\
     (val q "items" = JNull -> x = None) /\ (val q "items" <> JNull -> exists s', x = Some s' /\ items_image (val q "items") s')).
  { destruct (gattr_child "Parameter" q r "items" _ L eq_refl) as [[Hv G]|(Hv & ko & G & Lk & Sk)].
    - exists None. rewrite (gattr_none_ok _ _ _ G). split; [reflexivity|]. split; [reflexivity|contradiction].
    - destruct Hi as [?|Hi]; [contradiction|]. destruct (from_items_image n _ _ Hi Lk ltac:(lia)) as (x & E & Im).
      exists (Some (JDict x)). rewrite (gattr_none_ok _ _ _ G). cbn [bind]. rewrite (loaded_cls_truthy "Items" _ _ ltac:(discriminate) Lk), E.
      split; [reflexivity|]. split; [contradiction|eauto]. }
  destruct It as (x & Ei & X1 & X2). specialize (Ei fs). apply bind_ok in Ei as (io & Gi & Ei). rewrite Gi. cbn [bind]. rewrite Ei. cbn [bind]. clear Ei Gi io.
  rewrite (gattr_none_undeclared "Parameter" _ r "properties" L eq_refl). cbn [bind truthy_obj truthy].
  rewrite (gattr_none_undeclared "Parameter" _ r "additionalProperties" L eq_refl). cbn [bind].
  rewrite (gfield_none_val "Parameter" q r "discriminator" L eq_refl). cbn [bind]. change (fval "Parameter" q "discriminator") with JNull. cbn [truthy].
  rewrite (gattr_none_undeclared "Parameter" _ r "xml" L eq_refl). cbn [bind truthy_obj truthy].
  rewrite (gattr_none_undeclared "Parameter" _ r "externalDocs" L eq_refl). cbn [bind truthy_obj truthy].
  exists (opt_set "items" x fs). split; [reflexivity|].
  assert (G : forall k, lookup k (opt_set "items" x fs) = if String.eqb "items" k then x else lookup k fs) by (apply lookup_opt_set_fresh; rewrite F; reflexivity).
  split; [rewrite G, F; reflexivity|]. intros s' H. split; [|split; [|split; [|split]]].
  - intros k Hk. rewrite H, G, F. repeat (destruct Hk as [<-|Hk]; [reflexivity|]). destruct Hk.
  - intros E. rewrite H, G. cbn. auto.
  - intros E. rewrite H, G. cbn. auto.
  - rewrite H. reflexivity.
  - intros k Hk. rewrite H, G, F. destruct (String.eqb_spec "nullable" k) as [<-|]; [destruct Hk; in_list|]. destruct (String.eqb_spec "items" k) as [<-|]; [destruct Hk; in_list|].
    destruct (in_dec string_dec k SCHEMA_FIELDS) as [I|]; [|reflexivity].
    unfold SCHEMA_FIELDS, BASE_SCHEMA_FIELDS in I. cbn [List.app] in I. repeat (destruct I as [<-|I]; [first [reflexivity | destruct Hk; in_list]|]). destruct I.
Qed.

(** ** the encoding of a property *)
Lemma decide_items : forall n j o, items_doc j -> loaded (BCls "Items") j o -> osize o < n -> exists t, decide_encoding_n n o = Ok t /\ part_type j t.
Proof.
  induction n as [|n IH]; intros j o S L Sz; [lia|]. inversion S as [d Hi Ej]; subst j. cbn [decide_encoding_n].
  rewrite (gfield_none_val "Items" d o "type" L eq_refl). cbn [bind]. change (fval "Items" d "type") with (val d "type").
  destruct (json_is_str "file" (val d "type")) eqn:E1; [apply json_is_str_spec in E1; eexists; split; [reflexivity|now apply pt_file]|].
  destruct (json_is_str "object" (val d "type")) eqn:E2; [apply json_is_str_spec in E2; eexists; split; [reflexivity|now apply pt_object]|].
  destruct (json_is_str "array" (val d "type")) eqn:E3.
  - apply json_is_str_spec in E3. destruct (gattr_child "Items" d o "items" _ L eq_refl) as [[Hv G]|(Hv & ko & G & Lk & Sk)]; rewrite G; cbn [bind].
    + destruct n as [|n']; [pose proof (osize_pos o); lia|]. exists "text/plain". split; [reflexivity|now apply pt_array_any].
    + destruct Hi as [?|Hi]; [contradiction|]. destruct (IH _ _ Hi Lk ltac:(lia)) as (t & E & P). exists t. split; [exact E|now apply pt_array].
  - apply json_is_str_no in E1, E2, E3. eexists; split; [reflexivity|now apply pt_other].
Qed.
Lemma decide_param q o : loaded (BCls "Parameter") (JDict q) o -> param_doc q -> exists t, decide_encoding_content_type o = Ok t /\ part_type (JDict q) t.
Proof.
  intros L (Hi & _ & _). unfold decide_encoding_content_type. cbn [decide_encoding_n].
  rewrite (gfield_none_val "Parameter" q o "type" L eq_refl). cbn [bind]. change (fval "Parameter" q "type") with (val q "type").
  destruct (json_is_str "file" (val q "type")) eqn:E1; [apply json_is_str_spec in E1; eexists; split; [reflexivity|now apply pt_file]|].
  destruct (json_is_str "object" (val q "type")) eqn:E2; [apply json_is_str_spec in E2; eexists; split; [reflexivity|now apply pt_object]|].
  destruct (json_is_str "array" (val q "type")) eqn:E3.
  - apply json_is_str_spec in E3. destruct (gattr_child "Parameter" q o "items" _ L eq_refl) as [[Hv G]|(Hv & ko & G & Lk & Sk)]; rewrite G; cbn [bind].
    + pose proof (osize_pos o). destruct (osize o) as [|n']; [lia|]. exists "text/plain". split; [reflexivity|now apply pt_array_any].
    + destruct Hi as [?|Hi]; [contradiction|]. destruct (decide_items (osize o) _ _ Hi Lk ltac:(lia)) as (t & E & P). exists t. split; [exact E|now apply pt_array].
  - apply json_is_str_no in E1, E2, E3. eexists; split; [reflexivity|now apply pt_other].
Qed.
Lemma to_encoding_ok q o t : loaded (BCls "Parameter") (JDict q) o -> param_doc q -> val q "in" = JStr "formData" ->
  (form_type t = false /\ to_encoding o t = Ok []) \/
  (form_type t = true /\ query_array_only (val q "collectionFormat") /\ to_encoding o t = Err SchemaError) \/
  (form_type t = true /\ ~ query_array_only (val q "collectionFormat") /\ exists c, to_encoding o t = Ok [("contentType", JStr c)] /\ part_type (JDict q) c).
Proof.
  intros L P Hin. unfold to_encoding. change (str_in t ["application/x-www-form-urlencoded"; "multipart/form-data"]) with (form_type t). destruct (form_type t); [right|left; auto].
  destruct (decide_param q o L P) as (c & -> & Pt). cbn [bind]. rewrite (is_set_val "Parameter" q o _ L ltac:(discriminate)). cbn [bind]. unfold mem.
  destruct (lookup "collectionFormat" q) as [v|] eqn:Ec.
  - rewrite (collection_format "Parameter" q o eq_refl L), Ec. cbn [bind].
    rewrite (gfield_none_val "Parameter" q o "in" L eq_refl), (gfield_none_val "Parameter" q o "type" L eq_refl). cbn [bind].
    change (fval "Parameter" q "in") with (val q "in"). rewrite Hin. apply val_some in Ec. rewrite Ec.
    destruct (style_total v (JStr "formData") (fval "Parameter" q "type")) as [[se E]|E]; rewrite E; cbn [bind].
    + right. split; [reflexivity|]. split.
      * intros H. assert (X : to_style_and_explode v (JStr "formData") (fval "Parameter" q "type") = Err SchemaError) by (apply style_raises; split; [exact H|intros [Y _]; discriminate Y]). congruence.
      * exists c. apply style_result in E. assert (Es : se = no_style).
        { subst se. unfold style_spec. destruct v; try reflexivity. unfold style_lookup. cbn -[String.eqb]. change (("formData" =? "query")%string) with false.
          change (("formData" =? "path")%string) with false. change (("formData" =? "header")%string) with false. rewrite !andb_false_r. reflexivity. }
        rewrite Es. split; [reflexivity|exact Pt].
    + left. split; [reflexivity|]. split; [|reflexivity]. now apply style_raises in E.
  - right. split; [reflexivity|]. split; [|exists c; auto]. unfold val. rewrite Ec. intros [H|H]; discriminate H.
Qed.

(** ** media types *)
Lemma str_in_spec x l : str_in x l = true <-> In x l.
Proof.
  unfold str_in. rewrite existsb_exists. split; [intros (y & Hy & E); apply String.eqb_eq in E; now subst|]. intros H. exists x. split; [exact H|apply String.eqb_refl].
Qed.
Lemma common_or_spec a b d t : In t (common_or a b d) <-> sent_with a b d t.
Proof.
  unfold common_or, sent_with, listed.
  assert (M : forall u, In u (filter (fun x => str_in x b) (nodup string_dec a)) <-> In u a /\ In u b) by (intros u; now rewrite filter_In, nodup_In, str_in_spec).
  destruct (filter _ _) as [|x l] eqn:E.
  - split.
    + intros [<-|[]]. right. split; [|reflexivity]. intros u Hu. apply M in Hu. destruct Hu.
    + intros [H|[_ ->]]; [apply M in H; destruct H|now left].
  - split; [intros H; left; now apply M|]. intros [H|[N _]]; [now apply M|]. exfalso. apply (N x). apply M. now left.
Qed.
Lemma common_or_nodup a b d : NoDup (common_or a b d).
Proof.
  unfold common_or. assert (N : NoDup (filter (fun x => str_in x b) (nodup string_dec a))) by (apply NoDup_filter, NoDup_nodup).
  destruct (filter _ _); [constructor; [intros []|constructor]|exact N].
Qed.
Definition form_ctx (q : dict) : pctx := if is_file_param q then mk_pctx true true false else mk_pctx true false true.
Lemma mime_form q cs t : In t (valid_mime_types (form_ctx q) cs) <-> sent_as cs q t.
Proof.
  unfold form_ctx, sent_as. destruct (is_file_param q); unfold valid_mime_types; cbn [is_file is_form]; destruct cs as [|c cs].
  - unfold default_mime_type, sent_with, listed. cbn [is_file]. split.
    + intros [<-|[]]. right. split; [intros u [[] _]|reflexivity].
    + intros [[[] _]|[_ ->]]. now left.
  - apply common_or_spec.
  - unfold default_mime_type, sent_with, listed. cbn [is_file is_form]. split.
    + intros [<-|[]]. right. split; [intros u [[] _]|reflexivity].
    + intros [[[] _]|[_ ->]]. now left.
  - apply common_or_spec.
Qed.
Lemma mime_nodup q cs : NoDup (valid_mime_types (form_ctx q) cs).
Proof.
  unfold form_ctx. destruct (is_file_param q); unfold valid_mime_types; cbn [is_file is_form]; (destruct cs; [constructor; [intros []|constructor]|apply common_or_nodup]).
Qed.
Lemma mime_nonempty c cs : valid_mime_types c cs <> [].
Proof.
  unfold valid_mime_types. destruct cs as [|x cs]; [discriminate|]. destruct (is_file c); [unfold common_or; destruct (filter _ _); discriminate|].
  destruct (is_form c); [unfold common_or; destruct (filter _ _); discriminate|discriminate].
Qed.

(** ** well-formed bodies *)
Lemma get_dict_sub k d : dict_or_none (lookup k d) -> get_dict k d = Ok (subd k d).
Proof. unfold get_dict, subd. destruct (lookup k d) as [[]|]; cbn; tauto || reflexivity. Qed.
Lemma sub_set_same k x d : subd k (dict_set k (JDict x) d) = x.
Proof. unfold subd. now rewrite lookup_dict_set, String.eqb_refl. Qed.
Lemma sub_set_other k k' v d : k <> k' -> subd k (dict_set k' v d) = subd k d.
Proof. intros H. unfold subd. rewrite lookup_dict_set. destruct (String.eqb_spec k k'); [contradiction|reflexivity]. Qed.
Lemma arr_set_same k x d : arr k (dict_set k (JList x) d) = x.
Proof. unfold arr. now rewrite lookup_dict_set, String.eqb_refl. Qed.
Lemma arr_set_other k k' v d : k <> k' -> arr k (dict_set k' v d) = arr k d.
Proof. intros H. unfold arr. rewrite lookup_dict_set. destruct (String.eqb_spec k k'); [contradiction|reflexivity]. Qed.
Lemma lookup_set k k' (v : json) d : lookup k (dict_set k' v d) = if String.eqb k' k then Some v else lookup k d.
Proof. rewrite lookup_dict_set, String.eqb_sym. reflexivity. Qed.

(** the loop over the media types *)
Lemma fold_types (f : string -> dict -> res dict) : forall types ct, NoDup types -> content_ok ct ->
  (forall t, In t types -> exists m, f t (subd t ct) = Ok m /\ media_ok m) ->
  exists ct', foldM (fun ct ty => m <- get_dict ty ct ;; m' <- f ty m ;; Ok (dict_set ty (JDict m') ct)) types ct = Ok ct' /\ content_ok ct' /\
    forall t, (In t types -> exists m, f t (subd t ct) = Ok m /\ lookup t ct' = Some (JDict m)) /\ (~ In t types -> lookup t ct' = lookup t ct).
Proof.
  induction types as [|ty types IH]; intros ct N C H; [exists ct; cbn; split; [reflexivity|split; [exact C|intros t; split; [intros []|reflexivity]]]|].
  inversion N as [|? ? N1 N2]; subst. cbn [foldM]. rewrite get_dict_sub by apply C. cbn [bind]. destruct (H ty (or_introl eq_refl)) as (m & Em & Mo). rewrite Em. cbn [bind].
  set (ct1 := dict_set ty (JDict m) ct).
  assert (So : forall t, t <> ty -> lookup t ct1 = lookup t ct) by (intros t Ht; unfold ct1; rewrite lookup_set; destruct (String.eqb_spec ty t); [congruence|reflexivity]).
  assert (C1 : content_ok ct1).
  { intros t. destruct (string_dec t ty) as [->|Ht]; [unfold ct1; rewrite lookup_set, String.eqb_refl, sub_set_same; split; [exact I|exact Mo]|].
    unfold subd. rewrite (So t Ht). apply C. }
  destruct (IH ct1 N2 C1) as (ct' & E & C' & G).
  - intros t Ht. assert (t <> ty) by congruence. unfold subd. rewrite So by assumption. apply H; now right.
  - exists ct'. split; [exact E|]. split; [exact C'|]. intros t. destruct (G t) as [G1 G2]. split.
    + intros [<-|Ht].
      * exists m. split; [exact Em|]. rewrite G2 by exact N1. unfold ct1. now rewrite lookup_set, String.eqb_refl.
      * assert (t <> ty) by congruence. destruct (G1 Ht) as (m' & E' & L'). unfold subd in E'. rewrite So in E' by assumption. exists m'. auto.
    + intros Hn. rewrite G2 by (intros X; apply Hn; now right). apply So. intros ->. apply Hn. now left.
Qed.
Lemma fold_types_err (f : string -> dict -> res dict) e : forall types ct, NoDup types -> content_ok ct ->
  (forall t, In t types -> (exists m, f t (subd t ct) = Ok m /\ media_ok m) \/ f t (subd t ct) = Err e) ->
  (exists t, In t types /\ f t (subd t ct) = Err e) ->
  foldM (fun ct ty => m <- get_dict ty ct ;; m' <- f ty m ;; Ok (dict_set ty (JDict m') ct)) types ct = Err e.
Proof.
  induction types as [|ty types IH]; intros ct N C H (t0 & Hin & He); [destruct Hin|].
  inversion N as [|? ? N1 N2]; subst. cbn [foldM]. rewrite get_dict_sub by apply C. cbn [bind]. destruct (H ty (or_introl eq_refl)) as [(m & Em & Mo)|Em]; rewrite Em; cbn [bind]; [|reflexivity].
  set (ct1 := dict_set ty (JDict m) ct).
  assert (So : forall t, t <> ty -> lookup t ct1 = lookup t ct) by (intros t Ht; unfold ct1; rewrite lookup_set; destruct (String.eqb_spec ty t); [congruence|reflexivity]).
  assert (C1 : content_ok ct1).
  { intros t. destruct (string_dec t ty) as [->|Ht]; [unfold ct1; rewrite lookup_set, String.eqb_refl, sub_set_same; split; [exact I|exact Mo]|].
    unfold subd. rewrite (So t Ht). apply C. }
  apply IH; [exact N2|exact C1| |].
  - intros t Ht. assert (t <> ty) by congruence. unfold subd. rewrite So by assumption. apply H; now right.
  - destruct Hin as [<-|Hin]; [congruence|]. exists t0. split; [exact Hin|]. assert (t0 <> ty) by congruence. unfold subd. now rewrite So by assumption.
Qed.
