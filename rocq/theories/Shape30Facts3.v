(** * Converted operations, path items and small objects can be loaded as OpenAPI 3.0 objects. *)
From Coq Require Import String Ascii List Bool Arith Lia.
From Verif Require Import PyStr PyStrFacts PyVal PyValFacts Jp UrlLib Obj ObjFacts Classes_v2_0 Classes_v3_0_0 TablesFacts SpecJson ShapeFacts SpecObj SpecSchema SpecConv SpecBody SpecOp SpecDoc Store Conv20 ConvFacts SchemaFacts SchemaFacts2 ParamFacts BodyFacts BodyFacts2 ParamListFacts ParamListFacts2 ParamListFacts3 OpFacts OpFacts2 PathFacts PathFacts2 DocFacts DocFacts2 TotalFacts SpecGiven SpecMigrate MigrateFacts MigrateFacts2 CompareFacts SpecInside Shape30Facts Shape30Facts2.
Import ListNotations.
Open Scope string_scope. Open Scope nat_scope.

Section Shapes.
Context {okref : string -> json -> Prop}.
Notation fits := (tight okref).
Notation good_refs := (refs_in (okref "Reference")).
Notation fits_schema := (fits (BRefElse "Reference" (BCls "Schema"))).
Notation fits_param := (fits (BRefElse "Reference" (BCls "Parameter"))).
Notation body_fits := (@body_fits okref).
(** ** raw containers *)
Lemma raw_shaped T b : raw b -> forall j, shaped T b j -> fits b j.
Proof. induction 1 as [|b R IH|b R IH]; intros j S0; inversion S0; subst; [apply ti_str|apply ti_list; auto|apply ti_map; eauto]. Qed.
Lemma child_raw_fits c d o name b : loaded (BCls c) (JDict d) o -> child_builder c name = Some b -> raw b -> val d name <> JNull -> fits b (val d name).
Proof.
  intros L C R N. destruct (gattr_child c d o name b L C) as [[H _]|(_ & ko & _ & [p Lk] & _)]; [contradiction|]. apply (raw_shaped v20_table); [exact R|]. apply (construct_shaped v20_table _ b p). eauto.
Qed.

(** ** small objects *)
Lemma part_fits (R : doc -> doc -> Prop) c j x : object_or_null j -> part_image R j x -> (forall d d', R d d' -> fits (BCls c) (JDict d')) -> forall v, x = Some v -> fits (BCls c) v.
Proof. intros O [H1 H2] F v ->. destruct O as [O|[d O]]; [discriminate (H1 O)|]. destruct (H2 d O) as (d' & E & Rd). injection E as ->. eauto. Qed.
Lemma docs_fits d d' : docs_image d d' -> fits (BCls "ExternalDocumentation") (JDict d').
Proof. intros _. now apply (fits_childless _ v30_ExternalDocumentation). Qed.
Lemma info_fits d x : object_or_null (val d "contact") -> object_or_null (val d "license") -> info_image d x -> fits (BCls "Info") (JDict x).
Proof.
  intros Oc Ol (_ & _ & H3 & H4 & O). set (ks := ["title"; "version"; "description"; "termsOfService"; "contact"; "license"]) in *. apply (fits_class "Info" v30_Info ks x eq_refl eq_refl O); [|constructor].
  change (kids_of30 v30_Info ks) with [mk_child "contact" (BCls "Contact") false; mk_child "license" (BCls "License") false].
  apply Forall_cons; [|apply Forall_cons; [|constructor]]; kid L.
  - apply (part_fits _ _ _ _ Oc H3); [|exact L]. intros. now apply (fits_childless _ v30_Contact).
  - apply (part_fits _ _ _ _ Ol H4); [|exact L]. intros. now apply (fits_childless _ v30_License).
Qed.
Lemma tag_fits d x : object_or_null (val d "externalDocs") -> tag_image d x -> fits (BCls "Tag") (JDict x).
Proof.
  intros Oe (_ & _ & H3 & O). set (ks := ["name"; "description"; "externalDocs"]) in *. apply (fits_class "Tag" v30_Tag ks x eq_refl eq_refl O); [|constructor].
  change (kids_of30 v30_Tag ks) with [mk_child "externalDocs" (BCls "ExternalDocumentation") false]. apply Forall_cons; [|constructor]. kid L. exact (part_fits _ _ _ _ Oe H3 docs_fits _ L).
Qed.
Lemma server_fits u : fits (BCls "Server") (JDict [("url", u)]).
Proof. apply (fits_leaf _ v30_Server ["url"]); [reflexivity|reflexivity| |reflexivity|reflexivity]. intros k N. cbn [lookup]. destruct (String.eqb_spec k "url"); [subst; cbn in N; tauto|reflexivity]. Qed.
Lemma scheme_fits s o x : loaded (BCls "SecurityScheme") (JDict s) o -> scheme_image s x -> flow_loads s -> fits (BRefElse "Reference" (BCls "SecurityScheme")) (JDict x).
Proof.
  intros Lo (_ & _ & _ & H4 & O) Fl. set (ks := ["type"; "description"; "name"; "in"; "scheme"; "flows"]) in *. apply (fits_noref _ _ ks _ O eq_refl). apply (fits_class "SecurityScheme" v30_SecurityScheme ks x eq_refl eq_refl O); [|constructor].
  change (kids_of30 v30_SecurityScheme ks) with [mk_child "flows" (BCls "OAuthFlows") false]. apply Forall_cons; [|constructor]. kid L.
  destruct (is_text "oauth2" (val s "type")) eqn:Et; [|congruence]. rewrite is_text_spec in Et. apply json_is_str_spec in Et. destruct H4 as (fl & E & f & d & Hf & -> & H1 & H2 & O2). assert (v = JDict [(f, JDict d)]) by congruence. subst v. clear L E.
  assert (Fd : In f ["implicit"; "password"; "clientCredentials"; "authorizationCode"] -> fits (BCls "OAuthFlow") (JDict d)).
  { intros If. destruct (Fl Et f Hf If) as (kv & l & Es). set (ks2 := ["authorizationUrl"; "tokenUrl"; "scopes"]) in *. rewrite Es in H2. cbn [some_dict] in H2. apply (fits_class "OAuthFlow" v30_OAuthFlow ks2 d eq_refl eq_refl O2); [|apply Forall_cons; [cbn [ch_name]; rewrite H2; discriminate|constructor]].
    change (kids_of30 v30_OAuthFlow ks2) with [mk_child "scopes" (BMapOf BStr) true]. apply Forall_cons; [|constructor]. kid L2. rewrite H2 in L2. injection L2 as <-. rewrite <- Es. apply (child_raw_fits "SecurityScheme" s o "scopes" _ Lo eq_refl); [apply raw_map, raw_str|]. rewrite Es. discriminate. }
  apply ti_object with v30_OAuthFlows; [reflexivity| | |intros k Ik; cbn in Ik; destruct Ik as [X|[X|[X|[]]]]; discriminate X|intros z Ic; cbn in Ic; destruct Ic as [X|[X|[]]]; discriminate X].
  - intros ch v Ic L _. cbn [lookup] in L. destruct (String.eqb_spec (ch_name ch) f) as [Ef|]; [|discriminate]. injection L as <-. cbn [v30_OAuthFlows c_children] in Ic.
    repeat (destruct Ic as [<-|Ic]; [cbn [ch_name ch_builder] in *; subst f; apply Fd; cbn [In]; auto|]). destruct Ic.
  - intros ch Ic _. cbn [v30_OAuthFlows c_children] in Ic. repeat (destruct Ic as [<-|Ic]; [reflexivity|]). destruct Ic.
Qed.

(** ** request bodies on the way *)
Definition body_inv (b : option dict) : Prop := body_ok (old_body b) /\ body_fits (old_body b) /\ (b <> None -> lookup "content" (old_body b) <> None).
Lemma body_inv_none : body_inv None. Proof. split; [apply body_ok_nil|]. split; [apply body_fits_nil|congruence]. Qed.
Lemma body_inv_fits b : body_inv (Some b) -> fits (BCls "RequestBody") (JDict b).
Proof. intros (B1 & B2 & B3). apply body_fits_loads; [exact B2|exact B1|]. apply B3. discriminate. Qed.
Lemma body_inv_ref b : body_inv (Some b) -> fits (BRefElse "Reference" (BCls "RequestBody")) (JDict b).
Proof. intros H. pose proof H as (_ & (O & _) & _). apply (fits_noref _ _ body_keys _ O eq_refl). now apply body_inv_fits. Qed.
Lemma fits_some_list b l v : (forall x, In x l -> fits b x) -> some_list l = Some v -> fits (BListOf b) v.
Proof. intros F. destruct l; [discriminate|]. cbn [some_list]. intros E. injection E as <-. now apply ti_list. Qed.
Lemma fits_some_dict b (l : dict) v : (forall k x, In (k, x) l -> fits b x) -> some_dict l = Some v -> fits (BMapOf b) v.
Proof. intros F. destruct l; [discriminate|]. cbn [some_dict]. intros E. injection E as <-. now apply ti_map. Qed.
Lemma forall2_in_r {A B} (R : A -> B -> Prop) l m : Forall2 R l m -> forall y, In y m -> exists x, In x l /\ R x y.
Proof. induction 1 as [|a b l m Rab F IH]; intros y I; [destruct I|]. destruct I as [<-|I]; [exists a; split; [now left|exact Rab]|]. destruct (IH y I) as (x & Ix & Rx). exists x. split; [now right|exact Rx]. Qed.
Lemma forall2_in_l {A B} (R : A -> B -> Prop) l m : Forall2 R l m -> forall x, In x l -> exists y, In y m /\ R x y.
Proof. induction 1 as [|a b l m Rab F IH]; intros y I; [destruct I|]. destruct I as [<-|I]; [exists b; split; [now left|exact Rab]|]. destruct (IH y I) as (x & Ix & Rx). exists x. split; [now right|exact Rx]. Qed.

Lemma fields_other o ns fs k : generate_fields o ns = Ok fs -> ~ In k ns -> lookup k fs = None.
Proof.
  unfold generate_fields. intros E N. assert (G : forall ns acc, ~ In k ns -> lookup k acc = None -> forall fs, foldM (fun (acc : dict) n => v <- gfield_none o n ;; Ok (if is_null v then acc else dict_set n v acc)) ns acc = Ok fs -> lookup k fs = None).
  { clear. induction ns as [|n ns IH]; intros acc N L fs E; cbn [foldM] in E; [injection E as <-; exact L|]. apply bind_ok in E as (a & Ea & E). apply bind_ok in Ea as (v & _ & Ea). injection Ea as <-.
    apply (IH _ (fun X => N (or_intror X))) in E; [exact E|]. destruct (is_null v); [exact L|]. rewrite BodyFacts.lookup_set. destruct (String.eqb_spec n k) as [->|]; [destruct N; now left|exact L]. }
  exact (G ns [] N eq_refl fs E).
Qed.
Section Fit.
  Variable deref : obj -> res obj.
  Lemma usable_doc q : usable deref q -> is_merged q = false -> param_doc q.
  Proof.
    intros [[P _]|[F|(B & _)]] M; [exact P| |]; exfalso.
    - destruct F as (_ & Hi & _). unfold is_merged in M. rewrite Hi in M. cbn in M. now rewrite orb_true_r in M.
    - destruct B as (_ & Hi & _). unfold is_merged in M. rewrite Hi in M. cbn in M. now rewrite orb_true_r in M.
  Qed.
  Notation good_pair := (fun pq : doc * doc => good_refs (JDict (fst pq)) /\ good_refs (JDict (snd pq))).
  Lemma kept_list_fits ps es ks : Forall good_pair ps -> Forall2 (fun pq o => param_given deref (fst pq) (snd pq) o) ps es -> Forall (fun pq => usable deref (snd pq)) ps ->
    Forall2 (fun pq k => kept_image (fst pq) k) (filter (fun pq => negb (is_merged (snd pq))) ps) ks -> forall x, In x ks -> fits_param x.
  Proof.
    intros GR G U F x Ix. destruct (forall2_in_r _ _ _ F x Ix) as ([p q] & Ip & Im). apply filter_In in Ip as [Ip Nm]. cbn [fst snd] in *. apply negb_true_iff in Nm.
    rewrite Forall_forall in U. specialize (U _ Ip). cbn [snd] in U. destruct (forall2_in_l _ _ _ G _ Ip) as (o & _ & Gp). cbn [fst snd] in Gp.
    rewrite Forall_forall in GR. apply (kept_fits p q _ (proj1 (GR _ Ip))); [|exact Im]. destruct (is_reference p) eqn:Ir; [now left|right]. destruct Gp as (r & _ & _ & _ & X). rewrite Ir in X. destruct X as [-> _]. split; [reflexivity|]. exact (usable_doc p U Nm).
  Qed.
  Lemma operation_responses o body root pr cs x b' : to_operation deref o body root pr cs = Ok (x, b') ->
    forall rs, lookup "responses" x = Some (JDict rs) -> forall k r, In (k, r) rs -> exists ro pr' d, to_response deref ro pr' = Ok d /\ r = JDict d.
  Proof.
    unfold to_operation. intros H. apply bind_ok in H as (fs & Ef & H).
    assert (N0 : lookup "responses" fs = None).
    { apply (fields_other _ _ _ _ Ef). cbn [In]. intuition discriminate. }
    apply bind_ok in H as (tg & _ & H). apply bind_ok in H as (r1 & E1 & H). assert (N1 : lookup "responses" r1 = None).
    { destruct (truthy_obj tg); [|now injection E1 as <-]. apply bind_ok in E1 as (j & _ & E1). injection E1 as <-. now rewrite BodyFacts.lookup_set. }
    apply bind_ok in H as (se & _ & H). apply bind_ok in H as (r2 & E2 & H). assert (N2 : lookup "responses" r2 = None).
    { destruct (truthy_obj se); [|now injection E2 as <-]. apply bind_ok in E2 as (j & _ & E2). injection E2 as <-. now rewrite BodyFacts.lookup_set. }
    apply bind_ok in H as (ps & _ & H). apply bind_ok in H as (rb & E3 & H). assert (N3 : lookup "responses" (fst rb) = None).
    { destruct (truthy_obj ps); [|now injection E3 as <-]. apply bind_ok in E3 as (es & _ & E3). apply bind_ok in E3 as (cx & _ & E3). apply bind_ok in E3 as ([[k b] m] & _ & E3). injection E3 as <-. cbn [fst].
      destruct k; [exact N2|]. now rewrite BodyFacts.lookup_set. }
    apply bind_ok in H as (rso & _ & H). apply bind_ok in H as (r4 & E4 & H).
    assert (N4 : forall rs, lookup "responses" r4 = Some (JDict rs) -> forall k r, In (k, r) rs -> exists ro pr' d, to_response deref ro pr' = Ok d /\ r = JDict d).
    { destruct (truthy_obj rso); [|injection E4 as <-; intros rs L; rewrite N3 in L; discriminate]. apply bind_ok in E4 as (es & _ & E4). apply bind_ok in E4 as (px & _ & E4). apply bind_ok in E4 as (xs & Ex & E4). injection E4 as <-.
      intros rs L. rewrite BodyFacts.lookup_set in L. change (String.eqb "responses" "responses") with true in L. cbv iota in L. apply (f_equal (fun z => match z with Some (JDict c) => c | _ => [] end)) in L. cbn beta iota in L. subst rs.
      refine (foldM_keep (fun c0 : dict => forall k r, In (k, r) c0 -> exists ro pr' d, to_response deref ro pr' = Ok d /\ r = JDict d) _ _ _ _ _ Ex _); [|intros k r []].
      intros b a b'' E Hb k r I'. apply bind_ok in E as (d & Ed & E). injection E as <-. apply in_dict_set in I' as [[_ ->]|I']; [eauto|exact (Hb _ _ I')]. }
    apply bind_ok in H as (ed & _ & H). apply bind_ok in H as (r5 & E5 & H).
    assert (N5 : lookup "responses" r5 = lookup "responses" r4). { destruct (truthy_obj ed); [|now injection E5 as <-]. apply bind_ok in E5 as (y & _ & E5). injection E5 as <-. now rewrite BodyFacts.lookup_set. }
    apply bind_ok in H as (sch & _ & H). injection H as <- _. destruct (truthy_obj sch); rewrite ?BodyFacts.lookup_set; [change (String.eqb "servers" "responses") with false; cbv iota|]; rewrite N5; exact N4.
  Qed.
  Definition op_keys : list string := ["summary"; "description"; "operationId"; "deprecated"; "tags"; "security"; "parameters"; "responses"; "externalDocs"; "servers"].
  Lemma operation_fits d o op body root pr cs x body' fb : loaded (BCls "Operation") (JDict d) o -> wf_json (JDict d) -> operation_given deref d op -> Forall good_pair (fst op) -> Forall (fun kr => good_pair (snd kr)) (snd op) -> body_inv body ->
    to_operation deref o body root pr cs = Ok (x, body') -> body_inv body' /\ (body_inv fb -> fits (BCls "Operation") (JDict (with_body x fb))).
  Proof.
    intros Lo W (Pa & Us & Ra & Ed) GRp GRr Bi E. destruct op as [ps rs]. cbn [fst snd] in *.
    assert (Bi' : body_inv body').
    { destruct (to_operation_params deref d o ps body root pr cs x body' Lo Pa E) as [[-> ->]|(es & k & m & G & Ec)]; [exact Bi|]. destruct Bi as (B1 & B2 & B3).
      exact (proj2 (params_fit deref ps es 0 _ [] body k body' m (usable_pairs deref _ _ G Us) GRp B1 B2 B3 (Forall_nil _) Ec)). }
    split; [exact Bi'|]. intros Bf.
    assert (Pd : Forall (fun pq => param_doc (snd pq)) ps). { eapply Forall_impl; [|exact Us]. intros pq [[P _]|[F|(B & _)]]; [exact P|exact (proj1 F)|exact (proj1 B)]. }
    destruct (to_operation_ok deref d o ps rs body root pr cs x body' Lo W Pa Ra Ed Pd E) as ((H1 & H2 & (ks & H3 & H3') & (rs' & H4 & H4') & H5 & H6 & H7 & O) & _ & _ & Hes).
    pose proof (operation_responses o body root pr cs x body' E) as Hr.
    set (ks' := "requestBody" :: op_keys). assert (O' : within ks' (with_body x fb)).
    { intros k N. unfold with_body. destruct fb as [b|]; [rewrite BodyFacts.lookup_set; destruct (String.eqb_spec "requestBody" k) as [<-|]; [destruct N; now left|]|]; apply O; intros I; apply N; now right. }
    assert (Lx : forall k, k <> "requestBody" -> lookup k (with_body x fb) = lookup k x).
    { intros k N. unfold with_body. destruct fb; [|reflexivity]. rewrite BodyFacts.lookup_set. destruct (String.eqb_spec "requestBody" k); [congruence|reflexivity]. }
    apply (fits_class "Operation" v30_Operation ks' _ eq_refl eq_refl O'); [|constructor].
    change (kids_of30 v30_Operation ks') with [mk_child "externalDocs" (BCls "ExternalDocumentation") false; mk_child "tags" (BListOf BStr) false; mk_child "parameters" (BListOf (BRefElse "Reference" (BCls "Parameter"))) false; mk_child "requestBody" (BRefElse "Reference" (BCls "RequestBody")) false; mk_child "responses" (BMapOf (BRefElse "Reference" (BCls "Response"))) false; mk_child "security" (BListOf (BMapOf (BListOf BStr))) false; mk_child "servers" (BListOf (BCls "Server")) false].
    repeat (apply Forall_cons; [kid L; try rewrite Lx in L by discriminate|]); [| | | | | | |apply Forall_nil].
    - destruct Ed as [Ed|[e Ed]]; [rewrite (H5 Ed) in L; discriminate|]. destruct (H6 e Ed) as (e' & E' & Im). rewrite E' in L. injection L as <-. exact (docs_fits e e' Im).
    - rewrite (H2 "tags") in L by (cbn; auto). unfold nonempty_list in L. assert (Ev : val d "tags" = v) by (destruct (val d "tags") as [| | | | |[|]|]; try discriminate; now injection L). rewrite <- Ev. apply (child_raw_fits "Operation" d o "tags" _ Lo eq_refl (raw_list _ raw_str)). intros Z. rewrite Z in L. discriminate.
    - rewrite H3 in L. eapply fits_some_list; [|exact L]. destruct ps as [|pq ps]; [cbn [filter] in H3'; inversion H3'; intros ? []|]. destruct (Hes ltac:(discriminate)) as (es & _ & _ & G & _). exact (kept_list_fits _ es ks GRp G Us H3').
    - unfold with_body in L. destruct fb as [b|]; [|rewrite O in L; [discriminate|]; cbn [In]; intuition discriminate]. rewrite BodyFacts.lookup_set in L. change (String.eqb "requestBody" "requestBody") with true in L. cbv iota in L. injection L as <-. now apply body_inv_ref.
    - rewrite H4 in L. eapply fits_some_dict; [|exact L]. intros k y Iy. destruct (forall2_in_r _ _ _ H4' _ Iy) as (kr & Ir & _ & r & Er & Rr). cbn [snd] in Er. subst y. destruct Ra as [_ Ra]. rewrite Forall_forall in Ra. destruct (Ra _ Ir) as (_ & Rd & _).
      rewrite Forall_forall in GRr. destruct (GRr _ Ir) as [Gr1 Gr2]. apply (response_fits _ _ _ _ Gr1 Gr2 Rd Rr). destruct rs' as [|y0 rs']; [destruct Iy|]. destruct (Hr _ H4 k _ Iy) as (ro & pr' & d' & E' & Ed'). injection Ed' as ->. exact (response_nodup deref ro pr' d' E').
    - rewrite (H2 "security") in L by (cbn; auto). unfold nonempty_list in L. assert (Ev : val d "security" = v) by (destruct (val d "security") as [| | | | |[|]|]; try discriminate; now injection L). rewrite <- Ev. apply (child_raw_fits "Operation" d o "security" _ Lo eq_refl (raw_list _ (raw_map _ (raw_list _ raw_str)))). intros Z. rewrite Z in L. discriminate.
    - rewrite H7 in L. eapply fits_some_list; [|exact L]. intros y Iy. apply in_map_iff in Iy as (s & <- & _). apply server_fits.
  Qed.
End Fit.
End Shapes.
