(** Conversion of Swagger 1.2 objects: the resulting document is well-formed and can be migrated to OpenAPI 3.0. *)
From Coq Require Import String Ascii List Bool Arith ZArith Lia.
From Verif Require Import PyStr PyStrFacts PyVal PyValFacts Jp JpFacts Scope SpecUrl UrlLib UrlFacts Urls Obj SpecObj SpecJson ObjFacts ShapeFacts TablesFacts SpecTables Classes_v1_2 Classes_v2_0 Scan PropertiesObjAux DumpFacts ResolveFacts RelocFacts SpecStore SpecInside SpecSchema SpecConv SpecBody SpecOp SpecDoc SpecGiven SpecMigrate SpecWhole SpecFollow
  SpecScan SpecLocal SpecOpen WfFacts WfFacts12 FollowFacts FollowFacts2 FollowFacts3
  Up12 SpecUp12 SpecOpen12 Up12Facts NumeralFacts Up12Facts2 Up12Facts3 Up12Facts4 Up12Facts5 Up12Facts6 Up12Facts7 Up12Facts8 Up12Facts9 Up12Facts10 Up12Facts11 Up12Facts13 Up12Facts14 Up12Facts15.
Import ListNotations.
Open Scope string_scope. Open Scope nat_scope.

Lemma typed_map_dict (T : ctable) (P : string -> doc -> Prop) b d : SpecFollow.typed T P (BMapOf b) (JDict d) -> forall k x, In (k, x) d -> SpecFollow.typed T P b x.
Proof. intros H. inversion H; subst. assumption. Qed.
Lemma last_such_some {A} (f : A -> bool) l x : In x l -> f x = true -> last_such f l <> None.
Proof. induction l as [|y l IH]; [intros []|]. cbn [last_such]. intros I F. destruct (last_such f l) as [z|] eqn:E; [discriminate|]. destruct I as [-> |I]; [rewrite F; discriminate|]. destruct (IH I F eq_refl). Qed.
Lemma entries_fields j : entries_of j = fields j. Proof. destruct j; reflexivity. Qed.
Lemma elements_same j : elements_of j = elements j. Proof. destruct j; reflexivity. Qed.

Section Final.
  Variables (sep : string) (ld : json) (ds : list (string * json)) (listing : obj) (apis : list (string * obj)) (root : obj).
  Hypothesis AM : app_made ld ds listing apis.
  Hypothesis GD : good12 ld ds.
  Hypothesis DI : distinct12 ld ds.
  Hypothesis CL : closed12 sep ds.
  Hypothesis UP : upgrade12 sep listing apis = Ok root.
  Hypothesis EX : expressible12 ld ds.
  Hypothesis PO : paths_ok ds.
  Variable d : doc.
  Hypothesis Ed : document_of root = JDict d.
  Hypothesis Wd : wf_json (JDict d).
  Hypothesis Td : SpecFollow.typed v20_table (object_refers d) (BCls "Swagger") (JDict d).
  Hypothesis Md : exists s, swagger_spec s = Ok d.

  Lemma defined n : In n (definition_names sep ds) -> exists x, lookup n (entries_of (val d "definitions")) = Some (JDict x) /\ lookup "$ref" x = None /\ lookup "type" x = None.
  Proof.
    intros I. destruct (definitions_final _ _ _ _ _ _ AM DI UP) as [_ F]. specialize (F n). rewrite Ed in F.
    assert (Q : existsb (fun dm => String.eqb (model_name sep dm) n) (all_models ds) || existsb (fun dm => existsb (String.eqb n) (subtype_names sep dm)) (all_models ds) = true).
    { apply orb_true_iff. apply in_app_or in I as [I|I].
      - left. apply in_map_iff in I as (dm & <- & I). apply existsb_exists. exists dm. split; [exact I|apply String.eqb_refl].
      - right. apply in_flat_map in I as (dm & I & I'). apply existsb_exists. exists dm. split; [exact I|]. apply existsb_exists. exists n. split; [exact I'|apply String.eqb_refl]. }
    rewrite Q in F. destruct F as (x & L & _ & _ & _ & O). exists x. split; [|split; apply O, not_in_eqb; reflexivity].
    rewrite entries_fields. exact L.
  Qed.
  Lemma security_of n s : lookup n (entries_of (val d "securityDefinitions")) = Some (JDict s) -> exists a, (exists k, In (k, a) (fields (get ld "authorizations"))) /\ security_image a s.
  Proof.
    intros L. destruct (securities_final _ _ _ _ _ _ AM DI UP) as (_ & S1 & S2). rewrite Ed in S1, S2. rewrite entries_fields in L. change (given (get (JDict d) "securityDefinitions") n = Some (JDict s)) in L.
    destruct (S2 n) as (k & G & ->); [congruence|]. destruct (given (get ld "authorizations") k) as [a|] eqn:Ga; [|congruence]. destruct (S1 _ _ Ga) as (s' & L' & Im). exists a.
    split; [exists k; exact (PyValFacts.lookup_In _ _ _ Ga)|]. assert (s' = s) by congruence. now subst.
  Qed.
  Lemma scheme_oauth j : scheme_type j = JStr "oauth2" -> j = JStr "oauth2".
  Proof. unfold scheme_type. destruct j as [| | | |s| |]; try discriminate. repeat (destruct s as [|[[] [] [] [] [] [] [] []] s]; try discriminate; try (intros H; exact H)). Qed.
  Lemma globals_ok : expressible_globals d.
  Proof.
    destruct Md as (s0 & M). unfold swagger_spec in M. destruct (strip_host (s_paths s0)) as [hp|]; cbn [bind] in M; [|discriminate]. apply Ok_inj in M.
    split; [|split].
    - intros n q L. rewrite <- M in L. discriminate L.
    - intros n q L. rewrite <- M in L. discriminate L.
    - intros n s L Ty. destruct (security_of n s L) as (a & (k & Ia) & (Lt & _ & _ & _ & Lf & _)). apply val_some in Lt. rewrite Lt in Ty. rewrite Ty in Lf.
      destruct EX as [_ EA]. destruct (EA _ _ Ia (scheme_oauth _ Ty)) as [Tr _]. unfold val. rewrite Lf. destruct (truthy (first_of a ["grantTypes"; "implicit"; "loginEndpoint"; "url"])) eqn:E1; [split; discriminate|].
      destruct Tr as [Tr|Tr]; [congruence|]. cbv zeta in Tr. rewrite Tr. split; discriminate.
  Qed.
  Lemma flows_ok n s : lookup n (entries_of (val d "securityDefinitions")) = Some (JDict s) -> flow_loads s.
  Proof.
    intros L Ty f Ef If. destruct (security_of n s L) as (a & (k & Ia) & (Lt & (ss & Ls & _ & Hs) & _ & _ & Lf & _)). apply val_some in Lt. rewrite Lt in Ty. rewrite Ty in Lf.
    destruct EX as [_ EA]. destruct (EA _ _ Ia (scheme_oauth _ Ty)) as [Tr Sc]. unfold val in Ef. rewrite Lf in Ef. destruct (truthy (first_of a ["grantTypes"; "implicit"; "loginEndpoint"; "url"])) eqn:E1.
    - specialize (Sc eq_refl). destruct (elements (get a "scopes")) as [|e es] eqn:Ee; [contradiction|]. destruct ss as [|kv l]; [|exists kv, l; exact (val_some _ _ _ Ls)]. exfalso.
      specialize (Hs (text (get e "scope"))). cbn [lookup] in Hs. destruct (last_such _ _) as [x|] eqn:E; [discriminate Hs|]. revert E. apply (last_such_some _ _ e); [now left|apply String.eqb_refl].
    - exfalso. cbv zeta in Tr. destruct Tr as [Tr|Tr]; [congruence|]. rewrite Tr in Ef. cbn [some_if] in Ef. injection Ef as <-. cbn in If. intuition discriminate.
  Qed.
  Lemma names_ok : separate_names d /\ elements_of (val d "security") = [].
  Proof.
    destruct Md as (s0 & M). unfold swagger_spec in M. destruct (strip_host (s_paths s0)) as [hp|]; cbn [bind] in M; [|discriminate]. apply Ok_inj in M.
    split; [|rewrite <- M; reflexivity]. intros n (q & L & _). rewrite <- M in L. discriminate L.
  Qed.
  Lemma path_usable k v : lookup k (entries_of (val d "paths")) = Some v -> exists p ps ops, v = JDict p /\ path_in d p ps ops /\ good_path k ps ops.
  Proof.
    intros L. destruct PO as (c & c' & host & pre & CP & TR & SP & PK). destruct (operations_final _ _ _ _ _ _ _ _ _ _ AM DI UP CP TR SP) as (_ & _ & _ & OP & ND & OPS). rewrite Ed in OP, ND, OPS.
    assert (TP : SpecFollow.typed v20_table (object_refers d) (BCls "PathItem") v).
    { destruct (typed_val _ _ _ v20_Swagger _ (mk_child "paths" (BMapOf (BCls "PathItem")) false) Td eq_refl) as [Z|Tl]; [cbn; tauto|cbn [ch_name] in Z; rewrite Z in L; discriminate L|].
      cbn [ch_name ch_builder] in Tl. destruct (val d "paths") as [| | | | | |pd]; try (inversion Tl; fail). exact (typed_map_dict _ _ _ _ Tl _ _ (PyValFacts.lookup_In _ _ _ L)). }
    destruct (typed_class _ _ _ _ TP) as (p & ->).
    rewrite entries_fields in L. change (given (get (JDict d) "paths") k = Some (JDict p)) in L.
    assert (Ik : In (pre ++ k) (map full_path (all_sites ds))) by (apply OP; congruence).
    assert (Kx : startswith "x-" k = false). { apply in_map_iff in Ik as (s & Es & Is). exact (proj2 (PK s k Is Es)). }
    assert (Gp : get (get (JDict d) "paths") k = JDict p) by (unfold get at 1; unfold given in L; rewrite L; reflexivity).
    assert (M : forall m, match lookup m p with Some x => exists s out, In s (all_sites ds) /\ method_of s = m /\ x = JDict out /\ operation_image sep s out | None => True end).
    { intros m. specialize (OPS k m). rewrite Gp in OPS. unfold given, fields in OPS. destruct (last_such _ _) as [s|] eqn:E.
      - apply last_such_in in E as [Is Q]. apply andb_prop in Q as [_ Q]. apply String.eqb_eq in Q. destruct OPS as (out & Lo & Im). rewrite Lo. exists s, out. auto.
      - rewrite OPS. exact Logic.I. }
    assert (SG : forall s, In s (all_sites ds) -> good_operation (at_op s)).
    { intros s Is. exact (proj1 (sites_good _ _ s GD Is)). }
    assert (Np : lookup "parameters" p = None).
    { specialize (M "parameters"). destruct (lookup "parameters" p) as [x|]; [|reflexivity]. exfalso. destruct M as (s & out & Is & Em & _). destruct (SG _ Is) as (_ & (m & Hm & Im) & _). unfold method_of in Em. rewrite Hm in Em. cbn [text] in Em. rewrite Em in Im. cbn in Im. intuition discriminate. }
    assert (CH : exists ops, Forall2 (fun m op => ((val p m = JNull /\ op = ([], [])) \/ exists od, val p m = JDict od /\ operation_in d od op) /\ fine_request op) methods ops).
    { apply choice. intros m Im. specialize (M m). destruct (lookup m p) as [x|] eqn:Lm.
      - destruct M as (s & out & Is & Em & -> & Img).
        assert (To : SpecFollow.typed v20_table (object_refers d) (BCls "Operation") (JDict out)).
        { assert (Ic : In (mk_child m (BCls "Operation") false) (c_children v20_PathItem)) by (cbn in Im; destruct Im as [<-|[<-|[<-|[<-|[<-|[<-|[<-|[]]]]]]]]; cbn; tauto).
          destruct (typed_val _ _ _ v20_PathItem _ _ TP eq_refl Ic) as [Z|Tl]; cbn [ch_name ch_builder] in *; unfold val in *; rewrite Lm in *; [discriminate|assumption]. }
        destruct EX as [ER _]. destruct (ER s Is) as [RQ PP]. destruct CL as [CO _].
        destruct (operation_usable sep ds d (object_refers d) defined s out Img (SG _ Is) (CO _ Is) RQ PP To) as (op & Op & Fr). exists op. split; [|exact Fr]. right. exists out. split; [exact (val_some _ _ _ Lm)|exact Op].
      - exists ([], []). split; [left; split; [exact (val_none _ _ Lm)|reflexivity]|]. split; [left; cbn; lia|]. split; constructor. }
    destruct CH as (ops & F). exists p, [], ops. split; [reflexivity|]. split; [split|].
    - split; [left; split; [exact (val_none _ _ Np)|reflexivity]|constructor].
    - eapply Forall2_impl; [|exact F]. intros m op [H _]. exact H.
    - split; [exact Kx|]. assert (FR : Forall fine_request ops). { clear -F. induction F as [|? ? ? ? [_ H] F IH]; constructor; assumption. }
      split; [|split].
      + cbn [List.app]. apply Forall_forall. intros pq I. apply in_concat in I as (l & Il & I). apply in_map_iff in Il as (op & <- & Io). rewrite Forall_forall in FR. destruct (FR _ Io) as (_ & H & _). rewrite Forall_forall in H. exact (H _ I).
      + eapply Forall_impl; [|exact FR]. intros op (_ & _ & H). exact H.
      + unfold requests_ok. cbn [no_merged forallb]. eapply Forall_impl; [|exact FR]. intros op (H & _). exact H.
  Qed.
  Lemma converted_well_formed : well_formed d.
  Proof.
    destruct (info_final _ _ _ _ _ _ AM DI UP) as (i & Hi & (_ & _ & _ & _ & Ic & Il & _)). pose proof (tags_final _ _ _ _ _ _ AM DI UP) as Ht. rewrite Ed in Hi, Ht. rewrite get_val in Hi, Ht.
    destruct Md as (s0 & M). unfold swagger_spec in M. destruct (strip_host (s_paths s0)) as [hp|]; cbn [bind] in M; [|discriminate]. apply Ok_inj in M.
    assert (V : forall k, lookup k d = None -> val d k = JNull) by (intros k; exact (val_none d k)).
    assert (Eh : exists h, val d "host" = JStr h) by (rewrite <- M; eexists; reflexivity).
    assert (Eb : val d "basePath" = JStr "") by (rewrite <- M; reflexivity).
    assert (Ee : val d "externalDocs" = JNull) by (rewrite <- M; reflexivity).
    assert (Epa : entries_of (val d "parameters") = []) by (rewrite <- M; reflexivity).
    assert (Ere : entries_of (val d "responses") = []) by (rewrite <- M; reflexivity).
    assert (SEC : forall sec b, In (mk_child sec (BMapOf b) false) (c_children v20_Swagger) -> forall n v, lookup n (entries_of (val d sec)) = Some v -> SpecFollow.typed v20_table (object_refers d) b v).
    { intros sec b Ich n v L. destruct (typed_val _ _ _ v20_Swagger _ _ Td eq_refl Ich) as [Z|Tl]; cbn [ch_name ch_builder] in *; [rewrite Z in L; discriminate L|].
      destruct (val d sec) as [| | | | | |pd]; try (inversion Tl; fail). exact (typed_map_dict _ _ _ _ Tl _ _ (PyValFacts.lookup_In _ _ _ L)). }
    clear M hp s0 V. split; [split; [exact Wd|split; [|split; [|split]]]|split; [|split; [|split; [|split; [|split; [|split]]]]]].
    - right. exists i. exact Hi.
    - intros i' Hi'. rewrite Hi in Hi'. injection Hi' as <-. split.
      + unfold val. rewrite Ic. destruct (truthy _); [right; eexists; reflexivity|now left].
      + unfold val. destruct (_ || _); [destruct Il as (l & Ll & _); rewrite Ll; right; eexists; reflexivity|rewrite Il; now left].
    - left. exact Ee.
    - rewrite Ht. cbn [elements_of]. apply Forall_forall. intros t It. apply in_map_iff in It as (n & <- & _). eexists. split; [reflexivity|]. left. reflexivity.
    - right. destruct Eh as (h & Eh). exists h. exact Eh.
    - right. exists "". exact Eb.
    - intros n v L. exact (typed_schema _ _ (SEC "definitions" _ ltac:(cbn; tauto) n v L)).
    - intros n v L. rewrite Epa in L. discriminate L.
    - intros n v L. rewrite Ere in L. discriminate L.
    - intros n v L. destruct (typed_class _ _ _ _ (SEC "securityDefinitions" (BCls "SecurityScheme") ltac:(cbn; tauto) n v L)) as (s & ->). exists s. split; [reflexivity|].
      destruct (security_of n s L) as (a & _ & (_ & _ & _ & _ & Lf & _)). unfold val. rewrite Lf. clear. unfold some_if.
      match goal with |- context [if ?b then (if ?b2 then _ else (if ?b3 then _ else _)) else _] => destruct b; [destruct b2; [|destruct b3]|] end; try (now left); right; eexists; reflexivity.
    - exact path_usable.
  Qed.
End Final.
