(** * Converted path items and documents can be loaded as OpenAPI 3.0 objects. *)
From Coq Require Import String Ascii List Bool Arith Lia.
From Verif Require Import PyStr PyStrFacts PyVal PyValFacts Jp UrlLib Obj ObjFacts Classes_v2_0 Classes_v3_0_0 TablesFacts SpecJson ShapeFacts SpecObj SpecSchema SpecConv SpecBody SpecOp SpecDoc Store Conv20 ConvFacts SchemaFacts SchemaFacts2 ParamFacts BodyFacts BodyFacts2 ParamListFacts ParamListFacts2 ParamListFacts3 OpFacts OpFacts2 PathFacts PathFacts2 DocFacts DocFacts2 TotalFacts SpecGiven SpecMigrate MigrateFacts MigrateFacts2 CompareFacts SpecInside Shape30Facts Shape30Facts2 Shape30Facts3.
Import ListNotations.
Open Scope string_scope. Open Scope nat_scope.

Section Shapes.
Context {okref : string -> json -> Prop}.
Notation fits := (tight okref).
Notation good_refs := (refs_in (okref "Reference")).
Notation fits_schema := (fits (BRefElse "Reference" (BCls "Schema"))).
Notation fits_param := (fits (BRefElse "Reference" (BCls "Parameter"))).
Notation body_fits := (@body_fits okref).
Notation body_inv := (@body_inv okref).
Notation good_pair := (fun pq : doc * doc => good_refs (JDict (fst pq)) /\ good_refs (JDict (snd pq))).
Notation good_op := (fun op : request => Forall good_pair (fst op) /\ Forall (fun kr => good_pair (snd kr)) (snd op)).
Section Fit.
  Variables (deref : obj -> res obj) (normalized_ref : obj -> res json).
  Lemma methods_fit d o root pr cs : loaded (BCls "PathItem") (JDict d) o -> wf_json (JDict d) -> forall ms rqs shared ops s, incl ms METHODS ->
    Forall2 (fun m op => (val d m = JNull /\ op = ([], [])) \/ exists od, val d m = JDict od /\ operation_given deref od op) ms rqs -> Forall good_op rqs -> body_inv shared ->
    convert_methods deref o ms shared root pr cs = Ok (ops, s) ->
    body_inv s /\ forall m y, In (m, y) ops -> body_inv (snd y) /\ forall fb, body_inv fb -> fits (BCls "Operation") (JDict (with_body (fst y) fb)).
  Proof.
    intros L W. induction ms as [|m ms IH]; intros rqs shared ops s Im F GR Bi H; inversion F as [|? op ? rqs' Hm F']; subst; cbn [convert_methods] in H; [injection H as <- <-; split; [exact Bi|intros ? ? []]|].
    inversion GR as [|? ? [GRp GRr] GR']; subst. assert (Im' : incl ms METHODS) by (intros z Z; apply Im; now right).
    destruct (method_child d o m L (Im m (or_introl eq_refl))) as [[Hv G]|(mo & G & Lm & T & Hv)]; rewrite G in H; cbn [bind] in H.
    - cbn [truthy_obj truthy] in H. exact (IH rqs' shared ops s Im' F' GR' Bi H).
    - rewrite T in H. destruct Hm as [[Z _]|(od & Hod & Gv)]; [contradiction|]. rewrite Hod in Lm. apply bind_ok in H as ([x b'] & Ex & H). cbn [fst snd] in H. apply bind_ok in H as ([rops s'] & Er & H). cbn [fst snd] in H. injection H as <- <-.
      assert (Wo : wf_json (JDict od)) by (rewrite <- Hod; now apply wf_val).
      pose proof (fun fb => operation_fits deref od mo op shared root pr cs x b' fb Lm Wo Gv GRp GRr Bi Ex) as Fo.
      assert (Bs : body_inv (match shared with Some _ => b' | None => None end)) by (destruct shared; [exact (proj1 (Fo None))|apply body_inv_none]).
      destruct (IH rqs' _ rops s' Im' F' GR' Bs Er) as [I1 I2]. split; [exact I1|]. intros m' y [E|Iy]; [|exact (I2 m' y Iy)]. injection E as <- <-. cbn [fst snd]. split; [exact (proj1 (Fo None))|]. intros fb. exact (proj2 (Fo fb)).
  Qed.
  Definition path_keys : list string := "$ref" :: "parameters" :: internal_body :: METHODS.
  Lemma path_fits d o ps rqs root cs pr x reloc : loaded (BCls "PathItem") (JDict d) o -> wf_json (JDict d) -> path_given deref d ps rqs -> Forall good_pair ps -> Forall good_op rqs -> (forall v, lookup "$ref" x = Some v -> okref "PathItem" v) ->
    to_path_item deref normalized_ref o root cs pr = Ok (x, reloc) -> fits (BCls "PathItem") (JDict x).
  Proof.
    intros L W (Pa & Us & F) GRp GRo GRn H.
    assert (Pd : Forall (fun pq => param_doc (snd pq)) ps). { eapply Forall_impl; [|exact Us]. intros pq [[P _]|[Fp|(B & _)]]; [exact P|exact (proj1 Fp)|exact (proj1 B)]. }
    destruct (to_path_item_ok deref normalized_ref d o ps root cs pr x reloc L Pa Pd H) as (kept & body & ops & body' & H1 & H2 & _ & H4 & H5 & H6 & H7 & H8 & H9 & O).
    assert (Bi : body_inv body).
    { destruct body as [b|]; [|apply body_inv_none]. destruct (H4 b eq_refl) as (es & m & G & Ec).
      exact (proj2 (params_fit deref ps es 0 cs [] None kept (Some b) m (usable_pairs deref _ _ G Us) GRp body_ok_nil body_fits_nil ltac:(congruence) (Forall_nil _) Ec)). }
    destruct (methods_fit d o root pr cs L W METHODS rqs body ops body' (incl_refl _) F GRo Bi H5) as [Bi' Fo].
    assert (Op : forall m v, In m METHODS -> lookup m x = Some v -> fits (BCls "Operation") v).
    { intros m v Im Lv. rewrite (H6 m Im) in Lv. destruct (lookup m ops) as [y|] eqn:Ey; [|discriminate]. injection Lv as <-. apply TablesFacts.lookup_In in Ey. destruct (Fo m y Ey) as [By Fy]. apply Fy. destruct body; [exact Bi'|exact By]. }
    set (ks := path_keys). apply (fits_class' "PathItem" v30_PathItem ks x eq_refl O); [|constructor|intros k Ik; cbn in Ik; destruct Ik as [X|[X|[X|[]]]]; discriminate X|].
    2: { intros v _ Lv. exact (GRn v Lv). }
    change (kids_of30 v30_PathItem ks) with [mk_child "get" (BCls "Operation") false; mk_child "put" (BCls "Operation") false; mk_child "post" (BCls "Operation") false; mk_child "delete" (BCls "Operation") false; mk_child "options" (BCls "Operation") false; mk_child "head" (BCls "Operation") false; mk_child "patch" (BCls "Operation") false; mk_child "parameters" (BListOf (BRefElse "Reference" (BCls "Parameter"))) false; mk_child "x-pyopenapi_internal_request_body" (BCls "RequestBody") false].
    do 7 (apply Forall_cons; [kid Lk; eapply Op; [|exact Lk]; cbn [METHODS In]; tauto|]). apply Forall_cons; [|apply Forall_cons; [|constructor]]; kid Lk.
    - rewrite H8 in Lk. eapply fits_some_list; [|exact Lk]. destruct ps as [|pq ps]; [cbn [filter] in H1; inversion H1; intros ? []|].
      destruct (params_loaded deref "PathItem" d o _ L eq_refl Pa) as (px & _ & [[Z _]|(es & _ & _ & _ & G)]); [discriminate|]. exact (kept_list_fits deref _ es kept GRp G Us H1).
    - change "x-pyopenapi_internal_request_body" with internal_body in Lk. rewrite H7 in Lk. destruct body' as [b|]; [|discriminate]. cbn [option_map] in Lk. injection Lk as <-. now apply body_inv_fits.
  Qed.
  Lemma as_doc_in ys k x : In (k, x) (as_doc ys) -> exists y, In y ys /\ fst y = k /\ x = JDict (fst (snd y)).
  Proof. unfold as_doc. intros I. apply in_map_iff in I as (y & E & Iy). exists y. split; [exact Iy|]. split; [exact (f_equal fst E)|]. symmetry. exact (f_equal snd E). Qed.
  Lemma each_in b f l ys k y : NoDup (keys l) -> each b f l ys -> In (k, y) ys -> exists v o x, lookup k l = Some v /\ loaded b v o /\ f o = Ok x /\ y = JDict x.
  Proof. intros N F Iy. destruct (forall2_in_r _ _ _ F _ Iy) as ([k' v] & Iv & E & o & x & Lo & Ef & Ey). cbn [fst snd] in *. subst k'. exists v, o, x. split; [now apply in_lookup_wf|]. auto. Qed.
  Theorem openapi_fits path_ok d o x reloc sec : loaded (BCls "Swagger") (JDict d) o -> migratable deref normalized_ref path_ok d ->
    (forall n s, lookup n (entries_of (val d "securityDefinitions")) = Some (JDict s) -> flow_loads s) ->
    good_refs (JDict d) -> (forall k ps ops, path_ok k ps ops -> Forall good_pair ps /\ Forall good_op ops) ->
    (forall k px v, In (k, JDict px) (entries_of (val x "paths")) -> lookup "$ref" px = Some v -> okref "PathItem" v) ->
    to_openapi deref normalized_ref o = Ok (x, sec, reloc) -> fits (BCls "OpenApi") (JDict x).
  Proof.
    intros L ((W & Hi & Hil & He & Ht) & Hh & Hb & Hd & Hp & Hr & Hs & Hpa) Fl GRd GRo GRn H.
    destruct (to_openapi_ok deref normalized_ref d o x sec reloc L W Hi Hil He Ht H) as (url & paths & schemas & ys & resps & secs & _ & _ & X1 & X2 & X3 & (tags & X4 & X4') & X5 & X6 & X7 & X8 & X9 & X10 & X11 & X12 & X13 & X14 & X15 & X16 & _ & X18 & O & _).
    set (ks := ["openapi"; "info"; "servers"; "paths"; "tags"; "externalDocs"; "components"]) in *. apply (fits_class "OpenApi" v30_OpenApi ks x eq_refl eq_refl O); [|constructor].
    change (kids_of30 v30_OpenApi ks) with [mk_child "info" (BCls "Info") false; mk_child "servers" (BListOf (BCls "Server")) false; mk_child "paths" (BMapOf (BCls "PathItem")) false; mk_child "components" (BCls "Components") false; mk_child "tags" (BListOf (BCls "Tag")) false; mk_child "externalDocs" (BCls "ExternalDocumentation") false].
    repeat (apply Forall_cons; [kid Lk|]); [| | | | | |apply Forall_nil].
    - destruct Hi as [Hi|(i & Hi)]; [rewrite (proj1 X1 Hi) in Lk; discriminate|]. destruct (proj2 X1 i Hi) as (i' & E & Im). rewrite E in Lk. injection Lk as <-. destruct (Hil i Hi) as [Oc Ol]. exact (info_fits i i' Oc Ol Im).
    - rewrite X2 in Lk. injection Lk as <-. apply ti_list. intros y [<-|[]]. apply server_fits.
    - assert (GRn' : forall k px v', In (k, JDict px) (map (fun y => (fst y, fst (snd y))) paths) -> lookup "$ref" px = Some v' -> okref "PathItem" v').
      { intros k px v' I. apply GRn with k. unfold val. rewrite X6. destruct (map (fun y => (fst y, fst (snd y))) paths); [destruct I|exact I]. }
      rewrite X6 in Lk. eapply fits_some_dict; [|exact Lk]. intros k y Iy. assert (Iy' := Iy). apply in_map_iff in Iy as (z & E & Iz). destruct (forall2_in_r _ _ _ X5 _ Iz) as ([k' v'] & Iv & Ek & _ & po & px & Lp & Ep & Ex). cbn [fst snd] in *.
      assert (Ey : y = JDict px). { rewrite <- Ex. symmetry. exact (f_equal snd E). } subst y.
      assert (Lv : lookup k' (entries_of (val d "paths")) = Some v') by (apply in_lookup_wf; [exact (nodup_entries d "paths" W)|exact Iv]).
      destruct (Hpa k' v' Lv) as (p & ps & rqs & -> & Gv & Po & _). destruct (GRo _ _ _ Po) as [Go1 Go2]. exact (path_fits p po ps rqs url _ _ px _ Lp (val_entries d _ _ _ W Lv) Gv Go1 Go2 (fun v0 L0 => GRn' _ px v0 Iy' L0) Ep).
    - rewrite (X18 v Lk). clear Lk v. set (cks := ["schemas"; "parameters"; "requestBodies"; "responses"; "securitySchemes"]) in *. apply (fits_class "Components" v30_Components cks _ eq_refl eq_refl X16); [|constructor].
      change (kids_of30 v30_Components cks) with [mk_child "schemas" (BMapOf (BRefElse "Reference" (BCls "Schema"))) false; mk_child "responses" (BMapOf (BRefElse "Reference" (BCls "Response"))) false; mk_child "parameters" (BMapOf (BRefElse "Reference" (BCls "Parameter"))) false; mk_child "requestBodies" (BMapOf (BRefElse "Reference" (BCls "RequestBody"))) false; mk_child "securitySchemes" (BMapOf (BRefElse "Reference" (BCls "SecurityScheme"))) false].
      assert (Gl : forall y, In y ys -> if is_body (snd (snd y)) then body_fits (fst (snd y)) /\ body_ok (fst (snd y)) /\ lookup "content" (fst (snd y)) <> None else fits_param (JDict (fst (snd y)))).
      { intros [k [dd c]] Iy. destruct (forall2_in_r _ _ _ X9 _ Iy) as ([k' v'] & Iv & Ek & po & Lp & Ep). cbn [fst snd] in *. subst k'.
        assert (Lv : lookup k (entries_of (val d "parameters")) = Some v') by (apply in_lookup_wf; [exact (nodup_entries d "parameters" W)|exact Iv]).
        destruct (Hp k v' Lv) as (q & -> & Ir & R & U). pose proof (refers_param deref q q po R (plain_loaded _ _ _ _ Ir Lp)) as G.
        pose proof (refs_entries _ d "parameters" k _ GRd Lv) as Gq. pose proof (from_parameter_fits deref q q po None [] dd c Gq Gq G U body_ok_nil body_fits_nil Ep) as Ff. destruct (is_body c) eqn:Ib; [|exact Ff]. destruct Ff as [F1 F2]. split; [exact F1|]. split; [|exact F2].
        exact (from_parameter_body_ok deref q q po None [] dd c G U body_ok_nil Ep Ib). }
      repeat (apply Forall_cons; [kid Lc|]); [| | | | |apply Forall_nil].
      + rewrite X8 in Lc. eapply fits_some_dict; [|exact Lc]. intros k y Iy. destruct (each_in _ _ _ _ _ _ (nodup_entries d "definitions" W) X7 Iy) as (v1 & o1 & x1 & L1 & Lo & E1 & ->).
        destruct (to_schema_image (osize o1) v1 o1 (val_entries d _ _ _ W L1) (Hd _ _ L1) Lo (le_n _)) as (s' & E2 & Im). unfold to_schema in E1. rewrite E1 in E2. injection E2 as <-. exact (schema_image_fits _ _ (Hd _ _ L1) (refs_entries _ d "definitions" k _ GRd L1) Im).
      + rewrite X13 in Lc. eapply fits_some_dict; [|exact Lc]. intros k y Iy. destruct (each_in _ _ _ _ _ _ (nodup_entries d "responses" W) X12 Iy) as (v1 & o1 & x1 & L1 & Lo & E1 & ->). cbn beta in E1.
        destruct (Hr _ _ L1) as (q & -> & Ir & Rf & Rd). pose proof (refers_response deref q q o1 Rf (plain_loaded _ _ _ _ Ir Lo)) as G.
        pose proof (refs_entries _ d "responses" k _ GRd L1) as Gq. apply (response_fits _ _ _ _ Gq Gq Rd (to_response_ok deref q q o1 _ x1 G Rd (val_entries d _ _ _ W L1) E1)). exact (response_nodup deref o1 _ x1 E1).
      + rewrite X10 in Lc. eapply fits_some_dict; [|exact Lc]. intros k y Iy. destruct (as_doc_in _ _ _ Iy) as (z & Iz & _ & ->). unfold other_ones in Iz. apply filter_In in Iz as [Iz Nb]. specialize (Gl z Iz). destruct (is_body (snd (snd z))); [discriminate|exact Gl].
      + rewrite X11 in Lc. eapply fits_some_dict; [|exact Lc]. intros k y Iy. destruct (as_doc_in _ _ _ Iy) as (z & Iz & _ & ->). unfold body_ones in Iz. apply filter_In in Iz as [Iz Nb]. specialize (Gl z Iz). rewrite Nb in Gl. destruct Gl as (G1 & G2 & G3).
        apply (body_inv_ref (fst (snd z))). split; [exact G2|]. split; [exact G1|]. intros _. exact G3.
      + rewrite X15 in Lc. eapply fits_some_dict; [|exact Lc]. intros k y Iy. destruct (each_in _ _ _ _ _ _ (nodup_entries d "securityDefinitions" W) X14 Iy) as (v1 & o1 & x1 & L1 & Lo & E1 & ->).
        destruct (Hs _ _ L1) as (s & -> & _). exact (scheme_fits s o1 x1 Lo (scheme_ok s o1 x1 Lo E1) (Fl _ _ L1)).
    - rewrite X4 in Lk. eapply fits_some_list; [|exact Lk]. intros y Iy. destruct (forall2_in_r _ _ _ X4' _ Iy) as (t & It & td & td' & -> & -> & Im). rewrite Forall_forall in Ht. destruct (Ht _ It) as (td0 & E0 & Oe). assert (td0 = td) by congruence. subst td0. exact (tag_fits td td' Oe Im).
    - exact (part_fits _ _ _ _ He X3 docs_fits _ Lk).
  Qed.
End Fit.
End Shapes.
