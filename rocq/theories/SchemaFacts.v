(** Proofs about the conversion of schemas. *)
From Coq Require Import String Ascii List Bool Arith Lia.
From Verif Require Import PyStr PyStrFacts PyVal PyValFacts Jp UrlLib Obj ObjFacts Classes_v2_0 TablesFacts SpecJson ShapeFacts DumpFacts SpecObj SpecSchema Store Conv20 ConvFacts.
Import ListNotations.
Open Scope string_scope. Open Scope nat_scope.

Lemma loaded_prim_child_truthy b j o : loaded b j o -> truthy_obj o = match o with OPrim v => truthy v | OObj _ _ _ _ => true | OList _ _ l => match l with [] => false | _ => true end | OMap _ _ l => match l with [] => false | _ => true end end.
Proof. destruct o; reflexivity. Qed.
Lemma loaded_cls_truthy c j o : lookup c v20_table <> None -> loaded (BCls c) j o -> truthy_obj o = true.
Proof. intros H L. destruct (lookup c v20_table) as [cd|] eqn:E; [|contradiction]. destruct (loaded_obj c cd j o E L) as (p & kids & -> & _). reflexivity. Qed.

Lemma mapM_ok_ex {A B} (f : A -> res B) l : (forall x, In x l -> exists y, f x = Ok y) -> exists ys, mapM f l = Ok ys.
Proof.
  induction l as [|x l IH]; intros H; cbn [mapM]; [eauto|]. destruct (H x (or_introl eq_refl)) as [y ->]. destruct IH as [ys ->]; [intros z Hz; apply H; now right|].
  cbn [bind]. eauto.
Qed.
Lemma keys_dict_update_nil {A} (xs : list (string * A)) : NoDup (keys xs) -> dict_update [] xs = xs.
Proof.
  unfold dict_update. intros N. assert (G : forall acc, NoDup (keys (acc ++ xs)%list) -> fold_left (fun a kv => dict_set (fst kv) (snd kv) a) xs acc = (acc ++ xs)%list).
  { induction xs as [|[k v] xs IH]; intros acc Na; cbn [fold_left]; [now rewrite app_nil_r|]. cbn [fst snd].
    unfold keys in *. rewrite map_app in Na. cbn [map fst] in *. inversion N as [|? ? N1 N2]; subst.
    rewrite dict_set_fresh.
    - replace (acc ++ (k, v) :: xs)%list with ((acc ++ [(k, v)]) ++ xs)%list by (rewrite <- app_assoc; reflexivity). apply IH; [exact N2|].
      rewrite map_app, map_app. cbn [map fst]. rewrite <- app_assoc. exact Na.
    - apply lookup_none. intros H. apply NoDup_app_iff_local in Na as (_ & _ & D). apply (D k H). now left. }
  apply (G []). exact N.
Qed.

(** fields, as list of names *)
Lemma xml_ok o x : loaded (BCls "XMLObject") (JDict x) o -> exists x', to_xml o = Ok x' /\ copies ["name"; "namespace"; "prefix"; "attribute"; "wrapped"] x x'.
Proof.
  intros L. destruct (generate_fields_ok o (val x) ["name"; "namespace"; "prefix"; "attribute"; "wrapped"]) as (fs & E & _ & F).
  - intros n Hn. repeat (destruct Hn as [<-|Hn]; [match goal with |- gfield_none o ?n = _ => exact (gfield_none_val "XMLObject" x o n L eq_refl) end|]). destruct Hn.
  - exists fs. split; [exact E|]. split; intros k Hk; rewrite F; destruct (in_dec string_dec k _); try reflexivity; contradiction.
Qed.
Lemma external_docs_ok o x : loaded (BCls "ExternalDocumentation") (JDict x) o -> exists x', to_external_docs o = Ok x' /\ docs_image x x'.
Proof.
  intros L. unfold to_external_docs. rewrite (gfield_val "ExternalDocumentation" x o "url" L eq_refl), (gfield_val "ExternalDocumentation" x o "description" L eq_refl). cbn [bind].
  eexists. split; [reflexivity|]. unfold docs_image. destruct (truthy (val x "description")); (split; [reflexivity|]); (split; [reflexivity|]); intros k H1 H2.
  - rewrite lookup_dict_set. destruct (String.eqb_spec k "description"); [contradiction|]. cbn [lookup]. destruct (String.eqb_spec k "url"); [contradiction|reflexivity].
  - cbn [lookup]. destruct (String.eqb_spec k "url"); [contradiction|reflexivity].
Qed.

(** the successive optional entries of the result *)
Definition schema_result (fs : dict) (req allof items props addp disc xml ed : option json) : dict :=
  opt_set "externalDocs" ed (opt_set "xml" xml (opt_set "discriminator" disc (opt_set "additionalProperties" addp
    (opt_set "properties" props (opt_set "items" items (opt_set "allOf" allof (opt_set "required" req fs))))))).

Definition required_part (j : json) : option json := match j with JList (x :: l) => Some (JList (x :: l)) | _ => None end.

(** one step of the schema conversion on an object with no reference, not a file *)
Lemma wf_val d k : wf_json (JDict d) -> wf_json (val d k).
Proof. intros W. unfold val. destruct (lookup k d) eqn:L; [|exact I]. apply PyValFacts.lookup_In in L. apply wf_dict in W as [_ W]. eapply W; exact L. Qed.

Lemma val_nil (d : dict) k : lookup k d = None -> val d k = JNull. Proof. unfold val. now intros ->. Qed.

Lemma lookup_opt_set_fresh k v d : lookup k d = None -> forall k', lookup k' (opt_set k v d) = if String.eqb k k' then v else lookup k' d.
Proof. intros H k'. rewrite lookup_opt_set. destruct (String.eqb_spec k k') as [<-|_]; [|reflexivity]. rewrite H. destruct v; reflexivity. Qed.

Ltac in_list := solve [cbn; repeat (first [left; reflexivity | right])].

Theorem to_schema_image : forall n j o, wf_json j -> schema_doc j -> loaded (BCls "Schema") j o -> osize o <= n ->
  exists d', to_schema_n n false o = Ok d' /\ schema_image j (JDict d').
Proof.
  induction n as [|n IH]; intros j o W S L Sz; [pose proof (osize_pos o); lia|].
  inversion S as [d Hit Hall Hpr Had Hx He Ej]; subst j.
  cbn [to_schema_n]. rewrite (gfield_none_val "Schema" d o "$ref" L eq_refl). cbn [bind]. change (fval "Schema" d "$ref") with (val d "$ref").
  destruct (truthy (val d "$ref")) eqn:Tr; [eexists; split; [reflexivity|now apply im_ref]|].
  rewrite (gfield_none_val "Schema" d o "type" L eq_refl). cbn [bind]. change (fval "Schema" d "type") with (val d "type").
  destruct (json_is_str "file" (val d "type")) eqn:Tf.
  { eexists; split; [reflexivity|]. apply im_file; [exact Tr|]. unfold json_is_str in Tf. destruct (val d "type"); try discriminate. apply String.eqb_eq in Tf. now subst. }
  assert (Tf' : val d "type" <> JStr "file") by (intros E; rewrite E in Tf; discriminate).
  destruct (generate_fields_ok o (fval "Schema" d) SCHEMA_FIELDS) as (fs & Efs & Nfs & Lfs).
  { intros k Hk. apply (gfield_none_val "Schema" d o k L). repeat (destruct Hk as [<-|Hk]; [reflexivity|]). destruct Hk. }
  rewrite Efs. cbn [bind].
  (* required *)
  assert (Ereq : gfield_none o "required" = Ok (match lookup "required" d with Some v => v | None => JList [] end)).
  { unfold gfield_none. rewrite (gattr_none_ok _ _ _ (gattr_field "Schema" d o "required" (JList []) L eq_refl)). reflexivity. }
  rewrite Ereq. cbn [bind].
  set (req := required_part (val d "required")).
  assert (Rreq : match match lookup "required" d with Some v => v | None => JList [] end with JList (x :: l) => dict_set "required" (JList (x :: l)) fs | _ => fs end = opt_set "required" req fs).
  { unfold req, required_part, val. destruct (lookup "required" d) as [v|]; [|reflexivity]. destruct v as [| | | | |[|x l]|]; reflexivity. }
  rewrite Rreq. clear Rreq Ereq.
  (* allOf *)
  assert (All : exists a, (forall ret, (x <- gattr_none o "allOf" ;;
                             (if truthy_obj x then es <- elems x ;; xs <- mapM (fun e => rmap JDict (to_schema_n n false e)) es ;; Ok (dict_set "allOf" (JList xs) ret) else Ok ret)) = Ok (opt_set "allOf" a ret)) /\
                  (forall l, val d "allOf" = JList l -> l <> [] -> exists l', a = Some (JList l') /\ Forall2 schema_image l l') /\
                  (val d "allOf" = JNull \/ val d "allOf" = JList [] -> a = None)).
  { destruct (gattr_child "Schema" d o "allOf" _ L eq_refl) as [[Hv G]|(Hv & ko & G & Lk & Sk)].
    - exists None. rewrite (gattr_none_ok _ _ _ G). split; [reflexivity|]. rewrite Hv. split; [discriminate|reflexivity].
    - rewrite (gattr_none_ok _ _ _ G). cbn [bind]. destruct (loaded_list _ _ _ Lk) as (l & p & es & Ev & -> & F2). destruct Hall as [Hall|(l0 & El & Fl)]; [congruence|].
      assert (l0 = l) by congruence. subst l0. cbn [truthy_obj elems bind].
      destruct es as [|e es].
      + exists None. split; [reflexivity|]. inversion F2; subst. rewrite Ev. split; [congruence|reflexivity].
      + assert (Hm : exists l', mapM (fun e => rmap JDict (to_schema_n n false e)) (e :: es) = Ok l' /\ Forall2 schema_image l l').
        { assert (Wl : Forall wf_json l) by (apply Forall_forall; pose proof (wf_val d "allOf" W) as X; rewrite Ev in X; apply wf_list; exact X).
          assert (Se : Forall (fun e => osize e <= n) (e :: es)).
          { apply Forall_forall. intros x Hin. apply size_in_list in Hin. cbn [osize] in Sk. lia. }
          revert Wl Se Fl. clear -IH F2. generalize dependent (e :: es). clear e es. intros es0 F2. induction F2 as [|x y l es0 Lx F2 IHF]; intros Wl Se Fl; [exists []; split; [reflexivity|constructor]|].
          inversion Wl; inversion Se; inversion Fl; subst. destruct (IH x y) as (y' & E' & Im); [assumption|assumption|exact Lx|assumption|].
          destruct IHF as (l' & E2 & F2'); [assumption|assumption|assumption|]. exists (JDict y' :: l'). cbn [mapM]. rewrite E'. cbn [rmap bind]. rewrite E2. split; [reflexivity|constructor; assumption]. }
        destruct Hm as (l' & Em & F2'). exists (Some (JList l')). split; [intros ret; rewrite Em; reflexivity|]. rewrite Ev. split.
        * intros l0 E0 _. injection E0 as <-. eauto.
        * intros [E0|E0]; [discriminate|]. injection E0 as ->. inversion F2. }
  destruct All as (a & Ea & Ha1 & Ha2). specialize (Ea (opt_set "required" req fs)).
  apply bind_ok in Ea as (kao & Gao & Ea). rewrite Gao. cbn [bind]. rewrite Ea. cbn [bind]. clear Ea Gao kao.
  (* items *)
  assert (Its : exists it, (forall ret, (x <- gattr_none o "items" ;; if truthy_obj x then x <- to_schema_n n false x ;; Ok (dict_set "items" (JDict x) ret) else Ok ret) = Ok (opt_set "items" it ret)) /\
                  (val d "items" <> JNull -> exists s', it = Some s' /\ schema_image (val d "items") s') /\ (val d "items" = JNull -> it = None)).
  { destruct (gattr_child "Schema" d o "items" _ L eq_refl) as [[Hv G]|(Hv & ko & G & Lk & Sk)].
    - exists None. rewrite (gattr_none_ok _ _ _ G). split; [reflexivity|]. split; [contradiction|reflexivity].
    - rewrite (gattr_none_ok _ _ _ G). cbn [bind]. rewrite (loaded_cls_truthy "Schema" _ _ ltac:(discriminate) Lk).
      destruct Hit as [Hit|Hit]; [contradiction|]. destruct (IH _ _ (wf_val d "items" W) Hit Lk ltac:(lia)) as (d' & E' & Im).
      exists (Some (JDict d')). split; [intros ret; rewrite E'; reflexivity|]. split; [eauto|contradiction]. }
  destruct Its as (it & Ei & Hi1 & Hi2). specialize (Ei (opt_set "allOf" a (opt_set "required" req fs))).
  apply bind_ok in Ei as (ki & Gi & Ei). rewrite Gi. cbn [bind]. rewrite Ei. cbn [bind]. clear Ei Gi ki.
  (* properties *)
  assert (Prs : exists pr, (forall ret, (x <- gattr_none o "properties" ;; if truthy_obj x then es <- entries x ;; xs <- mapM (fun kv => rmap (fun y => (fst kv, JDict y)) (to_schema_n n false (snd kv))) es ;;
                              Ok (dict_set "properties" (JDict (dict_update [] xs)) ret) else Ok ret) = Ok (opt_set "properties" pr ret)) /\
                  (forall p, val d "properties" = JDict p -> p <> [] -> exists p', pr = Some (JDict p') /\ Forall2 (fun a b => fst a = fst b /\ schema_image (snd a) (snd b)) p p') /\
                  (val d "properties" = JNull \/ val d "properties" = JDict [] -> pr = None)).
  { destruct (gattr_child "Schema" d o "properties" _ L eq_refl) as [[Hv G]|(Hv & ko & G & Lk & Sk)].
    - exists None. rewrite (gattr_none_ok _ _ _ G). split; [reflexivity|]. rewrite Hv. split; [discriminate|reflexivity].
    - rewrite (gattr_none_ok _ _ _ G). cbn [bind]. destruct (loaded_map _ _ _ Lk) as (pd & p & es & Ev & -> & F2). destruct Hpr as [Hpr|(l0 & El & Fl)]; [congruence|].
      assert (l0 = pd) by congruence. subst l0. cbn [truthy_obj entries bind].
      destruct es as [|e es].
      + exists None. split; [reflexivity|]. inversion F2; subst. rewrite Ev. split; [congruence|reflexivity].
      + pose proof (wf_val d "properties" W) as X; rewrite Ev in X; apply wf_dict in X as [Npd Wpd].
        assert (Hm : exists l', mapM (fun kv => rmap (fun y => (fst kv, JDict y)) (to_schema_n n false (snd kv))) (e :: es) = Ok l' /\ Forall2 (fun a b => fst a = fst b /\ schema_image (snd a) (snd b)) pd l').
        { assert (Wl : Forall (fun kv => wf_json (snd kv)) pd) by (apply Forall_forall; intros [k x] Hin; eapply Wpd; exact Hin).
          assert (Se : Forall (fun e => osize (snd e) <= n) (e :: es)).
          { apply Forall_forall. intros [k x] Hin. apply size_in_map in Hin. cbn [osize snd] in *. lia. }
          revert Wl Se Fl. clear -IH F2. generalize dependent (e :: es). clear e es. intros es0 F2. induction F2 as [|x y l es0 [Ek Lx] F2 IHF]; intros Wl Se Fl; [exists []; split; [reflexivity|constructor]|].
          inversion Wl; inversion Se; inversion Fl; subst. destruct (IH (snd x) (snd y)) as (y' & E' & Im); [assumption|assumption|exact Lx|assumption|].
          destruct IHF as (l' & E2 & F2'); [assumption|assumption|assumption|]. exists ((fst y, JDict y') :: l'). cbn [mapM]. rewrite E'. cbn [rmap bind]. rewrite E2. split; [reflexivity|constructor; [split|]; assumption]. }
        destruct Hm as (l' & Em & F2').
        assert (Nl : NoDup (keys l')). { assert (Ek : keys l' = keys pd). { clear -F2'. induction F2' as [|x y l m [E _] _ IHF]; [reflexivity|]. unfold keys in *. cbn [map]. congruence. } now rewrite Ek. }
        exists (Some (JDict l')). split; [intros ret; rewrite Em; cbn [bind]; rewrite keys_dict_update_nil by exact Nl; reflexivity|]. rewrite Ev. split.
        * intros l0 E0 _. injection E0 as <-. eauto.
        * intros [E0|E0]; [discriminate|]. injection E0 as ->. inversion F2. }
  destruct Prs as (pr & Ep & Hp1 & Hp2). specialize (Ep (opt_set "items" it (opt_set "allOf" a (opt_set "required" req fs)))).
  apply bind_ok in Ep as (kp & Gp & Ep). rewrite Gp. cbn [bind]. rewrite Ep. cbn [bind]. clear Ep Gp kp.
  (* additionalProperties *)
  assert (Adp : exists ap, (forall ret, (x <- gattr_none o "additionalProperties" ;; match x with
                  | OPrim (JBool b) => Ok (if b then ret else dict_set "additionalProperties" (JBool false) ret)
                  | OPrim JNull => Ok ret
                  | _ => y <- to_schema_n n false x ;; Ok (dict_set "additionalProperties" (JDict y) ret)
                  end) = Ok (opt_set "additionalProperties" ap ret)) /\
                  (forall x, val d "additionalProperties" = JDict x -> exists s', ap = Some s' /\ schema_image (JDict x) s') /\
                  (val d "additionalProperties" = JBool false -> ap = Some (JBool false)) /\
                  (val d "additionalProperties" = JBool true \/ val d "additionalProperties" = JNull -> ap = None)).
  { destruct (gattr_child "Schema" d o "additionalProperties" _ L eq_refl) as [[Hv G]|(Hv & ko & G & Lk & Sk)].
    - exists None. rewrite (gattr_none_ok _ _ _ G). split; [reflexivity|]. rewrite Hv. split; [discriminate|split; [discriminate|reflexivity]].
    - rewrite (gattr_none_ok _ _ _ G). cbn [bind]. destruct (loaded_bool_else _ _ _ Lk) as [(v & Ev & ->)|[Hnb Ls]].
      + rewrite Ev. destruct v.
        * exists None. split; [reflexivity|]. split; [discriminate|]. split; [discriminate|reflexivity].
        * exists (Some (JBool false)). split; [reflexivity|]. split; [discriminate|]. split; [reflexivity|]. intros [E0|E0]; discriminate.
      + destruct Had as [Had|[(b & Had)|Had]]; [contradiction|now contradiction (Hnb b)|].
        destruct (IH _ _ (wf_val d "additionalProperties" W) Had Ls ltac:(lia)) as (d' & E' & Im).
        destruct (loaded_obj "Schema" v20_Schema _ _ eq_refl Ls) as (p & kids & -> & _).
        exists (Some (JDict d')). split; [intros ret; rewrite E'; reflexivity|]. split; [intros x Ex; rewrite Ex in Im; eauto|]. split; [intros Eb; now contradiction (Hnb false)|].
        intros [Eb|Eb]; [now contradiction (Hnb true)|contradiction]. }
  destruct Adp as (ap & Eap & Hap1 & Hap2 & Hap3). specialize (Eap (opt_set "properties" pr (opt_set "items" it (opt_set "allOf" a (opt_set "required" req fs))))).
  apply bind_ok in Eap as (kap & Gap & Eap). rewrite Gap. cbn [bind]. rewrite Eap. cbn [bind]. clear Eap Gap kap.
  (* discriminator *)
  rewrite (gfield_none_val "Schema" d o "discriminator" L eq_refl). cbn [bind]. change (fval "Schema" d "discriminator") with (val d "discriminator").
  set (disc := if truthy (val d "discriminator") then Some (JDict [("propertyName", val d "discriminator")]) else None).
  assert (Edisc : forall ret, (if truthy (val d "discriminator") then dict_set "discriminator" (JDict [("propertyName", val d "discriminator")]) ret else ret) = opt_set "discriminator" disc ret).
  { intros ret. unfold disc. destruct (truthy (val d "discriminator")); reflexivity. }
  rewrite Edisc. clear Edisc.
  (* xml *)
  assert (Xm : exists x, (forall ret, (y <- gattr_none o "xml" ;; if truthy_obj y then z <- to_xml y ;; Ok (dict_set "xml" (JDict z) ret) else Ok ret) = Ok (opt_set "xml" x ret)) /\
                 (forall v, val d "xml" = JDict v -> exists x', x = Some (JDict x') /\ copies ["name"; "namespace"; "prefix"; "attribute"; "wrapped"] v x') /\ (val d "xml" = JNull -> x = None)).
  { destruct (gattr_child "Schema" d o "xml" _ L eq_refl) as [[Hv G]|(Hv & ko & G & Lk & Sk)].
    - exists None. rewrite (gattr_none_ok _ _ _ G). split; [reflexivity|]. rewrite Hv. split; [discriminate|reflexivity].
    - rewrite (gattr_none_ok _ _ _ G). cbn [bind]. rewrite (loaded_cls_truthy "XMLObject" _ _ ltac:(discriminate) Lk). destruct Hx as [Hx|(v & Hx)]; [contradiction|].
      rewrite Hx in Lk. destruct (xml_ok _ _ Lk) as (x' & E' & C). exists (Some (JDict x')). split; [intros ret; rewrite E'; reflexivity|]. rewrite Hx.
      split; [intros v0 E0; injection E0 as <-; eauto|discriminate]. }
  destruct Xm as (x & Ex & Hx1 & Hx2). specialize (Ex (opt_set "discriminator" disc (opt_set "additionalProperties" ap (opt_set "properties" pr (opt_set "items" it (opt_set "allOf" a (opt_set "required" req fs))))))).
  apply bind_ok in Ex as (kx & Gx & Ex). rewrite Gx. cbn [bind]. rewrite Ex. cbn [bind]. clear Ex Gx kx.
  (* externalDocs *)
  assert (Xe : exists e, (forall ret, (y <- gattr_none o "externalDocs" ;; if truthy_obj y then z <- to_external_docs y ;; Ok (dict_set "externalDocs" (JDict z) ret) else Ok ret) = Ok (opt_set "externalDocs" e ret)) /\
                 (forall v, val d "externalDocs" = JDict v -> exists x', e = Some (JDict x') /\ docs_image v x') /\ (val d "externalDocs" = JNull -> e = None)).
  { destruct (gattr_child "Schema" d o "externalDocs" _ L eq_refl) as [[Hv G]|(Hv & ko & G & Lk & Sk)].
    - exists None. rewrite (gattr_none_ok _ _ _ G). split; [reflexivity|]. rewrite Hv. split; [discriminate|reflexivity].
    - rewrite (gattr_none_ok _ _ _ G). cbn [bind]. rewrite (loaded_cls_truthy "ExternalDocumentation" _ _ ltac:(discriminate) Lk). destruct He as [He|(v & He)]; [contradiction|].
      rewrite He in Lk. destruct (external_docs_ok _ _ Lk) as (x' & E' & C). exists (Some (JDict x')). split; [intros ret; rewrite E'; reflexivity|]. rewrite He.
      split; [intros v0 E0; injection E0 as <-; eauto|discriminate]. }
  destruct Xe as (e & Ee & He1 & He2). match goal with |- exists d', (y <- gattr_none o "externalDocs" ;; if truthy_obj y then _ else Ok ?r) = Ok d' /\ _ => specialize (Ee r); set (base := r) in * end.
  exists (opt_set "externalDocs" e base). split; [exact Ee|].
  assert (Lk : forall k, lookup k (opt_set "externalDocs" e base) =
     if String.eqb "externalDocs" k then e else if String.eqb "xml" k then x else if String.eqb "discriminator" k then disc else if String.eqb "additionalProperties" k then ap
     else if String.eqb "properties" k then pr else if String.eqb "items" k then it else if String.eqb "allOf" k then a else if String.eqb "required" k then req else lookup k fs).
  { assert (Fo : forall k, In k other_keywords -> lookup k fs = None). { intros k Hk. rewrite Lfs. repeat (destruct Hk as [<-|Hk]; [reflexivity|]). destruct Hk. }
    assert (F1 : forall k, lookup k (opt_set "required" req fs) = if String.eqb "required" k then req else lookup k fs) by (apply lookup_opt_set_fresh, Fo; in_list).
    assert (F2 := lookup_opt_set_fresh "allOf" a (opt_set "required" req fs) ltac:(rewrite F1; apply Fo; in_list)).
    assert (F3 := lookup_opt_set_fresh "items" it _ ltac:(rewrite F2, F1; apply Fo; in_list)).
    assert (F4 := lookup_opt_set_fresh "properties" pr _ ltac:(rewrite F3, F2, F1; apply Fo; in_list)).
    assert (F5 := lookup_opt_set_fresh "additionalProperties" ap _ ltac:(rewrite F4, F3, F2, F1; apply Fo; in_list)).
    assert (F6 := lookup_opt_set_fresh "discriminator" disc _ ltac:(rewrite F5, F4, F3, F2, F1; apply Fo; in_list)).
    assert (F7 := lookup_opt_set_fresh "xml" x _ ltac:(rewrite F6, F5, F4, F3, F2, F1; apply Fo; in_list)).
    assert (F8 := lookup_opt_set_fresh "externalDocs" e base ltac:(unfold base; rewrite F7, F6, F5, F4, F3, F2, F1; apply Fo; in_list)).
    intros k. rewrite F8. unfold base. rewrite F7, F6, F5, F4, F3, F2, F1. reflexivity. }
  assert (Lf : forall k, In k copied_keywords -> lookup k fs = non_null (val d k)).
  { intros k Hk. rewrite Lfs. repeat (destruct Hk as [<-|Hk]; [reflexivity|]). destruct Hk. }
  apply im_schema; try assumption.
  - intros k Hk. rewrite Lk. rewrite <- Lf by exact Hk. repeat (destruct Hk as [<-|Hk]; [reflexivity|]). destruct Hk.
  - intros y l E. rewrite Lk. cbn [String.eqb Ascii.eqb Bool.eqb]. unfold req. now rewrite E.
  - intros N. rewrite Lk. cbn [String.eqb Ascii.eqb Bool.eqb]. unfold req, required_part. destruct (val d "required") as [| | | | |[|y l]|]; try reflexivity. now contradiction (N y l).
  - intros Hv. rewrite Lk. cbn [String.eqb Ascii.eqb Bool.eqb]. destruct (Hi1 Hv) as (s' & -> & Im). eauto.
  - intros Hv. rewrite Lk. cbn [String.eqb Ascii.eqb Bool.eqb]. auto.
  - intros l El Hl. rewrite Lk. cbn [String.eqb Ascii.eqb Bool.eqb]. destruct (Ha1 l El Hl) as (l' & -> & F). eauto.
  - intros Hv. rewrite Lk. cbn [String.eqb Ascii.eqb Bool.eqb]. auto.
  - intros p El Hl. rewrite Lk. cbn [String.eqb Ascii.eqb Bool.eqb]. destruct (Hp1 p El Hl) as (l' & -> & F). eauto.
  - intros Hv. rewrite Lk. cbn [String.eqb Ascii.eqb Bool.eqb]. auto.
  - intros y Ey. rewrite Lk. cbn [String.eqb Ascii.eqb Bool.eqb]. destruct (Hap1 y Ey) as (s' & -> & Im). eauto.
  - intros Hv. rewrite Lk. cbn [String.eqb Ascii.eqb Bool.eqb]. auto.
  - intros Hv. rewrite Lk. cbn [String.eqb Ascii.eqb Bool.eqb]. auto.
  - rewrite Lk. reflexivity.
  - intros v Ev. rewrite Lk. cbn [String.eqb Ascii.eqb Bool.eqb]. destruct (Hx1 v Ev) as (x' & -> & C). eauto.
  - intros Hv. rewrite Lk. cbn [String.eqb Ascii.eqb Bool.eqb]. auto.
  - intros v Ev. rewrite Lk. cbn [String.eqb Ascii.eqb Bool.eqb]. destruct (He1 v Ev) as (x' & -> & C). eauto.
  - intros Hv. rewrite Lk. cbn [String.eqb Ascii.eqb Bool.eqb]. auto.
  - intros k v. rewrite Lk. rewrite in_app_iff.
    repeat match goal with |- context [String.eqb ?s k] => destruct (String.eqb_spec s k) as [<-|?]; [intros _; right; in_list|] end.
    rewrite Lfs. destruct (in_dec string_dec k SCHEMA_FIELDS) as [I|I]; [|discriminate]. intros Hv. left.
    unfold SCHEMA_FIELDS, BASE_SCHEMA_FIELDS in I. cbn [List.app] in I. repeat (destruct I as [<-|I]; [first [in_list | discriminate Hv]|]). destruct I.
Qed.
