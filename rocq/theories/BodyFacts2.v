(** Proofs about form, file and body parameters: merging into a request body. *)
From Coq Require Import String Ascii List Bool Arith Lia.
From Verif Require Import PyStr PyStrFacts PyVal PyValFacts Jp UrlLib Obj ObjFacts Classes_v2_0 TablesFacts SpecJson ShapeFacts DumpFacts SpecObj SpecSchema SpecConv SpecBody Store Conv20 ConvFacts SchemaFacts SchemaFacts2 ParamFacts BodyFacts.
Import ListNotations.
Open Scope string_scope. Open Scope nat_scope.

(** the parameter written [p], whose reference (if any) leads to [q] *)

Lemma param_ref deref p q o : param_given deref p q o -> gattr_none o "$ref" = Ok (OPrim (if is_reference p then val p "$ref" else JNull)) /\ (is_reference p = true -> truthy (val p "$ref") = true).
Proof.
  intros (r & _ & L & R & H). destruct (is_reference p) eqn:E.
  - split.
    + rewrite (gattr_none_ok _ _ _ (gattr_field "Reference" p o "$ref" JNull H eq_refl)). reflexivity.
    + intros _. unfold is_reference, mem in E. destruct (lookup "$ref" p) as [v|] eqn:Lk; [|discriminate]. rewrite (val_some _ _ _ Lk). now apply R.
  - destruct H as [-> ->]. split; [exact (gattr_none_undeclared "Parameter" _ _ "$ref" L eq_refl)|discriminate].
Qed.

Lemma truthy_required q : param_doc q -> truthy (val q "required") = required_param q.
Proof. intros (_ & _ & [H|(b & H)]); unfold required_param; rewrite H; reflexivity. Qed.

Section Merge.
  Variable deref : obj -> res obj.


  Lemma media_type_step p q o n t m : param_given deref p q o -> form_param q -> val q "name" = JStr n -> media_ok m ->
    (exists m', to_media_type deref o t m = Ok m' /\ media_step p q n t m m' /\ ~ clashes q n t m) \/
    (to_media_type deref o t m = Err SchemaError /\ clashes q n t m).
  Proof.
    intros G (P & Hin & Hsc & _) Hn (M1 & M2 & M3 & M4). destruct (param_ref deref p q o G) as [Er Et]. destruct G as (r & Dr & L & Rk & Hp).
    unfold to_media_type. rewrite Dr. cbn [bind]. rewrite (get_dict_sub "schema" m M1). cbn [bind]. set (sch := subd "schema" m) in *.
    rewrite (gfield_val "Parameter" q r "required" L eq_refl), (gfield_val "Parameter" q r "name" L eq_refl). cbn [bind]. rewrite (truthy_required q P), Hn.
    assert (Rq : exists sch1, (if required_param q then match lookup "required" sch with
                 | None => Ok (dict_set "required" (JList [JStr n]) sch)
                 | Some (JList l) => Ok (dict_set "required" (JList (l ++ [JStr n])) sch)
                 | Some _ => Err AttributeError end else Ok sch) = Ok sch1 /\
              arr "required" sch1 = (arr "required" sch ++ (if required_param q then [JStr n] else []))%list /\ list_or_none (lookup "required" sch1) /\
              (forall k, k <> "required" -> lookup k sch1 = lookup k sch)).
    { assert (Ot : forall x k, k <> "required" -> lookup k (dict_set "required" x sch) = lookup k sch) by (intros x k Hk; rewrite lookup_set; destruct (String.eqb_spec "required" k); [congruence|reflexivity]).
      destruct (required_param q); [|exists sch; rewrite app_nil_r; auto].
      unfold arr at 2. destruct (lookup "required" sch) as [[]|] eqn:E; cbn in M4; try contradiction; (eexists; split; [reflexivity|]; split; [apply arr_set_same|split; [rewrite lookup_set, String.eqb_refl; exact I|apply Ot]]). }
    destruct Rq as (sch1 & -> & R1 & R2 & R3). cbn [bind].
    assert (Ep : subd "properties" sch1 = subd "properties" sch) by (unfold subd; now rewrite R3 by discriminate).
    rewrite (get_dict_sub "properties" sch1) by (rewrite R3 by discriminate; exact M3). cbn [bind key_of]. rewrite Ep.
    destruct (mem n (subd "properties" sch)) eqn:Em; [right; split; [reflexivity|left; exact Em]|].
    assert (Gs : gattr_none r "schema" = Ok (OPrim JNull)).
    { destruct (gattr_child "Parameter" q r "schema" _ L eq_refl) as [[_ G]|(Hv & _)]; [now apply gattr_none_ok|contradiction]. }
    rewrite Gs. cbn [bind truthy_obj truthy]. rewrite Er. cbn [bind truthy_obj].
    assert (Pr : exists s0, to_schema true (if truthy (if is_reference p then val p "$ref" else JNull) then o else r) = Ok s0 /\ lookup "nullable" s0 = None /\
               forall s, (forall k, lookup k s = if String.eqb "nullable" k then nullable q else lookup k s0) -> property_image p q (JDict s)).
    { unfold property_image. destruct (is_reference p) eqn:Ir.
      - rewrite (Et eq_refl). exists [("$ref", val p "$ref")]. split.
        + unfold to_schema. destruct (osize o) eqn:Eo; [pose proof (osize_pos o); lia|]. cbn [to_schema_n].
          rewrite (gfield_none_val "Reference" p o "$ref" Hp eq_refl). cbn [bind]. change (fval "Reference" p "$ref") with (val p "$ref"). now rewrite (Et eq_refl).
        + split; [reflexivity|]. intros s F. exists s. split; [reflexivity|]. split; [rewrite F; reflexivity|]. split; [rewrite F; reflexivity|]. intros k K1 K2. rewrite F.
          destruct (String.eqb_spec "nullable" k); [congruence|]. cbn [lookup]. destruct (String.eqb_spec k "$ref"); [contradiction|reflexivity].
      - cbn [truthy]. destruct (form_schema_ok q r L P Hsc) as (s0 & E & N & F). exists s0. split; [exact E|]. split; [exact N|]. intros s Hs. exists s. split; [reflexivity|]. now apply F. }
    destruct Pr as (s0 & -> & N0 & Fp). cbn [bind].
    assert (Ga : gattr_none r "allowEmptyValue" = Ok (OPrim (val q "allowEmptyValue"))).
    { rewrite (gattr_none_ok _ _ _ (gattr_field "Parameter" q r "allowEmptyValue" JNull L eq_refl)). reflexivity. }
    rewrite Ga. cbn [bind].
    set (prop := match OPrim (val q "allowEmptyValue") with OPrim (JBool true) => dict_set "nullable" (JBool true) s0 | _ => s0 end).
    assert (Lp : forall k, lookup k prop = if String.eqb "nullable" k then nullable q else lookup k s0).
    { intros k. unfold prop, nullable. destruct (val q "allowEmptyValue") as [|[|]| | | | |]; try (destruct (String.eqb_spec "nullable" k) as [<-|]; [exact N0|reflexivity]).
      rewrite lookup_set. reflexivity. }
    specialize (Fp prop Lp). clearbody prop. clear Lp N0 s0.
    set (sch2 := dict_set "properties" (JDict (dict_set n (JDict prop) (subd "properties" sch))) sch1).
    set (ret := dict_set "schema" (JDict sch2) m).
    assert (S2 : subd "schema" ret = sch2) by apply sub_set_same.
    assert (E2 : subd "encoding" ret = subd "encoding" m) by (apply sub_set_other; discriminate).
    assert (L2 : lookup "encoding" ret = lookup "encoding" m) by (unfold ret; rewrite lookup_set; reflexivity).
    assert (B : forall m', (forall k, k <> "encoding" -> lookup k m' = lookup k ret) -> dict_or_none (lookup "encoding" m') ->
              (if form_type t then exists c, part_type (JDict q) c /\ subd "encoding" m' = dict_set n (JDict [("contentType", JStr c)]) (subd "encoding" m)
               else subd "encoding" m' = subd "encoding" m) -> media_step p q n t m m').
    { intros m' H1 H2 H3. assert (Ss : subd "schema" m' = sch2) by (rewrite <- S2; unfold subd; now rewrite H1 by discriminate).
      assert (Pp : subd "properties" sch2 = dict_set n (JDict prop) (subd "properties" sch)) by apply sub_set_same.
      unfold media_step. rewrite Ss. split; [|split; [|split; [|split; [exact H3|split]]]].
      - unfold media_ok. rewrite Ss. split; [rewrite H1 by discriminate; unfold ret; rewrite lookup_set, String.eqb_refl; exact I|]. split; [exact H2|].
        unfold sch2. rewrite !lookup_set. split; [exact I|]. exact R2.
      - exists (JDict prop). split; [exact Fp|exact Pp].
      - unfold sch2. rewrite arr_set_other by discriminate. exact R1.
      - intros k K1 K2. rewrite H1 by assumption. unfold ret. rewrite lookup_set. destruct (String.eqb_spec "schema" k); [congruence|reflexivity].
      - intros k K1 K2. unfold sch2. rewrite lookup_set. destruct (String.eqb_spec "properties" k); [congruence|]. now apply R3. }
    destruct (to_encoding_ok q r t L P Hin) as [[Ef Ee]|[(Ef & Eq & Ee)|(Ef & Eq & c & Ee & Pt)]]; rewrite Ee; cbn [bind].
    - left. exists ret. split; [reflexivity|]. split; [|unfold clashes; fold sch; intros [X|[X _]]; congruence]. apply B; [reflexivity|now rewrite L2|now rewrite Ef].
    - right. split; [reflexivity|]. right. auto.
    - left. rewrite (get_dict_sub "encoding" ret) by (now rewrite L2). cbn [bind]. eexists. split; [reflexivity|]. split; [|unfold clashes; fold sch; intros [X|[_ X]]; [congruence|contradiction]].
      apply B.
      + intros k Hk. rewrite lookup_set. destruct (String.eqb_spec "encoding" k); [congruence|reflexivity].
      + rewrite lookup_set. exact I.
      + rewrite Ef. exists c. split; [exact Pt|]. rewrite sub_set_same. now rewrite E2.
  Qed.

  (** ** one form or file parameter *)
  Lemma body_ok_nil : body_ok []. Proof. split; [exact I|]. intros t. split; [exact I|]. unfold media_ok, subd. cbn. tauto. Qed.
  Lemma request_body_step p q o n b cs : param_given deref p q o -> form_param q -> val q "name" = JStr n -> body_ok (old_body b) ->
    (exists b', to_request_body deref o b (form_ctx q) cs = Ok b' /\ body_step cs p q n (old_body b) b' /\ ~ body_clash cs q n (old_body b)) \/
    (to_request_body deref o b (form_ctx q) cs = Err SchemaError /\ body_clash cs q n (old_body b)).
  Proof.
    intros G Fq Hn [Bc Bo]. pose proof Fq as (P & Hin & Hsc & _). pose proof G as (r & Dr & L & Rk & Hp).
    unfold to_request_body. fold (old_body b). rewrite (get_dict_sub "content" (old_body b) Bc). cbn [bind]. rewrite Dr. cbn [bind].
    rewrite (gfield_val "Parameter" q r "required" L eq_refl). cbn [bind]. rewrite (truthy_required q P).
    assert (Ef : is_file (form_ctx q) || is_form (form_ctx q) = true) by (unfold form_ctx; destruct (is_file_param q); reflexivity). rewrite Ef.
    set (ret := if required_param q then dict_set "required" (JBool true) (old_body b) else old_body b).
    assert (Rt : forall k, k <> "required" -> lookup k ret = lookup k (old_body b)).
    { intros k Hk. unfold ret. destruct (required_param q); [|reflexivity]. rewrite lookup_set. destruct (String.eqb_spec "required" k); [congruence|reflexivity]. }
    pose proof (mime_nodup q cs) as Nd.
    assert (St : forall t, In t (valid_mime_types (form_ctx q) cs) -> (exists m, to_media_type deref o t (subd t (subd "content" (old_body b))) = Ok m /\ media_step p q n t (media t (old_body b)) m /\ ~ clashes q n t (media t (old_body b))) \/
               (to_media_type deref o t (subd t (subd "content" (old_body b))) = Err SchemaError /\ clashes q n t (media t (old_body b)))).
    { intros t _. destruct (media_type_step p q o n t (media t (old_body b)) G Fq Hn) as [(m & E & S & C)|[E C]]; [apply Bo|left; exists m; auto|right; auto]. }
    assert (D : (exists t, In t (valid_mime_types (form_ctx q) cs) /\ to_media_type deref o t (subd t (subd "content" (old_body b))) = Err SchemaError) \/
                (forall t, In t (valid_mime_types (form_ctx q) cs) -> exists m, to_media_type deref o t (subd t (subd "content" (old_body b))) = Ok m /\ media_step p q n t (media t (old_body b)) m /\ ~ clashes q n t (media t (old_body b)))).
    { clear Nd. induction (valid_mime_types (form_ctx q) cs) as [|t l IH]; [right; intros t []|]. destruct (St t (or_introl eq_refl)) as [S|[S _]]; [|left; exists t; split; [now left|exact S]].
      destruct IH as [(t' & H1 & H2)|IH]; [intros t' Ht'; apply St; now right|left; exists t'; split; [now right|exact H2]|]. right. intros t' [<-|Ht']; auto. }
    destruct D as [(t0 & H0 & E0)|D].
    - right. rewrite (fold_types_err (to_media_type deref o) SchemaError _ _ Nd Bo).
      + split; [reflexivity|]. exists t0. split; [now apply mime_form|]. destruct (St t0 H0) as [(m & E & _)|[_ C]]; [congruence|exact C].
      + intros t Ht. destruct (St t Ht) as [(m & E & (M & _) & _)|[E _]]; [left; eauto|now right].
      + eauto.
    - left. destruct (fold_types (to_media_type deref o) _ _ Nd Bo) as (ct' & E & C' & F).
      + intros t Ht. destruct (D t Ht) as (m & Em & (M & _) & _). eauto.
      + rewrite E. cbn [bind]. eexists. split; [reflexivity|]. set (b' := dict_set "content" (JDict ct') ret).
        assert (Sc : subd "content" b' = ct') by apply sub_set_same.
        split; [|intros (t & Ht & C); apply mime_form in Ht; destruct (D t Ht) as (m & _ & _ & N); contradiction].
        unfold body_step, body_ok, has_media, media. rewrite Sc. split; [split; [unfold b'; rewrite lookup_set; exact I|exact C']|]. split; [|split; [|split]].
        * intros t Ht. apply mime_form in Ht. destruct (F t) as [F1 _]. destruct (F1 Ht) as (m & Em & Lm). destruct (D t Ht) as (m2 & Em2 & S & _). assert (m2 = m) by congruence. subst m2.
          split; [congruence|]. assert (Es : subd t ct' = m) by (unfold subd; now rewrite Lm). rewrite Es. exact S.
        * intros t Ht. destruct (F t) as [_ F2]. apply F2. intros X. apply Ht. now apply mime_form.
        * unfold b'. rewrite lookup_set. cbn [String.eqb Ascii.eqb Bool.eqb]. unfold ret. destruct (required_param q); [rewrite lookup_set; reflexivity|reflexivity].
        * intros k K1 K2. unfold b'. rewrite lookup_set. destruct (String.eqb_spec "content" k); [congruence|]. now apply Rt.
  Qed.
End Merge.
