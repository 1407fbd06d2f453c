(** * Facts about the objects of a Swagger 2.0 document and the references between them. *)
From Coq Require Import String Ascii List Bool Arith Lia.
From Verif Require Import PyStr PyStrFacts PyVal PyValFacts Jp JpFacts UrlLib Urls SpecUrl Obj ObjFacts Classes_v2_0 TablesFacts SpecTables SpecJson ShapeFacts DumpFacts ReloadFacts NatDecFacts SpecObj OverrideFacts ResolveFacts SpecSchema SpecConv SpecBody SpecOp SpecDoc SpecStore
  Store App Main SpecScan SpecLocal SpecInside Shape30Facts TightFacts SpecGiven SpecMigrate SpecWhole SpecFollow PropertiesObjAux.
Import ListNotations.
Open Scope string_scope. Open Scope nat_scope.
Notation within := SpecObj.within (only parsing).

Lemma jget_inside j ts x : jget j ts x -> inside j x.
Proof.
  induction 1 as [j|d k v ts r L _ IH|l i s v ts r _ N _ IH]; [apply in_here| |].
  - exact (in_entry _ _ _ _ (PyValFacts.lookup_In _ _ _ L) IH).
  - exact (in_element _ _ _ (nth_error_In _ _ N) IH).
Qed.
Lemma wf_inside j x : inside j x -> wf_json j -> wf_json x.
Proof.
  induction 1 as [j|d k v x Iv _ IH|l v x Iv _ IH]; intros W; [exact W| |]; apply IH; [exact (proj2 (proj1 (wf_dict d) W) k v Iv)|exact (proj1 (wf_list l) W v Iv)].
Qed.
(** ** objects made from typed values *)
Notation wd20 := v20_well_declared.
Section Typed.
  Variable P : string -> doc -> Prop.
  Notation typed := (typed v20_table P).
  Lemma typed_shaped b j : typed b j -> shaped v20_table b j.
  Proof.
    intros H. induction H as [s|b l _ IH|b d _ IH|c cd d L Pc H IH R|r b d v L H IH|r b d L H IH|b v|b j N H IH].
    - constructor.
    - now constructor.
    - now constructor.
    - eapply sh_object; [exact L|exact IH|]. intros ch I1 I2. destruct (ch_required ch) eqn:E; [|reflexivity]. now elim (R ch I1 E).
    - apply sh_ref; [|exact IH]. apply py_in_true. cbn [py_in]. unfold mem. now rewrite L.
    - assert (X : py_in "$ref" (JDict d) = Ok false) by (cbn [py_in]; unfold mem; now rewrite L). apply py_in_false in X as [X1 X2]. now apply sh_noref.
    - constructor.
    - now apply sh_nobool.
  Qed.
  Lemma select_typed b j : typed b j -> forall k, select b j = Ok k ->
    match k with KCls c => typed (BCls c) j | KList b' => typed (BListOf b') j | KMap b' => typed (BMapOf b') j | _ => True end.
  Proof.
    induction 1 as [s|b l Fl _|b d Fl _|c cd d L Pc Fl _ R|r b d v L T IH|r b d L T IH|b v|b j N T IH]; cbn [select]; intros k H.
    - injection H as <-. exact I.
    - injection H as <-. now apply ty_list.
    - injection H as <-. now apply ty_map.
    - injection H as <-. now apply ty_object with cd.
    - cbn [py_in] in H. unfold mem in H. rewrite L in H. cbn [bind] in H. injection H as <-. exact T.
    - cbn [py_in] in H. unfold mem in H. rewrite L in H. cbn [bind] in H. exact (IH k H).
    - injection H as <-. exact I.
    - destruct j; try exact (IH k H). now elim (N b0).
  Qed.
  Definition typed_obj (o : obj) : Prop :=
    match o with
    | OPrim _ => True
    | OObj c p s kids => typed (BCls c) s /\ (c = "Reference" -> exists d v, s = JDict d /\ lookup "$ref" d = Some v) /\ exists cd, lookup c v20_table = Some cd /\ con_kids v20_table p [] s (c_children cd) = Ok kids
    | OList b p es => safe b = true /\ exists l, con_list v20_table b p [] 0 l = Ok es /\ forall x, In x l -> typed b x
    | OMap b p es => safe b = true /\ exists d, con_map v20_table b p [] d = Ok es /\ forall k x, In (k, x) d -> typed b x
    end.
  Lemma typed_built j b p o : construct v20_table j b p [] = Ok o -> safe b = true -> typed b j -> typed_obj o.
  Proof.
    intros H S0 T. rewrite construct_eq in H. apply bind_ok in H as (k & Ek & H). pose proof (select_safe b j S0 k Ek) as Ks. pose proof (select_typed b j T k Ek) as Kt. destruct k as [v|c|b'|b'|]; cbn [con_core] in H.
    - injection H as <-. exact I.
    - rewrite split_nil in H. cbn [bind] in H. destruct (lookup c v20_table) as [cd|] eqn:Ec; [|discriminate]. apply bind_ok in H as (kids & Ekids & H). injection H as <-. destruct Ks as [K1 K2].
      cbn [typed_obj]. split; [exact Kt|]. split; [|eauto]. intros Z. specialize (K2 Z). inversion Kt; subst. cbn [py_in] in K2. unfold mem in K2. destruct (lookup "$ref" d) as [v|] eqn:El; [eauto|discriminate].
    - rewrite split_nil in H. cbn [bind] in H. destruct j; try discriminate. apply bind_ok in H as (es & Ee & H). injection H as <-. destruct Ks as [K1 K2]. cbn [typed_obj]. split; [exact K2|]. exists l. split; [exact Ee|]. inversion Kt; subst. assumption.
    - rewrite split_nil in H. cbn [bind] in H. destruct j; try discriminate. apply bind_ok in H as (es & Ee & H). injection H as <-. destruct Ks as [K1 K2]. cbn [typed_obj]. split; [exact K2|]. eexists. split; [exact Ee|]. inversion Kt; subst. assumption.
    - destruct j; try discriminate. injection H as <-. exact I.
  Qed.
  Lemma kids_safe : forallb (fun e => forallb (fun ch => safe (ch_builder ch)) (c_children (snd e))) v20_table = true.
  Proof. vm_compute. reflexivity. Qed.
  Lemma kid_safe c cd ch : lookup c v20_table = Some cd -> In ch (c_children cd) -> safe (ch_builder ch) = true.
  Proof.
    intros L Ic. pose proof (proj1 (forallb_forall _ _) kids_safe _ (PyValFacts.lookup_In _ _ _ L)) as K. cbn beta iota delta [fst snd] in K. exact (proj1 (forallb_forall _ _) K _ Ic).
  Qed.
  Lemma typed_step o k o1 : typed_obj o -> within o [k] o1 -> typed_obj o1.
  Proof.
    intros So Wi. inversion Wi as [|c p s kids ? o2 ? ? Hl W'|b p es i s e ? ? Hi Hn W'|b p es ? e ? ? Hl W']; subst; inversion W'; subst.
    - destruct So as (T & _ & cd & Ec & Ek). destruct (child_from v20_table c p s kids cd k o1 wd20 Ec Ek Hl) as (ch & d & x & Ic & <- & -> & Lx & Nx & C).
      inversion T as [| | |c0 cd0 d0 Ec0 _ F _| | | |]; subst. assert (cd0 = cd) by congruence. subst.
      exact (typed_built _ _ _ _ C (kid_safe c cd ch Ec Ic) (F ch x Ic Lx Nx)).
    - destruct So as (Sb & l & El & F). destruct (element_from _ _ _ _ _ _ _ El Hn) as (x & Ix & C). exact (typed_built _ _ _ _ C Sb (F x Ix)).
    - destruct So as (Sb & d & El & F). destruct (entry_from _ _ _ _ _ _ _ El Hl) as (x & Ix & C). exact (typed_built _ _ _ _ C Sb (F k x Ix)).
  Qed.
  Lemma typed_within ts : forall o x, typed_obj o -> within o ts x -> typed_obj x.
  Proof.
    induction ts as [|t ts IH]; intros o x So Wi; [inversion Wi; now subst|]. apply within_cons_inv in Wi as (o1 & W1 & W2). exact (IH o1 x (typed_step o t o1 So W1) W2).
  Qed.
End Typed.

(** ** the places references may point to *)
Lemma object_at T b j ts b' j' c base root : well_declared T -> construct T j b base [] = Ok root -> addresses T b j ts b' j' -> denotes b' j' (IsObject c) ->
  exists kids, within root ts (OObj c (path_after base ts) j' kids) /\ construct T j' (BCls c) (path_after base ts) [] = Ok (OObj c (path_after base ts) j' kids).
Proof.
  intros WT C A D. destruct (addresses_within T b j ts b' j' WT A _ _ C) as (y & Cy & Wy).
  assert (C' : construct T j' (BCls c) (path_after base ts) [] = Ok y) by (rewrite construct_eq in Cy |- *; rewrite (denotes_select _ _ _ D) in Cy; exact Cy).
  destruct (construct_cls_obj _ _ _ _ _ C') as (kids & ->). eauto.
Qed.
Definition schema20 (b : builder) : Prop := b = BCls "Schema" \/ b = BBoolElse (BCls "Schema").
Lemma schema20_denotes b d : schema20 b -> denotes b (JDict d) (IsObject "Schema").
Proof. intros [-> | ->]; [constructor|]. apply dn_nobool; [discriminate|constructor]. Qed.
Lemma subschema_addresses s ts r : subschema s ts r -> schema_doc s -> forall b, schema20 b -> exists b', addresses v20_table b s ts b' r /\ schema20 b' /\ schema_doc r.
Proof.
  assert (B0 : schema20 (BCls "Schema")) by now left.
  induction 1 as [s|d ts r Pl Hi S IH|d l i s t ts r Pl Hl Hn Ht S IH|d p k s ts r Pl Hp Hk S IH|d a ts r Pl Ha S IH]; intros SD b Sb; [exists b; split; [constructor|auto]| | | |]; inversion SD as [d0 Di Da Dp Dd _ _]; subst.
  - destruct Di as [Di|Di]; [contradiction|]. destruct (IH Di _ B0) as (b' & A & Sb' & R). exists b'. split; [|auto].
    refine (ad_child v20_table b "Schema" v20_Schema d (mk_child "items" (BCls "Schema") false) _ ts b' r (schema20_denotes _ _ Sb) eq_refl ltac:(cbn; tauto) _ Hi A). unfold val in *. cbn [ch_name]. destruct (lookup "items" d); [reflexivity|now elim Hi].
  - destruct Da as [Da|(l' & Da & F)]; [congruence|]. assert (l' = l) by congruence. subst l'. rewrite Forall_forall in F. destruct (IH (F _ (nth_error_In _ _ Hn)) _ B0) as (b' & A & Sb' & R). exists b'. split; [|auto].
    refine (ad_child v20_table b "Schema" v20_Schema d (mk_child "allOf" (BListOf (BCls "Schema")) false) (JList l) (t :: ts) b' r (schema20_denotes _ _ Sb) eq_refl ltac:(cbn; tauto) _ ltac:(discriminate) _).
    + unfold val in Hl. cbn [ch_name]. destruct (lookup "allOf" d); congruence.
    + exact (ad_index v20_table _ _ l i t s ts b' r (dn_list _ _) Ht Hn A).
  - destruct Dp as [Dp|(p' & Dp & F)]; [congruence|]. assert (p' = p) by congruence. subst p'. rewrite Forall_forall in F. destruct (IH (F _ (PyValFacts.lookup_In _ _ _ Hk)) _ B0) as (b' & A & Sb' & R). exists b'. split; [|auto].
    refine (ad_child v20_table b "Schema" v20_Schema d (mk_child "properties" (BMapOf (BCls "Schema")) false) (JDict p) (k :: ts) b' r (schema20_denotes _ _ Sb) eq_refl ltac:(cbn; tauto) _ ltac:(discriminate) _).
    + unfold val in Hp. cbn [ch_name]. destruct (lookup "properties" d); congruence.
    + exact (ad_key v20_table _ _ p k s ts b' r (dn_map _ _) Hk A).
  - destruct Dd as [Dd|[(x & Dd)|Dd]]; try congruence. rewrite Ha in Dd. destruct (IH Dd _ (or_intror eq_refl)) as (b' & A & Sb' & R). exists b'. split; [|auto].
    refine (ad_child v20_table b "Schema" v20_Schema d (mk_child "additionalProperties" (BBoolElse (BCls "Schema")) false) (JDict a) ts b' r (schema20_denotes _ _ Sb) eq_refl ltac:(cbn; tauto) _ ltac:(discriminate) A).
    unfold val in Ha. cbn [ch_name]. destruct (lookup "additionalProperties" d); congruence.
Qed.
Lemma section_addresses d sec cls n v ts b' r : In (mk_child sec (BMapOf (BCls cls)) false) (c_children v20_Swagger) -> lookup n (entries_of (val d sec)) = Some v ->
  addresses v20_table (BCls cls) v ts b' r -> addresses v20_table (BCls "Swagger") (JDict d) (sec :: n :: ts) b' r.
Proof.
  intros Ic L A. unfold val in L. destruct (lookup sec d) as [[| | | | | |l]|] eqn:E; try discriminate L. cbn [entries_of] in L.
  refine (ad_child v20_table _ "Swagger" v20_Swagger d (mk_child sec (BMapOf (BCls cls)) false) (JDict l) (n :: ts) b' r (dn_cls _ _) eq_refl Ic E ltac:(discriminate) _).
  exact (ad_key v20_table _ _ l n v ts b' r (dn_map _ _) L A).
Qed.
