(** Conversion of Swagger 1.2 objects: data types and parameters. *)
From Coq Require Import String Ascii List Bool Arith ZArith QArith Lia.
From Verif Require Import PyStr PyStrFacts PyVal PyValFacts Jp Scope UrlLib Obj SpecObj ObjFacts TablesFacts Classes_v1_2 Scan Up12 SpecUp12 Up12Facts NumeralFacts.
Import ListNotations.
Close Scope Q_scope. Open Scope string_scope. Open Scope nat_scope.

Lemma dict_del_none {A} k (d : list (string * A)) : lookup k d = None -> dict_del k d = d.
Proof. induction d as [|[k' v] d IH]; simpl; [reflexivity|]. destruct (String.eqb k k'); [discriminate|]. intros H. now rewrite IH. Qed.
Definition opt_set (k : string) (o : option json) (d : doc) : doc := match o with Some v => dict_set k v d | None => d end.
Lemma look_set k k' o d : lookup k (opt_set k' o d) = if String.eqb k k' then match o with Some v => Some v | None => lookup k d end else lookup k d.
Proof. apply look_opt. Qed.
Lemma only_opt_set ks k o d : only_keys ks d -> In k ks -> only_keys ks (opt_set k o d).
Proof. intros H I. apply (only_opt ks k o (fun v => v)); assumption. Qed.
Ltac look2 := repeat (rewrite lookup_dict_set || rewrite look_set); eqbs; cbn [lookup]; eqbs.
Ltac onlys2 := repeat first [apply only_set; [|inkeys] | apply only_opt_set; [|inkeys]]; try apply only_nil.

Lemma put_ok c j o k key d d' : made c j o -> is_field c k k = true -> put_if_set o k key d = Ok d' -> d' = opt_set key (given j k) d.
Proof. exact (put_if_set_ok c j o k key d d'). Qed.

(** ** bounds *)
Lemma is_str_eq s j : json_is_str s j = true -> j = JStr s.
Proof. destruct j; try discriminate. cbn. intros H. apply String.eqb_eq in H. now subst. Qed.
Definition bound_of (name : string) (t : json) (ob : option json) : Prop :=
  if truthy (get t name) then
    exists q, number_of (get t name) q /\
      ((get t "type" = JStr "integer" /\ exists z, truncates q z /\ ob = Some (JInt z)) \/
       (get t "type" = JStr "number" /\ ob = Some (JFloat q)))
  else ob = None.
Lemma bound_of_image name t out : bound_of name t (lookup name out) -> bound_image name t out.
Proof. exact (fun H => H). Qed.
Lemma convert_bound_ok c j o name d d' : made c j o -> is_field c name name = true -> is_field c "type" "type" = true -> lookup name d = None ->
  convert_bound o name d = Ok d' -> exists ob, d' = opt_set name ob d /\ bound_of name j ob.
Proof.
  intros M F T L H. unfold convert_bound in H. apply bind_ok in H as (v & Hv & H). apply (field12_get _ _ _ _ _ _ M F) in Hv. subst v. unfold bound_of.
  destruct (truthy (get j name)).
  - apply bind_ok in H as (t & Ht & H). apply (field12_get _ _ _ _ _ _ M T) in Ht. subst t.
    destruct (json_is_str "integer" (get j "type")) eqn:Ei.
    + apply bind_ok in H as (q & Hq & H). apply Ok_inj in H. subst d'. exists (Some (JInt (trunc q))). split; [reflexivity|].
      exists q. split; [now apply py_float_number|]. left. split; [now apply is_str_eq|]. eexists. split; [apply trunc_spec|reflexivity].
    + destruct (json_is_str "number" (get j "type")) eqn:En; [|discriminate].
      apply bind_ok in H as (q & Hq & H). apply Ok_inj in H. subst d'. exists (Some (JFloat q)). split; [reflexivity|].
      exists q. split; [now apply py_float_number|]. right. split; [now apply is_str_eq|reflexivity].
  - apply Ok_inj in H. subst d'. exists None. split; [now apply dict_del_none|reflexivity].
Qed.
Lemma convert_min_max_ok c j o d d' : made c j o -> is_field c "minimum" "minimum" = true -> is_field c "maximum" "maximum" = true -> is_field c "type" "type" = true ->
  lookup "minimum" d = None -> lookup "maximum" d = None ->
  convert_min_max o d = Ok d' -> exists ob ob', d' = opt_set "maximum" ob' (opt_set "minimum" ob d) /\ bound_of "minimum" j ob /\ bound_of "maximum" j ob'.
Proof.
  intros M F1 F2 T L1 L2 H. unfold convert_min_max in H. apply bind_ok in H as (d1 & H1 & H).
  destruct (convert_bound_ok _ _ _ _ _ _ M F1 T L1 H1) as (ob & -> & B1).
  assert (L2' : lookup "maximum" (opt_set "minimum" ob d) = None) by (look2; exact L2).
  destruct (convert_bound_ok _ _ _ _ _ _ M F2 T L2' H) as (ob' & -> & B2). eauto 6.
Qed.

(** ** data types *)
Definition data_fields : list string := ["$ref"; "type"; "format"; "defaultValue"; "minimum"; "maximum"; "uniqueItems"; "enum"].
Definition datatype (c : string) : Prop := Forall (fun n => is_field c n n = true) data_fields /\ is_child c "items" (BCls "Items").
Lemma property_datatype : datatype "Property". Proof. split; [repeat constructor|reflexivity]. Qed.
Lemma parameter_datatype : datatype "Parameter". Proof. split; [repeat constructor|reflexivity]. Qed.
Lemma operation_datatype : datatype "Operation". Proof. split; [repeat constructor|reflexivity]. Qed.
Lemma data_field c n : datatype c -> In n data_fields -> is_field c n n = true.
Proof. intros [H _] Hin. rewrite Forall_forall in H. auto. Qed.
Lemma datatype_typed c : datatype c -> typed c = true.
Proof. intros H. unfold typed. rewrite !(data_field c) by (auto; cbn; tauto). reflexivity. Qed.
Lemma null_or (j : json) : (j = JNull /\ is_null j = true) \/ (j <> JNull /\ is_null j = false).
Proof. destruct j; auto; right; split; congruence || reflexivity. Qed.
Lemma is_null_match j : (match j with JNull => true | _ => false end) = is_null j. Proof. reflexivity. Qed.
(** the items of an object *)
Lemma items_read c j o x : datatype c -> made c j o -> attr12 o "items" = Ok x ->
  (get j "items" = JNull /\ x = OPrim JNull) \/ (get j "items" <> JNull /\ made "Items" (get j "items") x).
Proof. intros [_ D] M H. destruct (attr12_child _ _ _ _ _ M D) as (y & Hy & C). rewrite H in Hy. apply Ok_inj in Hy. subst y. now apply child_cls. Qed.
Lemma made_truthy c j o : made c j o -> truthy_obj o = true.
Proof. intros M. destruct (made_shape _ _ _ M) as (? & ? & ? & -> & _). reflexivity. Qed.
Lemma made_not_none c j o : made c j o -> is_none o = false.
Proof. intros M. destruct (made_shape _ _ _ M) as (? & ? & ? & -> & _). reflexivity. Qed.

Lemma convert_schema_ok c j o scope sep out : datatype c -> made c j o -> convert_schema o scope sep = Ok out ->
  datatype_image sep scope j out /\ only_keys datatype_keys out.
Proof.
  intros D M H. unfold convert_schema in H. assert (F := fun n => data_field c n D).
  apply bind_ok in H as (d1 & H1 & H). destruct (update_type_ok _ _ _ _ _ _ (datatype_typed _ D) M H1) as [[T1 T2] K1].
  apply bind_ok in H as (d2 & H2 & H). apply (put_ok _ _ _ _ _ _ _ M (F "format" ltac:(inkeys))) in H2.
  apply bind_ok in H as (d3 & H3 & H). apply (put_ok _ _ _ _ _ _ _ M (F "defaultValue" ltac:(inkeys))) in H3.
  apply bind_ok in H as (d4 & H4 & H).
  assert (N : forall k, ~ In k ["type"; "$ref"] -> lookup k d1 = None) by exact K1.
  assert (K3 : forall k, In k ["minimum"; "maximum"; "uniqueItems"; "enum"; "items"] -> lookup k d3 = None).
  { intros k Hk. subst d3 d2. cbn in Hk. repeat (destruct Hk as [<-|Hk]; [look2; apply N; cbn; intuition discriminate|]). contradiction. }
  destruct (convert_min_max_ok _ _ _ _ _ M (F "minimum" ltac:(inkeys)) (F "maximum" ltac:(inkeys)) (F "type" ltac:(inkeys)) (K3 "minimum" ltac:(inkeys)) (K3 "maximum" ltac:(inkeys)) H4)
    as (ob & ob' & E4 & B1 & B2).
  apply bind_ok in H as (u & Hu & H). apply (field12_get _ _ _ _ _ _ M (F "uniqueItems" ltac:(inkeys))) in Hu. subst u.
  apply bind_ok in H as (e & He & H). apply (field12_get _ _ _ _ _ _ M (F "enum" ltac:(inkeys))) in He. subst e. cbv zeta in H.
  apply bind_ok in H as (items & Hi & H).
  assert (O1 : only_keys datatype_keys d1) by (eapply only_incl; [exact K1|]; intros k Hk; cbn in *; tauto).
  assert (exists oi, out = opt_set "items" oi (dict_set "enum" (get j "enum") (dict_set "uniqueItems" (get j "uniqueItems") d4)) /\
    if is_null (get j "items") then oi = None else exists i, oi = Some (JDict i) /\ items_image sep scope (get j "items") i) as (oi & -> & Hoi).
  { destruct (items_read _ _ _ _ D M Hi) as [[E ->]|[E Mi]].
    - cbn in H. apply Ok_inj in H. subst out. exists None. rewrite E. split; reflexivity.
    - rewrite (made_truthy _ _ _ Mi) in H. apply bind_ok in H as (i & Hui & H). apply bind_ok in H as (f & Hf & H). apply Ok_inj in H. subst out.
      apply (field12_get "Items" _ _ "format" "format" _ Mi eq_refl) in Hf. subst f. destruct (update_type_ok "Items" _ _ _ _ _ eq_refl Mi Hui) as [[I1 I2] I3].
      exists (Some (JDict (dict_set "format" (get (get j "items") "format") i))). split; [reflexivity|]. destruct (null_or (get j "items")) as [[? _]|[_ ->]]; [contradiction|].
      eexists. split; [reflexivity|]. split; [split; look2; assumption|]. split; [look2; reflexivity|].
      apply only_set; [|inkeys]. eapply only_incl; [exact I3|]. intros k Hk; cbn in *; tauto. }
  assert (Nx : forall k, ~ In k ["type"; "$ref"] -> lookup k d1 = None) by exact K1.
  split.
  - subst d4 d3 d2. unfold datatype_image. split; [split; look2; assumption|].
    split; [look2; rewrite (Nx "format") by (cbn; intuition discriminate); destruct (given j "format"); reflexivity|].
    split; [look2; rewrite (Nx "default") by (cbn; intuition discriminate); destruct (given j "defaultValue"); reflexivity|].
    split; [apply bound_of_image; look2; rewrite (Nx "minimum") by (cbn; intuition discriminate); destruct ob; exact B1|].
    split; [apply bound_of_image; look2; rewrite (Nx "maximum") by (cbn; intuition discriminate); destruct ob'; exact B2|].
    split; [look2; reflexivity|]. split; [look2; reflexivity|]. rewrite is_null_match. destruct (is_null (get j "items")).
    + subst oi. look2. apply Nx. cbn; intuition discriminate.
    + destruct Hoi as (i & -> & Hii). exists i. look2. auto.
  - subst d4 d3 d2. onlys2. exact O1.
Qed.

(** ** parameters *)
Lemma convert_items_ok c j o out : typed c = true -> made c j o -> convert_items o = Ok out ->
  plain_items j out /\ only_keys ["type"; "format"] out.
Proof.
  intros T M H. destruct (typed_fields _ T) as (F1 & F2 & F3). unfold convert_items in H.
  apply bind_ok in H as (r & Hr & H). apply (field12_get _ _ _ _ _ _ M F1) in Hr. subst r. unfold plain_items. destruct (truthy (get j "$ref")); [discriminate|].
  apply bind_ok in H as (t & Ht & H). apply (field12_get _ _ _ _ _ _ M F2) in Ht. subst t. rewrite is_primitive_eq in H.
  destruct (is_primitive_name (get j "type")) eqn:P; [|discriminate]. apply bind_ok in H as (s & Hs & H). apply (primitive_lower _ _ P) in Hs.
  apply (put_ok _ _ _ _ _ _ _ M F3) in H. subst out. rewrite Hs. change [("type", JStr s)] with (dict_set "type" (JStr s) []).
  split; [|onlys2]. split; [reflexivity|]. split; [reflexivity|]. split; look2; [reflexivity|]. destruct (given j "format"); reflexivity.
Qed.
Lemma is_true_match j : is_true j = match j with JBool true => true | _ => false end.
Proof. destruct j as [|[]| | | | |]; reflexivity. Qed.
Lemma str_match {A} (s : string) j (a b : A) : (if json_is_str s j then a else b) = match j with JStr t => if String.eqb s t then a else b | _ => b end.
Proof. destruct j; reflexivity. Qed.
Definition in_of (t : json) : json := match t with JStr "form" => JStr "formData" | x => x end.
Lemma str_eq_match {A} (s t : string) (a b : A) (P : A -> Prop) : (s = t -> P a) -> (s <> t -> P b) -> P (if String.eqb s t then a else b).
Proof. destruct (String.eqb_spec s t); auto. Qed.
Ltac crush_string s := (* all ways a text may start like a literal *)
  repeat match goal with
  | |- context [match ?x with EmptyString => _ | String _ _ => _ end] => is_var x; destruct x
  | |- context [match ?c with Ascii _ _ _ _ _ _ _ _ => _ end] => is_var c; destruct c as [[] [] [] [] [] [] [] []]
  end.
Lemma form_match t : (if json_is_str "form" t then JStr "formData" else t) = place t.
Proof.
  unfold place. destruct t as [| | | |s| |]; try reflexivity. cbn [json_is_str]. destruct (String.eqb_spec "form" s) as [<-|N]; [reflexivity|].
  crush_string s; try reflexivity; exfalso; apply N; reflexivity.
Qed.
Lemma body_match t : json_is_str "body" (place t) = match t with JStr "body" => true | _ => false end.
Proof.
  rewrite <- form_match. destruct t as [| | | |s| |]; try reflexivity. cbn [json_is_str]. destruct (String.eqb_spec "form" s) as [<-|N1]; [reflexivity|].
  cbn [json_is_str]. destruct (String.eqb_spec "body" s) as [<-|N]; [reflexivity|]. crush_string s; try reflexivity; exfalso; apply N; reflexivity.
Qed.
Lemma void_match t : json_is_str "void" t = match t with JStr "void" => true | _ => false end.
Proof.
  destruct t as [| | | |s| |]; try reflexivity. cbn [json_is_str]. destruct (String.eqb_spec "void" s) as [<-|N]; [reflexivity|].
  crush_string s; try reflexivity; exfalso; apply N; reflexivity.
Qed.
Lemma true_match t : json_is_str "true" t = match t with JStr "true" => true | _ => false end.
Proof.
  destruct t as [| | | |s| |]; try reflexivity. cbn [json_is_str]. destruct (String.eqb_spec "true" s) as [<-|N]; [reflexivity|].
  crush_string s; try reflexivity; exfalso; apply N; reflexivity.
Qed.
Lemma is_set_given c j o k b : made c j o -> is_field c k k = true -> is_set12 o k = Ok b ->
  if b then forall v, field12 o k = Ok v -> given j k = Some v else given j k = None.
Proof.
  intros M F Hb. destruct (made_shape _ _ _ M) as (p & kids & cd & E & _). rewrite E in Hb. cbn in Hb. destruct b.
  - intros v Hv. unfold is_field in F. destruct (field_of c k) as [f|] eqn:Ff; [|discriminate].
    apply String.eqb_eq in F. rewrite (field12_is _ _ _ _ _ M Ff) in Hv. unfold field_get in Hv. rewrite F, Hb in Hv. cbn [bind] in Hv.
    destruct (f_restricted f); [discriminate|]. unfold given, fields. destruct j; cbn in Hv; try discriminate. destruct (lookup k d); [|discriminate]. injection Hv as ->. reflexivity.
  - unfold given, fields. destruct j; try reflexivity. cbn in Hb. unfold mem in Hb. destruct (lookup k d); [discriminate|reflexivity].
Qed.
Lemma convert_parameter_ok j o scope sep out : made "Parameter" j o -> convert_parameter o scope sep = Ok out -> parameter_image sep scope j out.
Proof.
  intros M H. assert (D := parameter_datatype). assert (F := fun n => data_field _ n D). unfold convert_parameter in H.
  apply bind_ok in H as (d1 & H1 & H). apply (put_ok "Parameter" _ _ "name" _ _ _ M eq_refl) in H1.
  apply bind_ok in H as (d2 & H2 & H). apply (put_ok "Parameter" _ _ "required" _ _ _ M eq_refl) in H2.
  apply bind_ok in H as (d3 & H3 & H). apply (put_ok "Parameter" _ _ "description" _ _ _ M eq_refl) in H3.
  apply bind_ok in H as (t & Ht & H). apply (field12_get "Parameter" _ _ "paramType" "paramType" _ M eq_refl) in Ht. subst t. cbv zeta in H.
  rewrite form_match, body_match in H. unfold parameter_image.
  set (in_ := place (get j "paramType")) in *.
  assert (G : lookup "name" d3 = given j "name" /\ lookup "required" d3 = given j "required" /\ lookup "description" d3 = given j "description").
  { subst d3 d2 d1. split; [|split]; look2; match goal with |- context [match ?x with Some _ => _ | None => _ end] => destruct x; reflexivity end. }
  destruct G as (G1 & G2 & G3).
  assert (K3 : only_keys ["name"; "required"; "description"] d3) by (subst d3 d2 d1; onlys2). clearbody in_.
  assert (NK : forall k, ~ In k ["name"; "required"; "description"] -> lookup k d3 = None) by exact K3.
  clear H1 H2 H3. destruct (match get j "paramType" with JStr "body" => true | _ => false end).
  - apply bind_ok in H as (s & Hs & H). apply Ok_inj in H. subst out.
    split; [look2; exact G1|]. split; [look2; exact G2|]. split; [look2; exact G3|]. split; [look2; reflexivity|].
    split; [|apply only_set; [apply only_set|]; [|inkeys|inkeys]; eapply only_incl; [exact K3|intros k Hk; cbn in *; tauto]].
    exists s. split; [look2; reflexivity|]. eapply convert_schema_ok; eauto.
  - apply bind_ok in H as (r & Hr & H). apply (field12_get _ _ _ _ _ _ M (F "$ref" ltac:(inkeys))) in Hr. subst r. destruct (truthy (get j "$ref")); [discriminate|].
    apply bind_ok in H as (mu & Hm & H). apply (field12_get "Parameter" _ _ "allowMultiple" "allowMultiple" _ M eq_refl) in Hm. subst mu.
    apply bind_ok in H as (items & Hi & H). apply bind_ok in H as (d & Hd & H).
    assert (Hit := items_read _ _ _ _ D M Hi). rewrite <- is_true_match.
    assert (En : is_none items = is_null (get j "items")).
    { destruct Hit as [[E ->]|[E Mi]]; [rewrite E; reflexivity|]. rewrite (made_not_none _ _ _ Mi). destruct (null_or (get j "items")) as [[? _]|[_ ->]]; [contradiction|reflexivity]. }
    rewrite En in Hd. destruct (is_true (get j "allowMultiple") && is_null (get j "items")) eqn:Eb.
    + apply andb_true_iff in Eb as [_ Eb]. cbv zeta in Hd. apply bind_ok in Hd as (d4 & H4 & Hd). apply (put_ok _ _ _ _ _ _ _ M (F "uniqueItems" ltac:(inkeys))) in H4.
      apply bind_ok in Hd as (i & Hci & Hd). destruct (convert_items_ok _ _ _ _ (datatype_typed _ D) M Hci) as [(P1 & P2 & P3 & P4) KI].
      apply bind_ok in Hd as (b & Hb & Hd). apply bind_ok in Hd as (d5 & H5 & Hd).
      assert (E5 : d5 = opt_set "default" (option_map (fun v => JList [v]) (given j "defaultValue")) d4).
      { assert (P := is_set_given _ _ _ _ _ M (F "defaultValue" ltac:(inkeys)) Hb). destruct b.
        - apply bind_ok in H5 as (v & Hv & H5). apply Ok_inj in H5. rewrite (P v Hv). now subst d5.
        - apply Ok_inj in H5. rewrite P. now subst d5. }
      apply bind_ok in Hd as (e & He & Hd). apply (field12_get _ _ _ _ _ _ M (F "enum" ltac:(inkeys))) in He. subst e. apply Ok_inj in Hd. subst d.
      destruct Hit as [[E ->]|[E Mi]]; [|destruct (null_or (get j "items")) as [[? _]|[_ X]]; [contradiction|congruence]]. cbn in H. apply Ok_inj in H. subst out d5 d4. clear H5.
      split; [look2; exact G1|]. split; [look2; exact G2|]. split; [look2; exact G3|]. split; [look2; reflexivity|]. split; [reflexivity|].
      split; [look2; reflexivity|]. split; [look2; reflexivity|].
      split; [look2; rewrite (NK "uniqueItems") by (cbn; intuition discriminate); destruct (given j "uniqueItems"); reflexivity|].
      split; [look2; rewrite (NK "default") by (cbn; intuition discriminate); destruct (given j "defaultValue"); reflexivity|].
      split; [|onlys2; eapply only_incl; [exact K3|intros k Hk; cbn in *; tauto]].
      eexists. split; [look2; reflexivity|]. split; [split; [exact P1|]; split; [exact P2|]; split; look2; assumption|]. split; [look2; reflexivity|].
      apply only_set; [|inkeys]. eapply only_incl; [exact KI|intros k Hk; cbn in *; tauto].
    + apply bind_ok in Hd as (ty & Hty & Hd). apply (field12_get _ _ _ _ _ _ M (F "type" ltac:(inkeys))) in Hty. apply bind_ok in Hd as (s & Hs & Hd).
      destruct ty as [| | | |tt| |]; try discriminate. cbn in Hs. apply Ok_inj in Hs. subst s. symmetry in Hty.
      apply bind_ok in Hd as (d4 & H4 & Hd). apply (put_ok _ _ _ _ _ _ _ M (F "format" ltac:(inkeys))) in H4.
      apply bind_ok in Hd as (d5 & H5 & Hd). apply (put_ok _ _ _ _ _ _ _ M (F "defaultValue" ltac:(inkeys))) in H5.
      apply bind_ok in Hd as (d6 & H6 & Hd).
      assert (L1 : lookup "minimum" d5 = None) by (subst d5 d4; look2; apply NK; cbn; intuition discriminate).
      assert (L2 : lookup "maximum" d5 = None) by (subst d5 d4; look2; apply NK; cbn; intuition discriminate).
      destruct (convert_min_max_ok _ _ _ _ _ M (F "minimum" ltac:(inkeys)) (F "maximum" ltac:(inkeys)) (F "type" ltac:(inkeys)) L1 L2 H6) as (ob & ob' & E6 & B1 & B2).
      apply bind_ok in Hd as (e & He & Hd). apply (field12_get _ _ _ _ _ _ M (F "enum" ltac:(inkeys))) in He. subst e. apply Ok_inj in Hd.
      assert (O : only_keys ["name"; "required"; "description"; "in"; "type"; "format"; "default"; "minimum"; "maximum"; "enum"] d).
      { subst d d6 d5 d4. onlys2. eapply only_incl; [exact K3|intros k Hk; cbn in *; tauto]. }
      assert (Q : lookup "name" d = given j "name" /\ lookup "required" d = given j "required" /\ lookup "description" d = given j "description" /\
                  lookup "in" d = Some in_ /\ lookup "type" d = Some (JStr (lower tt)) /\ lookup "format" d = given j "format" /\ lookup "default" d = given j "defaultValue" /\
                  lookup "minimum" d = ob /\ lookup "maximum" d = ob' /\ lookup "enum" d = Some (get j "enum")).
      { subst d d6 d5 d4. split; [look2; exact G1|]. split; [look2; exact G2|]. split; [look2; exact G3|]. split; [look2; reflexivity|]. split; [look2; reflexivity|].
        split; [look2; rewrite (NK "format") by (cbn; intuition discriminate); destruct (given j "format"); reflexivity|].
        split; [look2; rewrite (NK "default") by (cbn; intuition discriminate); destruct (given j "defaultValue"); reflexivity|].
        split; [look2; rewrite (NK "minimum") by (cbn; intuition discriminate); destruct ob; reflexivity|].
        split; [look2; rewrite (NK "maximum") by (cbn; intuition discriminate); destruct ob'; reflexivity|]. look2; reflexivity. }
      destruct Q as (Q1 & Q2 & Q3 & Q4 & Q5 & Q6 & Q7 & Q8 & Q9 & Q10). clear Hd H6 E6 H5 H4.
      assert (N2 : lookup "collectionFormat" d = None /\ lookup "uniqueItems" d = None) by (split; apply O; cbn; intuition discriminate). destruct N2 as [N2 N3].
      destruct Hit as [[E ->]|[E Mi]].
      * cbn in H. apply Ok_inj in H. subst out. rewrite E. cbn [is_null].
        split; [exact Q1|]. split; [exact Q2|]. split; [exact Q3|]. split; [exact Q4|]. split; [reflexivity|]. split; [eauto|]. split; [exact Q6|]. split; [exact Q7|].
        split; [apply bound_of_image; rewrite Q8; exact B1|]. split; [apply bound_of_image; rewrite Q9; exact B2|]. split; [exact Q10|exact O].
      * rewrite (made_truthy _ _ _ Mi) in H. destruct (null_or (get j "items")) as [[? _]|[_ ->]]; [contradiction|].
        apply bind_ok in H as (d7 & H7 & H). apply (put_ok _ _ _ _ _ _ _ M (F "uniqueItems" ltac:(inkeys))) in H7. apply bind_ok in H as (i & Hci & H). apply Ok_inj in H. subst out d7.
        destruct (convert_items_ok "Items" _ _ _ eq_refl Mi Hci) as [PI KI].
        split; [look2; exact Q1|]. split; [look2; exact Q2|]. split; [look2; exact Q3|]. split; [look2; exact Q4|]. split; [reflexivity|]. split; [exists tt; split; [exact Hty|look2; exact Q5]|].
        split; [look2; exact Q6|]. split; [look2; exact Q7|].
        split; [apply bound_of_image; look2; rewrite Q8; exact B1|]. split; [apply bound_of_image; look2; rewrite Q9; exact B2|]. split; [look2; exact Q10|].
        split; [look2; reflexivity|]. split; [look2; rewrite N3; destruct (given j "uniqueItems"); reflexivity|].
        split; [exists i; split; [look2; reflexivity|split; [exact PI|exact KI]]|].
        onlys2. eapply only_incl; [exact O|intros k Hk; cbn in *; tauto].
Qed.
