(** Conversion of Swagger 1.2 objects: operations and models. *)
From Coq Require Import String Ascii List Bool Arith ZArith Lia.
From Verif Require Import PyStr PyStrFacts PyVal PyValFacts Jp Scope UrlLib Obj SpecObj ObjFacts TablesFacts Classes_v1_2 Scan Up12 SpecUp12 Up12Facts NumeralFacts Up12Facts2.
Import ListNotations.
Open Scope string_scope. Open Scope nat_scope.

Lemma Forall2_made c l es : Forall2 (fun v e => exists p, construct v12_table v (BCls c) p [] = Ok e) l es -> Forall2 (made c) l es.
Proof. exact (fun H => H). Qed.
Lemma list_read c j o name c' x es : made c j o -> is_child c name (BListOf (BCls c')) -> attr12 o name = Ok x -> elems12 x = Ok es ->
  exists l, get j name = JList l /\ Forall2 (made c') l es.
Proof.
  intros M B H E. destruct (attr12_child _ _ _ _ _ M B) as (y & Hy & C). rewrite H in Hy. apply Ok_inj in Hy. subst y.
  destruct (child_list _ _ _ C) as [[_ ->]|(l & p & es' & El & -> & F)]; [discriminate|]. cbn in E. apply Ok_inj in E. subst es'. eauto.
Qed.
Lemma map_read c j o name b x es : made c j o -> is_child c name (BMapOf b) -> attr12 o name = Ok x -> entries12 x = Ok es ->
  exists d, get j name = JDict d /\ Forall2 (fun v e => fst v = fst e /\ exists p, construct v12_table (snd v) b p [] = Ok (snd e)) d es.
Proof.
  intros M B H E. destruct (attr12_child _ _ _ _ _ M B) as (y & Hy & C). rewrite H in Hy. apply Ok_inj in Hy. subst y.
  destruct (child_map _ _ _ C) as [[_ ->]|(l & p & es' & El & -> & F)]; [discriminate|]. cbn in E. apply Ok_inj in E. subst es'. eauto.
Qed.
Lemma mapM_Forall2 {A B C} (R : A -> B -> Prop) (Q : A -> C -> Prop) (f : B -> res C) l es ys :
  Forall2 R l es -> (forall a b c, R a b -> f b = Ok c -> Q a c) -> mapM f es = Ok ys -> Forall2 Q l ys.
Proof.
  intros F H. revert ys. induction F as [|a b l es Hab F IH]; intros ys Hm; cbn [mapM] in Hm.
  - apply Ok_inj in Hm. subst. constructor.
  - apply bind_ok in Hm as (y & Hy & Hm). apply bind_ok in Hm as (ys' & Hys & Hm). apply Ok_inj in Hm. subst ys. constructor; eauto.
Qed.
Lemma from1_ok j s : from1 j = Ok s -> s = sdrop 1 (text j).
Proof. destruct j; try discriminate. intros H. apply Ok_inj in H. now subst. Qed.
Lemma resource_read dj decl s : made "ApiDeclaration" dj decl -> (rp <- field12 decl "resourcePath" ;; from1 rp) = Ok s -> s = resource dj.
Proof.
  intros M H. apply bind_ok in H as (rp & Hr & H). apply (field12_get "ApiDeclaration" _ _ "resourcePath" "resourcePath" _ M eq_refl) in Hr. subst rp.
  now apply from1_ok in H.
Qed.

(** requirements *)
Lemma requirement_ok name j x r : child_made (BListOf (BCls "Authorizations")) j x -> requirement name x = Ok r ->
  r = JDict [(name, JList (map (fun e => get e "scope") (elements j)))].
Proof.
  intros C H. unfold requirement in H. apply bind_ok in H as (es & He & H). apply bind_ok in H as (ss & Hs & H). apply Ok_inj in H. subst r.
  destruct (child_list _ _ _ C) as [[_ ->]|(l & p & es' & -> & -> & F)]; [discriminate|]. cbn in He. apply Ok_inj in He. subst es'.
  do 4 f_equal. assert (F2 : Forall2 (fun a c => c = get a "scope") l ss).
  { eapply mapM_Forall2; [exact F| |exact Hs]. intros a b c Ma Hc. exact (field12_get "Authorizations" a b "scope" "scope" c Ma eq_refl Hc). }
  cbn [elements]. clear -F2. induction F2; cbn; congruence.
Qed.
Lemma truthy_map b j x : child_made (BMapOf b) j x -> truthy_obj x = truthy j.
Proof.
  intros C. destruct (child_map _ _ _ C) as [[-> ->]|(d & p & es & -> & -> & F)]; [reflexivity|]. destruct F; reflexivity.
Qed.
Lemma is_list_construct v b p e : construct v12_table v (BListOf b) p [] = Ok e -> child_made (BListOf b) v e.
Proof.
  intros H. right. split; [intros ->; rewrite construct_eq in H; cbn in H; discriminate|eauto].
Qed.
Lemma operation_spec_ok j aj dj op decl sep out : made "Operation" j op -> made "ApiDeclaration" dj decl ->
  operation_spec op decl sep = Ok out -> operation_image sep (mk_site dj aj j) out.
Proof.
  intros M Md H. assert (D := operation_datatype). unfold operation_spec in H.
  apply bind_ok in H as (rp & Hrp & H). apply bind_ok in H as (scope & Hsc & H).
  assert (Es : scope = resource dj) by (apply (resource_read dj decl); [exact Md|rewrite Hrp; exact Hsc]). clear Hrp Hsc. cbv zeta in H.
  apply bind_ok in H as (d1 & H1 & H). apply (put_ok "Operation" _ _ "nickname" _ _ _ M eq_refl) in H1.
  apply bind_ok in H as (d2 & H2 & H). apply (put_ok "Operation" _ _ "summary" _ _ _ M eq_refl) in H2.
  apply bind_ok in H as (d3 & H3 & H). apply (put_ok "Operation" _ _ "notes" _ _ _ M eq_refl) in H3.
  apply bind_ok in H as (dep & Hdep & H). apply (field12_get "Operation" _ _ "deprecated" "deprecated" _ M eq_refl) in Hdep. subst dep.
  assert (INH : forall k v1 v, is_field "Operation" k k = true -> is_field "ApiDeclaration" k k = true -> field12 op k = Ok v1 ->
    (if truthy v1 then Ok v1 else field12 decl k) = Ok v -> v = inherited (mk_site dj aj j) k).
  { intros k v1 v F1 F2 Hv1 Hv. apply (field12_get _ _ _ _ _ _ M F1) in Hv1. subst v1. unfold inherited. cbn [at_op at_decl].
    destruct (truthy (get j k)); [now apply Ok_inj in Hv|]. exact (field12_get _ _ _ _ _ _ Md F2 Hv). }
  apply bind_ok in H as (c1 & Hc1 & H). apply bind_ok in H as (consumes & Hco & H). apply (INH "consumes" c1 consumes eq_refl eq_refl Hc1) in Hco. subst consumes. clear Hc1.
  apply bind_ok in H as (p1 & Hp1 & H). apply bind_ok in H as (produces & Hpr & H). apply (INH "produces" p1 produces eq_refl eq_refl Hp1) in Hpr. subst produces. clear Hp1 INH.
  apply bind_ok in H as (ps0 & Hps0 & H). apply bind_ok in H as (ps & Hps & H). apply bind_ok in H as (params & Hpa & H).
  destruct (list_read "Operation" _ _ "parameters" "Parameter" _ _ M eq_refl Hps0 Hps) as (lp & Elp & Fp).
  assert (exists pd, params = map JDict pd /\ Forall2 (parameter_image sep scope) lp pd) as (pd & Epd & Fpd).
  { assert (G : Forall2 (fun a c => exists pd, c = JDict pd /\ parameter_image sep scope a pd) lp params).
    { eapply mapM_Forall2; [exact Fp| |exact Hpa]. intros a b c Ma Hc. apply bind_ok in Hc as (s & Hs & Hc). apply Ok_inj in Hc. exists s. split; [auto|]. eapply convert_parameter_ok; eauto. }
    clear -G. induction G as [|a c l l' (pd & -> & Hi) G (pds & -> & IH)]; [exists []; split; [reflexivity|constructor]|]. exists (pd :: pds). split; [reflexivity|constructor; assumption]. }
  apply bind_ok in H as (a1 & Ha1 & H). apply bind_ok in H as (auth & Hau & H). apply bind_ok in H as (d4 & H4 & H).
  assert (Cau : child_made (BMapOf (BListOf (BCls "Authorizations"))) (inherited (mk_site dj aj j) "authorizations") auth).
  { destruct (attr12_child "Operation" _ _ "authorizations" _ M eq_refl) as (y & Hy & C). rewrite Ha1 in Hy. apply Ok_inj in Hy. subst y.
    unfold inherited. cbn [at_op at_decl]. rewrite (truthy_map _ _ _ C) in Hau. destruct (truthy (get j "authorizations")).
    - apply Ok_inj in Hau. subst auth. exact C.
    - destruct (attr12_child "ApiDeclaration" _ _ "authorizations" _ Md eq_refl) as (y & Hy & C'). rewrite Hau in Hy. apply Ok_inj in Hy. subst y. exact C'. }
  set (au := inherited (mk_site dj aj j) "authorizations") in *.
  rewrite (truthy_map _ _ _ Cau) in H4.
  assert (E4 : d4 = opt_set "security" (some_if (truthy au) (JList (requirements au)))
     (dict_set "parameters" (JList params) (if truthy (inherited (mk_site dj aj j) "produces") then dict_set "produces" (inherited (mk_site dj aj j) "produces")
        (if truthy (inherited (mk_site dj aj j) "consumes") then dict_set "consumes" (inherited (mk_site dj aj j) "consumes") (dict_set "deprecated" (JBool (json_is_str "true" (get j "deprecated"))) d3)
         else dict_set "deprecated" (JBool (json_is_str "true" (get j "deprecated"))) d3)
       else if truthy (inherited (mk_site dj aj j) "consumes") then dict_set "consumes" (inherited (mk_site dj aj j) "consumes") (dict_set "deprecated" (JBool (json_is_str "true" (get j "deprecated"))) d3)
         else dict_set "deprecated" (JBool (json_is_str "true" (get j "deprecated"))) d3))).
  { unfold some_if. destruct (truthy au) eqn:Ta.
    - apply bind_ok in H4 as (es & He & H4). apply bind_ok in H4 as (l & Hl & H4). apply Ok_inj in H4. subst d4. cbn [opt_set]. do 2 f_equal.
      destruct (child_map _ _ _ Cau) as [[_ ->]|(dd & p & es' & Ed & -> & F)]; [discriminate|]. cbn in He. apply Ok_inj in He. subst es'. rewrite Ed in *. unfold requirements. cbn [fields].
      assert (G : Forall2 (fun a c => c = JDict [(fst a, JList (map (fun e => get e "scope") (elements (snd a))))]) dd l).
      { eapply mapM_Forall2; [exact F| |exact Hl]. intros [k v] [k' e] c [Ek (p' & He)] Hc. cbn [fst snd] in *. subst k'. apply requirement_ok with (j := v) in Hc; [exact Hc|]. eapply is_list_construct; eauto. }
      clear -G. induction G; cbn; congruence.
    - apply Ok_inj in H4. now subst d4. }
  clear H4 Hau Ha1.
  apply bind_ok in H as (ty & Hty & H). apply (field12_get "Operation" _ _ "type" "type" _ M eq_refl) in Hty. subst ty. apply bind_ok in H as (r & Hr & H). apply Ok_inj in H. subst out.
  rewrite void_match in Hr. rewrite true_match in E4.
  assert (E4' : d4 = opt_set "security" (some_if (truthy au) (JList (requirements au))) (dict_set "parameters" (JList params)
     (opt_set "produces" (some_if (truthy (inherited (mk_site dj aj j) "produces")) (inherited (mk_site dj aj j) "produces"))
     (opt_set "consumes" (some_if (truthy (inherited (mk_site dj aj j) "consumes")) (inherited (mk_site dj aj j) "consumes"))
     (dict_set "deprecated" (JBool (match get j "deprecated" with JStr "true" => true | _ => false end)) d3))))).
  { rewrite E4. unfold some_if. destruct (truthy (inherited (mk_site dj aj j) "produces")), (truthy (inherited (mk_site dj aj j) "consumes")); reflexivity. }
  clear E4. set (cs := inherited (mk_site dj aj j) "consumes") in *. set (prd := inherited (mk_site dj aj j) "produces") in *. 
  set (dp := match get j "deprecated" with JStr "true" => true | _ => false end) in *.
  assert (Et : (if truthy_str scope then [("tags", JList [JStr scope])] else []) = opt_set "tags" (some_if (negb (String.eqb scope "")) (JList [JStr scope])) []).
  { rewrite truthy_str_eqb. destruct (String.eqb scope ""); reflexivity. }
  rewrite Et in H1. clear Et.
  unfold operation_image. cbn [at_op at_decl at_api]. rewrite <- Es. fold dp cs prd au.
  subst d4 d3 d2 d1.
  split; [look2; destruct (some_if _ _); reflexivity|].
  split; [look2; destruct (given j "nickname"); reflexivity|].
  split; [look2; destruct (given j "summary"); reflexivity|].
  split; [look2; destruct (given j "notes"); reflexivity|].
  split; [look2; reflexivity|].
  split; [look2; destruct (some_if _ _); reflexivity|].
  split; [look2; destruct (some_if _ _); reflexivity|].
  split; [exists pd; split; [look2; rewrite Epd; reflexivity|rewrite Elp; exact Fpd]|].
  split; [look2; destruct (some_if _ _); reflexivity|].
  split; [|onlys2].
  exists (dict_set "description" (JStr "") r). split; [look2; reflexivity|]. split; [look2; reflexivity|].
  destruct (match get j "type" with JStr "void" => true | _ => false end).
  - apply Ok_inj in Hr. subst r. split; [onlys2|reflexivity].
  - apply bind_ok in Hr as (s & Hs & Hr). apply Ok_inj in Hr. change [("schema", JDict s)] with (dict_set "schema" (JDict s) []) in Hr. subst r. split; [onlys2|]. exists s. split; [look2; reflexivity|].
    eapply convert_schema_ok; eauto.
Qed.
