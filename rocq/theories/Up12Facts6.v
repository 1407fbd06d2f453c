(** Conversion of Swagger 1.2 objects: authorizations and info. *)
From Coq Require Import String Ascii List Bool Arith ZArith Lia.
From Verif Require Import PyStr PyStrFacts PyVal PyValFacts Jp Scope UrlLib Obj SpecObj SpecJson ObjFacts TablesFacts Classes_v1_2 Scan Up12 SpecUp12 Up12Facts NumeralFacts Up12Facts2 Up12Facts3 Up12Facts4 Up12Facts5.
Import ListNotations.
Open Scope string_scope. Open Scope nat_scope.

(** ** get_or_none *)
Lemma field_get_no_attr f j : field_get f j <> Err AttributeError.
Proof.
  unfold field_get. destruct j as [| | | |s|l|d]; cbn [py_in bind]; try discriminate.
  - destruct (substring_of _ s); [destruct (f_restricted f); discriminate|destruct (f_required f); discriminate].
  - destruct (existsb _ l); [destruct (f_restricted f); discriminate|destruct (f_required f); discriminate].
  - destruct (mem _ d); [destruct (f_restricted f); [discriminate|]|destruct (f_required f); discriminate]. cbn [py_getitem]. destruct (lookup _ d); discriminate.
Qed.
Lemma attr12_field c j o name f : made c j o -> field_of c name = Some f -> attr12 o name = rmap OPrim (field_get f j).
Proof.
  intros M F. destruct (made_shape _ _ _ M) as (p & kids & cd & -> & El & _). unfold field_of in F. rewrite El in F. cbv zeta in F.
  unfold attr12. rewrite El. unfold getattr_, getattr_plain.
  destruct (find_child name (c_children cd)); [discriminate|]. destruct (find_child name (c_lazy cd)); [discriminate|].
  destruct (lookup name (c_renames cd)) as [k|].
  - destruct (find_child k (c_children cd)); [discriminate|]. destruct (find_child k (c_lazy cd)); [discriminate|].
    destruct (find_field k cd) as [f0|]; [|discriminate]. destruct (f_restricted f0); [discriminate|]. destruct (is_null (f_default f0)); [|discriminate].
    injection F as ->. reflexivity.
  - destruct (lookup name (c_internal cd)); [discriminate|]. destruct (find_child name (c_children cd)); [discriminate|]. destruct (find_child name (c_lazy cd)); [discriminate|].
    destruct (find_field name cd) as [f0|]; [|discriminate]. destruct (f_restricted f0); [discriminate|]. destruct (is_null (f_default f0)); [|discriminate].
    injection F as ->. reflexivity.
Qed.
Lemma gon_field c j o n key x : made c j o -> is_field c n key = true -> get_or_none o [n] = Ok x -> x = OPrim (get j key).
Proof.
  intros M F H. cbn [get_or_none] in H. assert (F' := F). unfold is_field in F. destruct (field_of c n) as [f|] eqn:Ef; [|discriminate].
  assert (Ha := attr12_field _ _ _ _ _ M Ef). assert (N := field_get_no_attr f j).
  destruct (field_get f j) as [v|e] eqn:G; cbn [rmap] in Ha; rewrite Ha in H.
  - assert (x = OPrim v) by (destruct (truthy_obj (OPrim v)); apply Ok_inj in H; congruence). subst x. f_equal.
    apply (field12_get c j o n key); [exact M|exact F'|]. unfold field12. now rewrite Ha.
  - destruct e; try discriminate. contradiction.
Qed.
Lemma gon_child c j o n c' rest x : made c j o -> is_child c n (BCls c') -> get_or_none o (n :: rest) = Ok x ->
  (get j n = JNull /\ x = OPrim JNull) \/ exists o', made c' (get j n) o' /\ get_or_none o' rest = Ok x.
Proof.
  intros M C H. destruct (attr12_child _ _ _ _ _ M C) as (v & Ha & Hc). cbn [get_or_none] in H. rewrite Ha in H.
  apply child_cls in Hc as [[E ->]|[_ Mv]].
  - left. split; [exact E|]. apply Ok_inj in H. congruence.
  - right. exists v. split; [exact Mv|]. destruct (made_shape _ _ _ Mv) as (p & kids & cd & -> & _). exact H.
Qed.
Lemma get_null k : get JNull k = JNull. Proof. reflexivity. Qed.
Lemma gon_login j o x : made "Authorization" j o -> get_or_none o ["grantTypes"; "implicit"; "loginEndpoint"; "url"] = Ok x ->
  x = OPrim (first_of j ["grantTypes"; "implicit"; "loginEndpoint"; "url"]).
Proof.
  intros M H. unfold first_of. cbn [fold_left].
  apply (gon_child "Authorization" _ _ "grantTypes" "GrantTypes" _ _ M eq_refl) in H as [[-> ->]|(o1 & M1 & H)]; [reflexivity|].
  apply (gon_child "GrantTypes" _ _ "implicit" "Implicit" _ _ M1 eq_refl) in H as [[-> ->]|(o2 & M2 & H)]; [reflexivity|].
  apply (gon_child "Implicit" _ _ "loginEndpoint" "LoginEndpoint" _ _ M2 eq_refl) in H as [[-> ->]|(o3 & M3 & H)]; [reflexivity|].
  exact (gon_field "LoginEndpoint" _ _ "url" "url" _ M3 eq_refl H).
Qed.
Lemma gon_token j o x : made "Authorization" j o -> get_or_none o ["grantTypes"; "authorization_code"; "tokenEndpoint"; "url"] = Ok x ->
  x = OPrim (first_of j ["grantTypes"; "authorization_code"; "tokenEndpoint"; "url"]).
Proof.
  intros M H. unfold first_of. cbn [fold_left].
  apply (gon_child "Authorization" _ _ "grantTypes" "GrantTypes" _ _ M eq_refl) in H as [[-> ->]|(o1 & M1 & H)]; [reflexivity|].
  apply (gon_child "GrantTypes" _ _ "authorization_code" "AuthorizationCode" _ _ M1 eq_refl) in H as [[-> ->]|(o2 & M2 & H)]; [reflexivity|].
  apply (gon_child "AuthorizationCode" _ _ "tokenEndpoint" "TokenEndpoint" _ _ M2 eq_refl) in H as [[-> ->]|(o3 & M3 & H)]; [reflexivity|].
  exact (gon_field "TokenEndpoint" _ _ "url" "url" _ M3 eq_refl H).
Qed.
Lemma gon_info j o k x : made "ResourceListing" j o -> is_field "Info" k k = true -> get_or_none o ["info"; k] = Ok x -> x = OPrim (get (get j "info") k).
Proof.
  intros M F H. apply (gon_child "ResourceListing" _ _ "info" "Info" _ _ M eq_refl) in H as [[-> ->]|(o1 & M1 & H)]; [reflexivity|].
  exact (gon_field "Info" _ _ k k _ M1 F H).
Qed.
Lemma put_truthy_is key j d : put_truthy key (OPrim j) d = opt_set key (some_if (truthy j) j) d.
Proof. unfold put_truthy, opt_set, some_if. destruct (truthy j); reflexivity. Qed.

(** ** authorizations *)
Definition scope_step : list (string * json) -> obj -> res (list (string * json)) := fun acc e =>
  k <- field12 e "scope" ;; v <- field12 e "description" ;; match k with JStr k => Ok (dict_set k v acc) | _ => Err TypeError end.
Lemma scopes_ok l es : Forall2 (made "Scope") l es -> forall acc out, foldM scope_step es acc = Ok out ->
  forall k, lookup k out = match last_such (fun e => String.eqb (text (get e "scope")) k) l with Some e => Some (get e "description") | None => lookup k acc end.
Proof.
  induction 1 as [|j e l es M F IH]; intros acc out H k; cbn [foldM] in H.
  - apply Ok_inj in H. now subst.
  - apply bind_ok in H as (a & Ha & H). unfold scope_step in Ha. apply bind_ok in Ha as (n & Hn & Ha). apply bind_ok in Ha as (v & Hv & Ha).
    apply (field12_get "Scope" _ _ "scope" "scope" _ M eq_refl) in Hn. apply (field12_get "Scope" _ _ "description" "description" _ M eq_refl) in Hv.
    destruct n as [| | | |n| |]; try discriminate. apply Ok_inj in Ha. subst a v. rewrite (IH _ _ H k). cbn [last_such].
    destruct (last_such _ l); [reflexivity|]. rewrite <- Hn. cbn [text]. rewrite lookup_dict_set, String.eqb_sym. destruct (String.eqb n k); reflexivity.
Qed.
Lemma scopes_nodup es : forall acc out, foldM scope_step es acc = Ok out -> NoDup (map fst acc) -> NoDup (map fst out).
Proof.
  induction es as [|e es IH]; intros acc out H N; cbn [foldM] in H; [apply Ok_inj in H; now subst|]. apply bind_ok in H as (a & Ha & H). apply (IH _ _ H). unfold scope_step in Ha.
  apply bind_ok in Ha as (n & Hn & Ha). apply bind_ok in Ha as (v & Hv & Ha). destruct n as [| | | |n| |]; try discriminate. apply Ok_inj in Ha. subst a. now apply dict_set_nodup.
Qed.
Lemma is_str_json k j : json_is_str k j = match j with JStr s => String.eqb s k | _ => false end.
Proof. destruct j; try reflexivity. cbn. apply String.eqb_sym. Qed.
Definition is_oauth2 (t : json) : bool := match t with JStr "oauth2" => true | _ => false end.
Definition is_apikey (t : json) : bool := match t with JStr "apiKey" => true | _ => false end.
Lemma oauth2_match t : json_is_str "oauth2" t = is_oauth2 t.
Proof. rewrite is_str_json. destruct t; try reflexivity. destruct (String.eqb_spec s "oauth2") as [->|N]; [reflexivity|]. unfold is_oauth2. repeat (destruct s as [|[[] [] [] [] [] [] [] []] s]; try reflexivity). contradiction. Qed.
Lemma apikey_match t : json_is_str "apiKey" t = is_apikey t.
Proof. rewrite is_str_json. destruct t; try reflexivity. destruct (String.eqb_spec s "apiKey") as [->|N]; [reflexivity|]. unfold is_apikey. repeat (destruct s as [|[[] [] [] [] [] [] [] []] s]; try reflexivity). contradiction. Qed.
Lemma basic_match t : (if json_is_str "basicAuth" t then JStr "basic" else t) = scheme_type t.
Proof. rewrite is_str_json. destruct t; try reflexivity. destruct (String.eqb_spec s "basicAuth") as [->|N]; [reflexivity|]. unfold scheme_type. repeat (destruct s as [|[[] [] [] [] [] [] [] []] s]; try reflexivity). contradiction. Qed.
Lemma two_excl t : is_oauth2 t = true -> is_apikey t = false.
Proof. destruct t; try discriminate. unfold is_oauth2, is_apikey. repeat (destruct s as [|[[] [] [] [] [] [] [] []] s]; try discriminate). reflexivity. Qed.
Lemma authorization_ok j o d : made "Authorization" j o -> authorization_spec o = Ok d -> security_image j d.
Proof.
  intros M H. unfold authorization_spec in H. apply bind_ok in H as (t0 & Ht & H). apply (field12_get "Authorization" _ _ "type" "type" _ M eq_refl) in Ht. subst t0.
  rewrite basic_match in H. cbv zeta in H. set (t := scheme_type (get j "type")) in *.
  apply bind_ok in H as (so & Hso & H). apply bind_ok in H as (ss & Hss & H). apply bind_ok in H as (scopes & Hsc & H). fold scope_step in Hsc.
  assert (S1 : exists l, elements (get j "scopes") = l /\ Forall2 (made "Scope") l ss).
  { destruct (attr12_child "Authorization" _ _ "scopes" (BListOf (BCls "Scope")) M eq_refl) as (x & Hx & Cx). rewrite Hso in Hx. apply Ok_inj in Hx. subst x.
    apply child_list in Cx as [[-> ->]|(l & p & es & -> & -> & F)].
    - apply Ok_inj in Hss. subst ss. exists []. split; [reflexivity|constructor].
    - exists l. split; [reflexivity|]. destruct es; cbn in Hss; apply Ok_inj in Hss; subst ss; apply Forall2_made; exact F. }
  destruct S1 as (l & El & Fl). pose proof (scopes_ok _ _ Fl _ _ Hsc) as Sl.
  assert (SS : exists ss', Some (JDict scopes) = Some (JDict ss') /\ NoDup (map fst ss') /\ forall k, lookup k ss' = option_map (fun e => get e "description")
            (last_such (fun e => String.eqb (text (get e "scope")) k) (elements (get j "scopes")))).
  { exists scopes. split; [reflexivity|]. split; [apply (scopes_nodup _ _ _ Hsc); constructor|]. intros k. rewrite Sl, El. destruct (last_such _ l); reflexivity. }
  unfold security_image. fold t. fold (is_oauth2 t). fold (is_apikey t). cbv zeta.
  rewrite oauth2_match, apikey_match in H. destruct (is_oauth2 t) eqn:Eo.
  - rewrite (two_excl _ Eo). apply bind_ok in H as (au & Hau & H). apply bind_ok in H as (tu & Htu & H). apply (gon_login _ _ _ M) in Hau. apply (gon_token _ _ _ M) in Htu. subst au tu.
    rewrite !put_truthy_is in H. cbn [truthy_obj] in H. apply Ok_inj in H.
    set (lo := first_of j ["grantTypes"; "implicit"; "loginEndpoint"; "url"]) in *. set (to := first_of j ["grantTypes"; "authorization_code"; "tokenEndpoint"; "url"]) in *.
    assert (E : d = opt_set "flow" (if truthy lo then Some (JStr "implicit") else some_if (truthy to) (JStr "access_code"))
                (opt_set "tokenUrl" (some_if (truthy to) to) (opt_set "authorizationUrl" (some_if (truthy lo) lo) [("type", t); ("scopes", JDict scopes)]))).
    { rewrite <- H. destruct (truthy lo), (truthy to); reflexivity. }
    rewrite E. clear E H. cbn [andb]. split; [look2; reflexivity|]. split; [look2; exact SS|]. split; [look2; destruct (some_if (truthy lo) lo); reflexivity|].
    split; [look2; destruct (some_if (truthy to) to); reflexivity|]. split; [look2; destruct (truthy lo), (truthy to); reflexivity|]. split; [look2; reflexivity|]. split; [look2; reflexivity|].
    onlys2. intros k N. cbn [lookup]. destruct (String.eqb_spec k "type"); [subst; exfalso; apply N; cbn; tauto|]. destruct (String.eqb_spec k "scopes"); [subst; exfalso; apply N; cbn; tauto|]. reflexivity.
  - cbn [andb]. destruct (is_apikey t) eqn:Ek.
    + apply bind_ok in H as (n & Hn & H). apply bind_ok in H as (i & Hi & H). apply (field12_get "Authorization" _ _ "keyname" "keyname" _ M eq_refl) in Hn.
      apply (field12_get "Authorization" _ _ "passAs" "passAs" _ M eq_refl) in Hi. subst n i. apply Ok_inj in H. subst d.
      split; [look2; reflexivity|]. split; [look2; exact SS|]. split; [look2; reflexivity|]. split; [look2; reflexivity|]. split; [look2; reflexivity|]. split; [look2; reflexivity|]. split; [look2; reflexivity|].
      onlys2. intros k N. cbn [lookup]. destruct (String.eqb_spec k "type"); [subst; exfalso; apply N; cbn; tauto|]. destruct (String.eqb_spec k "scopes"); [subst; exfalso; apply N; cbn; tauto|]. reflexivity.
    + apply Ok_inj in H. subst d.
      split; [look2; reflexivity|]. split; [look2; exact SS|]. split; [look2; reflexivity|]. split; [look2; reflexivity|]. split; [look2; reflexivity|]. split; [look2; reflexivity|]. split; [look2; reflexivity|].
      intros k N. cbn [lookup]. destruct (String.eqb_spec k "type"); [subst; exfalso; apply N; cbn; tauto|]. destruct (String.eqb_spec k "scopes"); [subst; exfalso; apply N; cbn; tauto|]. reflexivity.
Qed.

(** ** info *)
Lemma listing_ok j o s : made "ResourceListing" j o -> resource_listing o = Ok s ->
  info_image j (s_info s) /\ s = mk_sw (s_info s) [] [] [] [].
Proof.
  intros M H. unfold resource_listing in H. apply bind_ok in H as (v & Hv & H). apply (field12_get "ResourceListing" _ _ "apiVersion" "apiVersion" _ M eq_refl) in Hv. subst v. cbv zeta in H.
  apply bind_ok in H as (ti & Hti & H). apply (gon_info _ _ "title" _ M eq_refl) in Hti. subst ti.
  apply bind_ok in H as (de & Hde & H). apply (gon_info _ _ "description" _ M eq_refl) in Hde. subst de.
  apply bind_ok in H as (te & Hte & H). apply (gon_info _ _ "termsOfServiceUrl" _ M eq_refl) in Hte. subst te.
  apply bind_ok in H as (info & Hi & H). destruct (attr12_child "ResourceListing" _ _ "info" (BCls "Info") M eq_refl) as (x & Hx & Cx). rewrite Hi in Hx. apply Ok_inj in Hx. subst x.
  apply bind_ok in H as (co & Hco & H). apply bind_ok in H as (li & Hli & H). apply bind_ok in H as (ur & Hur & H). apply Ok_inj in H.
  apply child_cls in Cx as [[_ ->]|[_ Mi]]; [discriminate|].
  apply (field12_get "Info" _ _ "contact" "contact" _ Mi eq_refl) in Hco. apply (field12_get "Info" _ _ "license" "license" _ Mi eq_refl) in Hli. apply (field12_get "Info" _ _ "licenseUrl" "licenseUrl" _ Mi eq_refl) in Hur.
  subst co li ur. rewrite !put_truthy_is in H. set (i := get j "info") in *. subst s. cbn [s_info]. split; [|reflexivity].
  match goal with |- info_image j ?d => assert (E : d = opt_set "license" (some_if (truthy (get i "license") || truthy (get i "licenseUrl"))
      (JDict (opt_set "url" (some_if (truthy (get i "licenseUrl")) (get i "licenseUrl")) (opt_set "name" (some_if (truthy (get i "license")) (get i "license")) []))))
    (opt_set "contact" (some_if (truthy (get i "contact")) (JDict [("email", get i "contact")])) (opt_set "termsOfService" (some_if (truthy (get i "termsOfServiceUrl")) (get i "termsOfServiceUrl"))
     (opt_set "description" (some_if (truthy (get i "description")) (get i "description")) (opt_set "title" (some_if (truthy (get i "title")) (get i "title")) [("version", get j "apiVersion")]))))) end.
  { destruct (truthy (get i "license") || truthy (get i "licenseUrl")), (truthy (get i "contact")); reflexivity. }
  rewrite E. clear E. unfold info_image. fold i. cbv zeta.
  assert (G : forall a v, match some_if a v with Some v => Some v | None => None end = some_if a v) by (intros [] ?; reflexivity).
  split; [look2; reflexivity|]. split; [look2; apply G|]. split; [look2; apply G|]. split; [look2; apply G|]. split; [look2; apply G|]. split.
  - destruct (truthy (get i "license") || truthy (get i "licenseUrl")) eqn:E.
    + eexists. split; [look2; reflexivity|]. split; [look2; apply G|]. split; [look2; apply G|]. onlys2.
    + look2. reflexivity.
  - onlys2. intros k N. cbn [lookup]. destruct (String.eqb_spec k "version"); [subst; exfalso; apply N; cbn; tauto|]. reflexivity.
Qed.
