(** Proofs about info, tags, security schemes and pointers into schemas. *)
From Coq Require Import String Ascii List Bool Arith Lia.
From Verif Require Import PyStr PyStrFacts PyVal PyValFacts Jp UrlLib Obj ObjFacts Classes_v2_0 TablesFacts SpecJson ShapeFacts DumpFacts SpecObj SpecSchema SpecConv SpecBody SpecOp SpecDoc Store Conv20 ConvFacts SchemaFacts SchemaFacts2 ParamFacts BodyFacts BodyFacts2 ParamListFacts ParamListFacts2 OpFacts OpFacts2.
Import ListNotations.
Open Scope string_scope. Open Scope nat_scope.

Ltac fields_of c d o L := let n := fresh "n" in let Hn := fresh "Hn" in intros n Hn; repeat (destruct Hn as [<-|Hn]; [match goal with |- gfield_none o ?m = _ => exact (gfield_none_val c d o m L eq_refl) end|]); destruct Hn.
Ltac no_key k Hk := repeat match goal with |- context [String.eqb ?s k] => destruct (String.eqb_spec s k) as [<-|?]; [destruct Hk; in_list|] end.

(** a part given by a converter which always succeeds *)
Lemma opt_part c d o name cls (f : obj -> res dict) (R : dict -> dict -> Prop) :
  loaded (BCls c) (JDict d) o -> child_builder c name = Some (BCls cls) -> lookup cls v20_table <> None -> (forall x ko, loaded (BCls cls) (JDict x) ko -> exists x', f ko = Ok x' /\ R x x') ->
  object_or_null (val d name) ->
  exists x e, gattr o name = Ok x /\ (forall ret, (if truthy_obj x then (y <- f x ;; Ok (dict_set name (JDict y) ret)) else Ok ret) = Ok (opt_set name e ret)) /\ part_image R (val d name) e.
Proof.
  intros L C Nc Hf H. destruct (gattr_child c d o name _ L C) as [[Hv G]|(Hv & ko & G & Lk & Sk)].
  - exists (OPrim JNull), None. split; [exact G|]. split; [reflexivity|]. rewrite Hv. split; [reflexivity|discriminate].
  - destruct H as [H|(v & He)]; [contradiction|]. exists ko. rewrite He in Lk. destruct (Hf _ _ Lk) as (x' & E' & Cx). exists (Some (JDict x')). split; [exact G|].
    split; [intros ret; rewrite (loaded_cls_truthy cls _ _ Nc Lk), E'; reflexivity|]. rewrite He. split; [discriminate|]. intros v0 E0. injection E0 as <-. eauto.
Qed.
Lemma contact_ok d o : loaded (BCls "Contact") (JDict d) o -> exists x, to_contact o = Ok x /\ contact_image d x.
Proof.
  intros L. destruct (generate_fields_ok o (val d) ["name"; "url"; "email"]) as (fs & E & _ & F); [fields_of "Contact" d o L|].
  exists fs. split; [exact E|]. split; intros k Hk; rewrite F; destruct (in_dec string_dec k _); try reflexivity; contradiction.
Qed.
Lemma license_ok d o : loaded (BCls "License") (JDict d) o -> exists x, to_license o = Ok x /\ license_image d x.
Proof.
  intros L. unfold to_license. rewrite (gfield_val "License" d o "name" L eq_refl). cbn [bind]. destruct (generate_fields_ok o (val d) ["url"]) as (fs & E & Nf & F); [fields_of "License" d o L|]. rewrite E. cbn [bind].
  eexists. split; [reflexivity|]. assert (Lx : forall k, lookup k (dict_update [("name", val d "name")] fs) = if String.eqb "url" k then non_null (val d "url") else if String.eqb "name" k then Some (val d "name") else None).
  { intros k. rewrite dict_update_lookup by exact Nf. rewrite F. destruct (String.eqb_spec "url" k) as [<-|N1].
    - cbn. destruct (val d "url"); reflexivity.
    - destruct (in_dec string_dec k ["url"]) as [[I|[]]|_]; [congruence|]. cbn [lookup]. rewrite String.eqb_sym. reflexivity. }
  split; [|split]; intros k Hk; rewrite Lx.
  - destruct Hk as [<-|[]]. reflexivity.
  - destruct Hk as [<-|[]]. reflexivity.
  - no_key k Hk. reflexivity.
Qed.
Lemma info_ok d o : loaded (BCls "Info") (JDict d) o -> object_or_null (val d "contact") -> object_or_null (val d "license") -> exists x, to_info o = Ok x /\ info_image d x.
Proof.
  intros L Hc Hl. unfold to_info. rewrite (gfield_val "Info" d o "title" L eq_refl). cbn [bind]. rewrite (gfield_val "Info" d o "version" L eq_refl). cbn [bind].
  destruct (generate_fields_ok o (val d) ["description"; "termsOfService"]) as (fs & E & Nf & F); [fields_of "Info" d o L|]. rewrite E. cbn [bind]. set (r0 := dict_update _ fs).
  assert (L0 : forall k, lookup k r0 = if String.eqb "description" k then non_null (val d "description") else if String.eqb "termsOfService" k then non_null (val d "termsOfService") else if String.eqb "title" k then Some (val d "title") else if String.eqb "version" k then Some (val d "version") else None).
  { intros k. unfold r0. rewrite dict_update_lookup by exact Nf. rewrite F. destruct (String.eqb_spec "description" k) as [<-|N1]; [cbn; destruct (val d "description"); reflexivity|].
    destruct (String.eqb_spec "termsOfService" k) as [<-|N2]; [cbn; destruct (val d "termsOfService"); reflexivity|].
    destruct (in_dec string_dec k ["description"; "termsOfService"]) as [[I|[I|[]]]|_]; [congruence..|]. cbn [lookup]. rewrite (String.eqb_sym k "title"), (String.eqb_sym k "version"). reflexivity. }
  destruct (opt_part "Info" d o "contact" "Contact" to_contact contact_image L eq_refl ltac:(discriminate) (fun x ko => contact_ok x ko) Hc) as (c & ec & -> & Ec & Ic). cbn [bind]. rewrite Ec. cbn [bind].
  destruct (opt_part "Info" d o "license" "License" to_license license_image L eq_refl ltac:(discriminate) (fun x ko => license_ok x ko) Hl) as (l & el & -> & El & Il). cbn [bind]. rewrite El.
  eexists. split; [reflexivity|].
  assert (L1 := lookup_opt_set_fresh "contact" ec r0 ltac:(rewrite L0; reflexivity)).
  assert (L2 := lookup_opt_set_fresh "license" el (opt_set "contact" ec r0) ltac:(rewrite L1, L0; reflexivity)).
  set (x := opt_set "license" el (opt_set "contact" ec r0)) in *. clearbody x. unfold info_image.
  split; [intros k [<-|[<-|[]]]; rewrite L2, L1, L0; reflexivity|]. split; [intros k [<-|[<-|[]]]; rewrite L2, L1, L0; reflexivity|]. split; [rewrite L2, L1; exact Ic|]. split; [rewrite L2; exact Il|].
  intros k Hk. rewrite L2, L1, L0. no_key k Hk. reflexivity.
Qed.
Lemma tag_ok d o : loaded (BCls "Tag") (JDict d) o -> object_or_null (val d "externalDocs") -> exists x, to_tag o = Ok x /\ tag_image d x.
Proof.
  intros L Hc. unfold to_tag. rewrite (gfield_val "Tag" d o "name" L eq_refl). cbn [bind].
  destruct (generate_fields_ok o (val d) ["description"]) as (fs & E & Nf & F); [fields_of "Tag" d o L|]. rewrite E. cbn [bind]. set (r0 := dict_update _ fs).
  assert (L0 : forall k, lookup k r0 = if String.eqb "description" k then non_null (val d "description") else if String.eqb "name" k then Some (val d "name") else None).
  { intros k. unfold r0. rewrite dict_update_lookup by exact Nf. rewrite F. destruct (String.eqb_spec "description" k) as [<-|N1]; [cbn; destruct (val d "description"); reflexivity|].
    destruct (in_dec string_dec k ["description"]) as [[I|[]]|_]; [congruence..|]. cbn [lookup]. rewrite (String.eqb_sym k "name"). reflexivity. }
  destruct (opt_part "Tag" d o "externalDocs" "ExternalDocumentation" to_external_docs docs_image L eq_refl ltac:(discriminate) (fun x ko => external_docs_ok ko x) Hc) as (c & ec & -> & Ec & Ic). cbn [bind]. rewrite Ec.
  eexists. split; [reflexivity|].
  assert (L1 := lookup_opt_set_fresh "externalDocs" ec r0 ltac:(rewrite L0; reflexivity)). set (x := opt_set "externalDocs" ec r0) in *. clearbody x. unfold tag_image.
  split; [rewrite L1, L0; reflexivity|]. split; [rewrite L1, L0; reflexivity|]. split; [rewrite L1; exact Ic|].
  intros k Hk. rewrite L1, L0. no_key k Hk. reflexivity.
Qed.

(** ** security schemes *)
Lemma scheme_ok d o x : loaded (BCls "SecurityScheme") (JDict d) o -> to_security_scheme o = Ok x -> scheme_image d x.
Proof.
  intros L. unfold to_security_scheme. rewrite (gfield_none_val "SecurityScheme" d o "type" L eq_refl). cbn [bind]. change (fval "SecurityScheme" d "type") with (val d "type"). intros H. apply bind_ok in H as (r & Hr & H).
  destruct (generate_fields_ok o (val d) ["description"; "name"; "in"]) as (fs & E & Nf & F); [fields_of "SecurityScheme" d o L|]. rewrite E in H. cbn [bind] in H. injection H as <-.
  assert (Lr : exists fl, (forall k, lookup k r = if String.eqb "type" k then Some (val d "type") else if String.eqb "scheme" k then (if is_text "basic" (val d "type") then Some (JStr "basic") else None) else if String.eqb "flows" k then fl else None) /\
    (if is_text "oauth2" (val d "type") then exists fl', fl = Some fl' /\ flows_image d fl' else fl = None)).
  { rewrite !is_text_spec. destruct (json_is_str "basic" (val d "type")) eqn:Eb.
    - injection Hr as <-. exists None. assert (Eo : json_is_str "oauth2" (val d "type") = false). { apply json_is_str_spec in Eb. rewrite Eb. reflexivity. } rewrite Eo. split; [|reflexivity].
      intros k. cbn [lookup]. rewrite (String.eqb_sym k "type"), (String.eqb_sym k "scheme"). destruct (String.eqb "type" k); [reflexivity|]. destruct (String.eqb "scheme" k); [reflexivity|]. destruct (String.eqb "flows" k); reflexivity.
    - destruct (json_is_str "oauth2" (val d "type")) eqn:Eo.
      + apply bind_ok in Hr as (fl & Hf & Hr). injection Hr as <-. exists (Some (JDict fl)). split.
        * intros k. cbn [lookup]. rewrite (String.eqb_sym k "type"), (String.eqb_sym k "flows"). destruct (String.eqb "type" k); [reflexivity|]. destruct (String.eqb_spec "scheme" k) as [<-|]; reflexivity.
        * exists (JDict fl). split; [reflexivity|]. unfold to_flows in Hf. rewrite (gfield_val "SecurityScheme" d o "flow" L eq_refl) in Hf. cbn [bind] in Hf. destruct (negb (truthy (val d "flow"))); [discriminate|].
          destruct (val d "flow") as [| | | |f| |] eqn:Ef; try discriminate. cbn [key_of bind] in Hf.
          destruct (generate_fields_ok o (val d) ["authorizationUrl"; "tokenUrl"]) as (gs & Eg & _ & G); [fields_of "SecurityScheme" d o L|]. rewrite Eg in Hf. cbn [bind] in Hf. apply bind_ok in Hf as (sc & Es & Hf). apply bind_ok in Hf as (hs & Hh & Hf). injection Hf as <-.
          exists f, hs. split; [exact Ef|]. split; [reflexivity|].
          assert (Lh : forall k, lookup k hs = if String.eqb "scopes" k then match val d "scopes" with JDict s => some_dict s | _ => None end else lookup k gs).
          { assert (Gn : lookup "scopes" gs = None) by (rewrite G; reflexivity).
            destruct (gattr_child "SecurityScheme" d o "scopes" _ L eq_refl) as [[Hv Gc]|(Hv & ko & Gc & Lk & _)]; rewrite Gc in Es; injection Es as <-.
            - cbn [truthy_obj truthy] in Hh. injection Hh as <-. intros k. rewrite Hv. destruct (String.eqb_spec "scopes" k) as [<-|]; [exact Gn|reflexivity].
            - rewrite (map_dump BStr _ _ raw_str Lk) in Hh. destruct (loaded_map _ _ _ Lk) as (dd & p & es & Ev & -> & F2). rewrite Ev in *. destruct F2 as [|a b l m _ _].
              + cbn [truthy_obj] in Hh. injection Hh as <-. intros k. destruct (String.eqb_spec "scopes" k) as [<-|]; [exact Gn|reflexivity].
              + cbn [truthy_obj bind] in Hh. injection Hh as <-. intros k. apply lookup_set. }
          split; [intros k [<-|[<-|[]]]; rewrite Lh, G; reflexivity|]. split; [rewrite Lh; reflexivity|].
          intros k Hk. rewrite Lh, G. no_key k Hk. destruct (in_dec string_dec k ["authorizationUrl"; "tokenUrl"]) as [[<-|[<-|[]]]|]; [destruct Hk; in_list..|reflexivity].
      + injection Hr as <-. exists None. split; [|reflexivity]. intros k. cbn [lookup]. rewrite (String.eqb_sym k "type"). destruct (String.eqb "type" k); [reflexivity|]. destruct (String.eqb "scheme" k); [reflexivity|]. destruct (String.eqb "flows" k); reflexivity. }
  destruct Lr as (fl & Lr & Hfl).
  assert (Lx : forall k, lookup k (dict_update r fs) = if in_dec string_dec k ["description"; "name"; "in"] then non_null (val d k) else lookup k r).
  { intros k. rewrite dict_update_lookup by exact Nf. rewrite F. destruct (in_dec string_dec k ["description"; "name"; "in"]) as [I|I]; [|reflexivity].
    destruct (non_null (val d k)) eqn:En; [reflexivity|]. rewrite Lr. destruct I as [<-|[<-|[<-|[]]]]; reflexivity. }
  unfold scheme_image. split; [rewrite Lx, Lr; reflexivity|]. split; [intros k Hk; rewrite Lx; destruct (in_dec string_dec k _); [reflexivity|contradiction]|]. split; [rewrite Lx, Lr; reflexivity|].
  split.
  - destruct (is_text "oauth2" (val d "type")); rewrite Lx, Lr; cbn; [|exact Hfl]. exact Hfl.
  - intros k Hk. rewrite Lx, Lr. destruct (in_dec string_dec k ["description"; "name"; "in"]) as [I|_]; [destruct Hk; destruct I as [<-|[<-|[<-|[]]]]; in_list|]. no_key k Hk. reflexivity.
Qed.
Lemma scheme_no_flow d o : loaded (BCls "SecurityScheme") (JDict d) o -> val d "type" = JStr "oauth2" -> val d "flow" = JNull \/ val d "flow" = JStr "" -> to_security_scheme o = Err SchemaError.
Proof.
  intros L Ht Hf. unfold to_security_scheme. rewrite (gfield_none_val "SecurityScheme" d o "type" L eq_refl). cbn [bind]. change (fval "SecurityScheme" d "type") with (val d "type"). rewrite Ht. cbn [json_is_str String.eqb Ascii.eqb Bool.eqb].
  unfold to_flows. rewrite (gfield_val "SecurityScheme" d o "flow" L eq_refl). cbn [bind]. destruct Hf as [-> | ->]; reflexivity.
Qed.

(** ** pointers into schemas *)
Lemma Forall2_nth {A B} (R : A -> B -> Prop) l m : Forall2 R l m -> forall i x, nth_error l i = Some x -> exists y, nth_error m i = Some y /\ R x y.
Proof. induction 1 as [|a b l m H F IH]; intros [|i] x E; try discriminate; [injection E as <-; exists b; auto|]. cbn in *. eauto. Qed.
Lemma Forall2_keys {A B} (R : A -> B -> Prop) : forall l m, Forall2 (fun a b => fst a = fst b /\ R (snd a) (snd b)) l m -> forall k (x : A), lookup k l = Some x -> exists y : B, lookup k m = Some y /\ R x y.
Proof.
  induction 1 as [|[a v] [b w] l m [E H] F IH]; intros k x Hx; [discriminate|]. cbn [lookup fst snd] in *. subst b. destruct (String.eqb k a); [injection Hx as <-; eauto|]. eauto.
Qed.
Lemma subschema_image s ts r : subschema s ts r -> forall s', schema_image s s' -> exists r', jget s' ts r' /\ schema_image r r'.
Proof.
  assert (P : forall d s', plain d -> schema_image (JDict d) s' -> exists d', s' = JDict d' /\
    (val d "items" <> JNull -> exists s', lookup "items" d' = Some s' /\ schema_image (val d "items") s') /\
    (forall l, val d "allOf" = JList l -> l <> [] -> exists l', lookup "allOf" d' = Some (JList l') /\ Forall2 schema_image l l') /\
    (forall p, val d "properties" = JDict p -> p <> [] ->
       exists p', lookup "properties" d' = Some (JDict p') /\ Forall2 (fun a b => fst a = fst b /\ schema_image (snd a) (snd b)) p p') /\
    (forall a, val d "additionalProperties" = JDict a -> exists s', lookup "additionalProperties" d' = Some s' /\ schema_image (JDict a) s')).
  { intros d s' [P1 P2] Im. inversion Im as [d0 Tr E0 E1|d0 Tr Tf E0 E1|d0 d1 Tr Tf Hk Hr1 Hr2 Hi1 Hi2 Ha1 Ha2 Hp1 Hp2 Had1 Had2 Had3 Hd Hx1 Hx2 He1 He2 Hcl E0 E1]; subst; [congruence|contradiction|]. exists d1. auto 6. }
  induction 1 as [s|d ts r Pl Hi S IH|d l i s t ts r Pl Hl Hn Ht S IH|d p k s ts r Pl Hp Hk S IH|d a ts r Pl Ha S IH]; intros s' Im.
  - exists s'. split; [constructor|exact Im].
  - destruct (P d s' Pl Im) as (d' & -> & X & _). destruct (X Hi) as (s1 & E & I1). destruct (IH s1 I1) as (r' & G & I2). exists r'. split; [econstructor; eauto|exact I2].
  - destruct (P d s' Pl Im) as (d' & -> & _ & X & _). destruct (X l Hl) as (l' & E & F); [intros ->; destruct i; discriminate|]. destruct (Forall2_nth _ _ _ F i s Hn) as (s1 & E1 & I1). destruct (IH s1 I1) as (r' & G & I2).
    exists r'. split; [econstructor; [exact E|]; econstructor; eauto|exact I2].
  - destruct (P d s' Pl Im) as (d' & -> & _ & _ & X & _). destruct (X p Hp) as (p' & E & F); [intros ->; discriminate|]. destruct (Forall2_keys _ _ _ F k s Hk) as (s1 & E1 & I1). destruct (IH s1 I1) as (r' & G & I2).
    exists r'. split; [econstructor; [exact E|]; econstructor; eauto|exact I2].
  - destruct (P d s' Pl Im) as (d' & -> & _ & _ & _ & X). destruct (X a Ha) as (s1 & E & I1). destruct (IH s1 I1) as (r' & G & I2). exists r'. split; [econstructor; eauto|exact I2].
Qed.
