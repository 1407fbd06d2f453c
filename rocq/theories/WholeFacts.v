(** * Migrating whole documents: the references of the converted document lead somewhere. *)
From Coq Require Import String Ascii List Bool Arith Lia.
From Verif Require Import PyStr PyStrFacts PyVal PyValFacts Jp JpFacts UrlLib Obj ObjFacts Classes_v2_0 Classes_v3_0_0 TablesFacts SpecJson ShapeFacts DumpFacts SpecObj SpecSchema SpecConv SpecBody SpecOp SpecDoc SpecStore SpecOpen Store Conv20 Up30 ConvFacts SchemaFacts SchemaFacts2 ParamFacts BodyFacts BodyFacts2 ParamListFacts ParamListFacts2 ParamListFacts3 OpFacts OpFacts2 PathFacts PathFacts2 DocFacts DocFacts2 RelocFacts RelocFacts2 RelocFacts3 TotalFacts SpecGiven SpecMigrate MigrateFacts MigrateFacts2 CompareFacts WfFacts OverrideFacts ResolveFacts SpecScan SpecLocal SpecInside Shape30Facts Shape30Facts2 Shape30Facts3 Shape30Facts4 MigrateFacts3 TightFacts SpecWhole ItemFacts.
Import ListNotations.
Open Scope string_scope. Open Scope nat_scope.
Notation within := SpecObj.within (only parsing).

(** ** places of the converted document *)
Definition schemaish (b : builder) : Prop := b = BRefElse "Reference" (BCls "Schema") \/ b = BBoolElse (BRefElse "Reference" (BCls "Schema")).
Lemma schemaish_denotes b d : schemaish b -> lookup "$ref" d = None -> denotes b (JDict d) (IsObject "Schema").
Proof.
  assert (X : lookup "$ref" d = None -> denotes (BRefElse "Reference" (BCls "Schema")) (JDict d) (IsObject "Schema")).
  { intros N. apply dn_noref; [|constructor]. intros (d' & v & E & L). injection E as <-. congruence. }
  intros [-> | ->] N; [now apply X|]. apply dn_nobool; [discriminate|now apply X].
Qed.
Lemma ref_denotes c d : exists c', denotes (BRefElse "Reference" (BCls c)) (JDict d) (IsObject c').
Proof.
  destruct (lookup "$ref" d) as [v|] eqn:E; [exists "Reference"; apply dn_ref; now exists d, v|]. exists c. apply dn_noref; [|constructor]. intros (d' & v & E' & L). injection E' as <-. congruence.
Qed.
Lemma schemaish_some b d : schemaish b -> exists c, denotes b (JDict d) (IsObject c).
Proof. destruct (ref_denotes "Schema" d) as [c D]. intros [-> | ->]; [eauto|]. exists c. apply dn_nobool; [discriminate|exact D]. Qed.
Lemma schema_addresses s ts r : subschema s ts r -> forall s' b, schema_image s s' -> schemaish b ->
  exists r' b', addresses v30_table b s' ts b' r' /\ schema_image r r' /\ schemaish b'.
Proof.
  assert (P : forall d s', plain d -> schema_image (JDict d) s' -> exists d', s' = JDict d' /\ lookup "$ref" d' = None /\
    (val d "items" <> JNull -> exists s', lookup "items" d' = Some s' /\ schema_image (val d "items") s') /\
    (forall l, val d "allOf" = JList l -> l <> [] -> exists l', lookup "allOf" d' = Some (JList l') /\ Forall2 schema_image l l') /\
    (forall p, val d "properties" = JDict p -> p <> [] ->
       exists p', lookup "properties" d' = Some (JDict p') /\ Forall2 (fun a b => fst a = fst b /\ schema_image (snd a) (snd b)) p p') /\
    (forall a, val d "additionalProperties" = JDict a -> exists s', lookup "additionalProperties" d' = Some s' /\ schema_image (JDict a) s')).
  { intros d s' [P1 P2] Im. inversion Im as [d0 Tr E0 E1|d0 Tr Tf E0 E1|d0 d1 Tr Tf Hk Hr1 Hr2 Hi1 Hi2 Ha1 Ha2 Hp1 Hp2 Had1 Had2 Had3 Hd Hx1 Hx2 He1 He2 Hcl E0 E1]; subst; [congruence|contradiction|]. exists d1. split; [reflexivity|]. split; [|auto 6].
    destruct (lookup "$ref" d1) eqn:E; [|reflexivity]. apply Hcl in E. vm_compute in E. repeat (destruct E as [E|E]; [discriminate|]). destruct E. }
  assert (NN : forall a b, schema_image a b -> b <> JNull) by (intros a b Im; inversion Im; discriminate).
  assert (B0 : schemaish (BRefElse "Reference" (BCls "Schema"))) by (now left).
  induction 1 as [s|d ts r Pl Hi S IH|d l i s t ts r Pl Hl Hn Ht S IH|d p k s ts r Pl Hp Hk S IH|d a ts r Pl Ha S IH]; intros s' b Im Sb.
  - exists s', b. split; [constructor|]. auto.
  - destruct (P d s' Pl Im) as (d' & -> & Nr & X & _). destruct (X Hi) as (s1 & E & I1). destruct (IH s1 _ I1 B0) as (r' & b' & G & I2 & I3). exists r', b'. split; [|auto].
    refine (ad_child v30_table b "Schema" v30_Schema d' (mk_child "items" (BRefElse "Reference" (BCls "Schema")) false) s1 ts b' r' (schemaish_denotes _ _ Sb Nr) eq_refl _ E (NN _ _ I1) G). cbn. tauto.
  - destruct (P d s' Pl Im) as (d' & -> & Nr & _ & X & _). destruct (X l Hl) as (l' & E & F); [intros ->; destruct i; discriminate|]. destruct (Forall2_nth _ _ _ F i s Hn) as (s1 & E1 & I1). destruct (IH s1 _ I1 B0) as (r' & b' & G & I2 & I3). exists r', b'. split; [|auto].
    refine (ad_child v30_table b "Schema" v30_Schema d' (mk_child "allOf" (BListOf (BRefElse "Reference" (BCls "Schema"))) false) (JList l') (t :: ts) b' r' (schemaish_denotes _ _ Sb Nr) eq_refl _ E ltac:(discriminate) _); [cbn; tauto|].
    exact (ad_index v30_table _ _ l' i t s1 ts b' r' (dn_list _ _) Ht E1 G).
  - destruct (P d s' Pl Im) as (d' & -> & Nr & _ & _ & X & _). destruct (X p Hp) as (p' & E & F); [intros ->; discriminate|]. destruct (Forall2_keys _ _ _ F k s Hk) as (s1 & E1 & I1). destruct (IH s1 _ I1 B0) as (r' & b' & G & I2 & I3). exists r', b'. split; [|auto].
    refine (ad_child v30_table b "Schema" v30_Schema d' (mk_child "properties" (BMapOf (BRefElse "Reference" (BCls "Schema"))) false) (JDict p') (k :: ts) b' r' (schemaish_denotes _ _ Sb Nr) eq_refl _ E ltac:(discriminate) _); [cbn; tauto|].
    exact (ad_key v30_table _ _ p' k s1 ts b' r' (dn_map _ _) E1 G).
  - destruct (P d s' Pl Im) as (d' & -> & Nr & _ & _ & _ & X). destruct (X a Ha) as (s1 & E & I1). destruct (IH s1 _ I1 (or_intror eq_refl)) as (r' & b' & G & I2 & I3). exists r', b'. split; [|auto].
    refine (ad_child v30_table b "Schema" v30_Schema d' (mk_child "additionalProperties" (BBoolElse (BRefElse "Reference" (BCls "Schema"))) false) s1 ts b' r' (schemaish_denotes _ _ Sb Nr) eq_refl _ E (NN _ _ I1) G). cbn. tauto.
Qed.
Lemma addressed_object x base root b ts b' j' c : construct v30_table x b base [] = Ok root -> addresses v30_table b x ts b' j' -> denotes b' j' (IsObject c) -> holds_object root ts.
Proof.
  intros C A D. destruct (addresses_within v30_table b x ts b' j' v30_well_declared A _ _ C) as (y & Cy & Wy). exists y. split; [exact Wy|].
  rewrite construct_eq, (denotes_select _ _ _ D) in Cy. cbn [bind core_of con_core] in Cy. rewrite split_nil in Cy. cbn [bind] in Cy. destruct (lookup c v30_table); [|discriminate]. apply bind_ok in Cy as (kids & _ & Cy). injection Cy as <-. now exists c, (path_after base ts), j', kids.
Qed.
Lemma tight_kid okref c cd d ch v : tight okref (BCls c) (JDict d) -> lookup c v30_table = Some cd -> In ch (c_children cd) -> lookup (ch_name ch) d = Some v -> v <> JNull -> tight okref (ch_builder ch) v.
Proof. intros F Hc I L N. inversion F as [| | |c0 cd0 d0 Hc0 H1 _ _ _| | | |]; subst. assert (cd0 = cd) by congruence. subst. eauto. Qed.
Lemma component_addresses okref x s n v ts b' r cls : tight okref (BCls "OpenApi") (JDict x) -> jget (JDict x) ["components"; s; n] v -> v <> JNull -> In (mk_child s (BMapOf (BRefElse "Reference" (BCls cls))) false) (c_children v30_Components) ->
  addresses v30_table (BRefElse "Reference" (BCls cls)) v ts b' r -> addresses v30_table (BCls "OpenApi") (JDict x) ("components" :: s :: n :: ts) b' r.
Proof.
  intros T J Nv Ic A. inversion J as [|d k c ? ? Lc J1|]; subst. assert (Nc : c <> JNull) by (intros ->; inversion J1).
  pose proof (tight_kid _ _ _ _ (mk_child "components" (BCls "Components") false) c T (eq_refl (Some v30_OpenApi)) ltac:(cbn; tauto) Lc Nc) as Tc. cbn [ch_builder] in Tc. inversion Tc; subst.
  inversion J1 as [|d' k l ? ? Ls J2|]; subst. assert (Nl : l <> JNull) by (intros ->; inversion J2).
  pose proof (tight_kid _ _ _ _ _ l Tc (eq_refl (Some v30_Components)) Ic Ls Nl) as Tl. cbn [ch_builder] in Tl. inversion Tl; subst.
  inversion J2 as [|d2 k w ? ? Ln J3|]; subst. inversion J3; subst.
  refine (ad_child v30_table _ "OpenApi" v30_OpenApi x (mk_child "components" (BCls "Components") false) _ _ _ _ (dn_cls _ _) eq_refl _ Lc ltac:(discriminate) _); [cbn; tauto|].
  refine (ad_child v30_table _ "Components" v30_Components _ (mk_child s (BMapOf (BRefElse "Reference" (BCls cls))) false) _ _ _ _ (dn_cls _ _) eq_refl Ic Ls ltac:(discriminate) _).
  exact (ad_key v30_table _ _ _ n v ts b' r (dn_map _ _) Ln A).
Qed.
Lemma wf_within o ts x : wf_obj o -> within o ts x -> wf_obj x.
Proof.
  intros W Wi. induction Wi as [o|c p s kids k o' ts x L _ IH|b p es i s e ts x Hi Hn _ IH|b p es k e ts x L _ IH]; [exact W| | |]; apply IH; inversion W; subst.
  - apply TablesFacts.lookup_In in L. eauto.
  - apply nth_error_In in Hn. eauto.
  - apply TablesFacts.lookup_In in L. eauto.
Qed.
Lemma inside_refs P j x : refs_in P j -> inside j x -> refs_in P x. Proof. exact (refs_inside P j x). Qed.

Section Whole.
  Variables (deref : obj -> res obj) (nr : obj -> res json) (d : doc) (url base : string) (root : obj).
  Hypothesis C20 : construct v20_table (JDict d) (BCls "Swagger") (Some base) [] = Ok root.
  Hypothesis SC : self_contained "2.0" root.
  Hypothesis MG : migratable deref nr (path_inside d) d.
  Hypothesis EG : expressible_globals d.
  Hypothesis NS : elements_of (val d "security") = [].
  Hypothesis FL : forall n s, lookup n (entries_of (val d "securityDefinitions")) = Some (JDict s) -> flow_loads s.
  Hypothesis RT : refers_to_targets d.
  Hypothesis SN : separate_names d.
  Hypothesis DW : forall o y, wf_obj o -> deref o = Ok y -> wf_obj y.
  Hypothesis NT : forall o n, nr o = Ok n -> exists s, n = JStr s.
  Definition okref (c : string) (v : json) : Prop := c = "Reference" /\ exists us, v = JStr (pointer us) /\ target d us.
  Lemma loaded_root : loaded (BCls "Swagger") (JDict d) root. Proof. now exists (Some base). Qed.
  Lemma no_path_ref k p o : lookup k (entries_of (val d "paths")) = Some (JDict p) -> truthy (val p "$ref") = true -> loaded (BCls "PathItem") (JDict p) o -> False.
  Proof.
    intros Lk T _. unfold val in Lk. destruct (lookup "paths" d) as [v|] eqn:Lp; [|discriminate]. destruct v as [| | | | | |ps]; try discriminate. cbn [entries_of] in Lk.
    assert (A : addresses v20_table (BCls "Swagger") (JDict d) ["paths"; k] (BCls "PathItem") (JDict p)).
    { refine (ad_child v20_table _ "Swagger" v20_Swagger d (mk_child "paths" (BMapOf (BCls "PathItem")) false) _ _ _ _ (dn_cls _ _) eq_refl _ Lp ltac:(discriminate) _); [cbn; tauto|]. exact (ad_key v20_table _ _ _ k _ [] _ _ (dn_map _ _) Lk (ad_here _ _ _)). }
    destruct (addresses_within v20_table _ _ _ _ _ v20_well_declared A _ _ C20) as (y & Cy & Wy). rewrite construct_eq in Cy. cbn [select bind con_core] in Cy. rewrite split_nil in Cy. cbn [bind] in Cy. destruct (lookup "PathItem" v20_table); [|discriminate]. apply bind_ok in Cy as (kids & _ & Cy). injection Cy as <-.
    destruct (SC _ _ _ _ _ Wy ltac:(cbn; tauto)) as (d' & E & M). injection E as <-. unfold val in T. destruct (lookup "$ref" p); [|discriminate T]. now elim (proj1 M).
  Qed.
  Lemma params_plain : SpecGiven.plain_params deref d.
  Proof.
    destruct MG as (_ & _ & _ & _ & Hp & _). intros n v L. destruct (Hp n v L) as (q & -> & Ir & R & U). exists q. split; [reflexivity|]. split; [exact Ir|]. split; [exact R|]. destruct U as [[P _]|[F|(B & _)]]; [exact P|exact (proj1 F)|exact (proj1 B)].
  Qed.
  Lemma good_paths k ps ops : path_inside d k ps ops -> Forall (fun pq => refs_in (okref "Reference") (JDict (fst pq)) /\ refs_in (okref "Reference") (JDict (snd pq))) ps /\
    Forall (fun op : request => Forall (fun pq => refs_in (okref "Reference") (JDict (fst pq)) /\ refs_in (okref "Reference") (JDict (snd pq))) (fst op) /\ Forall (fun kr => refs_in (okref "Reference") (JDict (fst (snd kr))) /\ refs_in (okref "Reference") (JDict (snd (snd kr)))) (snd op)) ops.
  Proof.
    assert (R0 : refs_in (okref "Reference") (JDict d)). { intros d' v Id L. split; [reflexivity|]. exact (RT d' v Id L). }
    intros (_ & Fp & Fr). apply Forall_app in Fp as [Fp Fo]. split; [eapply Forall_impl; [|exact Fp]; intros pq [I1 I2]; split; now apply (refs_inside _ (JDict d))|].
    rewrite Forall_forall in Fo, Fr. apply Forall_forall. intros op Io. split; apply Forall_forall; intros e Ie.
    - destruct (Fo e) as [I1 I2]; [apply in_concat; exists (fst op); split; [now apply in_map|exact Ie]|]. split; now apply (refs_inside _ (JDict d)).
    - destruct (Fr e) as [I1 I2]; [apply in_concat; exists (snd op); split; [now apply in_map|exact Ie]|]. split; now apply (refs_inside _ (JDict d)).
  Qed.
  Theorem whole_converted : exists x reloc root30, to_openapi deref nr root = Ok (x, None, reloc) /\ wf_json (JDict x) /\ tight okref (BCls "OpenApi") (JDict x) /\
    construct v30_table (JDict x) (BCls "OpenApi") (Some "#") [] = Ok root30 /\ upgrade30_over deref nr root url "#" [] = Ok (root30, reloc).
  Proof.
    pose proof loaded_root as L. destruct (openapi_outcome deref nr (path_inside d) d root L MG) as [[[[x sec] reloc] E]|[_ N]]; [|exfalso; apply N; split; [intros k ps ops H; exact (proj1 H)|exact EG]]. pose proof MG as ((W & Hi & Hil & He & Ht) & _).
    assert (Zs : sec = None).
    { destruct (to_openapi_ok deref nr d root x sec reloc L W Hi Hil He Ht E) as (url' & paths & schemas & ys & resps & secs & _ & _ & _ & _ & _ & _ & _ & _ & _ & _ & _ & _ & _ & _ & _ & _ & _ & _ & _ & _ & _ & _ & _ & X & _). now rewrite NS in X. }
    subst sec. exists x, reloc.
    assert (T : tight okref (BCls "OpenApi") (JDict x)).
    { apply (openapi_fits (okref := okref) deref nr (path_inside d) d root x reloc None L MG FL); [|exact good_paths| |exact E].
      - intros d' v Id Lv. split; [reflexivity|]. exact (RT d' v Id Lv).
      - intros k px v Ik Lv. destruct MG as (_ & _ & _ & _ & _ & _ & _ & Hpa). destruct (openapi_item_refs deref nr d (Some base) root x None reloc k px v W C20) as (q & p & kids & r & _ & _ & _ & Lk & Tr & Lo); [|exact E|exact Ik|exact Lv|].
        + intros k' v' Lk. destruct (Hpa k' v' Lk) as (p & _ & _ & -> & _). now exists p.
        + exfalso. exact (no_path_ref k p _ Lk Tr Lo). }
    destruct (proj2 (construct_shaped v30_table (JDict x) (BCls "OpenApi") (Some "#")) (tight_shaped _ _ _ T)) as [r Cr]. exists r. split; [exact E|]. split; [|split; [exact T|split; [exact Cr|]]].
    - pose proof (construct_wf v20_table (JDict d) W (BCls "Swagger") (Some base) root C20) as Wr. apply (to_openapi_wf deref nr) with root None reloc; [| |exact Wr|exact E].
      + exact DW.
      + intros o n _ Hn. destruct (NT o n Hn) as [s ->]. exact I.
    - change (upgrade30_over deref nr root url "#" []) with (upgrade30 deref nr root url "#"). rewrite (swagger_upgrade deref nr d root url "#" L), E. cbn [bind with_security]. rewrite Cr. reflexivity.
  Qed.
  Lemma targets_move x reloc root30 us : to_openapi deref nr root = Ok (x, None, reloc) -> tight okref (BCls "OpenApi") (JDict x) -> construct v30_table (JDict x) (BCls "OpenApi") (Some "#") [] = Ok root30 -> target d us ->
    us <> [] /\ exists ts', ts' <> [] /\ patch_jp (pointer us) [("#", RMap reloc)] = Ok (pointer ts') /\ holds_object root30 ts'.
  Proof.
    intros E T C Tg. pose proof loaded_root as L. pose proof MG as (D & _ & _ & Hd & Hp & Hr & _). inversion Tg as [n s ts r Ln Sr|n v Ln|n v Nn Ln]; subst; (split; [discriminate|]).
    - destruct (definition_reference deref nr d root x None reloc n s ts r L D E Ln (Hd n s Ln) Sr) as [Pj _]. exists ("components" :: "schemas" :: n :: ts). split; [discriminate|]. split; [exact Pj|].
      destruct (definition_reference deref nr d root x None reloc n s [] s L D E Ln (Hd n s Ln) (sub_here s)) as [_ (s' & J & Im)].
      destruct (schema_addresses s ts r Sr s' _ Im (or_introl eq_refl)) as (r' & b' & A & Ir & Sb). assert (X : exists rd, r' = JDict rd) by (inversion Ir; eauto). destruct X as [rd ->]. destruct (schemaish_some b' rd Sb) as [c Dn].
      refine (addressed_object _ _ _ _ _ _ _ _ C (component_addresses okref x "schemas" n s' ts b' (JDict rd) "Schema" T J _ _ A) Dn); [inversion Im; discriminate|cbn; tauto].
    - destruct (Hr n v Ln) as (q & -> & Ir & R & Rd). destruct (response_reference deref nr d root x None reloc n q L D E Ln Ir R Rd) as [Pj (y & J & _)]. exists ["components"; "responses"; n]. split; [discriminate|]. split; [exact (Pj [])|].
      destruct (ref_denotes "Response" y) as [c Dn]. refine (addressed_object _ _ _ _ _ _ _ _ C (component_addresses okref x "responses" n _ [] _ _ "Response" T J _ _ (ad_here _ _ _)) Dn); [discriminate|cbn; tauto].
    - destruct (Hp n v Ln) as (q & -> & Ir & R & U). destruct (is_merged q) eqn:Em.
      + assert (Mn : merged_name d n) by (exists q; auto). destruct (SN n Mn Nn) as [Ne _].
        destruct (merged_parameter_reference deref nr d root x None reloc n q [] L D params_plain E Ln Em Nn Ne) as [Pj (b & po & c0 & J & _)]; [|exact I|].
        { intros n' Mn'. destruct (string_dec n' "") as [-> |N']; [reflexivity|]. apply no_escape_slash. exact (proj1 (SN n' Mn' N')). }
        exists ["components"; "requestBodies"; n]. split; [discriminate|]. split; [exact Pj|]. destruct (ref_denotes "RequestBody" b) as [c Dn]. refine (addressed_object _ _ _ _ _ _ _ _ C (component_addresses okref x "requestBodies" n _ [] _ _ "RequestBody" T J _ _ (ad_here _ _ _)) Dn); [discriminate|cbn; tauto].
      + destruct (kept_parameter_reference deref nr d root x None reloc n q [] L D params_plain E Ln Em Nn) as [Pj (p & J & _)].
        { intros n' Mn' N'. destruct (SN n' Mn' N') as [Ne Np]. split; [exact (no_escape_slash _ Ne)|exact (Np n q Ln Em)]. }
        exists ["components"; "parameters"; n]. split; [discriminate|]. split; [exact Pj|]. destruct (ref_denotes "Parameter" p) as [c Dn]. refine (addressed_object _ _ _ _ _ _ _ _ C (component_addresses okref x "parameters" n _ [] _ _ "Parameter" T J _ _ (ad_here _ _ _)) Dn); [discriminate|cbn; tauto].
  Qed.
  Theorem whole_references x reloc root30 : to_openapi deref nr root = Ok (x, None, reloc) -> tight okref (BCls "OpenApi") (JDict x) -> construct v30_table (JDict x) (BCls "OpenApi") (Some "#") [] = Ok root30 ->
    unmixed root30 /\ no_media_examples root30 /\ references "3.0.0" (fun ts => exists ts', ts' <> [] /\ patch_jp (pointer ts) [("#", RMap reloc)] = Ok (pointer ts') /\ holds_object root30 ts') root30.
  Proof.
    intros E T C. destruct (sound_built _ _ _ _ C eq_refl T) as [So _]. split; [exact (sound_unmixed root30 So)|]. split; [exact (sound_media root30 So)|].
    apply (sound_references (okref := okref)); [intros r [Z _]; discriminate Z| |exact So]. intros r (_ & us & -> & Tg). exists us. split; [reflexivity|]. exact (targets_move x reloc root30 us E T C Tg).
  Qed.
End Whole.
