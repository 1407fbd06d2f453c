(** * Documents with schemas of other documents: their conversion is that of a closed set. *)
From Coq Require Import String Ascii List Bool Arith Lia.
From Verif Require Import PyStr PyStrFacts PyVal PyValFacts Jp JpFacts UrlLib Urls SpecUrl Obj ObjFacts Classes_v2_0 Classes_v3_0_0 TablesFacts SpecJson ShapeFacts DumpFacts SpecObj SpecSchema SpecConv SpecBody SpecOp SpecDoc SpecStore SpecOpen Store App Main Conv20 Up30 Whole ConvFacts SchemaFacts SchemaFacts2 ParamFacts BodyFacts BodyFacts2 ParamListFacts ParamListFacts2 ParamListFacts3 OpFacts OpFacts2 PathFacts PathFacts2 DocFacts DocFacts2 RelocFacts RelocFacts2 RelocFacts3 TotalFacts SpecGiven SpecMigrate MigrateFacts MigrateFacts2 CompareFacts WfFacts OverrideFacts ResolveFacts SpecScan SpecLocal SpecInside Shape30Facts Shape30Facts2 Shape30Facts3 Shape30Facts4 MigrateFacts3 TightFacts SpecWhole WholeFacts PartsFacts
  SpecApp SpecRefs SpecClosed SpecClosed30 SpecClosed23 SpecLibrary PropertiesObjAux LocalFacts LocalFacts2 ItemFacts UrlFacts UrlFacts2 UrlFacts3.
From Verif Require ClosedFacts ClosedFacts30.
Import ListNotations.
Open Scope string_scope. Open Scope nat_scope.
Notation within := SpecObj.within (only parsing).
Notation split := App.split (only parsing).
Notation refers := SpecClosed.refers (only parsing).
Notation place := SpecClosed30.place (only parsing).
Notation leads := SpecClosed23.leads (only parsing).
Notation refers_given := SpecGiven.refers (only parsing).

(** ** references of a piece are among the places *)
Lemma referred_place u X places v : refs_closed u X places -> referred X v ->
  exists ref n b, v = JStr ref /\ ref <> "" /\ normalize_jr (Some ref) (Some u) = Ok (Some n) /\ refers u X n b /\ In (n, b) places.
Proof.
  intros [RC1 RC2] (ts & c & p & e & kids & b & W & Ic & L & A). destruct (RC1 _ _ _ _ _ W Ic) as (d' & E & M). injection E as <-. rewrite L in M. destruct M as (ref & n & -> & Ne & N & _).
  assert (R : refers u X n b) by (exists ts, c, p, e, kids, ref; auto). exists ref, n, b. split; [reflexivity|]. split; [exact Ne|]. split; [exact N|]. split; [exact R|exact (RC2 n b R)].
Qed.
(** ** references of what is converted *)
Lemma sound_moved (okref : string -> json -> Prop) url root30 reloc moved u X Y :
  (forall c r, okref c r -> exists ref u' ts ts', r = JStr ref /\ ref <> "" /\ leads url reloc u ref u' ts ts' /\
     (u' = url -> exists c' p' s' kids', within root30 ts' (OObj c' p' s' kids') /\ (c = "PathItem" -> c' = "PathItem")) /\
     (u' <> url -> In (u', ts) moved /\ exists b, refers u X (place u' ts) b) /\
     (c = "PathItem" -> ts' = ts /\ refers u X (place u' ts) (BCls "PathItem"))) ->
  sound (okref := okref) Y -> refs_moved url root30 reloc moved u X Y.
Proof.
  intros OK So qs c p s kids Wi Ic. destruct (sound_within qs _ _ So Wi) as (T & HR & _). inversion T as [| | |c0 cd d _ _ _ _ O| | | |]; subst. exists d. split; [reflexivity|]. destruct (lookup "$ref" d) as [r|] eqn:El.
  - change (In c ["Reference"; "PathItem"]) in Ic. exact (OK c r (O r Ic eq_refl)).
  - intros Z. destruct (HR Z) as (d' & v & E & Lv). injection E as <-. congruence.
Qed.
(** a place refers to itself *)
Lemma normalize_place u ts b : clean u -> normalize_jr (Some (place u ts)) b = Ok (Some (place u ts)).
Proof.
  intros (s & h & p & q & C & ->). rewrite ClosedFacts30.place_frag. now apply normalize_again.
Qed.
(** ** the top of the document is not moved *)
Lemma best_none m : lookup "" m = None -> best "" m None = None.
Proof.
  induction m as [|[k t] m IH]; [reflexivity|]. cbn [lookup best]. destruct (String.eqb_spec "" k) as [<-|N]; [discriminate|]. intros L. destruct k as [|a k]; [now elim N|]. cbn [startswith]. exact (IH L).
Qed.
Lemma top_stays reloc : lookup "" reloc = None -> patch_jp "#" [("#", RMap reloc)] = Ok "#".
Proof.
  intros L. unfold patch_jp. cbn [target_depth fold_right map snd]. cbn [patch_loop]. change (best "#" [("#", RMap reloc)] None) with (Some ("#", RMap reloc)). cbv beta iota.
  destruct (falsy_target (RMap reloc)) eqn:Fa; [reflexivity|]. change (sdrop (String.length "#") "#") with "". change (startswith "/" "") with false. cbv beta iota.
  assert (B : forall f fx, patch_loop f reloc fx "" = Ok None). { intros f fx. destruct f; cbn [patch_loop]; rewrite (best_none reloc L); reflexivity. }
  rewrite B. reflexivity.
Qed.

Lemma conv_schema_wf deref nr s o url jp : loaded (BCls "Schema") (JDict s) o -> wf_json (JDict s) -> schema_doc (JDict s) ->
  exists x r, conversion20 deref nr (mk_sobj "2.0" o []) url jp [] = Ok (mk_sobj "3.0.0" r [], []) /\ schema_image (JDict s) (JDict x) /\ construct v30_table (JDict x) (BCls "Schema") (Some jp) [] = Ok r /\ wf_json (JDict x).
Proof.
  intros [path L] W D. destruct (schema_converted (JDict s) path W D) as (o' & x & C' & E & Im). assert (o' = o) by congruence. subst o'. assert (Wo := construct_wf v20_table (JDict s) W (BCls "Schema") path o L). destruct (construct_cls_obj _ _ _ _ _ L) as (kids & ->).
  destruct (schema30 (JDict s) x (Some jp) D Im) as [r C]. exists x, r. split; [|split; [exact Im|split; [exact C|exact (to_schema_wf' false _ Wo _ E)]]].
  unfold conversion20. cbn [so_obj upgrade30_over]. rewrite E. cbn [bind]. rewrite C. reflexivity.
Qed.
(** something without parts *)
Lemma leaf_within c p s qs x : within (OObj c p s []) qs x -> qs = [] /\ x = OObj c p s [].
Proof. intros W. inversion W as [|? ? ? ? ? ? ? ? L| |]; subst; [auto|discriminate L]. Qed.
Lemma leaf_clean c p s : c <> "MediaType" -> unmixed (OObj c p s []) /\ no_media_examples (OObj c p s []).
Proof.
  intros N. split.
  - intros ts o k k' x y Wo Co _ _ _ _. destruct (leaf_within _ _ _ _ _ Wo) as [_ ->]. exfalso. destruct Co as [(? & ? & ? & Z)|(? & ? & ? & Z)]; discriminate Z.
  - intros ts p' s' kids Wi. destruct (leaf_within _ _ _ _ _ Wi) as [_ Z]. injection Z as Z _ _ _. now elim N.
Qed.

Section Library.
  Variables (path2url abspath : string -> string) (fetch : string -> res json) (deref : string -> obj -> res obj) (nr : string -> obj -> res json) (url : string) (d : doc) (root : obj)
    (places : list (string * builder)) (used : list (string * list string)).
  Hypothesis CLU : clean url.
  Hypothesis C20 : construct v20_table (JDict d) (BCls "Swagger") (Some url) [] = Ok root.
  Hypothesis CW : closed_world path2url abspath fetch url root places.
  Hypothesis LB : item_library deref nr fetch url d root places used.
  Hypothesis ONLY : only_references root (JDict d).
  Hypothesis MG : migratable (deref url) (nr url) (path_inside d) d.
  Hypothesis EG : expressible_globals d.
  Hypothesis NS : elements_of (val d "security") = [].
  Hypothesis FL : forall n s, lookup n (entries_of (val d "securityDefinitions")) = Some (JDict s) -> flow_loads s.
  Hypothesis SN : separate_names d.
  Hypothesis DW : forall u o y, wf_obj o -> deref u o = Ok y -> wf_obj y.
  Hypothesis NT : forall u o n, nr u o = Ok n -> exists s, n = JStr s.
  Definition okr (u : string) (X : obj) (c : string) (v : json) : Prop := (c = "Reference" /\ referred X v) \/
    (c = "PathItem" /\ exists ts p e kids ref n, within X ts (OObj "PathItem" p (JDict e) kids) /\ lookup "$ref" e = Some (JStr ref) /\ ref <> "" /\ normalize_jr (Some ref) (Some u) = Ok (Some n) /\ v = JStr n).
  Lemma loaded_root_l : loaded (BCls "Swagger") (JDict d) root. Proof. now exists (Some url). Qed.
  Lemma item_value u X ts q p kids r v : refs_closed u X places -> items_normalized nr u X -> within X ts (OObj "PathItem" q (JDict p) kids) -> lookup "$ref" p = Some r -> nr u (OObj "PathItem" q (JDict p) kids) = Ok v -> okr u X "PathItem" v.
  Proof.
    intros RC IN Wi L E. right. split; [reflexivity|]. destruct (proj1 RC _ _ _ _ _ Wi ltac:(cbn; tauto)) as (d2 & E2 & M2). injection E2 as <-. rewrite L in M2. destruct M2 as (ref & n & -> & Ne & N & _).
    exists ts, q, p, kids, ref, n. split; [exact Wi|]. split; [exact L|]. split; [exact Ne|]. split; [exact N|]. rewrite (IN _ _ _ _ _ _ Wi L Ne N) in E. apply Ok_inj_local in E. now symmetry.
  Qed.
  Lemma root_refs : refs_in (okr url root "Reference") (JDict d).
  Proof. intros d' v Id L. left. split; [reflexivity|]. exact (ONLY d' v Id L). Qed.
  Lemma params_plain_l : SpecGiven.plain_params (deref url) d.
  Proof.
    destruct MG as (_ & _ & _ & _ & Hp & _). intros n v L. destruct (Hp n v L) as (q & -> & Ir & R & U). exists q. split; [reflexivity|]. split; [exact Ir|]. split; [exact R|]. destruct U as [[P _]|[F|(B & _)]]; [exact P|exact (proj1 F)|exact (proj1 B)].
  Qed.
  Lemma good_parts (Q : json -> Prop) (D : doc) (ps : list (doc * doc)) (ops : list request) : refs_in Q (JDict D) ->
    Forall (fun pq => inside (JDict D) (JDict (fst pq)) /\ inside (JDict D) (JDict (snd pq))) (ps ++ concat (map fst ops)) ->
    Forall (fun kr => inside (JDict D) (JDict (fst (snd kr))) /\ inside (JDict D) (JDict (snd (snd kr)))) (concat (map snd ops)) ->
    Forall (fun pq => refs_in Q (JDict (fst pq)) /\ refs_in Q (JDict (snd pq))) ps /\
    Forall (fun op : request => Forall (fun pq => refs_in Q (JDict (fst pq)) /\ refs_in Q (JDict (snd pq))) (fst op) /\ Forall (fun kr => refs_in Q (JDict (fst (snd kr))) /\ refs_in Q (JDict (snd (snd kr)))) (snd op)) ops.
  Proof.
    intros R0 Fp Fr. apply Forall_app in Fp as [Fp Fo]. split; [eapply Forall_impl; [|exact Fp]; intros pq [I1 I2]; split; now apply (refs_inside _ (JDict D))|].
    rewrite Forall_forall in Fo, Fr. apply Forall_forall. intros op Io. split; apply Forall_forall; intros e Ie.
    - destruct (Fo e) as [I1 I2]; [apply in_concat; exists (fst op); split; [now apply in_map|exact Ie]|]. split; now apply (refs_inside _ (JDict D)).
    - destruct (Fr e) as [I1 I2]; [apply in_concat; exists (snd op); split; [now apply in_map|exact Ie]|]. split; now apply (refs_inside _ (JDict D)).
  Qed.
  Lemma main_converted : exists x reloc root30, to_openapi (deref url) (nr url) root = Ok (x, None, reloc) /\ wf_json (JDict x) /\ tight (okr url root) (BCls "OpenApi") (JDict x) /\
    construct v30_table (JDict x) (BCls "OpenApi") (Some "#") [] = Ok root30 /\ upgrade30_over (deref url) (nr url) root url "#" [] = Ok (root30, reloc) /\ lookup "" reloc = None.
  Proof.
    pose proof loaded_root_l as L. destruct (openapi_outcome (deref url) (nr url) (path_inside d) d root L MG) as [[[[x sec] reloc] E]|[_ N]]; [|exfalso; apply N; split; [intros k ps ops H; exact (proj1 H)|exact EG]]. pose proof MG as ((W & Hi & Hil & He & Ht) & _).
    assert (Zs : sec = None /\ lookup "" reloc = None).
    { destruct (to_openapi_ok (deref url) (nr url) d root x sec reloc L W Hi Hil He Ht E) as (url' & paths & schemas & ys & resps & secs & _ & _ & _ & _ & _ & _ & _ & _ & _ & _ & _ & _ & _ & _ & _ & _ & _ & _ & _ & _ & _ & Rl & _ & X & _). rewrite NS in X. split; [exact X|]. rewrite Rl. reflexivity. }
    destruct Zs as [-> Rl]. exists x, reloc.
    assert (T : tight (okr url root) (BCls "OpenApi") (JDict x)).
    { apply (openapi_fits (okref := okr url root) (deref url) (nr url) (path_inside d) d root x reloc None L MG FL); [exact root_refs|intros k ps ops (_ & Fp & Fr); exact (good_parts _ d ps ops root_refs Fp Fr)| |exact E].
      intros k px v Ik Lv. destruct MG as (_ & _ & _ & _ & _ & _ & _ & Hpa). destruct (openapi_item_refs (deref url) (nr url) d (Some url) root x None reloc k px v W C20) as (q & p & kids & r & Wi & Lr & En & _); [|exact E|exact Ik|exact Lv|].
      - intros k' v' Lk. destruct (Hpa k' v' Lk) as (p & _ & _ & -> & _). now exists p.
      - exact (item_value url root _ q p kids r v (cw_root _ _ _ _ _ _ CW) (il_root _ _ _ _ _ _ _ _ LB) Wi Lr En). }
    destruct (proj2 (construct_shaped v30_table (JDict x) (BCls "OpenApi") (Some "#")) (tight_shaped _ _ _ T)) as [r Cr]. exists r. split; [exact E|]. split; [|split; [exact T|split; [exact Cr|split; [|exact Rl]]]].
    - pose proof (construct_wf v20_table (JDict d) W (BCls "Swagger") (Some url) root C20) as Wr. apply (to_openapi_wf (deref url) (nr url)) with root None reloc; [| |exact Wr|exact E].
      + exact (DW url).
      + intros o n _ Hn. destruct (NT url o n Hn) as [s ->]. exact I.
    - change (upgrade30_over (deref url) (nr url) root url "#" []) with (upgrade30 (deref url) (nr url) root url "#"). rewrite (swagger_upgrade (deref url) (nr url) d root url "#" L), E. cbn [bind with_security]. rewrite Cr. reflexivity.
  Qed.
  Lemma targets_move_l x reloc root30 us : to_openapi (deref url) (nr url) root = Ok (x, None, reloc) -> tight (okr url root) (BCls "OpenApi") (JDict x) -> construct v30_table (JDict x) (BCls "OpenApi") (Some "#") [] = Ok root30 -> target d us ->
    exists ts', patch_jp (pointer us) [("#", RMap reloc)] = Ok (pointer ts') /\ holds_object root30 ts'.
  Proof.
    intros E T C Tg. pose proof loaded_root_l as L. pose proof MG as (D & _ & _ & Hd & Hp & Hr & _). inversion Tg as [n s ts r Ln Sr|n v Ln|n v Nn Ln]; subst.
    - destruct (definition_reference (deref url) (nr url) d root x None reloc n s ts r L D E Ln (Hd n s Ln) Sr) as [Pj _]. exists ("components" :: "schemas" :: n :: ts). split; [exact Pj|].
      destruct (definition_reference (deref url) (nr url) d root x None reloc n s [] s L D E Ln (Hd n s Ln) (sub_here s)) as [_ (s' & J & Im)].
      destruct (schema_addresses s ts r Sr s' _ Im (or_introl eq_refl)) as (r' & b' & A & Ir & Sb). assert (X : exists rd, r' = JDict rd) by (inversion Ir; eauto). destruct X as [rd ->]. destruct (schemaish_some b' rd Sb) as [c Dn].
      refine (addressed_object _ _ _ _ _ _ _ _ C (component_addresses (okr url root) x "schemas" n s' ts b' (JDict rd) "Schema" T J _ _ A) Dn); [inversion Im; discriminate|cbn; tauto].
    - destruct (Hr n v Ln) as (q & -> & Ir & R & Rd). destruct (response_reference (deref url) (nr url) d root x None reloc n q L D E Ln Ir R Rd) as [Pj (y & J & _)]. exists ["components"; "responses"; n]. split; [exact (Pj [])|].
      destruct (ref_denotes "Response" y) as [c Dn]. refine (addressed_object _ _ _ _ _ _ _ _ C (component_addresses (okr url root) x "responses" n _ [] _ _ "Response" T J _ _ (ad_here _ _ _)) Dn); [discriminate|cbn; tauto].
    - destruct (Hp n v Ln) as (q & -> & Ir & R & U). destruct (is_merged q) eqn:Em.
      + assert (Mn : merged_name d n) by (exists q; auto). destruct (SN n Mn Nn) as [Ne _].
        destruct (merged_parameter_reference (deref url) (nr url) d root x None reloc n q [] L D params_plain_l E Ln Em Nn Ne) as [Pj (b & po & c0 & J & _)]; [|exact I|].
        { intros n' Mn'. destruct (string_dec n' "") as [-> |N']; [reflexivity|]. apply no_escape_slash. exact (proj1 (SN n' Mn' N')). }
        exists ["components"; "requestBodies"; n]. split; [exact Pj|]. destruct (ref_denotes "RequestBody" b) as [c Dn]. refine (addressed_object _ _ _ _ _ _ _ _ C (component_addresses (okr url root) x "requestBodies" n _ [] _ _ "RequestBody" T J _ _ (ad_here _ _ _)) Dn); [discriminate|cbn; tauto].
      + destruct (kept_parameter_reference (deref url) (nr url) d root x None reloc n q [] L D params_plain_l E Ln Em Nn) as [Pj (p & J & _)].
        { intros n' Mn' N'. destruct (SN n' Mn' N') as [Ne Np]. split; [exact (no_escape_slash _ Ne)|exact (Np n q Ln Em)]. }
        exists ["components"; "parameters"; n]. split; [exact Pj|]. destruct (ref_denotes "Parameter" p) as [c Dn]. refine (addressed_object _ _ _ _ _ _ _ _ C (component_addresses (okr url root) x "parameters" n _ [] _ _ "Parameter" T J _ _ (ad_here _ _ _)) Dn); [discriminate|cbn; tauto].
  Qed.
  (** a reference of a piece leads where it should *)
  Lemma referred_leads x reloc root30 u X c r : to_openapi (deref url) (nr url) root = Ok (x, None, reloc) -> tight (okr url root) (BCls "OpenApi") (JDict x) -> construct v30_table (JDict x) (BCls "OpenApi") (Some "#") [] = Ok root30 ->
    refs_closed u X places -> okr u X c r ->
    exists ref u' ts ts', r = JStr ref /\ ref <> "" /\ leads url reloc u ref u' ts ts' /\
     (u' = url -> exists c' p' s' kids', within root30 ts' (OObj c' p' s' kids') /\ (c = "PathItem" -> c' = "PathItem")) /\
     (u' <> url -> In (u', ts) used /\ exists b, refers u X (place u' ts) b) /\
     (c = "PathItem" -> ts' = ts /\ refers u X (place u' ts) (BCls "PathItem")).
  Proof.
    intros E T C RC [[-> R]|(-> & qs & p & e & kids & ref & n & Wi & L & Ne & N & ->)].
    - destruct (referred_place u X places r RC R) as (ref & n & b & -> & Ne & N & Rf & I). destruct (il_places _ _ _ _ _ _ _ _ LB n b I) as (u' & ts & CLu & -> & [(-> & Tg & _)|(Nu & Iu & _)]).
      + destruct (targets_move_l x reloc root30 ts E T C Tg) as (ts' & Pj & (y & Wy & (c' & p' & s' & kids' & ->))). exists ref, url, ts, ts'. split; [reflexivity|]. split; [exact Ne|]. split; [split; [exact CLu|split; [exact N|left; split; [reflexivity|exact Pj]]]|].
        split; [intros _; exists c', p', s', kids'; split; [exact Wy|discriminate]|]. split; [congruence|discriminate].
      + exists ref, u', ts, ts. split; [reflexivity|]. split; [exact Ne|]. split; [split; [exact CLu|split; [exact N|right; auto]]|]. split; [congruence|]. split; [intros _; split; [exact Iu|]; eauto|discriminate].
    - assert (Rf : refers u X n (BCls "PathItem")) by (exists qs, "PathItem", p, e, kids, ref; split; [exact Wi|]; split; [cbn; tauto|]; split; [exact L|]; split; [exact N|reflexivity]).
      pose proof (proj2 RC n _ Rf) as I. destruct (il_places _ _ _ _ _ _ _ _ LB n _ I) as (u' & ts & CLu & -> & [(_ & _ & Z)|(Nu & Iu & _)]); [now elim Z|].
      exists (place u' ts), u', ts, ts. split; [reflexivity|]. split; [exact (ClosedFacts30.place_ne u' ts CLu)|]. split; [split; [exact CLu|split; [exact (normalize_place u' ts (Some u) CLu)|right; auto]]|]. split; [congruence|].
      split; [intros _; split; [exact Iu|]; eauto|]. intros _. auto.
  Qed.
  Lemma place_of n b u ts : In (n, b) places -> split path2url abspath n = Ok (u, pointer ts) -> n = place u ts /\ clean u /\ ((u = url /\ target d ts /\ b <> BCls "PathItem") \/ (u <> url /\ In (u, ts) used /\ (b = BCls "Schema" \/ b = BCls "PathItem"))).
  Proof.
    intros I S. destruct (il_places _ _ _ _ _ _ _ _ LB n b I) as (u' & ts' & CL' & -> & H). rewrite (ClosedFacts30.split_place path2url abspath u' ts' CL') in S. apply Ok_inj_local in S.
    assert (E1 := f_equal fst S). assert (E2 := f_equal snd S). cbn [fst snd] in E1, E2. apply ClosedFacts.pointer_inj in E2. subst. split; [reflexivity|split; [exact CL'|exact H]].
  Qed.
  (** a path item of another document *)
  Lemma item_converted u s X jp ps ops : refs_closed u X places -> items_normalized nr u X -> loaded (BCls "PathItem") (JDict s) X -> wf_json (JDict s) -> only_references X (JDict s) ->
    path_given (deref u) s ps ops -> expressible ps ops -> no_merged ps = true ->
    Forall (fun pq => inside (JDict s) (JDict (fst pq)) /\ inside (JDict s) (JDict (snd pq))) (ps ++ concat (map fst ops)) ->
    Forall (fun kr => inside (JDict s) (JDict (fst (snd kr))) /\ inside (JDict s) (JDict (snd (snd kr)))) (concat (map snd ops)) ->
    exists x Y, conversion20 (deref u) (nr u) (mk_sobj "2.0" X []) u jp [] = Ok (mk_sobj "3.0.0" Y [], []) /\ to_path_item (deref u) (nr u) X u [] [] = Ok (x, []) /\ construct v30_table (JDict x) (BCls "PathItem") (Some jp) [] = Ok Y /\ wf_json (JDict x) /\ tight (okr u X) (BCls "PathItem") (JDict x).
  Proof.
    intros RC IN L W OR G Ex NM Fp Fr. pose proof L as [path Lo]. destruct (construct_cls_obj _ _ _ _ _ Lo) as (kids & EX).
    destruct (conv_path (deref u) (nr u) s X ps ops u jp L W G Ex) as (x & reloc & Y & CY & E & BY).
    { intros T. unfold val in T. destruct (lookup "$ref" s) as [r|] eqn:Lr; [|discriminate T]. subst X. destruct (proj1 RC _ _ _ _ _ (wi_here _) ltac:(cbn; tauto)) as (d2 & E2 & M2). injection E2 as <-. rewrite Lr in M2. destruct M2 as (ref & n & -> & Ne & N & _).
      exists (JStr n). exact (IN [] _ _ _ _ _ (wi_here _) Lr Ne N). }
    assert (RE : reloc = []).
    { destruct G as (Pa & Us & _). assert (Pd : Forall (fun pq => param_doc (snd pq)) ps). { eapply Forall_impl; [|exact Us]. intros pq [[P _]|[Fp'|(B & _)]]; [exact P|exact (proj1 Fp')|exact (proj1 B)]. }
      destruct (to_path_item_ok (deref u) (nr u) s X ps u [] [] x reloc L Pa Pd E) as (kept & body & ops0 & body' & _ & _ & R & _). rewrite R, (proj2 (positions_none ps 0) NM). reflexivity. }
    subst reloc. exists x, Y. split; [exact CY|]. split; [exact E|]. split; [exact BY|]. split.
    - assert (WX : wf_obj X) by exact (construct_wf v20_table (JDict s) W (BCls "PathItem") path X Lo).
      refine (to_path_item_wf (deref u) (nr u) (DW u) _ X u [] [] WX _ E). intros o n _ Hn. destruct (NT u o n Hn) as [z ->]. exact I.
    - destruct (good_parts (okr u X "Reference") s ps ops) as [GP GO]; [|exact Fp|exact Fr|].
      { intros d' v Id Lv. left. split; [reflexivity|]. exact (OR d' v Id Lv). }
      apply (path_fits (deref u) (nr u) s X ps ops u [] [] x [] L W G GP GO); [|exact E].
      intros v Lv. destruct (item_ref (deref u) (nr u) _ _ _ _ _ _ _ E Lv) as (r & Gr & Tr & En). rewrite (path_ref s X L) in Gr. apply Ok_inj_local in Gr. subst r. unfold val in Tr. destruct (lookup "$ref" s) as [r|] eqn:Lr; [|discriminate Tr]. subst X.
      exact (item_value u _ [] _ _ _ r v RC IN (wi_here _) Lr En).
  Qed.
  Variable conv : sobj -> string -> string -> override -> res (sobj * routes).
  Hypothesis CR : conv (mk_sobj "2.0" root []) url "#" [] = conversion20 (deref url) (nr url) (mk_sobj "2.0" root []) url "#" [].
  Hypothesis CS : forall p s kids u jp, conv (mk_sobj "2.0" (OObj "Schema" p s kids) []) u jp [] = conversion20 (deref u) (nr u) (mk_sobj "2.0" (OObj "Schema" p s kids) []) u jp [].
  Hypothesis CP : forall n p s kids u jp, In (n, BCls "PathItem") places -> conv (mk_sobj "2.0" (OObj "PathItem" p s kids) []) u jp [] = conversion20 (deref u) (nr u) (mk_sobj "2.0" (OObj "PathItem" p s kids) []) u jp [].
  Lemma piece_refs n b u ts X : In (n, b) places -> split path2url abspath n = Ok (u, pointer ts) -> u <> url -> piece fetch n b X -> refs_closed u X places.
  Proof.
    intros I2 S Nu (s & F & _ & _ & CX). destruct (cw_places _ _ _ _ _ _ CW _ _ I2) as (u2 & ts2 & S2 & _ & H2). rewrite S in S2. apply Ok_inj_local in S2. assert (E1 := f_equal fst S2). cbn [fst] in E1. subst u2. destruct H2 as [(Z & _)|(_ & X2 & (s2 & F2 & _ & _ & C2) & RC)]; [congruence|].
    rewrite F in F2. apply Ok_inj_local in F2. injection F2 as <-. rewrite CX in C2. apply Ok_inj_local in C2. now subst X2.
  Qed.
  Lemma item_becomes u ts X : In (u, ts) used -> In (place u ts, BCls "PathItem") places -> split path2url abspath (place u ts) = Ok (u, pointer ts) -> piece fetch (place u ts) (BCls "PathItem") X ->
    exists s x Y, fetch (place u ts) = Ok (JDict s) /\ construct v20_table (JDict s) (BCls "PathItem") (Some (place u ts)) [] = Ok X /\ becomes conv u ts X Y /\
      to_path_item (deref u) (nr u) X u [] [] = Ok (x, []) /\ construct v30_table (JDict x) (BCls "PathItem") (Some (pointer ts)) [] = Ok Y /\ wf_json (JDict x) /\ tight (okr u X) (BCls "PathItem") (JDict x).
  Proof.
    intros I1 I2 S P. destruct (il_used _ _ _ _ _ _ _ _ LB u ts I1) as [Nu LU]. pose proof (piece_refs _ _ _ _ _ I2 S Nu P) as RC. destruct (place_of _ _ u ts I2 S) as [_ [CLn _]]. destruct P as (s & F & _ & W & CX). destruct (LU _ s X CLn I2 F CX) as (OR & _ & HP). destruct (HP eq_refl) as ((ps & ops & G & Ex & NM & Fp & Fr) & IN).
    destruct (item_converted u s X (pointer ts) ps ops RC IN (ex_intro _ _ CX) W OR G Ex NM Fp Fr) as (x & Y & CY & E & BY & Wx & T). exists s, x, Y. split; [exact F|]. split; [exact CX|]. split.
    - unfold becomes. destruct (construct_cls_obj _ _ _ _ _ CX) as (kx & ->). rewrite (CP _ _ _ _ _ _ I2). exact CY.
    - auto.
  Qed.
  Theorem library_converts : exists root30 reloc, conv (mk_sobj "2.0" root []) url "#" [] = Ok (mk_sobj "3.0.0" root30 [], reloc) /\
    converts path2url abspath fetch conv url root root30 reloc places used.
  Proof.
    destruct main_converted as (x & reloc & root30 & E & Wx & T & C & U & Rl). exists root30, reloc.
    assert (CV : conv (mk_sobj "2.0" root []) url "#" [] = Ok (mk_sobj "3.0.0" root30 [], reloc)) by (rewrite CR; unfold conversion20; cbn [so_obj]; rewrite U; reflexivity).
    split; [exact CV|]. destruct (sound_built _ _ _ _ C eq_refl T) as [So _]. split.
    - exact CV.
    - exists (JDict x). auto.
    - split; [exact (sound_unmixed root30 So)|exact (sound_media root30 So)].
    - exact (top_stays reloc Rl).
    - apply (sound_moved (okr url root)); [|exact So]. intros c r. apply (referred_leads x); [exact E|exact T|exact C|exact (cw_root _ _ _ _ _ _ CW)].
    - intros u ts I1. destruct (il_used _ _ _ _ _ _ _ _ LB u ts I1) as [Nu LU]. split; [exact Nu|]. intros n b X I2 S P. pose proof (piece_refs _ _ _ _ _ I2 S Nu P) as RC. destruct (place_of n b u ts I2 S) as [-> [CLn [(Z & _)|(_ & _ & [-> | ->])]]]; [congruence| |].
      + destruct P as (s & F & DN & W & CX). destruct (LU _ s X CLn I2 F CX) as (OR & SD & _). specialize (SD eq_refl).
        destruct (conv_schema_wf (deref u) (nr u) s X u (pointer ts) ltac:(now exists (Some (place u ts))) W SD) as (y & Y & CY & Im & BY & Wy).
        exists Y, (JDict y), "Schema". split; [destruct (construct_cls_obj _ _ _ _ _ CX) as (kx & ->); unfold becomes; rewrite CS; exact CY|]. split; [discriminate|]. split; [exact Wy|].
        assert (NP : forall q s0 kids, X = OObj "PathItem" q s0 kids -> "Schema" = "PathItem") by (intros q s0 kx EX; subst X; destruct (construct_cls_obj _ _ _ _ _ CX) as (kx' & Z); discriminate Z).
        split; [exact BY|]. destruct (lookup "$ref" y) as [v|] eqn:Ly.
        * assert (EY : y = [("$ref", v)]).
          { inversion Im as [d0 Tr|d0 Tr Ty|d0 d1 Tr Ty]; subst; [|discriminate Ly|].
            - cbn [lookup String.eqb Ascii.eqb Bool.eqb] in Ly. injection Ly as <-. reflexivity.
            - exfalso. match goal with H : forall k v, lookup k y = Some v -> In k (copied_keywords ++ other_keywords)%list |- _ => pose proof (H _ _ Ly) as Z end. clear -Z. cbn in Z. repeat (destruct Z as [Z|Z]; [discriminate Z|]). exact Z. }
          subst y. assert (Y = OObj "Schema" (Some (pointer ts)) (JDict [("$ref", v)]) []). { apply Ok_inj_local. rewrite <- BY. reflexivity. }
          subst Y. destruct (leaf_clean "Schema" (Some (pointer ts)) (JDict [("$ref", v)]) ltac:(discriminate)) as [LC1 LC2]. split; [exact LC1|]. split; [exact LC2|].
          split; [|exact NP].
          intros qs c p s' kids Wi Ic. exfalso. destruct (leaf_within _ _ _ _ _ Wi) as [_ Z]. injection Z as -> _ _ _. change (In "Schema" ["Reference"; "PathItem"]) in Ic. clear -Ic. cbn in Ic. destruct Ic as [Ic|[Ic|[]]]; discriminate Ic.
        * pose proof (schema_image_fits (okref := okr u X) (JDict s) (JDict y) SD) as FT. specialize (FT ltac:(intros d' v Id L; left; split; [reflexivity|exact (OR d' v Id L)]) Im).
          destruct (sound_built _ _ _ _ BY eq_refl (schema_class y FT Ly)) as [SY _]. split; [exact (sound_unmixed Y SY)|]. split; [exact (sound_media Y SY)|].
          split; [|exact NP]. apply (sound_moved (okr u X)); [|exact SY]. intros c r. apply (referred_leads x); [exact E|exact T|exact C|exact RC].
      + destruct (item_becomes u ts X I1 I2 S P) as (s & y & Y & F & CX & B & EP & BY & Wy & TY). exists Y, (JDict y), "PathItem". split; [exact B|]. split; [discriminate|]. split; [exact Wy|]. split; [exact BY|].
        destruct (sound_built _ _ _ _ BY eq_refl TY) as [SY _]. split; [exact (sound_unmixed Y SY)|]. split; [exact (sound_media Y SY)|]. split; [|reflexivity].
        apply (sound_moved (okr u X)); [|exact SY]. intros c r. apply (referred_leads x); [exact E|exact T|exact C|exact RC].
    - intros n b u ts1 ts2 I1 I2 S SW. destruct (il_used _ _ _ _ _ _ _ _ LB u ts2 I2) as [Nu _]. destruct (place_of n b u ts1 I1 S) as [_ [_ [(Z & _)|(_ & I1' & _)]]]; [congruence|].
      destruct SW as [SW|SW]; [exact (il_apart _ _ _ _ _ _ _ _ LB u ts1 ts2 I1' I2 SW)|symmetry; exact (il_apart _ _ _ _ _ _ _ _ LB u ts2 ts1 I2 I1' SW)].
  Qed.
  (** what is converted, without the places *)
  Lemma converted_item_library root30 u p Z : converted path2url abspath fetch conv url root30 places used u p Z -> item_library_at deref nr fetch url root30 used u p Z.
  Proof.
    intros [H|(Nu & ts & n & b & X & I1 & -> & I2 & S & P & B)]; [left; now left|]. destruct (place_of n b u ts I2 S) as [-> [CLn [(Z0 & _)|(_ & _ & [-> | ->])]]]; [congruence| |].
    - left. right. split; [exact Nu|]. destruct P as (s & F & _ & W & CX). destruct (il_used _ _ _ _ _ _ _ _ LB u ts I1) as [_ LU]. destruct (LU _ s X CLn I2 F CX) as (_ & SD & _). specialize (SD eq_refl).
      destruct (conv_schema_wf (deref u) (nr u) s X u (pointer ts) ltac:(now exists (Some (place u ts))) W SD) as (y & Y & CY & Im & BY & _). unfold becomes in B. destruct (construct_cls_obj _ _ _ _ _ CX) as (kx & ->). rewrite CS, CY in B. apply Ok_inj_local in B. injection B as <-.
      exists ts, s, y. auto.
    - right. split; [exact Nu|]. destruct (item_becomes u ts X I1 I2 S P) as (s & x & Y & F & CX & B' & EP & BY & _). unfold becomes in B, B'. rewrite B in B'. apply Ok_inj_local in B'. injection B' as <-. exists ts, s, X, x.
      split; [exact I1|]. split; [reflexivity|]. split; [exact F|]. split; [exact CX|]. split; [exact EP|exact BY].
  Qed.
End Library.
(** schemas only *)
Lemma library_items (deref : string -> obj -> res obj) (nr : string -> obj -> res json) path2url abspath fetch url d root places used : closed_world path2url abspath fetch url root places -> library fetch url d places used -> item_library deref nr fetch url d root places used.
Proof.
  intros CW LB. split.
  - intros n b I. destruct (lb_places _ _ _ _ _ LB n b I) as (u & ts & CL & -> & H). exists u, ts. split; [exact CL|]. split; [reflexivity|]. destruct H as [H|(N & U & B)]; [now left|right; auto].
  - intros u ts I. destruct (lb_used _ _ _ _ _ LB u ts I) as [N LU]. split; [exact N|]. intros b s X CLu I2 F C. destruct (lb_places _ _ _ _ _ LB _ _ I2) as (u' & ts' & CL & E & H).
    assert (EB : b = BCls "Schema").
    { destruct H as [(-> & T & _)|(_ & _ & B)]; [|exact B]. exfalso. apply N.
      pose proof (ClosedFacts30.split_place (fun x => x) (fun x => x) u ts CLu) as S1. rewrite E, (ClosedFacts30.split_place _ _ url ts' CL) in S1. apply Ok_inj_local in S1. exact (f_equal fst (eq_sym S1)). }
    subst b. destruct (LU s X F C) as [SD OR]. split; [exact OR|]. split; [intros _; exact SD|discriminate].
  - intros ts p e kids ref n Wi L _ N. exfalso. assert (I : In (n, BCls "PathItem") places). { apply (proj2 (cw_root _ _ _ _ _ _ CW)). exists ts, "PathItem", p, e, kids, ref. split; [exact Wi|]. split; [cbn; tauto|]. split; [exact L|]. split; [exact N|reflexivity]. }
    destruct (lb_places _ _ _ _ _ LB n _ I) as (u & ts' & _ & _ & [(_ & _ & Z)|(_ & _ & Z)]); [now elim Z|discriminate Z].
  - exact (lb_apart _ _ _ _ _ LB).
Qed.
(** what is converted, without the places *)
Lemma converted_library path2url abspath fetch deref nr conv url d root30 places used u p Z :
  (forall p s kids u jp, conv (mk_sobj "2.0" (OObj "Schema" p s kids) []) u jp [] = conversion20 deref nr (mk_sobj "2.0" (OObj "Schema" p s kids) []) u jp []) ->
  library fetch url d places used -> converted path2url abspath fetch conv url root30 places used u p Z -> library_at fetch url root30 used u p Z.
Proof.
  intros CS LB [H|(Nu & ts & n & b & X & I1 & -> & I2 & S & P & B)]; [now left|right]. split; [exact Nu|].
  destruct (lb_places _ _ _ _ _ LB n b I2) as (u' & ts' & CL' & -> & H). rewrite (ClosedFacts30.split_place path2url abspath u' ts' CL') in S. apply Ok_inj_local in S.
  assert (E1 := f_equal fst S). assert (E2 := f_equal snd S). cbn [fst snd] in E1, E2. apply ClosedFacts.pointer_inj in E2. subst. destruct H as [(Z0 & _)|(_ & _ & ->)]; [congruence|].
  destruct P as (s & F & _ & W & CX). destruct (lb_used _ _ _ _ _ LB u ts I1) as [_ LU]. destruct (LU s X F CX) as [SD _].
  destruct (conv_schema_wf deref nr s X u (pointer ts) ltac:(now exists (Some (place u ts))) W SD) as (y & Y & CY & Im & BY & _). unfold becomes in B. destruct (construct_cls_obj _ _ _ _ _ CX) as (kx & ->). rewrite CS, CY in B. apply Ok_inj_local in B. injection B as <-.
  exists ts, s, y. auto.
Qed.
