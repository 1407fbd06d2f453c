(** * Conversion of single objects from 2.0 to 3.0.0. *)
From Coq Require Import String Ascii List Bool Arith.
From Verif Require Import PyStr PyVal Obj ObjFacts Classes_v2_0 Classes_v3_0_0 SpecJson SpecObj SpecOverride SpecSchema SpecConv SpecBody SpecOp SpecDoc SpecGiven SpecMigrate SpecTables Store App Conv20 Up30 Whole SpecOpen
  ShapeFacts ConvFacts SchemaFacts SchemaFacts2 DocFacts MigrateFacts WfFacts PropertiesObjAux PropertiesConv1 PropertiesConv2 Shape30Facts Shape30Facts2 Shape30Facts3 Shape30Facts4.
Import ListNotations.
Open Scope string_scope. Open Scope nat_scope.
Notation within := SpecObj.within (only parsing).

Definition convertible : list string := ["Swagger"; "License"; "Info"; "Schema"; "PathItem"].
Lemma only_these deref nr o url jp ovr r : upgrade30_over deref nr o url jp ovr = Ok r -> exists c p s kids, o = OObj c p s kids /\ In c convertible.
Proof.
  destruct o as [|c p s kids| |]; cbn [upgrade30_over]; try discriminate. intros H. exists c, p, s, kids. split; [reflexivity|]. unfold convertible. revert H. clear.
  repeat match goal with |- context[match ?x with _ => _ end] => is_var x; destruct x; try discriminate end; intros _; cbn [In]; tauto.
Qed.
Lemma loads30 c x p : tight (fun _ _ => True) (BCls c) (JDict x) -> exists r, construct v30_table (JDict x) (BCls c) p [] = Ok r.
Proof. intros T. exact (proj2 (construct_shaped v30_table (JDict x) (BCls c) p) (tight_shaped _ _ _ T)). Qed.
Lemma license30 x p : construct v30_table (JDict x) (BCls "License") p [] = Ok (OObj "License" p (JDict x) []).
Proof. reflexivity. Qed.
Lemma no_refs_bad j : SpecInside.refs_in (fun _ => True) j. Proof. intros d v _ _. exact I. Qed.
Lemma schema30 j x p : schema_doc j -> schema_image j (JDict x) -> exists r, construct v30_table (JDict x) (BCls "Schema") p [] = Ok r.
Proof.
  intros D Im. pose proof (schema_image_fits (okref := fun _ _ => True) j (JDict x) D (no_refs_bad j) Im) as F. destruct (lookup "$ref" x) as [v|] eqn:E.
  - inversion Im as [d Tr|d Tr Ty|d d' Tr Ty]; subst.
    + eexists. vm_compute. reflexivity.
    + discriminate E.
    + exfalso. match goal with H : forall k v, lookup k x = Some v -> In k (copied_keywords ++ other_keywords)%list |- _ => pose proof (H _ _ E) as Z end. clear -Z. cbn in Z. repeat (destruct Z as [Z|Z]; [discriminate Z|]). exact Z.
  - exact (loads30 "Schema" x p (schema_class x F E)).
Qed.
Section Parts.
  Variables (deref : obj -> res obj) (nr : obj -> res json).
  Notation conv o url jp ovr := (conversion20 deref nr (mk_sobj "2.0" o []) url jp ovr).
  Lemma conv_license d o url jp : loaded (BCls "License") (JDict d) o -> exists x r, conv o url jp [] = Ok (mk_sobj "3.0.0" r [], []) /\ license_image d x /\ construct v30_table (JDict x) (BCls "License") (Some jp) [] = Ok r.
  Proof.
    intros L. destruct (license_ok d o L) as (x & E & Im). destruct L as [path L]. destruct (construct_cls_obj _ _ _ _ _ L) as (kids & ->). exists x. eexists. split; [|split; [exact Im|apply license30]].
    unfold conversion20. cbn [so_obj upgrade30_over]. rewrite E. cbn [bind]. rewrite license30. reflexivity.
  Qed.
  Lemma conv_info d o url jp : loaded (BCls "Info") (JDict d) o -> object_or_null (val d "contact") -> object_or_null (val d "license") ->
    exists x r, conv o url jp [] = Ok (mk_sobj "3.0.0" r [], []) /\ info_image d x /\ construct v30_table (JDict x) (BCls "Info") (Some jp) [] = Ok r.
  Proof.
    intros L O1 O2. destruct (info_ok d o L O1 O2) as (x & E & Im). destruct L as [path L]. destruct (construct_cls_obj _ _ _ _ _ L) as (kids & ->).
    destruct (loads30 "Info" x (Some jp) (info_fits d x O1 O2 Im)) as [r C]. exists x, r. split; [|split; [exact Im|exact C]].
    unfold conversion20. cbn [so_obj upgrade30_over]. rewrite E. cbn [bind]. rewrite C. reflexivity.
  Qed.
  Lemma conv_schema d o url jp : loaded (BCls "Schema") (JDict d) o -> wf_json (JDict d) -> schema_doc (JDict d) ->
    exists x r, conv o url jp [] = Ok (mk_sobj "3.0.0" r [], []) /\ schema_image (JDict d) (JDict x) /\ construct v30_table (JDict x) (BCls "Schema") (Some jp) [] = Ok r.
  Proof.
    intros [path L] W D. destruct (schema_converted (JDict d) path W D) as (o' & x & C' & E & Im). assert (o' = o) by congruence. subst o'. destruct (construct_cls_obj _ _ _ _ _ L) as (kids & ->).
    destruct (schema30 (JDict d) x (Some jp) D Im) as [r C]. exists x, r. split; [|split; [exact Im|exact C]].
    unfold conversion20. cbn [so_obj upgrade30_over]. rewrite E. cbn [bind]. rewrite C. reflexivity.
  Qed.
  Lemma conv_path d o ps ops url jp : loaded (BCls "PathItem") (JDict d) o -> wf_json (JDict d) -> path_given deref d ps ops -> expressible ps ops ->
    (truthy (val d "$ref") = true -> exists n, nr o = Ok n) ->
    exists x reloc r, conv o url jp [] = Ok (mk_sobj "3.0.0" r [], reloc) /\ to_path_item deref nr o url [] [] = Ok (x, reloc) /\ construct v30_table (JDict x) (BCls "PathItem") (Some jp) [] = Ok r.
  Proof.
    intros L W G Ex Nr. destruct (path_outcome deref nr d o ps ops url [] [] L G Nr) as [[[x reloc] E]|[_ N]]; [|now elim N].
    assert (T : tight (fun _ _ => True) (BCls "PathItem") (JDict x)).
    { apply (path_fits deref nr d o ps ops url [] [] x reloc L W G); [| |intros; exact I|exact E]; apply Forall_forall; intros; repeat split; try (apply Forall_forall; intros; split); apply no_refs_bad. }
    destruct (loads30 "PathItem" x (Some jp) T) as [r C]. exists x, reloc, r. split; [|split; [exact E|exact C]]. destruct L as [path L]. destruct (construct_cls_obj _ _ _ _ _ L) as (kids & ->).
    unfold conversion20. cbn [so_obj upgrade30_over]. rewrite E. cbn [bind fst snd]. rewrite C. reflexivity.
  Qed.
  Definition whole_parts : list string := ["Swagger"; "License"; "Info"; "Schema"].
  Lemma over_shape c p s kids url jp : In c whole_parts -> (exists e, forall ovr, upgrade30_over deref nr (OObj c p s kids) url jp ovr = Err e) \/
    exists cls y reloc, (wf_obj (OObj c p s kids) -> (forall o x, wf_obj o -> deref o = Ok x -> wf_obj x) -> (forall o x, wf_obj o -> nr o = Ok x -> wf_json x) -> wf_json y) /\
      forall ovr, upgrade30_over deref nr (OObj c p s kids) url jp ovr = bind (construct v30_table y (BCls cls) (Some jp) ovr) (fun r => Ok (r, reloc)).
  Proof.
    intros Ic. repeat (destruct Ic as [<-|Ic]); [| | | |destruct Ic]; cbn [upgrade30_over].
    - destruct (to_openapi deref nr (OObj "Swagger" p s kids)) as [[[x sec] reloc]|e] eqn:E; [|left; exists e; reflexivity]. right. exists "OpenApi", (JDict (with_security x sec)), reloc. split; [|reflexivity].
      intros W DW NW. pose proof (to_openapi_wf deref nr DW NW _ _ _ _ W E) as Wx. unfold with_security. destruct sec; [apply wfd_set; [exact I|exact Wx]|exact Wx].
    - destruct (to_license (OObj "License" p s kids)) as [x|e] eqn:E; [|left; exists e; reflexivity]. right. exists "License", (JDict x), []. split; [|reflexivity]. intros W _ _. exact (to_license_wf _ W _ E).
    - destruct (to_info (OObj "Info" p s kids)) as [x|e] eqn:E; [|left; exists e; reflexivity]. right. exists "Info", (JDict x), []. split; [|reflexivity]. intros W _ _. exact (to_info_wf _ W _ E).
    - destruct (to_schema false (OObj "Schema" p s kids)) as [x|e] eqn:E; [|left; exists e; reflexivity]. right. exists "Schema", (JDict x), []. split; [|reflexivity]. intros W _ _. exact (to_schema_wf' false _ W _ E).
  Qed.
  Lemma conv_reuse c p s kids url jp L r0 reloc0 r reloc : In c whole_parts -> well_given L ->
    conv (OObj c p s kids) url jp [] = Ok (r0, reloc0) -> conv (OObj c p s kids) url jp (override_of L) = Ok (r, reloc) ->
    reloc = reloc0 /\
    (forall us x, In (us, x) L -> place v30_table (so_obj r0) us -> within (so_obj r) us x) /\
    (forall ts v, (forall us x, In (us, x) L -> apart us ts) -> within (so_obj r0) ts v <-> within (so_obj r) ts v) /\
    (forall ts v, (forall us x, In (us, x) L -> ~ prefix us ts) -> within (so_obj r0) ts v -> exists v', within (so_obj r) ts v' /\ same_node v v').
  Proof.
    intros Ic WG E0 E. unfold conversion20 in E0, E. cbn [so_obj] in E0, E. destruct (over_shape c p s kids url jp Ic) as [[e F]|(cls & y & rl & _ & F)]; [rewrite F in E0; discriminate|].
    rewrite F in E0, E. destruct (construct v30_table y (BCls cls) (Some jp) []) as [a0|] eqn:C0; [|discriminate]. destruct (construct v30_table y (BCls cls) (Some jp) (override_of L)) as [a|] eqn:C; [|discriminate].
    cbn [bind rmap fst snd] in E0, E. injection E0 as <- <-. injection E as <- <-. cbn [so_obj]. split; [reflexivity|]. exact (override_spec v30_table y L (BCls cls) (Some jp) a0 a rt_v30 WG C0 C).
  Qed.
  Lemma conv_reuse_total c p s kids url jp L r0 reloc0 : In c whole_parts -> well_given L -> wf_obj (OObj c p s kids) ->
    (forall o x, wf_obj o -> deref o = Ok x -> wf_obj x) -> (forall o x, wf_obj o -> nr o = Ok x -> wf_json x) ->
    conv (OObj c p s kids) url jp [] = Ok (r0, reloc0) -> (forall us x, In (us, x) L -> place v30_table (so_obj r0) us) ->
    exists r, conv (OObj c p s kids) url jp (override_of L) = Ok (r, reloc0).
  Proof.
    intros Ic WG W DW NW E0 P. unfold conversion20 in *. cbn [so_obj] in *. destruct (over_shape c p s kids url jp Ic) as [[e F]|(cls & y & rl & Wy & F)]; [rewrite F in E0; discriminate|].
    rewrite F in *. destruct (construct v30_table y (BCls cls) (Some jp) []) as [a0|] eqn:C0; [|discriminate]. cbn [bind rmap fst snd] in E0. injection E0 as <- <-. cbn [so_obj] in P.
    destruct (override_total v30_table y L (BCls cls) (Some jp) a0 rt_v30 (Wy W DW NW) WG C0 P) as [a C]. rewrite C. eexists. reflexivity.
  Qed.
End Parts.
