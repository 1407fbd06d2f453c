(** Conversion of Swagger 1.2 objects: the resulting document can be expressed in OpenAPI 3.0. *)
From Coq Require Import String Ascii List Bool Arith ZArith Lia.
From Verif Require Import PyStr PyStrFacts PyVal PyValFacts Jp JpFacts Scope SpecUrl UrlLib UrlFacts Urls Obj SpecObj SpecJson ObjFacts ShapeFacts TablesFacts SpecTables Classes_v1_2 Classes_v2_0 Scan PropertiesObjAux DumpFacts ResolveFacts RelocFacts SpecStore SpecInside SpecSchema SpecConv SpecBody SpecOp SpecDoc SpecGiven SpecMigrate SpecWhole SpecFollow
  SpecScan SpecLocal SpecOpen WfFacts WfFacts12 FollowFacts FollowFacts2 FollowFacts3
  Up12 SpecUp12 SpecOpen12 Up12Facts NumeralFacts Up12Facts2 Up12Facts3 Up12Facts4 Up12Facts5 Up12Facts6 Up12Facts7 Up12Facts8 Up12Facts9 Up12Facts10 Up12Facts11 Up12Facts13 Up12Facts14.
Import ListNotations.
Open Scope string_scope. Open Scope nat_scope.

Lemma get_val d k : get (JDict d) k = val d k. Proof. reflexivity. Qed.
Lemma val_given d k j k' : lookup k d = given j k' -> val d k = get j k'. Proof. unfold val, get, given. intros ->. reflexivity. Qed.
Lemma val_some d k v : lookup k d = Some v -> val d k = v. Proof. unfold val. intros ->. reflexivity. Qed.
Lemma val_none d k : lookup k d = None -> val d k = JNull. Proof. unfold val. intros ->. reflexivity. Qed.
Lemma val_only ks d k : only_keys ks d -> existsb (String.eqb k) ks = false -> val d k = JNull.
Proof. intros O E. apply val_none, O. exact (not_in_eqb _ _ E). Qed.
Definition items_slot (b : builder) (j : json) : Prop := b = BCls "Items" -> items_doc j.
Lemma typed_items (P : string -> doc -> Prop) b j : SpecFollow.typed v20_table P b j -> items_slot b j.
Proof.
  induction 1 as [s|b l H IH|b d H IH|c cd d E Pc K IH Rq|r b d v L H IH|r b d L H IH|b v|b j N H IH]; intros Z; try discriminate Z.
  injection Z as ->. injection E as <-. constructor. unfold val. destruct (lookup "items" d) as [v|] eqn:L; [|now left].
  destruct v; [now left|right; apply (IH (mk_child "items" (BCls "Items") false) _ (or_introl eq_refl) L); [discriminate|reflexivity]..].
Qed.
Lemma choice {A B} (R : A -> B -> Prop) l : (forall a, In a l -> exists b, R a b) -> exists bs, Forall2 R l bs.
Proof.
  induction l as [|a l IH]; intros H; [exists []; constructor|]. destruct (H a (or_introl eq_refl)) as (b & Hb). destruct IH as (bs & F); [intros; apply H; now right|]. exists (b :: bs). now constructor.
Qed.
Lemma filter_forall2 {A B} (R : A -> B -> Prop) f g l m : Forall2 R l m -> (forall a b, In a l -> R a b -> f a = g b) -> Forall2 (fun a b => In a l /\ R a b /\ f a = true) (filter f l) (filter g m).
Proof.
  induction 1 as [|a b l m H F IH]; intros E; [constructor|]. cbn [filter].
  assert (IH' : Forall2 (fun x y => In x (a :: l) /\ R x y /\ f x = true) (filter f l) (filter g m)).
  { eapply Forall2_impl; [|apply IH; intros; apply E; [now right|assumption]]. intros x y (I & Q). split; [now right|exact Q]. }
  rewrite <- (E a b (or_introl eq_refl) H). destruct (f a) eqn:Ef; [|exact IH']. constructor; [|exact IH']. split; [now left|auto].
Qed.

Lemma body_shape p : match get p "paramType" with JStr "body" => true | _ => false end = true <-> get p "paramType" = JStr "body".
Proof.
  split; [|intros ->; reflexivity]. destruct (get p "paramType") as [| | | |s| |]; try discriminate. intros H. f_equal. revert H. repeat (destruct s as [|[[] [] [] [] [] [] [] []] s]; try discriminate; try reflexivity).
Qed.
Lemma place_body j : place j = JStr "body" -> j = JStr "body".
Proof. unfold place. destruct j as [| | | |s| |]; try discriminate. repeat (destruct s as [|[[] [] [] [] [] [] [] []] s]; try discriminate; try (intros H; exact H)). Qed.
Lemma in_form_iff p : in_form p = true <-> place (get p "paramType") = JStr "formData".
Proof.
  unfold in_form. destruct (place (get p "paramType")) as [| | | |s| |]; try (split; discriminate). split; [|intros H; injection H as ->; reflexivity].
  intros H. f_equal. revert H. repeat (destruct s as [|[[] [] [] [] [] [] [] []] s]; try discriminate; try reflexivity).
Qed.
Lemma is_text_iff s j : is_text s j = true <-> j = JStr s.
Proof. unfold is_text. destruct j; try (split; discriminate). split; [intros H; apply String.eqb_eq in H; now subst|intros [=]; subst; apply String.eqb_refl]. Qed.
Lemma is_text_false s j : j <> JStr s -> is_text s j = false.
Proof. intros N. destruct (is_text s j) eqn:E; [|reflexivity]. apply is_text_iff in E. contradiction. Qed.
Lemma in_body_iff p : in_body p = true <-> get p "paramType" = JStr "body" \/ place (get p "paramType") = JStr "formData".
Proof.
  unfold in_body. rewrite <- in_form_iff, <- body_shape. destruct (get p "paramType") as [| | | |s| |]; try (split; [auto|intros [H|H]; [discriminate|exact H]]).
  repeat (destruct s as [|[[] [] [] [] [] [] [] []] s]; try (split; [auto|intros [H|H]; [discriminate|exact H]])). split; [auto|intros _; reflexivity].
Qed.
(** ** parameters *)
Section Param.
  Variables (sep : string) (ds : list (string * json)) (d : doc).
  Variable (P : string -> doc -> Prop).
  Hypothesis DEF : forall n, In n (definition_names sep ds) -> exists x, lookup n (entries_of (val d "definitions")) = Some (JDict x) /\ lookup "$ref" x = None /\ lookup "type" x = None.
  Lemma primitive_no_file j : is_primitive_name j = true -> j <> JStr "file". Proof. intros H ->. discriminate. Qed.
  Lemma schema_at decl t s : closed_type sep ds decl t -> good_refs t -> type_image sep (resource decl) t s -> exists e, schema_ends d (JDict s) e /\ is_text "file" (val e "type") = false.
  Proof.
    intros [Ct Cr] (_ & Gr & Gt) [Et Er].
    assert (R : forall n, lookup "$ref" s = Some (ref_to n) -> In n (definition_names sep ds) -> no_escape n -> exists e, schema_ends d (JDict s) e /\ is_text "file" (val e "type") = false).
    { intros n L I Ne. destruct (DEF n I) as (x & Lx & Nr & Nt). exists x. split; [|rewrite (val_none _ _ Nt); reflexivity]. apply se_ref with n (JDict x) [] (JDict x); [rewrite L; f_equal; exact (ref_pointer n Ne)|exact Lx|apply sub_here|]. now apply se_here. }
    destruct (truthy (get t "type") && negb (is_primitive_name (get t "type"))) eqn:E.
    - apply andb_prop in E as [E1 E2]. destruct (Gt E1) as (n & En). rewrite En in *. cbn [text] in Er. destruct (Ct n eq_refl) as [-> |[I|[I Ne]]]; [discriminate E1| |exact (R _ Er I Ne)].
      exfalso. cbn [is_primitive_name] in E2. assert (X : existsb (String.eqb n) primitive_names = true) by (apply existsb_exists; exists n; split; [exact I|apply String.eqb_refl]). rewrite X in E2. discriminate.
    - destruct (truthy (get t "$ref")) eqn:E1.
      + destruct (Gr E1) as (n & En). rewrite En in *. cbn [text] in Er. destruct (Cr n eq_refl) as [-> |[I Ne]]; [discriminate E1|exact (R _ Er I Ne)].
      + exists s. split; [now apply se_here|]. apply is_text_false. unfold val. rewrite Et. destruct (is_primitive_name (get t "type")) eqn:Ep; [now apply primitive_no_file|discriminate].
  Qed.
  (** a converted parameter *)
  Lemma parameter_usable decl p q : parameter_image sep (resource decl) p q -> good_parameter p -> (get p "paramType" = JStr "body" -> closed_datatype sep ds decl p) -> parameter_ok p ->
    SpecFollow.typed v20_table P (BRefElse "Reference" (BCls "Parameter")) (JDict q) ->
    lookup "$ref" q = None /\ usable_in d q /\ format_ok q /\ is_merged q = in_body p /\ (in_form p = true -> form_param q) /\ val q "name" = get p "name".
  Proof.
    intros Im (_ & _ & G) Cl (Pr & Pn & Pf) Ty. assert (NR : lookup "$ref" q = None).
    { destruct Im as (_ & _ & _ & _ & H). destruct (match get p "paramType" with JStr "body" => true | _ => false end); [destruct H as [_ O]; eapply no_ref_key; [exact O|reflexivity]|]. destruct H as [_ H].
      destruct (_ && _); [destruct H as (_ & _ & _ & _ & _ & O); eapply no_ref_key; [exact O|reflexivity]|]. destruct H as (_ & _ & _ & _ & _ & _ & H).
      destruct (is_null _); [eapply no_ref_key; [exact H|reflexivity]|]. destruct H as (_ & _ & _ & O). eapply no_ref_key; [exact O|reflexivity]. }
    split; [exact NR|]. assert (T : SpecFollow.typed v20_table P (BCls "Parameter") (JDict q)) by (inversion Ty; subst; [congruence|assumption]).
    pose proof Im as (Hn & Hr & _ & Hin & H). apply val_given in Hn, Hr. apply val_some in Hin.
    assert (PD : param_doc q).
    { split; [|split].
      - destruct (typed_val _ _ _ v20_Parameter _ (mk_child "items" (BCls "Items") false) T eq_refl) as [Z|Ti]; [cbn; tauto|now left|right]. exact (typed_items _ _ _ Ti eq_refl).
      - destruct (typed_val _ _ _ v20_Parameter _ (mk_child "schema" (BCls "Schema") false) T eq_refl) as [Z|Ti]; [cbn; tauto|now left|right]. exact (typed_schema _ _ Ti).
      - rewrite Hr. exact Pr. }
    assert (FO : forall f, lookup "collectionFormat" q = Some f -> f = JStr "csv").
    { destruct (match get p "paramType" with JStr "body" => true | _ => false end); [destruct H as [_ O]; intros f L; rewrite O in L; [discriminate|apply not_in_eqb; reflexivity]|]. destruct H as [_ H].
      destruct (_ && _); [destruct H as (_ & E & _); intros f L; congruence|]. destruct H as (_ & _ & _ & _ & _ & _ & H).
      destruct (is_null _); [intros f L; rewrite H in L; [discriminate|apply not_in_eqb; reflexivity]|]. destruct H as (E & _). intros f L; congruence. }
    assert (FOK : format_ok q). { intros [Z|Z]; exfalso; unfold val in Z; destruct (lookup "collectionFormat" q) as [f|] eqn:L; [specialize (FO _ eq_refl); congruence|discriminate|specialize (FO _ eq_refl); congruence|discriminate]. }
    destruct (match get p "paramType" with JStr "body" => true | _ => false end) eqn:Eb.
    - assert (Ep := proj1 (body_shape p) Eb). destruct H as ((s & Ls & Is & Os) & O). apply val_some in Ls.
      assert (Ein : val q "in" = JStr "body") by (rewrite Hin, Ep; reflexivity).
      assert (Nty : val q "type" = JNull) by (eapply val_only; [exact O|reflexivity]).
      split; [|split; [exact FOK|split; [|split; [|exact Hn]]]].
      + right. right. split; [split; [exact PD|split; [exact Ein|split; [rewrite Nty; discriminate|rewrite Ls; discriminate]]]|]. rewrite Ls.
        destruct (Cl Ep) as [Ct _]. destruct G as (Gr & _). destruct Is as (Ti & _). exact (schema_at decl p s Ct Gr Ti).
      + unfold is_merged. rewrite Ein, orb_true_r. symmetry. apply in_body_iff. now left.
      + intros F. apply in_form_iff in F. rewrite Ep in F. discriminate.
    - assert (Ep : get p "paramType" <> JStr "body") by (intros Z; apply body_shape in Z; congruence). destruct H as [_ H].
      assert (Sch : val q "schema" = JNull).
      { destruct (_ && _); [destruct H as (_ & _ & _ & _ & _ & O); eapply val_only; [exact O|reflexivity]|]. destruct H as (_ & _ & _ & _ & _ & _ & H).
        destruct (is_null _); [eapply val_only; [exact H|reflexivity]|]. destruct H as (_ & _ & _ & O). eapply val_only; [exact O|reflexivity]. }
      assert (Fi : is_file_param q = true -> place (get p "paramType") = JStr "formData").
      { unfold is_file_param. intros F. apply is_text_iff in F. destruct (_ && _).
        - destruct H as (E & _). rewrite (val_some _ _ _ E) in F. discriminate.
        - destruct H as ((t & Et & Lt) & _). rewrite (val_some _ _ _ Lt) in F. injection F as F. exact (Pf Ep t Et F). }
      assert (Nb : is_text "body" (val q "in") = false). { apply is_text_false. rewrite Hin. intros Z. exact (Ep (place_body _ Z)). }
      assert (FF : in_form p = true -> form_param q). { intros F. apply in_form_iff in F. split; [exact PD|]. split; [rewrite Hin; exact F|]. split; [exact Sch|]. destruct (Pn F) as (n & En). exists n. rewrite Hn. exact En. }
      assert (MB : is_merged q = in_body p).
      { apply eq_true_iff_eq. rewrite in_body_iff. unfold is_merged. rewrite Nb, orb_false_r, orb_true_iff, (is_text_iff "formData"), Hin. split; [intros [F|F]; [right; exact (Fi F)|now right]|intros [F|F]; [contradiction|now right]]. }
      split; [|split; [exact FOK|split; [exact MB|split; [exact FF|exact Hn]]]].
      destruct (in_form p) eqn:F; [right; left; exact (FF eq_refl)|left]. split; [exact PD|]. rewrite MB. destruct (in_body p) eqn:B; [|reflexivity]. apply in_body_iff in B as [B|B]; [contradiction|]. apply in_form_iff in B. congruence.
  Qed.
  (** ** operations *)
  Definition fine_request (op : request) : Prop :=
    one_request (fst op) /\ Forall (fun pq => format_ok (snd pq)) (fst op) /\ Forall (fun kr => headers_ok (snd (snd kr))) (snd op).
  Lemma operation_usable s out : operation_image sep s out -> good_operation (at_op s) -> closed_operation sep ds (at_decl s) (at_op s) -> request_ok (at_op s) -> Forall parameter_ok (elements (get (at_op s) "parameters")) ->
    SpecFollow.typed v20_table P (BCls "Operation") (JDict out) -> exists op, operation_in d out op /\ fine_request op.
  Proof.
    intros (_ & _ & _ & _ & _ & _ & _ & (ps & Hps & Fps) & _ & (r & Hr & _ & Or & _) & O) (_ & _ & (pl & Epl & Gpl) & _) [_ Cp] RQ PO T.
    apply val_some in Hps, Hr.
    assert (Tp : forall q, In q ps -> SpecFollow.typed v20_table P (BRefElse "Reference" (BCls "Parameter")) (JDict q)).
    { intros q I. destruct (typed_val _ _ _ v20_Operation _ (mk_child "parameters" (BListOf (BRefElse "Reference" (BCls "Parameter"))) false) T eq_refl) as [Z|Tl]; [cbn; tauto|cbn [ch_name] in Z; rewrite Hps in Z; discriminate|].
      cbn [ch_name ch_builder] in Tl. rewrite Hps in Tl. inversion Tl as [|b l Hl| | | | | |]; subst. apply Hl. now apply in_map. }
    assert (Tr : SpecFollow.typed v20_table P (BCls "Response") (JDict r)).
    { destruct (typed_val _ _ _ v20_Operation _ (mk_child "responses" (BMapOf (BRefElse "Reference" (BCls "Response"))) false) T eq_refl) as [Z|Tl]; [cbn; tauto|cbn [ch_name] in Z; rewrite Hr in Z; discriminate|].
      cbn [ch_name ch_builder] in Tl. rewrite Hr in Tl. inversion Tl as [| |b l Hl| | | | |]; subst. specialize (Hl _ _ (or_introl eq_refl)). assert (N := no_ref_key _ _ Or eq_refl). inversion Hl; subst; [congruence|assumption]. }
    assert (U : forall p q, In p pl -> parameter_image sep (resource (at_decl s)) p q -> In q ps -> lookup "$ref" q = None /\ usable_in d q /\ format_ok q /\ is_merged q = in_body p /\ (in_form p = true -> form_param q) /\ val q "name" = get p "name").
    { intros p q Ip Im Iq. rewrite Forall_forall in Gpl, PO. eapply parameter_usable; [exact Im|exact (Gpl _ Ip)| | |exact (Tp _ Iq)]; [intros Z; apply Cp; [rewrite Epl; exact Ip|exact Z]|apply PO; rewrite Epl; exact Ip]. }
    rewrite Epl in Fps. cbn [elements] in Fps.
    assert (F2 : Forall2 (fun p q => lookup "$ref" q = None /\ usable_in d q /\ format_ok q /\ is_merged q = in_body p /\ (in_form p = true -> form_param q) /\ val q "name" = get p "name") pl ps).
    { clear -Fps U. induction Fps as [|p q pl ps Im F IH]; [constructor|]. constructor; [apply U; [now left|exact Im|now left]|]. apply IH. intros; apply U; [now right|assumption|now right]. }
    exists (map (fun q => (q, q)) ps, [("default", (r, r))]). split.
    - split; [split|split; [split|]].
      + right. cbn [fst]. rewrite map_map. exact Hps.
      + cbn [fst]. apply Forall_forall. intros pq I. apply in_map_iff in I as (q & <- & Iq). cbn [fst snd]. destruct (Forall2_in_right _ _ _ _ F2 Iq) as (p & _ & N & Us & _). split; [left; auto|exact Us].
      + right. exact Hr.
      + cbn [snd]. constructor; [|constructor]. cbn [fst snd]. split; [left; split; [eapply no_ref_key; [exact Or|reflexivity]|reflexivity]|]. split.
        * destruct (typed_val _ _ _ v20_Response _ (mk_child "schema" (BCls "Schema") false) Tr eq_refl) as [Z|Ti]; [cbn; tauto|now left|right]. exact (typed_schema _ _ Ti).
        * left. eapply val_only; [exact Or|reflexivity].
      + left. eapply val_only; [exact O|reflexivity].
    - split; [|split]; cbn [fst snd].
      + unfold request_ok in RQ. cbv zeta in RQ. rewrite Epl in RQ. cbn [elements] in RQ. unfold one_request. cbv zeta.
        assert (FM : filter merges (map (fun q : doc => (q, q)) ps) = map (fun q => (q, q)) (filter is_merged ps)).
        { clear. induction ps as [|q ps IH]; [reflexivity|]. cbn [map filter]. unfold merges at 1. cbn [snd]. rewrite IH. destruct (is_merged q); reflexivity. }
        rewrite FM. assert (E2 : Forall2 (fun p q => In p pl /\ (lookup "$ref" q = None /\ usable_in d q /\ format_ok q /\ is_merged q = in_body p /\ (in_form p = true -> form_param q) /\ val q "name" = get p "name") /\ in_body p = true) (filter in_body pl) (filter is_merged ps)).
        { apply filter_forall2; [exact F2|]. intros a b _ (_ & _ & _ & E & _). now symmetry. }
        destruct RQ as [L|[Fo ND]]; [left; rewrite map_length, <- (Forall2_len _ _ _ E2); exact L|right]. split.
        * apply Forall_forall. intros pq I. apply in_map_iff in I as (q & <- & Iq). cbn [snd]. destruct (Forall2_in_right _ _ _ _ E2 Iq) as (p & Ip & _ & (_ & _ & _ & _ & Hf & _) & _). apply Hf. rewrite Forall_forall in Fo. exact (Fo _ Ip).
        * rewrite map_map. assert (EN : map (fun p => text (get p "name")) (filter in_body pl) = map (fun q : doc => pname (q, q)) (filter is_merged ps)); [|rewrite <- EN; exact ND].
          clear -E2. induction E2 as [|p q l m (_ & (_ & _ & _ & _ & _ & En) & _) F IH]; [reflexivity|]. cbn [map]. rewrite IH. f_equal. unfold pname. cbn [snd]. rewrite En. destruct (get p "name"); reflexivity.
      + apply Forall_forall. intros pq I. apply in_map_iff in I as (q & <- & Iq). cbn [snd]. destruct (Forall2_in_right _ _ _ _ F2 Iq) as (p & _ & _ & _ & Fm & _). exact Fm.
      + constructor; [|constructor]. cbn [snd]. intros n h L. rewrite (val_only _ r "headers" Or eq_refl) in L. discriminate.
  Qed.
End Param.
