(** * Converted parameters, bodies and responses can be loaded as OpenAPI 3.0 objects. *)
From Coq Require Import String Ascii List Bool Arith Lia.
From Verif Require Import PyStr PyStrFacts PyVal PyValFacts Jp UrlLib Obj ObjFacts Classes_v2_0 Classes_v3_0_0 TablesFacts SpecJson ShapeFacts SpecObj SpecSchema SpecConv SpecBody SpecOp SpecDoc Store Conv20 ConvFacts SchemaFacts SchemaFacts2 ParamFacts BodyFacts BodyFacts2 ParamListFacts ParamListFacts2 ParamListFacts3 OpFacts OpFacts2 PathFacts PathFacts2 DocFacts DocFacts2 TotalFacts SpecGiven SpecMigrate MigrateFacts MigrateFacts2 CompareFacts SpecInside Shape30Facts.
Import ListNotations.
Open Scope string_scope. Open Scope nat_scope.

Section Shapes.
Context {okref : string -> json -> Prop}.
Notation fits := (tight okref).
Notation good_refs := (refs_in (okref "Reference")).
Notation fits_schema := (fits (BRefElse "Reference" (BCls "Schema"))).
Notation fits_param := (fits (BRefElse "Reference" (BCls "Parameter"))).
Lemma param_fits q p : param_doc q -> param_image q p -> fits_param (JDict p).
Proof.
  intros (Hi & _ & _) (_ & _ & Hs & _ & _ & O). set (ks := ["description"; "required"; "allowEmptyValue"; "name"; "in"; "schema"; "style"; "explode"]) in *.
  apply (fits_noref _ _ ks _ O eq_refl). apply (fits_class "Parameter" v30_Parameter ks p eq_refl eq_refl O); [|constructor].
  change (kids_of30 v30_Parameter ks) with [mk_child "schema" (BRefElse "Reference" (BCls "Schema")) false]. apply Forall_cons; [|constructor]. kid L. rewrite L in Hs. cbn [schema_of_items] in Hs.
  exact (own_schema_fits q v Hi Hs).
Qed.
Lemma kept_fits p q k : good_refs (JDict p) -> (is_reference p = true \/ (q = p /\ param_doc q)) -> kept_image p k -> fits_param k.
Proof.
  unfold kept_image. intros G H K. destruct (is_reference p) eqn:E; [subst k; apply (fits_ref _ _ (val p "$ref")); [reflexivity|now apply refs_mem]|]. destruct H as [H|[-> D]]; [discriminate|]. destruct K as (d & -> & Im). exact (param_fits p d D Im).
Qed.
Lemma header_fits h x : (val h "items" = JNull \/ items_doc (val h "items")) -> header_image h x -> fits (BRefElse "Reference" (BCls "Header")) (JDict x).
Proof.
  intros D (_ & (s & Es & Im) & _ & _ & O). set (ks := ["description"; "schema"; "style"; "explode"]) in *.
  apply (fits_noref _ _ ks _ O eq_refl). apply (fits_class "Header" v30_Header ks x eq_refl eq_refl O); [|constructor].
  change (kids_of30 v30_Header ks) with [mk_child "schema" (BRefElse "Reference" (BCls "Schema")) false]. apply Forall_cons; [|constructor]. kid L. assert (v = s) by congruence. subst. exact (own_schema_fits h s D Im).
Qed.
Lemma property_fits p q v : good_refs (JDict p) -> param_doc q -> property_image p q v -> fits_schema v.
Proof.
  intros G (Hi & _) (s & -> & H). destruct (is_reference p) eqn:Er; [destruct H as (E & _); apply (fits_ref _ _ _ E); now apply refs_mem|]. unfold form_schema in H. destruct (is_file_param q).
  - destruct H as (_ & _ & _ & O). apply (fits_noref _ _ ["type"; "format"; "nullable"] _ O eq_refl). now apply (fits_leaf _ v30_Schema ["type"; "format"; "nullable"]).
  - destruct H as (_ & H1 & H2 & _ & O). set (ks := "nullable" :: "items" :: "description" :: base_keywords) in *. apply (fits_noref _ _ ks _ O eq_refl). apply (fits_class "Schema" v30_Schema ks s eq_refl eq_refl O); [|constructor].
    change (kids_of30 v30_Schema ks) with [mk_child "items" (BRefElse "Reference" (BCls "Schema")) false]. apply Forall_cons; [|constructor]. kid L.
    destruct Hi as [Hi|Hi]; [rewrite (H1 Hi) in L; discriminate|]. assert (Ni : val q "items" <> JNull) by (intros Z; rewrite Z in Hi; inversion Hi). destruct (H2 Ni) as (x & E & Im). assert (v = x) by congruence. subst. exact (items_image_fits _ _ Hi Im).
Qed.

(** ** media types *)
Notation fits_media := (fits (BCls "MediaType")).
Lemma media_children m : fits_media (JDict m) <->
  (forall v, lookup "schema" m = Some v -> v <> JNull -> fits_schema v) /\
  lookup "examples" m = None /\
  (forall v, lookup "encoding" m = Some v -> v <> JNull -> fits (BMapOf (BCls "Encoding")) v).
Proof.
  split.
  - intros H. inversion H as [| | |c cd d E H1 H2 H3 H4| | | |]; subst. injection E as <-. split; [|split]; [intros v L Nv| |intros v L Nv].
    + exact (H1 (mk_child "schema" (BRefElse "Reference" (BCls "Schema")) false) v ltac:(cbn; auto) L Nv).
    + apply H3. now left.
    + exact (H1 (mk_child "encoding" (BMapOf (BCls "Encoding")) false) v ltac:(cbn; auto) L Nv).
  - intros (H1 & H2 & H3). apply ti_object with v30_MediaType; [reflexivity| | | |].
    + intros ch v [<-|[<-|[<-|[]]]] L N; cbn [ch_name ch_builder] in *; auto. congruence.
    + intros ch [<-|[<-|[<-|[]]]] _; reflexivity.
    + intros k Ik. cbn in Ik. destruct Ik as [X|[X|[X|[]]]]; try discriminate X. injection X as <-. exact H2.
    + intros v Ic. cbn in Ic. destruct Ic as [X|[X|[]]]; discriminate X.
Qed.
Lemma schema_class s : fits_schema (JDict s) -> lookup "$ref" s = None -> fits (BCls "Schema") (JDict s).
Proof. intros H N. inversion H as [| | | |r b d v Oc F|r b d Oc F| |]; subst; [congruence|exact F]. Qed.
Lemma schema_ref s v : fits_schema (JDict s) -> lookup "$ref" s = Some v -> okref "Reference" v.
Proof.
  intros H L. inversion H as [| | | |r b d w Oc F|r b d Oc F| |]; subst; [|congruence]. inversion F as [| | |c cd d E H1 H2 H3 H4| | | |]; subst. apply H4; [now left|exact L].
Qed.
Lemma media_empty : fits_media (JDict []).
Proof. apply media_children. split; [|split]; try discriminate. reflexivity. Qed.
Lemma in_dict_set {A} k (v : A) d k' x : In (k', x) (dict_set k v d) -> (k' = k /\ x = v) \/ In (k', x) d.
Proof.
  induction d as [|[a b] d IH]; cbn [dict_set]; [intros [E|[]]; injection E as <- <-; now left|]. destruct (String.eqb_spec k a) as [<-|]; intros [E|I]; [injection E as <- <-; now left|right; now right|injection E as <- <-; right; now left|].
  destruct (IH I) as [X|X]; [now left|right; now right].
Qed.
Lemma subd_some k d x : subd k d = x -> x <> [] -> lookup k d = Some (JDict x).
Proof. unfold subd. destruct (lookup k d) as [[]|]; intros <- N; try congruence. Qed.
Lemma encoding_fits c : fits (BCls "Encoding") (JDict [("contentType", JStr c)]).
Proof. apply (fits_leaf _ v30_Encoding ["contentType"]); [reflexivity|reflexivity| |reflexivity|reflexivity]. intros k N. cbn [lookup]. destruct (String.eqb_spec k "contentType"); [subst; cbn in N; tauto|reflexivity]. Qed.
Lemma media_step_fits p q n t m m' : good_refs (JDict p) -> param_doc q -> media_ok m -> media_step p q n t m m' -> fits_media (JDict m) -> fits_media (JDict m').
Proof.
  intros G Pd (M1 & M2 & M3 & M4) ((K1 & K2 & K3 & K4) & (v & Pi & Ep) & _ & En & Ok_ & Os) H. apply media_children in H as (H1 & H2 & H3). apply media_children. split; [|split].
  - intros w L Nw. rewrite L in K1. destruct w as [| | | | | |s']; try destruct K1. assert (Es : subd "schema" m' = s') by (unfold subd; now rewrite L). rewrite Es in *.
    assert (Old : forall k x, lookup k (subd "schema" m) = Some x -> lookup "schema" m = Some (JDict (subd "schema" m))).
    { intros k x E. apply subd_some; [reflexivity|]. intros Z. rewrite Z in E. discriminate. }
    destruct (lookup "$ref" s') as [r|] eqn:Er.
    { apply (fits_ref _ _ _ Er). rewrite (Os "$ref") in Er by discriminate. exact (schema_ref _ _ (H1 _ (Old _ _ Er) ltac:(discriminate)) Er). }
    apply ti_noref; [exact Er|]. apply ti_object with v30_Schema; [reflexivity| | |intros k Ik; cbn in Ik; destruct Ik as [X|[X|[X|[]]]]; discriminate X|intros z Ic; cbn in Ic; destruct Ic as [X|[X|[]]]; discriminate X].
    2: { intros ch Ic _. assert (X : filter ch_required (c_children v30_Schema) = []) by reflexivity. destruct (ch_required ch) eqn:E; [|reflexivity]. exfalso. assert (Z : In ch (filter ch_required (c_children v30_Schema))) by (now apply filter_In). rewrite X in Z. destruct Z. }
    intros ch x Ic Lx Nx. destruct (String.eqb_spec (ch_name ch) "properties") as [Ec|Ec].
    + assert (ch = mk_child "properties" (BMapOf (BRefElse "Reference" (BCls "Schema"))) false). { clear -Ic Ec. cbn in Ic. repeat (destruct Ic as [<-|Ic]; [cbn in Ec; try discriminate; reflexivity|]). destruct Ic. }
      subst ch. cbn [ch_name ch_builder] in *. rewrite Lx in K3. destruct x as [| | | | | |pp]; try destruct K3. unfold subd in Ep at 1. rewrite Lx in Ep. subst pp. apply ti_map. intros k y Iy. apply in_dict_set in Iy as [[-> ->]|Iy]; [exact (property_fits p q v G Pd Pi)|].
      destruct (subd "properties" (subd "schema" m)) as [|a l] eqn:Eq; [destruct Iy|]. apply subd_some in Eq; [|discriminate].
      pose proof (Old _ _ Eq) as Lo. pose proof (H1 _ Lo ltac:(discriminate)) as Fo. apply schema_class in Fo; [|rewrite <- (Os "$ref") by discriminate; exact Er].
      inversion Fo as [| | |c cd d E HH _ _ _| | | |]; subst. injection E as <-. specialize (HH _ _ Ic Eq ltac:(discriminate)). cbn [ch_builder] in HH. inversion HH; subst. eauto.
    + destruct (String.eqb_spec (ch_name ch) "required") as [Er'|Er']. { clear -Ic Er'. cbn in Ic. repeat (destruct Ic as [<-|Ic]; [cbn in Er'; discriminate|]). destruct Ic. }
      rewrite (Os _ Ec Er') in Lx. pose proof (Old _ _ Lx) as Lo. pose proof (H1 _ Lo ltac:(discriminate)) as Fo. apply schema_class in Fo; [|rewrite <- (Os "$ref") by discriminate; exact Er].
      inversion Fo as [| | |c cd d E HH _ _ _| | | |]; subst. injection E as <-. exact (HH _ _ Ic Lx Nx).
  - rewrite Ok_ by discriminate. exact H2.
  - intros w L Nw. rewrite L in K2. destruct w as [| | | | | |e']; try destruct K2. assert (Ee : subd "encoding" m' = e') by (unfold subd; now rewrite L). rewrite Ee in En. apply ti_map. intros k y Iy.
    assert (Oldf : In (k, y) (subd "encoding" m) -> fits (BCls "Encoding") y).
    { intros Io. destruct (subd "encoding" m) as [|a l] eqn:Eq; [destruct Io|]. apply subd_some in Eq; [|discriminate]. pose proof (H3 _ Eq ltac:(discriminate)) as Fo. inversion Fo; subst. eauto. }
    destruct (form_type t); [|rewrite En in Iy; auto]. destruct En as (c & _ & En). rewrite En in Iy. apply in_dict_set in Iy as [[-> ->]|Iy]; [apply encoding_fits|auto].
Qed.

(** ** request bodies *)
Definition body_keys : list string := ["content"; "description"; "required"].
Definition body_fits (b : dict) : Prop := within body_keys b /\ NoDup (keys (subd "content" b)) /\ forall t x, lookup t (subd "content" b) = Some x -> fits_media x.
Lemma body_fits_nil : body_fits []. Proof. split; [intros k _; reflexivity|]. split; [constructor|discriminate]. Qed.
Lemma body_fits_loads b : body_fits b -> body_ok b -> lookup "content" b <> None -> fits (BCls "RequestBody") (JDict b).
Proof.
  intros (O & N & F) (Bc & _) Hc. apply (fits_class "RequestBody" v30_RequestBody body_keys b eq_refl eq_refl O); [|apply Forall_cons; [exact Hc|constructor]].
  change (kids_of30 v30_RequestBody body_keys) with [mk_child "content" (BMapOf (BCls "MediaType")) true]. apply Forall_cons; [|constructor]. kid L. rewrite L in Bc. destruct v as [| | | | | |ct]; try destruct Bc.
  assert (E : subd "content" b = ct) by (unfold subd; now rewrite L). rewrite E in *. apply ti_map. intros k x I. apply (F k x). now apply in_lookup_wf.
Qed.
Lemma foldM_keep {A B} (P : B -> Prop) (f : B -> A -> res B) : (forall b a b', f b a = Ok b' -> P b -> P b') -> forall l b b', foldM f l b = Ok b' -> P b -> P b'.
Proof. intros H. induction l as [|a l IH]; cbn [foldM]; intros b b' E Pb; [now injection E as <-|]. apply bind_ok in E as (b1 & E1 & E). eauto. Qed.
Section Fit.
  Variables (deref : obj -> res obj) (normalized_ref : obj -> res json).
  Lemma request_body_nodup o body c cs b' : to_request_body deref o body c cs = Ok b' -> NoDup (keys (subd "content" (old_body body))) -> NoDup (keys (subd "content" b')) /\ lookup "content" b' <> None.
  Proof.
    unfold to_request_body. intros H N. replace (match body with Some b => b | None => [] end) with (old_body body) in H by (destruct body; reflexivity). apply bind_ok in H as (ct & Ec & H).
    assert (Nc : NoDup (keys ct)). { unfold get_dict in Ec. unfold subd in N. destruct (lookup "content" (old_body body)) as [[]|]; try discriminate; injection Ec as <-; [exact N|constructor]. }
    apply bind_ok in H as (r & Er & H). apply bind_ok in H as (rq & Eq & H). cbv zeta in H.
    assert (Fin : forall (d ct' : dict), NoDup (keys ct') -> NoDup (keys (subd "content" (dict_set "content" (JDict ct') d))) /\ lookup "content" (dict_set "content" (JDict ct') d) <> None).
    { intros d ct' Nd. rewrite sub_set_same, BodyFacts.lookup_set. split; [exact Nd|discriminate]. }
    destruct (is_file c || is_form c).
    - apply bind_ok in H as (ct' & Ef & H). injection H as <-. apply Fin. refine (foldM_keep (fun c0 : dict => NoDup (keys c0)) _ _ _ _ _ Ef Nc). intros b a b' E Nb. apply bind_ok in E as (m & _ & E). apply bind_ok in E as (m' & _ & E). injection E as <-. now apply nodup_dict_set.
    - destruct (is_body c); [|discriminate]. destruct body; [discriminate|]. apply bind_ok in H as (fs & _ & H). apply bind_ok in H as (ct' & Ef & H). injection H as <-. apply Fin. refine (foldM_keep (fun c0 : dict => NoDup (keys c0)) _ _ _ _ _ Ef Nc). intros b a b' E Nb.
      apply bind_ok in E as (m & _ & E). apply bind_ok in E as (sc & _ & E). apply bind_ok in E as (s & _ & E). injection E as <-. now apply nodup_dict_set.
  Qed.
  Lemma from_parameter_fits p q o body cs d c : good_refs (JDict p) -> good_refs (JDict q) -> param_given deref p q o -> usable deref q -> body_ok (old_body body) -> body_fits (old_body body) -> from_parameter deref o body cs = Ok (d, c) ->
    if is_body c then body_fits d /\ lookup "content" d <> None else fits_param (JDict d).
  Proof.
    intros Gp Gq G U Bo Bf H. destruct U as [[P M]|[Fp|(Bp & W & R)]].
    - pose proof (from_parameter_kind deref p q o body cs d c G H) as K. rewrite M in K. rewrite K. apply (kept_fits p q _ Gp); [|exact (from_parameter_kept deref p q o body cs d c G P M H)].
      destruct (is_reference p) eqn:Ir; [now left|right]. destruct G as (r & _ & _ & _ & X). rewrite Ir in X. destruct X as [-> _]. auto.
    - rewrite (form_from deref p q o body cs G Fp) in H. pose proof Fp as (Pd & Hi & Hs & n & Hn). apply bind_ok in H as (b & Eb & H). injection H as <- <-.
      replace (is_body (form_ctx q)) with true by (unfold form_ctx; destruct (is_file_param q); reflexivity).
      destruct (request_body_nodup o body (form_ctx q) cs b Eb (proj1 (proj2 Bf))) as [Nd Hc]. split; [|exact Hc].
      destruct (request_body_step deref p q o n body cs G Fp Hn Bo) as [(b0 & E0 & St & _)|[E0 _]]; [|congruence]. assert (b0 = b) by congruence. subst b0.
      destruct St as (Bo' & S1 & S2 & S3 & S4). destruct Bf as (O & _ & F). split; [|split; [exact Nd|]].
      + intros k Nk. destruct (String.eqb_spec k "content") as [->|N1]; [destruct Nk; cbn; auto|]. destruct (String.eqb_spec k "required") as [->|N2]; [destruct Nk; cbn; auto|]. rewrite S4 by assumption. now apply O.
      + intros t x L. destruct (sends cs t (p, q)) eqn:Es.
        * apply sends_spec in Es. cbn [snd] in Es. destruct (S1 t Es) as (_ & Ms). destruct Bo' as (_ & Bc'). pose proof (proj1 (Bc' t)) as Dn. rewrite L in Dn. destruct x as [| | | | | |m']; try destruct Dn.
          assert (Em : media t b = m') by (unfold media, subd at 1; now rewrite L). rewrite Em in Ms. eapply media_step_fits; [exact Gp|exact Pd|exact (proj2 (proj2 Bo t))|exact Ms|].
          change (subd t (subd "content" (old_body body))) with (media t (old_body body)). unfold media, subd at 1. destruct (lookup t (subd "content" (old_body body))) as [y|] eqn:Ey; [|exact media_empty].
          pose proof (proj1 (proj2 Bo t)) as Dy. rewrite Ey in Dy. destruct y; try destruct Dy. exact (F _ _ Ey).
        * rewrite S2 in L; [exact (F _ _ L)|]. intros X. apply (proj2 (sends_spec cs t (p, q))) in X. congruence.
    - rewrite (body_from deref p q o body cs G Bp R) in H. apply bind_ok in H as (b & Eb & H). injection H as <- <-. cbn [is_body]. destruct body as [b1|]; [rewrite (request_body_second deref p q o b1 cs G Bp Bo) in Eb; discriminate|].
      destruct (request_body_nodup o None _ cs b Eb (proj1 (proj2 Bf))) as [Nd Hc]. split; [|exact Hc]. destruct (request_body_first deref p q o cs G Bp W) as (b0 & E0 & (I1 & I2 & I3 & I4 & I5) & _). assert (b0 = b) by congruence. subst b0.
      split; [exact I5|]. split; [exact Nd|]. intros t x L. destruct (in_dec string_dec t (body_media_types cs)) as [It|It]; [|rewrite (I2 t It) in L; discriminate].
      destruct (I1 t It) as (s & Es & Im). assert (x = JDict [("schema", s)]) by congruence. subst x. destruct Bp as ((_ & Sd & _) & _ & _ & Ns). destruct Sd as [Sd|Sd]; [contradiction|].
      apply media_children. split; [|split; [reflexivity|]]; intros v Lv; try discriminate Lv. cbn [lookup String.eqb Ascii.eqb Bool.eqb] in Lv. injection Lv as <-. intros _. exact (schema_image_fits _ _ Sd (refs_val _ q "schema" Gq) Im).
  Qed.
  Lemma params_fit : forall ps os i cs kept body kept' body' moved, usable_given deref ps os -> Forall (fun pq => good_refs (JDict (fst pq)) /\ good_refs (JDict (snd pq))) ps -> body_ok (old_body body) -> body_fits (old_body body) -> (body <> None -> lookup "content" (old_body body) <> None) ->
    Forall fits_param kept -> convert_params deref os i cs kept body = Ok (kept', body', moved) ->
    Forall fits_param kept' /\ body_ok (old_body body') /\ body_fits (old_body body') /\ (body' <> None -> lookup "content" (old_body body') <> None).
  Proof.
    induction ps as [|[p q] ps IH]; intros os i cs kept body kept' body' moved G GR Bo Bf Bc Fk H; inversion G as [|? o ? os' [Gp U] G' E1 E2]; subst; cbn [convert_params] in H; [injection H as <- <- <-; auto|]. inversion GR as [|? ? [Gr1 Gr2] GR']; subst.
    cbn [fst snd] in *. apply bind_ok in H as ([d c] & E & H). cbn [fst snd] in H. pose proof (from_parameter_fits p q o body cs d c Gr1 Gr2 Gp U Bo Bf E) as Ff. destruct (is_body c) eqn:Ib.
    - pose proof (from_parameter_body_ok deref p q o body cs d c Gp U Bo E Ib) as Bd. destruct Ff as [F1 F2]. apply bind_ok in H as ([[k b] m] & Ec & H). injection H as <- <- <-.
      exact (IH os' (S i) cs kept (Some d) k b m G' GR' Bd F1 (fun _ => F2) Fk Ec).
    - refine (IH os' (S i) cs (kept ++ [JDict d])%list body kept' body' moved G' GR' Bo Bf Bc _ H). apply Forall_app. split; [exact Fk|]. constructor; [exact Ff|constructor].
  Qed.
  Lemma response_fits pr p q x : good_refs (JDict p) -> good_refs (JDict q) -> response_doc q -> response_result pr p q x -> (forall ct, lookup "content" x = Some (JDict ct) -> NoDup (keys ct)) -> fits (BRefElse "Reference" (BCls "Response")) (JDict x).
  Proof.
    intros Gp Gq (Ds & Dh) H Nc. unfold response_result in H. destruct (is_reference p && _) eqn:Er; [subst x; apply andb_prop in Er as [Er _]; apply (fits_ref _ _ (val p "$ref")); [reflexivity|now apply refs_mem]|].
    destruct H as (_ & H1 & H2 & H3 & H4 & H5 & O). set (ks := ["description"; "content"; "headers"]) in *. apply (fits_noref _ _ ks _ O eq_refl). apply (fits_class "Response" v30_Response ks x eq_refl eq_refl O); [|constructor].
    change (kids_of30 v30_Response ks) with [mk_child "headers" (BMapOf (BRefElse "Reference" (BCls "Header"))) false; mk_child "content" (BMapOf (BCls "MediaType")) false].
    apply Forall_cons; [|apply Forall_cons; [|constructor]]; kid L.
    - destruct Dh as [Dh|(hs & Dh & Fh)]; [rewrite H4 in L by (now left); discriminate|]. destruct hs as [|a hs]; [rewrite H4 in L by (now right); discriminate|]. destruct (H5 _ Dh ltac:(discriminate)) as (hs' & E & F2). assert (v = JDict hs') by congruence. subst v.
      apply ti_map. intros k y Iy. clear -F2 Iy Fh. revert Fh. induction F2 as [|u w l l' (_ & h & h' & Eu & Ew & Im) F2 IH]; intros Fh; [destruct Iy|]. inversion Fh as [|? ? (h0 & E0 & Di) Fh']; subst. destruct Iy as [Ei|Iy]; [|now apply IH].
      subst w. cbn [snd] in Ew. subst y. assert (h0 = h) by congruence. subst h0. exact (header_fits h h' Di Im).
    - destruct Ds as [Ds|Ds]; [rewrite (H1 Ds) in L; discriminate|]. assert (X : exists s, val q "schema" = JDict s) by (clear -Ds; inversion Ds; eauto). destruct X as [s Es]. pose proof (refs_val _ q "schema" Gq) as Gs. rewrite Es in Ds, Gs.
      destruct (json_is_str "file" (val s "type")) eqn:Ef.
      + apply json_is_str_spec in Ef. rewrite (H2 s Es Ef) in L. injection L as <-. apply ti_map. intros k y [E|[]]. injection E as <- <-. apply media_children. split; [|split]; try discriminate; reflexivity.
      + apply json_is_str_no in Ef. destruct (H3 s Es Ef) as (ct & E & I1 & I2). assert (v = JDict ct) by congruence. subst v. pose proof (Nc ct E) as N. apply ti_map. intros t y Iy. apply in_lookup_wf in Iy; [|exact N].
        destruct (in_dec string_dec t (response_types q pr)) as [It|It]; [|rewrite (I2 t It) in Iy; discriminate]. destruct (I1 t It) as (s' & E' & Im). assert (y = JDict [("schema", s')]) by congruence. subst y.
        apply media_children. split; [|split; [reflexivity|]]; intros v Lv; try discriminate Lv. cbn [lookup String.eqb Ascii.eqb Bool.eqb] in Lv. injection Lv as <-. intros _. exact (schema_image_fits _ _ Ds Gs Im).
  Qed.
  Lemma response_nodup o pr x : to_response deref o pr = Ok x -> forall ct, lookup "content" x = Some (JDict ct) -> NoDup (keys ct).
  Proof.
    unfold to_response. intros H. apply bind_ok in H as (ref & Er & H). apply bind_ok in H as (r & Dr & H). apply bind_ok in H as (sc & Gs & H). destruct (truthy ref && _); [injection H as <-; cbn [lookup]; discriminate|].
    apply bind_ok in H as (fs & Ef & H). apply bind_ok in H as (sc2 & G2 & H). apply bind_ok in H as (ret & Hr & H).
    assert (Nf : forall ct, lookup "content" fs = Some (JDict ct) -> NoDup (keys ct)).
    { assert (X : lookup "content" fs = None); [|congruence]. revert Ef. unfold generate_fields. cbn [foldM]. intros Ef. apply bind_ok in Ef as (fs' & Ef & E'). injection E' as <-. apply bind_ok in Ef as (v & _ & Ef). injection Ef as <-. destruct (is_null v); reflexivity. }
    assert (Nr : forall ct, lookup "content" ret = Some (JDict ct) -> NoDup (keys ct)).
    { destruct (truthy_obj sc2); [|injection Hr as <-; exact Nf]. apply bind_ok in Hr as (ty & _ & Hr). cbv zeta in Hr. destruct (json_is_str "file" ty).
      - injection Hr as <-. intros ct. rewrite BodyFacts.lookup_set. cbn [String.eqb Ascii.eqb Bool.eqb]. intros E. apply (f_equal (fun z => match z with Some (JDict c) => c | _ => [] end)) in E. cbn beta iota in E. subst ct. repeat constructor. intros [].
      - apply bind_ok in Hr as (ct0 & Ec & Hr). injection Hr as <-. intros ct. rewrite BodyFacts.lookup_set. cbn [String.eqb Ascii.eqb Bool.eqb]. intros E. apply (f_equal (fun z => match z with Some (JDict c) => c | _ => [] end)) in E. cbn beta iota in E. subst ct0.
        refine (foldM_keep (fun c0 : dict => NoDup (keys c0)) _ _ _ _ _ Ec (NoDup_nil string)). intros b a b' E' Nb. apply bind_ok in E' as (s & _ & E'). injection E' as <-. now apply nodup_dict_set. }
    apply bind_ok in H as (hs & _ & H). destruct (truthy_obj hs); [|injection H as <-; exact Nr]. apply bind_ok in H as (es & _ & H). apply bind_ok in H as (hd & _ & H). injection H as <-. intros ct. rewrite BodyFacts.lookup_set. cbn [String.eqb Ascii.eqb Bool.eqb]. apply Nr.
  Qed.
End Fit.
End Shapes.
