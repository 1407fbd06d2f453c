(** Proofs about headers, responses, operations. *)
From Coq Require Import String Ascii List Bool Arith Lia.
From Verif Require Import PyStr PyStrFacts PyVal PyValFacts Jp UrlLib Obj ObjFacts Classes_v2_0 TablesFacts SpecJson ShapeFacts DumpFacts SpecObj SpecSchema SpecConv SpecBody SpecOp Store Conv20 ConvFacts SchemaFacts SchemaFacts2 ParamFacts BodyFacts BodyFacts2 ParamListFacts ParamListFacts2.
Import ListNotations.
Open Scope string_scope. Open Scope nat_scope.

(** ** raw containers *)
Inductive raw : builder -> Prop := raw_str : raw BStr | raw_list b : raw b -> raw (BListOf b) | raw_map b : raw b -> raw (BMapOf b).
Lemma raw_dump b : raw b -> forall j o, loaded b j o -> dump_elem v20_table o = Ok j.
Proof.
  induction 1 as [|b Hb IH|b Hb IH]; intros j o L.
  - destruct (loaded_str _ _ L) as (s & -> & ->). reflexivity.
  - destruct (loaded_list _ _ _ L) as (l & p & es & -> & -> & F). cbn [dump_elem]. rewrite dump_list_eq.
    assert (E1 : mapM (dump_elem v20_table) es = Ok l) by (clear L; induction F as [|x e l es Lx F IHF]; [reflexivity|]; cbn [mapM]; rewrite (IH _ _ Lx); cbn [bind]; now rewrite IHF).
    destruct es as [|e es]; [cbn in E1; injection E1 as <-; reflexivity|].
    assert (D : (b = BStr /\ Forall (fun e => exists j, e = OPrim j) (e :: es)) \/ Forall (fun e => forall j, e <> OPrim j) (e :: es)).
    { destruct Hb.
      - left. split; [reflexivity|]. clear -F. induction F as [|x y l m Lx F IHF]; constructor; [destruct (loaded_str _ _ Lx) as (s & _ & ->); eauto|exact IHF].
      - right. clear -F. induction F as [|x y l m Lx F IHF]; constructor; [destruct (loaded_list _ _ _ Lx) as (? & ? & ? & _ & -> & _); discriminate|exact IHF].
      - right. clear -F. induction F as [|x y l m Lx F IHF]; constructor; [destruct (loaded_map _ _ _ Lx) as (? & ? & ? & _ & -> & _); discriminate|exact IHF]. }
    destruct D as [[_ D]|D].
    + inversion D as [|? ? [j0 Ej] _]; subst e. assert (E2 : mapM bare (OPrim j0 :: es) = Ok l).
      { rewrite <- E1. clear -D. induction D as [|x m [j ->] D IHD]; [reflexivity|]. cbn [mapM bare dump_elem bind]. now rewrite IHD. }
      rewrite E2. reflexivity.
    + assert (E2 : mapM (dump v20_table) (e :: es) = Ok l).
      { rewrite <- E1. clear -D. induction D as [|x m Hx D IHD]; [reflexivity|]. cbn [mapM]. rewrite IHD. destruct x; [now contradiction (Hx j)|reflexivity..]. }
      inversion D as [|? ? N _]; subst. rewrite E2. destruct e; [now contradiction (N j)|reflexivity..].
  - destruct (loaded_map _ _ _ L) as (l & p & es & -> & -> & F). cbn [dump_elem]. rewrite dump_map_eq.
    assert (E : mapM (fun ke => v <- dump_elem v20_table (snd ke) ;; Ok (fst ke, v)) es = Ok l).
    { clear L. induction F as [|[k x] [k' e] l es [Ek Lx] F IHF]; [reflexivity|]. cbn [mapM fst snd] in *. rewrite (IH _ _ Lx). cbn [bind]. rewrite IHF. cbn [bind]. now subst. }
    rewrite E. reflexivity.
Qed.
Lemma list_dump b j o : raw b -> loaded (BListOf b) j o -> dump v20_table o = Ok j.
Proof. intros R L. pose proof (raw_dump _ (raw_list _ R) _ _ L) as H. destruct (loaded_list _ _ _ L) as (l & p & es & -> & -> & F). exact H. Qed.
Lemma map_dump b j o : raw b -> loaded (BMapOf b) j o -> dump v20_table o = Ok j.
Proof. intros R L. pose proof (raw_dump _ (raw_map _ R) _ _ L) as H. destruct (loaded_map _ _ _ L) as (l & p & es & -> & -> & F). exact H. Qed.
Lemma strs_texts j o : loaded (BListOf BStr) j o -> strs o = texts j.
Proof.
  intros L. destruct (loaded_list _ _ _ L) as (l & p & es & -> & -> & F). cbn [strs texts]. clear L. induction F as [|x e l es Lx F IH]; [reflexivity|].
  destruct (loaded_str _ _ Lx) as (s & -> & ->). cbn [flat_map]. now rewrite IH.
Qed.
Lemma child_strs c d o name : loaded (BCls c) (JDict d) o -> child_builder c name = Some (BListOf BStr) -> exists x, gattr o name = Ok x /\ strs x = texts (val d name) /\ truthy_obj x = match texts (val d name) with [] => false | _ => true end.
Proof.
  intros L C. destruct (gattr_child c d o name _ L C) as [[Hv G]|(Hv & ko & G & Lk & _)].
  - exists (OPrim JNull). rewrite Hv. auto.
  - exists ko. split; [exact G|]. rewrite <- (strs_texts _ _ Lk). split; [reflexivity|]. destruct (loaded_list _ _ _ Lk) as (l & p & es & Ev & -> & F).
    destruct es as [|e es]; [reflexivity|]. inversion F as [|x ? ? ? Lx]; subst. destruct (loaded_str _ _ Lx) as (s & _ & ->). reflexivity.
Qed.

(** ** headers *)
Lemma to_header_ok h o x : loaded (BCls "Header") (JDict h) o -> (val h "items" = JNull \/ items_doc (val h "items")) -> to_header o = Ok x -> header_image h x.
Proof.
  intros L Hi. unfold to_header. destruct (generate_fields_ok o (val h) ["description"]) as (fs & -> & Nf & F).
  { intros n [<-|[]]. exact (gfield_none_val "Header" h o "description" L eq_refl). }
  cbn [bind]. destruct (base_fields "Header" h o eq_refl eq_refl L) as (bs & -> & Nb & B). cbn [bind].
  destruct (items_of "Header" h o eq_refl L Hi) as (it & io & -> & Ei & X1 & X2). cbn [bind]. rewrite Ei. cbn [bind]. clear Ei.
  pose proof (items_image_of h bs it B X1 X2) as Im. set (sch := opt_set "items" it bs) in *. clearbody sch.
  set (ret := dict_set "schema" (JDict sch) fs).
  assert (R1 : forall k, lookup k ret = if String.eqb "schema" k then Some (JDict sch) else lookup k fs) by (intros k; apply lookup_set).
  rewrite (is_set_val "Header" h o _ L ltac:(discriminate)). cbn [bind]. intros H.
  assert (R3 : forall k, lookup k x = if String.eqb "style" k then option_map JStr (fst (style_of h (JStr "header"))) else if String.eqb "explode" k then option_map JBool (snd (style_of h (JStr "header"))) else lookup k ret).
  { intros k. assert (S1 : lookup "style" ret = None) by (rewrite R1; cbn; rewrite F; reflexivity). assert (S2 : lookup "explode" ret = None) by (rewrite R1; cbn; rewrite F; reflexivity).
    unfold mem in H. destruct (lookup "collectionFormat" h) as [v|] eqn:Ec.
    - rewrite (collection_format "Header" h o eq_refl L), Ec in H. cbn [bind] in H. apply bind_ok in H as (ty & _ & H). apply bind_ok in H as (se & E & H). injection H as <-. apply style_result in E. subst se.
      assert (Es : style_of h (JStr "header") = style_spec v (JStr "header")) by (unfold style_of, style_spec, style_lookup; rewrite Ec; destruct v; reflexivity). rewrite Es. now apply put_style_lookup.
    - injection H as <-. assert (Es : style_of h (JStr "header") = no_style) by (unfold style_of; now rewrite Ec). rewrite Es. cbn [no_style fst snd option_map].
      destruct (String.eqb_spec "style" k) as [<-|]; [exact S1|]. destruct (String.eqb_spec "explode" k) as [<-|]; [exact S2|reflexivity]. }
  split; [rewrite R3, R1, F; reflexivity|]. split; [exists (JDict sch); split; [rewrite R3, R1; reflexivity|exact Im]|]. split; [rewrite R3; reflexivity|]. split; [rewrite R3; reflexivity|].
  intros k Hk. rewrite R3, R1, F. repeat match goal with |- context [String.eqb ?s k] => destruct (String.eqb_spec s k) as [<-|?]; [destruct Hk; in_list|] end.
  destruct (in_dec string_dec k ["description"]) as [[<-|[]]|]; [destruct Hk; in_list|reflexivity].
Qed.

(** ** responses *)
Lemma fold_set {A} (f : A -> res dict) (g : string * A -> string) : forall es acc xs,
  foldM (fun acc kv => x <- f (snd kv) ;; Ok (dict_set (fst kv) (JDict x) acc)) es acc = Ok xs ->
  NoDup (keys acc ++ map fst es) -> exists ys, xs = (acc ++ ys)%list /\ Forall2 (fun kv y => fst kv = fst y /\ exists d, f (snd kv) = Ok d /\ snd y = JDict d) es ys.
Proof.
  induction es as [|[k a] es IH]; intros acc xs H N; cbn [foldM] in H; [injection H as <-; exists []; rewrite app_nil_r; split; [reflexivity|constructor]|].
  apply bind_ok in H as (acc' & H0 & H). apply bind_ok in H0 as (x & Ex & H0). injection H0 as <-. cbn [fst snd] in *.
  assert (Fr : lookup k acc = None). { apply PyValFacts.lookup_none. intros X. cbn [map fst] in N. apply NoDup_remove_2 in N. apply N. apply in_or_app. now left. }
  rewrite dict_set_fresh in H by exact Fr. destruct (IH _ _ H) as (ys & -> & F).
  - unfold keys. rewrite map_app. cbn [map fst]. rewrite <- app_assoc. exact N.
  - exists ((k, JDict x) :: ys). rewrite <- app_assoc. split; [reflexivity|]. constructor; [cbn; eauto|exact F].
Qed.
Section Resp.
  Variable deref : obj -> res obj.
  Local Notation response_given := (SpecGiven.response_given deref).
  (** the response written [p], whose reference (if any) leads to [q] *)
  Lemma fold_content so s : to_schema false so = Ok s -> forall types ct,
    exists ct', foldM (fun ct (ty : string) => s <- to_schema false so ;; Ok (dict_set ty (JDict [("schema", JDict s)]) ct)) types ct = Ok ct' /\
      forall t, lookup t ct' = if in_dec string_dec t types then Some (JDict [("schema", JDict s)]) else lookup t ct.
  Proof.
    intros Es. match goal with |- forall types ct, exists ct', foldM ?g _ _ = _ /\ _ => set (f := g) end.
    induction types as [|ty types IH]; intros ct; [exists ct; split; [reflexivity|intros t; reflexivity]|]. cbn [foldM]. unfold f at 1. rewrite Es. cbn [bind].
    destruct (IH (dict_set ty (JDict [("schema", JDict s)]) ct)) as (ct' & E & F). exists ct'. split; [exact E|]. intros t. rewrite F, lookup_set. destruct (in_dec string_dec t types) as [I|I].
    + destruct (in_dec string_dec t (ty :: types)) as [_|N]; [reflexivity|destruct N; now right].
    + destruct (String.eqb_spec ty t) as [->|Nt].
      * destruct (in_dec string_dec t (t :: types)) as [_|N]; [reflexivity|destruct N; now left].
      * destruct (in_dec string_dec t (ty :: types)) as [[->|X]|_]; [contradiction|contradiction|reflexivity].
  Qed.
  Lemma to_response_ok p q o pr x : response_given p q o -> response_doc q -> wf_json (JDict q) -> to_response deref o pr = Ok x -> response_result pr p q x.
  Proof.
    intros (r & Dr & L & Rk & Hp) (Hs & Hh) W. unfold to_response, response_result.
    assert (Er : gfield_none o "$ref" = Ok (if is_reference p then val p "$ref" else JNull) /\ (is_reference p = true -> truthy (val p "$ref") = true)).
    { destruct (is_reference p) eqn:E.
      - split; [exact (gfield_none_val "Reference" p o "$ref" Hp eq_refl)|]. intros _. unfold is_reference, mem in E. destruct (lookup "$ref" p) as [v|] eqn:Lk; [|discriminate]. rewrite (val_some _ _ _ Lk). now apply Rk.
      - destruct Hp as [-> ->]. split; [exact (gfield_none_val "Response" p o "$ref" L eq_refl)|discriminate]. }
    destruct Er as [-> Et]. cbn [bind]. rewrite Dr. cbn [bind].
    assert (Gs : exists sc, gattr r "schema" = Ok sc /\ ((val q "schema" = JNull /\ sc = OPrim JNull) \/
              (val q "schema" <> JNull /\ loaded (BCls "Schema") (val q "schema") sc /\ truthy_obj sc = true))).
    { destruct (gattr_child "Response" q r "schema" _ L eq_refl) as [[Hv G]|(Hv & ko & G & Lk & _)]; [exists (OPrim JNull); auto|]. exists ko. split; [exact G|]. right.
      split; [exact Hv|]. split; [exact Lk|]. now apply (loaded_cls_truthy "Schema" _ _ ltac:(discriminate) Lk). }
    destruct Gs as (sc & Eg & Cs). rewrite Eg.
    set (tr := truthy (if is_reference p then val p "$ref" else JNull)).
    assert (Etr : tr = is_reference p) by (unfold tr; destruct (is_reference p); [now apply Et|reflexivity]).
    assert (Esc : (sc0 <- (if tr then Ok sc else Ok (OPrim JNull)) ;; if tr && negb (truthy_obj sc0) then Ok [("$ref", if is_reference p then val p "$ref" else JNull)] else Err OutOfFuel) =
                  if is_reference p && match val q "schema" with JNull => true | _ => false end then Ok [("$ref", val p "$ref")] else Err OutOfFuel).
    { rewrite Etr. destruct (is_reference p); cbn [bind andb]; [|reflexivity]. destruct Cs as [[Hv ->]|(Hv & _ & T)].
      - rewrite Hv. reflexivity.
      - rewrite T. destruct (val q "schema"); [contradiction|reflexivity..]. }
    assert (Ec : is_reference p && match val q "schema" with JNull => true | _ => false end = tr && negb (truthy_obj (if tr then sc else OPrim JNull))).
    { rewrite Etr. destruct (is_reference p); cbn [andb]; [|reflexivity]. destruct Cs as [[-> ->]|(Hv & _ & T)]; [reflexivity|]. rewrite T. destruct (val q "schema"); [contradiction|reflexivity..]. }
    clear Esc. rewrite Ec. replace (if tr then Ok sc else Ok (OPrim JNull)) with (Ok (if tr then sc else OPrim JNull)) by (destruct tr; reflexivity). cbn [bind].
    destruct (tr && negb (truthy_obj (if tr then sc else OPrim JNull))) eqn:Ed.
    { intros H. injection H as <-. apply andb_true_iff in Ed as [Ed _]. rewrite Etr in Ed. now rewrite Ed. }
    clear Ed Ec. destruct (generate_fields_ok r (val q) ["description"]) as (fs & -> & Nf & F).
    { intros n [<-|[]]. exact (gfield_none_val "Response" q r "description" L eq_refl). }
    cbn [bind]. intros H. apply bind_ok in H as (ret1 & H1 & H).
    assert (R1 : (exists c, (forall k, lookup k ret1 = if String.eqb "content" k then c else lookup k fs) /\
        ((val q "schema" = JNull -> c = None) /\
  (forall s, val q "schema" = JDict s -> val s "type" = JStr "file" ->
     c = Some (JDict [("application/octet-stream", JDict [("type", JStr "string"); ("format", JStr "binary")])])) /\
  (forall s, val q "schema" = JDict s -> val s "type" <> JStr "file" ->
     exists ct, c = Some (JDict ct) /\
       (forall t, In t (response_types q pr) -> exists s', lookup t ct = Some (JDict [("schema", s')]) /\ schema_image (JDict s) s') /\
       (forall t, ~ In t (response_types q pr) -> lookup t ct = None))))).
    { assert (Fc : lookup "content" fs = None) by (rewrite F; reflexivity).
      destruct Cs as [[Hv ->]|(Hv & Ls & T)].
      - cbn [truthy_obj truthy] in H1. injection H1 as <-. exists None. split; [intros k; destruct (String.eqb_spec "content" k) as [<-|]; [exact Fc|reflexivity]|]. rewrite Hv. split; [reflexivity|]. split; discriminate.
      - destruct Hs as [?|Hs]; [contradiction|]. rewrite T in H1. pose proof (wf_val q "schema" W) as Ws. inversion Hs as [sd _ _ _ _ _ _ Ej]. rewrite <- Ej in *.
        rewrite (gfield_none_val "Schema" sd sc "type" Ls eq_refl) in H1. cbn [bind] in H1. change (fval "Schema" sd "type") with (val sd "type") in H1.
        destruct (json_is_str "file" (val sd "type")) eqn:Tf.
        + injection H1 as <-. eexists. split; [intros k; apply lookup_set|]. split; [discriminate|]. apply json_is_str_spec in Tf. split; [reflexivity|]. intros s E1 N. injection E1 as <-. contradiction.
        + apply json_is_str_no in Tf.
          destruct (to_schema_image (osize sc) _ sc Ws Hs Ls (le_n _)) as (s' & Es & Im).
          assert (Ety : (match pr with [] => [if json_is_str "object" (val sd "type") then "application/json" else "text/plain"] | _ => pr end) = response_types q pr).
          { unfold response_types. rewrite <- Ej, is_text_spec. destruct pr; [destruct (json_is_str "object" (val sd "type")); reflexivity|reflexivity]. }
          rewrite Ety in H1. destruct (fold_content sc s' Es (response_types q pr) []) as (ct & Eb & Fb). unfold to_schema in Eb, Es. unfold to_schema in H1. rewrite Eb in H1. cbn [bind] in H1. injection H1 as <-.
          eexists. split; [intros k; apply lookup_set|]. split; [discriminate|]. split; [intros s E1 Ef; injection E1 as <-; contradiction|].
          intros s E1 N. injection E1 as <-. exists ct. split; [reflexivity|]. split; intros t Ht; rewrite Fb; destruct (in_dec string_dec t (response_types q pr)); try contradiction; [eauto|reflexivity]. }
    destruct R1 as (c & Rc & C1 & C2 & C3).
    assert (R2 : exists hs, (forall k, lookup k x = if String.eqb "headers" k then hs else lookup k ret1) /\
      (val q "headers" = JNull \/ val q "headers" = JDict [] -> hs = None) /\
      (forall hd, val q "headers" = JDict hd -> hd <> [] -> exists hs', hs = Some (JDict hs') /\
         Forall2 (fun a b => fst a = fst b /\ exists h h', snd a = JDict h /\ snd b = JDict h' /\ header_image h h') hd hs')).
    { assert (Fh : lookup "headers" ret1 = None) by (rewrite Rc; cbn; rewrite F; reflexivity).
      assert (Fn : forall k, lookup k ret1 = (if String.eqb "headers" k then None else lookup k ret1)) by (intros k; destruct (String.eqb_spec "headers" k) as [<-|]; [exact Fh|reflexivity]).
      destruct (gattr_child "Response" q r "headers" _ L eq_refl) as [[Hv G]|(Hv & ko & G & Lk & _)]; rewrite G in H; cbn [bind] in H.
      - cbn [truthy_obj truthy] in H. injection H as <-. exists None. split; [exact Fn|]. rewrite Hv. split; [reflexivity|discriminate].
      - destruct (loaded_map _ _ _ Lk) as (hd & pp & es & Ev & -> & F2). destruct Hh as [?|(hd' & Ev' & Fd)]; [contradiction|]. assert (hd' = hd) by congruence. subst hd'.
        cbn [truthy_obj] in H. destruct es as [|e es].
        + injection H as <-. inversion F2; subst hd. exists None. split; [exact Fn|]. split; [reflexivity|]. intros hd E N. congruence.
        + cbn [entries bind] in H. apply bind_ok in H as (hs & Eh & H). injection H as <-.
          assert (Nk : map fst (e :: es) = map fst hd). { clear -F2. induction F2 as [|a b l m [E _] _ IHF]; [reflexivity|]. cbn [map]. congruence. }
          pose proof (wf_val q "headers" W) as Wh. rewrite Ev in Wh. apply wf_dict in Wh as [Nd _].
          destruct (fold_set to_header fst _ _ _ Eh) as (ys & -> & Fy); [change (NoDup (map fst (e :: es))); rewrite Nk; exact Nd|]. cbn [List.app].
          exists (Some (JDict ys)). split; [intros k; apply lookup_set|]. split.
          * intros [E|E]; [congruence|]. rewrite Ev in E. injection E as ->. discriminate Nk.
          * intros hd0 E0 _. assert (hd0 = hd) by congruence. subst hd0. exists ys. split; [reflexivity|]. clear -F2 Fy Fd.
            revert ys Fy Fd. induction F2 as [|a b l m [E La] F2 IHF]; intros ys Fy Fd; inversion Fy as [|? y ? ys' (Ey & d & Ed & Es) Fy']; subst; constructor.
            -- split; [congruence|]. inversion Fd as [|? ? (h & Eh & Hi) _]; subst. exists h, d. split; [exact Eh|]. split; [exact Es|]. rewrite Eh in La. exact (to_header_ok h _ d La Hi Ed).
            -- apply IHF; [exact Fy'|]. now inversion Fd. }
    destruct R2 as (hs & Rh & H2 & H3).
    assert (Lx : forall k, lookup k x = if String.eqb "headers" k then hs else if String.eqb "content" k then c else lookup k fs) by (intros k; rewrite Rh, Rc; reflexivity).
    split; [rewrite Lx, F; reflexivity|]. split; [intros E; rewrite Lx; cbn; auto|]. split; [intros s E1 E2; rewrite Lx; cbn; eauto|]. split; [intros s E1 E2; rewrite Lx; cbn; eauto|].
    split; [intros E; rewrite Lx; cbn; auto|]. split; [intros hd E1 E2; rewrite Lx; cbn; auto|].
    intros k Hk. rewrite Lx, F. repeat match goal with |- context [String.eqb ?s k] => destruct (String.eqb_spec s k) as [<-|?]; [destruct Hk; in_list|] end.
    destruct (in_dec string_dec k ["description"]) as [[<-|[]]|]; [destruct Hk; in_list|reflexivity].
  Qed.
End Resp.
