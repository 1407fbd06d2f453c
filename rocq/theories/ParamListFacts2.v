(** Proofs about lists of parameters: bodies, duplicates. *)
From Coq Require Import String Ascii List Bool Arith Lia.
From Verif Require Import PyStr PyStrFacts PyVal PyValFacts Jp UrlLib Obj ObjFacts Classes_v2_0 TablesFacts SpecJson ShapeFacts DumpFacts SpecObj SpecSchema SpecConv SpecBody Store Conv20 ConvFacts SchemaFacts SchemaFacts2 ParamFacts BodyFacts BodyFacts2 ParamListFacts.
Import ListNotations.
Open Scope string_scope. Open Scope nat_scope.

Lemma schema_image_parts s d' : schema_doc s -> schema_image s (JDict d') -> dict_or_none (lookup "properties" d') /\ list_or_none (lookup "required" d').
Proof.
  intros S Im. inversion S as [d Hit Hall Hpr Had Hx He Ej]; subst s.
  inversion Im as [d0 Tr E0 E1|d0 Tr Tf E0 E1|d0 d1 Tr Tf Hk Hr1 Hr2 Hi1 Hi2 Ha1 Ha2 Hp1 Hp2 Had1 Had2 Had3 Hd Hx1 Hx2 He1 He2 Hcl E0 E1]; subst; [split; exact I..|]. split.
  - destruct Hpr as [Hpr|(p & Ep & _)]; [rewrite Hp2 by auto; exact I|]. destruct p as [|y p]; [rewrite Hp2 by auto; exact I|]. destruct (Hp1 _ Ep) as (p' & -> & _); [discriminate|exact I].
  - destruct (val d "required") as [| | | | |[|y l]|] eqn:E; try (rewrite Hr2 by discriminate; exact I). rewrite (Hr1 y l eq_refl). exact I.
Qed.

Section Lists2.
  Variable deref : obj -> res obj.
  Local Notation schema_resolves := (SpecGiven.schema_resolves deref).
  Local Notation usable := (SpecGiven.usable deref).
  Local Notation usable_given := (SpecGiven.usable_given deref).

  (** the schema [s], after following references, has type "file" or not *)

  Lemma body_from p q o body cs : param_given deref p q o -> body_param q -> schema_resolves (val q "schema") false ->
    from_parameter deref o body cs = (b <- to_request_body deref o body (mk_pctx true false false) cs ;; Ok (b, mk_pctx true false false)).
  Proof.
    intros G (P & Hin & Ht & Hs) R. rewrite (from_parameter_eq deref p q o body cs G). destruct G as (r & Dr & L & _). unfold is_file_param. rewrite is_text_spec.
    apply json_is_str_no in Ht. rewrite Ht, Hin. cbn [is_text String.eqb Ascii.eqb Bool.eqb]. rewrite Dr. cbn [bind].
    destruct (gattr_child "Parameter" q r "schema" _ L eq_refl) as [[Hv _]|(_ & so & -> & Ls & _)]; [contradiction|]. cbn [bind].
    destruct (R so Ls) as (sr & sd & Ds & Lr & Hf). assert (Em : match so with OPrim _ => Ok so | _ => deref so end = Ok sr).
    { destruct (loaded_obj "Schema" v20_Schema _ _ eq_refl Ls) as (pp & kids & -> & _). exact Ds. }
    rewrite Em. cbn [bind]. rewrite (gattr_none_ok _ _ _ (gattr_field "Schema" sd sr "type" JNull Lr eq_refl)). cbn [bind]. fold (val sd "type"). rewrite <- is_text_spec, Hf. reflexivity.
  Qed.

  Lemma dict_set_twice k (a b : json) (d : dict) : dict_set k b (dict_set k a d) = dict_set k b d.
  Proof. induction d as [|[k' v] d IH]; cbn [dict_set]; [now rewrite String.eqb_refl|]. destruct (String.eqb k k') eqn:E; cbn [dict_set]; rewrite E; [reflexivity|now rewrite IH]. Qed.

  Lemma fold_body so s : to_schema false so = Ok s -> forall types ct,
    (forall t, In t types -> lookup t ct = None \/ lookup t ct = Some (JDict [("schema", JDict s)])) ->
    exists ct', foldM (fun ct ty => m <- get_dict ty ct ;; sc <- Ok so ;; s <- to_schema false sc ;; Ok (dict_set ty (JDict (dict_set "schema" (JDict s) m)) ct)) types ct = Ok ct' /\
      forall t, lookup t ct' = if in_dec string_dec t types then Some (JDict [("schema", JDict s)]) else lookup t ct.
  Proof.
    intros Es. match goal with |- forall types ct, _ -> exists ct', foldM ?g _ _ = _ /\ _ => set (f := g) end.
    induction types as [|ty types IH]; intros ct H; [exists ct; split; [reflexivity|intros t; reflexivity]|]. cbn [foldM]. unfold f at 1.
    assert (Eg : exists m, get_dict ty ct = Ok m /\ dict_set "schema" (JDict s) m = [("schema", JDict s)]).
    { unfold get_dict. destruct (H ty (or_introl eq_refl)) as [->| ->]; eexists; split; reflexivity. }
    destruct Eg as (m & -> & Em). cbn [bind]. rewrite Es. cbn [bind]. rewrite Em. destruct (IH (dict_set ty (JDict [("schema", JDict s)]) ct)) as (ct' & E & F).
    - intros t Ht. rewrite lookup_set. destruct (String.eqb_spec ty t); [now right|]. apply H; now right.
    - exists ct'. split; [exact E|]. intros t. rewrite F, lookup_set. destruct (in_dec string_dec t types) as [I|I].
      + destruct (in_dec string_dec t (ty :: types)) as [_|N]; [reflexivity|destruct N; now right].
      + destruct (String.eqb_spec ty t) as [->|Nt].
        * destruct (in_dec string_dec t (t :: types)) as [_|N]; [reflexivity|destruct N; now left].
        * destruct (in_dec string_dec t (ty :: types)) as [[->|X]|_]; [contradiction|contradiction|reflexivity].
  Qed.
  Lemma request_body_first p q o cs : param_given deref p q o -> body_param q -> wf_json (JDict q) ->
    exists b, to_request_body deref o None (mk_pctx true false false) cs = Ok b /\ body_image cs q b /\ body_ok b.
  Proof.
    intros G (P & Hin & Ht & Hs) W. destruct G as (r & Dr & L & _). unfold to_request_body. cbn [get_dict lookup bind]. rewrite Dr. cbn [bind is_file is_form is_body orb].
    rewrite (gfield_val "Parameter" q r "required" L eq_refl). cbn [bind]. rewrite (truthy_required q P).
    destruct (generate_fields_ok r (val q) ["description"]) as (fs & -> & Nf & F).
    { intros n [<-|[]]. exact (gfield_none_val "Parameter" q r "description" L eq_refl). }
    cbn [bind]. destruct (gattr_child "Parameter" q r "schema" _ L eq_refl) as [[Hv _]|(_ & so & Eg & Ls & _)]; [contradiction|].
    pose proof P as (_ & [?|Sd] & _); [contradiction|]. destruct (to_schema_image (osize so) _ so (wf_val q "schema" W) Sd Ls (le_n _)) as (s & Es & Im).
    rewrite Eg. destruct (fold_body so s Es (valid_mime_types (mk_pctx true false false) cs) []) as (ct' & -> & Fc); [intros; now left|]. cbn [bind].
    eexists. split; [reflexivity|].
    set (r0 := if required_param q then dict_set "required" (JBool true) [] else []).
    assert (Lr : forall k, lookup k (dict_update r0 fs) = if String.eqb "description" k then non_null (val q "description") else if String.eqb "required" k then (if required_param q then Some (JBool true) else None) else None).
    { intros k. rewrite dict_update_lookup by exact Nf. rewrite F. destruct (in_dec string_dec k ["description"]) as [[<-|[]]|N].
      - cbn. destruct (non_null (val q "description")); [reflexivity|]. unfold r0. destruct (required_param q); reflexivity.
      - destruct (String.eqb_spec "description" k) as [<-|]; [destruct N; now left|]. unfold r0. destruct (required_param q); cbn [dict_set lookup]; rewrite ?(String.eqb_sym k); destruct (String.eqb "required" k); reflexivity. }
    assert (Ety : valid_mime_types (mk_pctx true false false) cs = body_media_types cs) by (destruct cs; reflexivity). rewrite Ety in Fc.
    set (b := dict_set "content" (JDict ct') (dict_update r0 fs)). assert (Sc : subd "content" b = ct') by apply sub_set_same.
    split.
    - unfold body_image. rewrite Sc. split; [|split; [|split; [|split]]].
      + intros t Hi. exists (JDict s). rewrite Fc. destruct (in_dec string_dec t (body_media_types cs)); [split; [reflexivity|exact Im]|contradiction].
      + intros t Hi. rewrite Fc. destruct (in_dec string_dec t (body_media_types cs)); [contradiction|reflexivity].
      + unfold b. rewrite lookup_set, Lr. reflexivity.
      + unfold b. rewrite lookup_set, Lr. reflexivity.
      + intros k Hk. unfold b. rewrite lookup_set, Lr. repeat match goal with |- context [String.eqb ?s k] => destruct (String.eqb_spec s k) as [<-|?]; [destruct Hk; in_list|] end. reflexivity.
    - unfold body_ok. rewrite Sc. split; [unfold b; rewrite lookup_set; exact I|]. intros t. unfold subd. rewrite Fc.
      destruct (in_dec string_dec t (body_media_types cs)); cbn [lookup]; [|split; [exact I|unfold media_ok, subd; cbn; tauto]].
      split; [exact I|]. destruct (schema_image_parts _ _ Sd Im) as [A B]. unfold media_ok, subd. cbn. tauto.
  Qed.
  Lemma request_body_second p q o b cs : param_given deref p q o -> body_param q -> body_ok b ->
    to_request_body deref o (Some b) (mk_pctx true false false) cs = Err SchemaError.
  Proof.
    intros G _ [Bc _]. destruct G as (r & Dr & L & _). unfold to_request_body. rewrite (get_dict_sub "content" b Bc). cbn [bind]. rewrite Dr. cbn [bind].
    rewrite (gfield_val "Parameter" q r "required" L eq_refl). reflexivity.
  Qed.

  (** ** parameters of any kind *)
  Lemma convert_params_app os2 : forall os1 i cs kept body,
    convert_params deref (os1 ++ os2) i cs kept body =
    (x <- convert_params deref os1 i cs kept body ;; let '(k, b, m) := x in y <- convert_params deref os2 (i + length os1) cs k b ;; let '(k', b', m') := y in Ok (k', b', m ++ m'))%list.
  Proof.
    induction os1 as [|o os1 IH]; intros i cs kept body; cbn [List.app convert_params bind length].
    - rewrite Nat.add_0_r. destruct (convert_params deref os2 i cs kept body) as [[[k b] m]|]; reflexivity.
    - destruct (from_parameter deref o body cs) as [[d c]|]; cbn [bind fst snd]; [|reflexivity]. rewrite !IH.
      replace (i + S (length os1)) with (S i + length os1) by lia. destruct (is_body c); [|reflexivity].
      destruct (convert_params deref os1 (S i) cs kept (Some d)) as [[[k b] m]|]; cbn [bind]; [|reflexivity].
      destruct (convert_params deref os2 (S i + length os1) cs k b) as [[[k' b'] m']|]; reflexivity.
  Qed.
  Lemma from_parameter_body_ok p q o body cs b c : param_given deref p q o -> usable q -> body_ok (old_body body) ->
    from_parameter deref o body cs = Ok (b, c) -> is_body c = true -> body_ok b.
  Proof.
    intros G U Bo E Ib. destruct U as [[P M]|[Fp|(Bp & W & R)]].
    - rewrite (from_parameter_kind deref p q o body cs b c G E), M in Ib. discriminate.
    - rewrite (form_from deref p q o body cs G Fp) in E. apply bind_ok in E as (b0 & E & X). injection X as <- <-.
      pose proof Fp as (_ & _ & _ & n & Hn). destruct (request_body_step deref p q o n body cs G Fp Hn Bo) as [(b' & E' & (S & _) & _)|[E' _]]; congruence.
    - rewrite (body_from p q o body cs G Bp R) in E. apply bind_ok in E as (b0 & E & X). injection X as <- <-. destruct body as [b1|].
      + rewrite (request_body_second p q o b1 cs G Bp Bo) in E. discriminate.
      + destruct (request_body_first p q o cs G Bp W) as (b' & E' & _ & Ok'). congruence.
  Qed.
  Lemma convert_params_body_ok : forall ps os i cs kept body kept' body' moved, usable_given ps os -> body_ok (old_body body) ->
    convert_params deref os i cs kept body = Ok (kept', body', moved) -> body_ok (old_body body').
  Proof.
    induction ps as [|[p q] ps IH]; intros os i cs kept body kept' body' moved G Bo H; inversion G as [|? o ? os' [Gp P] G' E1 E2]; subst.
    - cbn in H. injection H as <- <- <-. exact Bo.
    - cbn [convert_params] in H. apply bind_ok in H as ([d c] & E & H). cbn [fst snd] in *. destruct (is_body c) eqn:Ib.
      + apply bind_ok in H as ([[k1 b1] m1] & Ec & H). injection H as <- <- <-. eapply (IH os' (S i) cs kept (Some d)); [exact G'| |exact Ec]. cbn [old_body].
        eapply (from_parameter_body_ok p q o body cs); eauto.
      + eapply IH; eauto.
  Qed.
  Lemma usable_doc q : usable q -> param_doc q.
  Proof. intros [[P _]|[(P & _)|((P & _) & _)]]; exact P. Qed.
  Lemma usable_all_given ps os : usable_given ps os -> all_given deref ps os.
  Proof. intros G. eapply Forall2_impl; [|exact G]. intros a b [H U]. split; [exact H|now apply usable_doc]. Qed.

  (** a plain body parameter after another merged parameter *)
  Lemma second_body_raises ps1 p q i cs kept body kept' body' moved os1 o os2 :
    usable_given ps1 os1 -> param_given deref p q o -> body_param q -> schema_resolves (val q "schema") false ->
    body_ok (old_body body) -> convert_params deref os1 i cs kept body = Ok (kept', Some body', moved) ->
    convert_params deref (os1 ++ o :: os2) i cs kept body = Err SchemaError.
  Proof.
    intros G Gp Bp R Bo H. rewrite convert_params_app, H. cbn [bind convert_params]. rewrite (body_from _ _ _ _ _ Gp Bp R).
    rewrite (request_body_second _ _ _ _ _ Gp Bp); [reflexivity|]. exact (convert_params_body_ok _ _ _ _ _ _ _ _ _ G Bo H).
  Qed.
  (** a form or file parameter after anything *)
  Lemma form_after ps1 p q o os1 os2 i cs kept body kept' body' moved n :
    usable_given ps1 os1 -> param_given deref p q o -> form_param q -> val q "name" = JStr n -> body_ok (old_body body) ->
    convert_params deref os1 i cs kept body = Ok (kept', body', moved) ->
    (exists b, convert_params deref (os1 ++ [o]) i cs kept body = Ok (kept', Some b, moved ++ [i + length os1])%list /\ body_step cs p q n (old_body body') b /\ ~ body_clash cs q n (old_body body')) \/
    (convert_params deref (os1 ++ o :: os2) i cs kept body = Err SchemaError /\ body_clash cs q n (old_body body')).
  Proof.
    intros G Gp Fp Hn Bo H. pose proof (convert_params_body_ok _ _ _ _ _ _ _ _ _ G Bo H) as Bo'.
    assert (Ib : is_body (form_ctx q) = true) by (unfold form_ctx; destruct (is_file_param _); reflexivity).
    destruct (request_body_step deref p q o n body' cs Gp Fp Hn Bo') as [(b & E & S & C)|[E C]]; [left; exists b|right]; rewrite convert_params_app, H; cbn [bind convert_params];
      rewrite (form_from deref _ _ _ _ _ Gp Fp), E; cbn [bind fst snd]; [|auto]. rewrite Ib. cbn [bind]. auto.
  Qed.
End Lists2.
