(** Proofs about operations. *)
From Coq Require Import String Ascii List Bool Arith Lia.
From Verif Require Import PyStr PyStrFacts PyVal PyValFacts Jp UrlLib Obj ObjFacts Classes_v2_0 TablesFacts SpecJson ShapeFacts DumpFacts SpecObj SpecSchema SpecConv SpecBody SpecOp Store Conv20 ConvFacts SchemaFacts SchemaFacts2 ParamFacts BodyFacts BodyFacts2 ParamListFacts ParamListFacts2 OpFacts.
Import ListNotations.
Open Scope string_scope. Open Scope nat_scope.

(** what is written [p] leads to [q]: [deref] of the object loaded from [p] is an object loaded from [q] *)
Lemma refers_param deref p q o : refers deref "Parameter" p q -> loaded (BRefElse "Reference" (BCls "Parameter")) (JDict p) o -> param_given deref p q o.
Proof.
  intros [Rk H] L. destruct (H o L) as (r & E & Lq & N). exists r. split; [exact E|]. split; [exact Lq|]. split; [exact Rk|]. apply loaded_ref_else in L. unfold is_reference in *.
  destruct (mem "$ref" p); [exact L|now apply N].
Qed.
Lemma refers_response deref p q o : refers deref "Response" p q -> loaded (BRefElse "Reference" (BCls "Response")) (JDict p) o -> response_given deref p q o.
Proof.
  intros [Rk H] L. destruct (H o L) as (r & E & Lq & N). exists r. split; [exact E|]. split; [exact Lq|]. split; [exact Rk|]. apply loaded_ref_else in L. unfold is_reference in *.
  destruct (mem "$ref" p); [exact L|now apply N].
Qed.

(** optional entries *)
Lemma opt_dump c d o name b : raw b -> loaded (BCls c) (JDict d) o -> child_builder c name = Some (BListOf b) ->
  exists x, gattr o name = Ok x /\ forall ret, (if truthy_obj x then (j <- dump v20_table x ;; Ok (dict_set name j ret)) else Ok ret) = Ok (opt_set name (nonempty_list (val d name)) ret).
Proof.
  intros R L C. destruct (gattr_child c d o name _ L C) as [[Hv G]|(Hv & ko & G & Lk & _)].
  - exists (OPrim JNull). split; [exact G|]. intros ret. rewrite Hv. reflexivity.
  - exists ko. split; [exact G|]. intros ret. rewrite (list_dump b _ _ R Lk). destruct (loaded_list _ _ _ Lk) as (l & p & es & -> & -> & F). destruct F; reflexivity.
Qed.
Lemma opt_docs c d o : loaded (BCls c) (JDict d) o -> child_builder c "externalDocs" = Some (BCls "ExternalDocumentation") ->
  (val d "externalDocs" = JNull \/ exists e, val d "externalDocs" = JDict e) ->
  exists x e, gattr o "externalDocs" = Ok x /\ (forall ret, (if truthy_obj x then (y <- to_external_docs x ;; Ok (dict_set "externalDocs" (JDict y) ret)) else Ok ret) = Ok (opt_set "externalDocs" e ret)) /\
    (val d "externalDocs" = JNull -> e = None) /\ (forall v, val d "externalDocs" = JDict v -> exists x', e = Some (JDict x') /\ docs_image v x').
Proof.
  intros L C H. destruct (gattr_child c d o "externalDocs" _ L C) as [[Hv G]|(Hv & ko & G & Lk & Sk)].
  - exists (OPrim JNull), None. split; [exact G|]. split; [reflexivity|]. rewrite Hv. split; [reflexivity|discriminate].
  - destruct H as [H|(v & He)]; [contradiction|]. exists ko. rewrite He in Lk. destruct (external_docs_ok _ _ Lk) as (x' & E' & Cx). exists (Some (JDict x')). split; [exact G|].
    split; [intros ret; rewrite (loaded_cls_truthy "ExternalDocumentation" _ _ ltac:(discriminate) Lk), E'; reflexivity|]. rewrite He. split; [discriminate|]. intros v0 E0. injection E0 as <-. eauto.
Qed.
Lemma some_list_opt name l ret : (match l with [] => ret | _ => dict_set name (JList l) ret end) = opt_set name (some_list l) ret.
Proof. destruct l; reflexivity. Qed.

Section Op.
  Variable deref : obj -> res obj.
  Local Notation params_at := (SpecGiven.params_at deref).
  Local Notation responses_at := (SpecGiven.responses_at deref).
  (** parameters and responses as written *)
  Lemma params_loaded c d o ps : loaded (BCls c) (JDict d) o -> child_builder c "parameters" = Some (BListOf (BRefElse "Reference" (BCls "Parameter"))) ->
    params_at (val d "parameters") ps ->
    exists x, gattr o "parameters" = Ok x /\ ((ps = [] /\ truthy_obj x = false) \/
      exists es, ps <> [] /\ truthy_obj x = true /\ elems x = Ok es /\ Forall2 (fun pq o => param_given deref (fst pq) (snd pq) o) ps es).
  Proof.
    intros L C [A F]. destruct (gattr_child c d o "parameters" _ L C) as [[Hv G]|(Hv & ko & G & Lk & _)].
    - exists (OPrim JNull). split; [exact G|]. left. destruct A as [[_ ->]|A]; [auto|congruence].
    - exists ko. split; [exact G|]. destruct A as [[A _]|A]; [contradiction|]. rewrite A in Lk. destruct (loaded_list _ _ _ Lk) as (l & p & es & El & -> & F2). injection El as <-.
      destruct ps as [|pq ps]; [left; split; [reflexivity|]; inversion F2; reflexivity|]. right. exists es. split; [discriminate|]. split; [cbn [map] in F2; inversion F2; reflexivity|]. split; [reflexivity|].
      clear A G Lk. revert es F2. induction F as [|a l Ha F IH]; intros es F2; cbn [map] in F2; inversion F2; subst; constructor; [now apply refers_param|auto].
  Qed.
  Lemma to_operation_ok d o ps rs body root pr cs x body' :
    loaded (BCls "Operation") (JDict d) o -> wf_json (JDict d) -> params_at (val d "parameters") ps -> responses_at (val d "responses") rs ->
    (val d "externalDocs" = JNull \/ exists e, val d "externalDocs" = JDict e) -> Forall (fun pq => param_doc (snd pq)) ps ->
    to_operation deref o body root pr cs = Ok (x, body') ->
    operation_image (fun s => with_scheme s root) pr d ps rs x /\
    (body' = None <-> body = None /\ forallb (fun pq => negb (is_merged (snd pq))) ps = true) /\
    (ps = [] -> body' = body) /\
    (ps <> [] -> exists es kept moved, Forall2 (fun pq o => param_given deref (fst pq) (snd pq) o) ps es /\
       convert_params deref es 0 (or_default (texts (val d "consumes")) cs) [] body = Ok (kept, body', moved)).
  Proof.
    intros L W Pa [Ra Rf] Ed Pd. unfold to_operation. destruct (generate_fields_ok o (val d) ["summary"; "description"; "operationId"; "deprecated"]) as (fs & -> & _ & F).
    { intros n Hn. repeat (destruct Hn as [<-|Hn]; [match goal with |- gfield_none o ?n = _ => exact (gfield_none_val "Operation" d o n L eq_refl) end|]). destruct Hn. }
    cbn [bind]. destruct (opt_dump "Operation" d o "tags" BStr raw_str L eq_refl) as (tg & -> & Et). cbn [bind]. rewrite Et. cbn [bind].
    destruct (opt_dump "Operation" d o "security" (BMapOf (BListOf BStr)) (raw_map _ (raw_list _ raw_str)) L eq_refl) as (se & -> & Es). cbn [bind]. rewrite Es. cbn [bind].
    set (ret1 := opt_set "security" _ _). destruct (params_loaded "Operation" d o ps L eq_refl Pa) as (px & -> & Hp). cbn [bind].
    assert (Ec : exists cx, gattr o "consumes" = Ok cx /\ or_else (strs cx) cs = or_default (texts (val d "consumes")) cs).
    { destruct (child_strs "Operation" d o "consumes" L eq_refl) as (cx & E & Sx & _). exists cx. split; [exact E|]. now rewrite Sx. }
    assert (Ep : exists prx, gattr o "produces" = Ok prx /\ or_else (strs prx) pr = or_default (texts (val d "produces")) pr).
    { destruct (child_strs "Operation" d o "produces" L eq_refl) as (cx & E & Sx & _). exists cx. split; [exact E|]. now rewrite Sx. }
    destruct Ec as (cx & Ecx & Ecs). destruct Ep as (prx & Epx & Eps). rewrite Ecx, Epx. cbn [bind]. rewrite Ecs, Eps.
    intros H. apply bind_ok in H as ([ret2 b2] & H2 & H). cbn [fst snd] in H.
    assert (X2 : exists ks, ret2 = opt_set "parameters" (some_list ks) ret1 /\ Forall2 (fun pq k => kept_image (fst pq) k) (filter (fun pq => negb (is_merged (snd pq))) ps) ks /\
      (b2 = None <-> body = None /\ forallb (fun pq => negb (is_merged (snd pq))) ps = true) /\ (ps = [] -> b2 = body) /\
      (ps <> [] -> exists es kept moved, Forall2 (fun pq o => param_given deref (fst pq) (snd pq) o) ps es /\
       convert_params deref es 0 (or_default (texts (val d "consumes")) cs) [] body = Ok (kept, b2, moved))).
    { destruct Hp as [[-> T]|(es & Np & T & E & G)]; rewrite T in H2.
      - injection H2 as <- <-. exists []. split; [reflexivity|]. split; [constructor|]. split; [cbn; tauto|]. split; [reflexivity|congruence].
      - rewrite E in H2. cbn [bind] in H2. apply bind_ok in H2 as ([[kept b] moved] & Ek & H2). injection H2 as <- <-.
        assert (Ga : all_given deref ps es). { unfold all_given. clear -G Pd. revert Pd. induction G; intros Pd; inversion Pd; subst; constructor; auto. }
        destruct (convert_params_split deref ps es 0 _ [] body kept b moved Ga Ek) as ((ks & -> & Fk) & Em & Eb). cbn [List.app] in *. exists ks.
        split; [apply some_list_opt|]. split; [exact Fk|]. split.
        + rewrite Eb, Em. split; intros [X1 X2]; (split; [exact X1|]).
          * clear -X2. revert X2. generalize 0. induction ps as [|pq ps IH]; intros i X2; [reflexivity|]. cbn [positions forallb] in *. unfold merges in X2. destruct (is_merged (snd pq)); [discriminate|]. cbn. eauto.
          * clear -X2. revert X2. generalize 0. induction ps as [|pq ps IH]; intros i X2; [reflexivity|]. cbn [positions forallb] in *. unfold merges. destruct (is_merged (snd pq)); [discriminate|]. cbn in X2. eauto.
        + split; [congruence|]. eauto. }
    clear H2. destruct X2 as (ks & -> & Fk & Eb & Ee & Ex). apply bind_ok in H as (rx & Gr & H). apply bind_ok in H as (ret3 & H3 & H).
    assert (X3 : exists rs', ret3 = opt_set "responses" (some_dict rs') (opt_set "parameters" (some_list ks) ret1) /\
      Forall2 (fun kr y => fst kr = fst y /\ exists r, snd y = JDict r /\ response_result (or_default (texts (val d "produces")) pr) (fst (snd kr)) (snd (snd kr)) r) rs rs').
    { destruct (gattr_child "Operation" d o "responses" _ L eq_refl) as [[Hv G]|(Hv & ko & G & Lk & _)]; rewrite G in Gr; injection Gr as <-.
      - cbn [truthy_obj truthy] in H3. injection H3 as <-. exists []. split; [reflexivity|]. destruct Ra as [[_ ->]|Ra]; [constructor|congruence].
      - destruct Ra as [[Ra _]|Ra]; [contradiction|]. rewrite Ra in Lk. destruct (loaded_map _ _ _ Lk) as (l & p & es & El & -> & F2). injection El as <-. destruct es as [|e es].
        + cbn [truthy_obj] in H3. injection H3 as <-. exists []. split; [reflexivity|]. inversion F2 as [Z|]. destruct rs; [constructor|discriminate].
        + cbn [truthy_obj entries bind] in H3. apply bind_ok in H3 as (xs & Hx & H3). injection H3 as <-.
          assert (Nk : map fst (e :: es) = map fst rs). { clear -F2. remember (e :: es) as m. clear Heqm. revert m F2. induction rs as [|a l IH]; intros m F2; inversion F2 as [|? ? ? ? [E _] F3]; subst; [reflexivity|]. cbn [map]. rewrite (IH _ F3). cbn in E. congruence. }
          pose proof (wf_val d "responses" W) as Wh. rewrite Ra in Wh. apply wf_dict in Wh as [Nd _]. unfold keys in Nd. rewrite map_map in Nd. cbn in Nd.
          destruct (fold_set (fun v => to_response deref v (or_default (texts (val d "produces")) pr)) fst _ _ _ Hx) as (ys & -> & Fy); [change (NoDup (map fst (e :: es))); rewrite Nk; exact Nd|]. cbn [List.app] in *.
          exists ys. split; [inversion Fy; reflexivity|]. clear -F2 Fy Rf. remember (e :: es) as m. clear Heqm. revert m ys F2 Fy. induction Rf as [|kr rs (R1 & R2 & R3) Rf IH]; intros m ys F2 Fy; cbn [map] in F2; inversion F2 as [|? ? ? ? [E La] F3]; subst; inversion Fy as [|? yy ? ys' (Ey & dd & Ed & Esy) Fy']; subst; constructor; [|eauto].
          cbn [fst snd] in *. split; [congruence|]. exists dd. split; [exact Esy|]. eapply to_response_ok; [exact (refers_response _ _ _ _ R1 La)|exact R2|exact R3|exact Ed]. }
    destruct X3 as (rs' & -> & Fr). clear H3 Gr rx.
    destruct (opt_docs "Operation" d o L eq_refl Ed) as (ex & e & Ge & Ee' & E1 & E2). rewrite Ge in H. cbn [bind] in H. rewrite Ee' in H. cbn [bind] in H. clear Ge Ee'.
    destruct (child_strs "Operation" d o "schemes" L eq_refl) as (sx & Gs & Ss & St). rewrite Gs in H. cbn [bind] in H. injection H as Hx Hb. subst b2.
    assert (Xx : x = opt_set "servers" (some_list (map (fun s => JDict [("url", JStr (with_scheme s root))]) (texts (val d "schemes")))) (opt_set "externalDocs" e (opt_set "responses" (some_dict rs') (opt_set "parameters" (some_list ks) ret1)))).
    { rewrite <- Hx, Ss, St. destruct (texts (val d "schemes")); reflexivity. }
    clear Hx Ss St Gs. unfold ret1 in Xx. split; [|auto].
    assert (F0 : forall k, ~ In k ["summary"; "description"; "operationId"; "deprecated"] -> lookup k fs = None) by (intros k Hk; rewrite F; destruct (in_dec string_dec k _); [contradiction|reflexivity]).
    set (t1 := opt_set "tags" (nonempty_list (val d "tags")) fs) in *. set (t2 := opt_set "security" (nonempty_list (val d "security")) t1) in *. set (t3 := opt_set "parameters" (some_list ks) t2) in *. set (t4 := opt_set "responses" (some_dict rs') t3) in *. set (t5 := opt_set "externalDocs" e t4) in *.
    assert (Lx : forall k, lookup k x = if String.eqb "servers" k then some_list (map (fun s => JDict [("url", JStr (with_scheme s root))]) (texts (val d "schemes"))) else if String.eqb "externalDocs" k then e
                  else if String.eqb "responses" k then some_dict rs' else if String.eqb "parameters" k then some_list ks else if String.eqb "security" k then nonempty_list (val d "security") else if String.eqb "tags" k then nonempty_list (val d "tags") else lookup k fs).
    { assert (F1 := lookup_opt_set_fresh "tags" (nonempty_list (val d "tags")) fs ltac:(now rewrite F)). fold t1 in F1.
      assert (F2 := lookup_opt_set_fresh "security" (nonempty_list (val d "security")) t1 ltac:(rewrite F1; cbn; now rewrite F)). fold t2 in F2.
      assert (F3 := lookup_opt_set_fresh "parameters" (some_list ks) t2 ltac:(rewrite F2, F1; cbn; now rewrite F)). fold t3 in F3.
      assert (F4 := lookup_opt_set_fresh "responses" (some_dict rs') t3 ltac:(rewrite F3, F2, F1; cbn; now rewrite F)). fold t4 in F4.
      assert (F5 := lookup_opt_set_fresh "externalDocs" e t4 ltac:(rewrite F4, F3, F2, F1; cbn; now rewrite F)). fold t5 in F5.
      intros k. rewrite Xx, lookup_opt_set_fresh by (rewrite F5, F4, F3, F2, F1; cbn; now rewrite F). now rewrite F5, F4, F3, F2, F1. }
    clear Xx. unfold operation_image.
    split; [intros k Hk; repeat (destruct Hk as [<-|Hk]; [rewrite Lx, F; reflexivity|]); destruct Hk|].
    split; [intros k Hk; repeat (destruct Hk as [<-|Hk]; [rewrite Lx; reflexivity|]); destruct Hk|].
    split; [exists ks; rewrite Lx; auto|]. split; [exists rs'; rewrite Lx; auto|]. split; [intros N; rewrite Lx; cbn; auto|]. split; [intros v Hv; rewrite Lx; cbn; auto|]. split; [rewrite Lx; reflexivity|].
    intros k Hk. rewrite Lx. repeat match goal with |- context [String.eqb ?s k] => destruct (String.eqb_spec s k) as [<-|?]; [destruct Hk; in_list|] end.
    apply F0. intros X. apply Hk. repeat (destruct X as [<-|X]; [in_list|]). destruct X.
  Qed.
End Op.
