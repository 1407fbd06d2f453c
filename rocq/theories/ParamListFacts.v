(** Proofs about lists of parameters. *)
From Coq Require Import String Ascii List Bool Arith Lia.
From Verif Require Import PyStr PyStrFacts PyVal PyValFacts Jp UrlLib Obj ObjFacts Classes_v2_0 TablesFacts SpecJson ShapeFacts DumpFacts SpecObj SpecSchema SpecConv SpecBody Store Conv20 ConvFacts SchemaFacts SchemaFacts2 ParamFacts BodyFacts BodyFacts2.
Import ListNotations.
Open Scope string_scope. Open Scope nat_scope.

Section Lists.
  Variable deref : obj -> res obj.
  Local Notation all_given := (SpecGiven.all_given deref).
  Local Notation form_given := (SpecGiven.form_given deref).

  Lemma from_parameter_eq p q o body cs : param_given deref p q o ->
    from_parameter deref o body cs =
    (if is_file_param q then let c := mk_pctx true true false in b <- to_request_body deref o body c cs ;; Ok (b, c)
     else if is_text "formData" (val q "in") then let c := mk_pctx true false true in b <- to_request_body deref o body c cs ;; Ok (b, c)
     else if is_text "body" (val q "in") then
       (sc <- (r <- deref o ;; gattr r "schema") ;;
        sr <- (match sc with OPrim _ => Ok sc | _ => deref sc end) ;;
        sty <- gattr_none sr "type" ;;
        let c := mk_pctx true (match sty with OPrim j => json_is_str "file" j | _ => false end) false in
        b <- to_request_body deref o body c cs ;; Ok (b, c))
     else if is_reference p then Ok ([("$ref", val p "$ref")], mk_pctx false false false)
     else (x <- to_parameter o ;; Ok (x, mk_pctx false false false))).
  Proof.
    intros G. destruct (param_ref deref p q o G) as [Er Et]. destruct G as (r & Dr & L & Rk & Hp). unfold from_parameter. rewrite Er, Dr. cbn [bind].
    rewrite (gattr_field "Parameter" q r "name" JNull L eq_refl). cbn [bind].
    rewrite (gattr_none_ok _ _ _ (gattr_field "Parameter" q r "in" JNull L eq_refl)), (gattr_none_ok _ _ _ (gattr_field "Parameter" q r "type" JNull L eq_refl)). cbn [bind].
    fold (val q "in") (val q "type"). unfold is_file_param. rewrite !is_text_spec. destruct (json_is_str "file" (val q "type")); [reflexivity|].
    destruct (json_is_str "formData" (val q "in")); [reflexivity|]. destruct (json_is_str "body" (val q "in")); [reflexivity|]. cbn [truthy_obj].
    destruct (is_reference p); [rewrite (Et eq_refl); reflexivity|reflexivity].
  Qed.
  Lemma from_parameter_kind p q o body cs d c : param_given deref p q o -> from_parameter deref o body cs = Ok (d, c) -> is_body c = is_merged q.
  Proof.
    intros G. rewrite (from_parameter_eq p q o body cs G). unfold is_merged. destruct (is_file_param q); [cbn zeta; intros H; apply bind_ok in H as (b & _ & H); injection H as _ <-; reflexivity|].
    destruct (is_text "formData" (val q "in")); [cbn zeta; intros H; apply bind_ok in H as (b & _ & H); injection H as _ <-; reflexivity|].
    destruct (is_text "body" (val q "in")).
    - intros H. apply bind_ok in H as (sc & _ & H). apply bind_ok in H as (sr & _ & H). apply bind_ok in H as (sty & _ & H). cbn zeta in H. apply bind_ok in H as (b & _ & H). injection H as _ <-. reflexivity.
    - destruct (is_reference p); [intros H; injection H as _ <-; reflexivity|]. intros H. apply bind_ok in H as (x & _ & H). injection H as _ <-. reflexivity.
  Qed.
  Lemma from_parameter_kept p q o body cs d c : param_given deref p q o -> param_doc q -> is_merged q = false -> from_parameter deref o body cs = Ok (d, c) -> kept_image p (JDict d).
  Proof.
    intros G P. rewrite (from_parameter_eq p q o body cs G). unfold is_merged. destruct (is_file_param q); [discriminate|]. destruct (is_text "formData" (val q "in")); [discriminate|].
    destruct (is_text "body" (val q "in")); [discriminate|]. intros _. unfold kept_image. destruct G as (r & Dr & L & Rk & Hp). destruct (is_reference p).
    - intros H. injection H as <- _. reflexivity.
    - destruct Hp as [-> ->]. intros H. apply bind_ok in H as (x & H & E). injection E as <- _. exists x. split; [reflexivity|]. now apply (to_parameter_ok p o).
  Qed.

  (** [ps]: the documents, with the documents they refer to, and the objects *)
  Lemma convert_params_split : forall ps os i cs kept body kept' body' moved, all_given ps os ->
    convert_params deref os i cs kept body = Ok (kept', body', moved) ->
    (exists ks, kept' = (kept ++ ks)%list /\ Forall2 (fun pq k => kept_image (fst pq) k) (filter (fun pq => negb (merges pq)) ps) ks) /\
    moved = positions merges i ps /\ (body' = None <-> body = None /\ moved = []).
  Proof.
    induction ps as [|[p q] ps IH]; intros os i cs kept body kept' body' moved G H; inversion G as [|? o ? os' [Gp P] G' E1 E2]; subst.
    - cbn in H. injection H as <- <- <-. split; [exists []; rewrite app_nil_r; split; [reflexivity|constructor]|]. split; [reflexivity|tauto].
    - cbn [convert_params] in H. apply bind_ok in H as ([d c] & E & H). cbn [fst snd] in *. pose proof (from_parameter_kind p q o body cs d c Gp E) as K. rewrite K in H.
      cbn [filter positions]. change (merges (p, q)) with (is_merged q). destruct (is_merged q) eqn:M; cbn [negb].
      + apply bind_ok in H as ([[k1 b1] m1] & Ec & H). injection H as <- <- <-. destruct (IH _ _ _ _ _ _ _ _ G' Ec) as (I1 & I2 & I3). split; [exact I1|]. split; [now rewrite I2|].
        split; [intros X; apply I3 in X as [X _]; discriminate X|intros [_ X]; discriminate X].
      + destruct (IH _ _ _ _ _ _ _ _ G' H) as ((ks & I1 & F) & I2 & I3). split; [|split; [exact I2|exact I3]].
        exists (JDict d :: ks). split; [rewrite I1, <- app_assoc; reflexivity|]. constructor; [|exact F]. cbn [fst]. eapply from_parameter_kept; eauto.
  Qed.

  (** ** form and file parameters only *)
  Lemma form_from p q o body cs : param_given deref p q o -> form_param q ->
    from_parameter deref o body cs = (b <- to_request_body deref o body (form_ctx q) cs ;; Ok (b, form_ctx q)).
  Proof.
    intros G (_ & Hin & _). rewrite (from_parameter_eq p q o body cs G). unfold form_ctx. destruct (is_file_param q); [reflexivity|]. rewrite Hin. reflexivity.
  Qed.
  (** the body after the parameters [done] *)
  Lemma sends_spec cs t pq : sends cs t pq = true <-> sent_as cs (snd pq) t.
  Proof.
    assert (A : forall l u, among l u = true <-> In u l). { intros l u. unfold among. rewrite existsb_exists. split; [intros (x & H & E); apply String.eqb_eq in E; congruence|]. intros H. exists u. split; [exact H|apply String.eqb_refl]. }
    assert (B : forall allowed default, (if existsb (among allowed) cs then among cs t && among allowed t else String.eqb t default) = true <-> sent_with cs allowed default t).
    { intros al df. unfold sent_with, listed. destruct (existsb (among al) cs) eqn:E.
      - rewrite andb_true_iff, !A. split; [now left|]. intros [H|[H _]]; [exact H|]. apply existsb_exists in E as (u & Hu & Ha). apply A in Ha. now elim (H u).
      - rewrite String.eqb_eq. split; [|intros [[H1 H2]|[_ H]]; [|exact H]].
        + right. split; [|exact H]. intros u [H1 H2]. apply A in H2. assert (X : existsb (among al) cs = true) by (apply existsb_exists; eauto). congruence.
        + apply A in H2. assert (X : existsb (among al) cs = true) by (apply existsb_exists; eauto). congruence. }
    unfold sends, sent_as. destruct (is_file_param (snd pq)); apply B.
  Qed.
  Lemma pname_spec pq : form_param (snd pq) -> val (snd pq) "name" = JStr (pname pq).
  Proof. intros (_ & _ & _ & n & H). unfold pname. now rewrite H. Qed.
  Lemma keys_holds t done b : body_holds t done b -> keys (body_properties t b) = map pname done.
  Proof. intros (_ & H & _). unfold keys. clear -H. induction H as [|x y l m [E _] _ IH]; [reflexivity|]. cbn [map]. congruence. Qed.
  Lemma keys_enc t done b : body_holds t done b -> forall k, In k (keys (body_encoding t b)) -> In k (map pname done).
  Proof.
    intros (_ & _ & _ & H & _) k Hk. destruct (form_type t); [|rewrite H in Hk; destruct Hk]. assert (E : keys (body_encoding t b) = map pname done).
    { unfold keys. clear -H. induction H as [|x y l m [E _] _ IH]; [reflexivity|]. cbn [map]. congruence. } now rewrite E in Hk.
  Qed.
  Lemma mem_keys {A} k (d : list (string * A)) : mem k d = true <-> In k (keys d).
  Proof.
    unfold mem. destruct (lookup k d) as [v|] eqn:E.
    - split; [intros _; apply PyValFacts.lookup_In in E; unfold keys; change k with (fst (k, v)); now apply in_map|reflexivity].
    - split; [discriminate|]. intros H. exfalso. now apply (PyValFacts.lookup_none k d) in E.
  Qed.

  Lemma convert_forms : forall ps os i cs done body, form_given ps os ->
    body_ok (old_body body) -> (body = None <-> done = []) ->
    (forall t, body_holds t (filter (sends cs t) done) (old_body body)) ->
    lookup "required" (old_body body) = (if existsb (fun pq => required_param (snd pq)) done then Some (JBool true) else None) ->
    NoDup (map pname (done ++ ps)) ->
    Forall (fun pq => ~ query_array_only (val (snd pq) "collectionFormat")) ps ->
    exists body', convert_params deref os i cs [] body = Ok ([], body', seq i (length ps)) /\ (body' = None <-> done ++ ps = [])%list /\ body_ok (old_body body') /\
      (forall t, body_holds t (filter (sends cs t) (done ++ ps)) (old_body body')) /\
      lookup "required" (old_body body') = (if existsb (fun pq => required_param (snd pq)) (done ++ ps) then Some (JBool true) else None) /\
      (forall k, k <> "content" -> k <> "required" -> lookup k (old_body body') = lookup k (old_body body)).
  Proof.
    induction ps as [|pq ps IH]; intros os i cs done body G Bo Bn H Rq Nd Fq; inversion G as [|? o ? os' [Gp P] G' E1 E2]; subst.
    - exists body. rewrite app_nil_r. cbn. auto 10.
    - cbn [convert_params]. rewrite (form_from _ _ _ _ _ Gp P). inversion Fq as [|? ? Fq1 Fq2]; subst.
      destruct (request_body_step deref (fst pq) (snd pq) o (pname pq) body cs Gp P (pname_spec pq P) Bo) as [(b' & E & St & _)|[_ (t & Ht & C)]].
      2: { exfalso. destruct C as [C|[_ C]]; [|contradiction]. apply mem_keys in C. change (subd "properties" (subd "schema" (media t (old_body body)))) with (body_properties t (old_body body)) in C.
           rewrite (keys_holds _ _ _ (H t)) in C. rewrite map_app in Nd. cbn [map] in Nd. apply NoDup_remove_2 in Nd. apply Nd. apply in_or_app. left.
           apply in_map_iff in C as (x & Ex & Hx). apply filter_In in Hx as [Hx _]. apply in_map_iff. eauto. }
      rewrite E. cbn [bind fst snd]. assert (Ib : is_body (form_ctx (snd pq)) = true) by (unfold form_ctx; destruct (is_file_param _); reflexivity). rewrite Ib. clear Ib.
      destruct St as (Bo' & S1 & S2 & S3 & S4).
      destruct (IH os' (S i) cs (done ++ [pq])%list (Some b') G' Bo') as (body' & Ec & I1 & I2 & I3 & I4 & I5).
      + split; [discriminate|]. intros X. destruct done; discriminate X.
      + intros t. rewrite filter_app. cbn [filter]. destruct (H t) as (H1 & H2 & H3 & H4 & H5 & H6). destruct (sends cs t pq) eqn:Es.
        * apply sends_spec in Es. destruct (S1 t Es) as (Hm & Mo & (v & Pv & Ep) & Er & Ee & Ek1 & Ek2). cbn [old_body].
          assert (Nf : ~ In (pname pq) (map pname (filter (sends cs t) done))).
          { rewrite map_app in Nd. cbn [map] in Nd. apply NoDup_remove_2 in Nd. intros X. apply Nd. apply in_or_app. left. apply in_map_iff in X as (x & Ex & Hx). apply filter_In in Hx as [Hx _]. apply in_map_iff. eauto. }
          split; [split; [intros _ X; destruct (filter (sends cs t) done); discriminate X|intros _; exact Hm]|].
          split. { unfold body_properties at 1. rewrite Ep. rewrite dict_set_fresh.
            - apply Forall2_app; [exact H2|]. constructor; [split; [reflexivity|exact Pv]|constructor].
            - apply PyValFacts.lookup_none. change (subd "properties" (subd "schema" (media t (old_body body)))) with (body_properties t (old_body body)). rewrite (keys_holds _ _ _ (H t)). exact Nf. }
          split. { unfold body_required at 1. rewrite Er. change (arr "required" (subd "schema" (media t (old_body body)))) with (body_required t (old_body body)). rewrite H3, filter_app, map_app. f_equal.
            cbn [filter]. destruct (required_param (snd pq)); reflexivity. }
          split. { pose proof (keys_enc _ _ _ (H t)) as Hke. destruct (form_type t).
            - destruct Ee as (c & Pc & Ee). unfold body_encoding at 1. rewrite Ee, dict_set_fresh.
              + apply Forall2_app; [exact H4|]. constructor; [|constructor]. split; [reflexivity|]. exists c. split; [reflexivity|exact Pc].
              + apply PyValFacts.lookup_none. intros X. apply Nf. apply Hke. exact X.
            - unfold body_encoding. rewrite Ee. exact H4. }
          split; [intros k K1 K2; rewrite Ek1 by assumption; auto|intros k K1 K2; rewrite Ek2 by assumption; auto].
        * rewrite app_nil_r. assert (Ns : ~ sent_as cs (snd pq) t) by (intros X; apply (proj2 (sends_spec cs t pq)) in X; congruence). specialize (S2 t Ns).
          assert (Em : media t b' = media t (old_body body)) by (unfold media, subd at 1 3; now rewrite S2). cbn [old_body].
          unfold body_holds, has_media, body_properties, body_required, body_encoding. rewrite S2, Em. repeat split; try assumption; apply H1.
      + cbn [old_body]. rewrite S3, existsb_app. cbn [existsb]. rewrite orb_false_r. destruct (required_param (snd pq)); [now rewrite orb_true_r|rewrite orb_false_r; exact Rq].
      + rewrite <- app_assoc. exact Nd.
      + exact Fq2.
      + rewrite Ec. cbn [bind length seq]. rewrite <- app_assoc in *. cbn [List.app] in *. exists body'. split; [reflexivity|]. split; [exact I1|]. split; [exact I2|]. split; [exact I3|]. split; [exact I4|].
        intros k K1 K2. rewrite I5 by assumption. apply S4; assumption.
  Qed.
End Lists.
