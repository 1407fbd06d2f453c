(** * Facts about parameter lists: totality, duplicates, whole operations. *)
From Coq Require Import String Ascii List Bool Arith Lia.
From Verif Require Import PyStr PyVal PyValFacts Obj Classes_v2_0 SpecJson SpecObj ObjFacts TablesFacts Conv20 SpecSchema SpecConv SpecBody SpecOp SpecDoc ConvFacts SchemaFacts SchemaFacts2 ParamFacts BodyFacts BodyFacts2 ParamListFacts ParamListFacts2 OpFacts OpFacts2 PathFacts.
Import ListNotations.
Open Scope string_scope. Open Scope nat_scope.

Section Lists3.
  Variable deref : obj -> res obj.
  Lemma from_parameter_total p q o body cs : param_given deref p q o -> usable deref q -> body_ok (old_body body) ->
    (exists r, from_parameter deref o body cs = Ok r) \/ from_parameter deref o body cs = Err SchemaError.
  Proof.
    intros G U Bo. destruct U as [[P M]|[Fp|(Bp & W & R)]].
    - rewrite (from_parameter_eq deref p q o body cs G). unfold is_merged in M. apply orb_false_iff in M as [M M3]. apply orb_false_iff in M as [M1 M2].
      rewrite M1, M2, M3. destruct (is_reference p) eqn:Ir; [eauto|]. destruct G as (r & _ & L & _ & X). rewrite Ir in X. destruct X as [-> ->].
      destruct (to_parameter_total p o L P) as [(x & E)|[E _]]; rewrite E; cbn [bind]; eauto.
    - rewrite (form_from deref p q o body cs G Fp). pose proof Fp as (_ & _ & _ & n & Hn).
      destruct (request_body_step deref p q o n body cs G Fp Hn Bo) as [(b & E & _)|[E _]]; rewrite E; cbn [bind]; eauto.
    - rewrite (body_from deref p q o body cs G Bp R). destruct body as [b|].
      + rewrite (request_body_second deref p q o b cs G Bp Bo). now right.
      + destruct (request_body_first deref p q o cs G Bp W) as (b & E & _). rewrite E. cbn [bind]. eauto.
  Qed.
  Lemma convert_params_total : forall ps os i cs kept body, usable_given deref ps os -> body_ok (old_body body) ->
    (exists r, convert_params deref os i cs kept body = Ok r) \/ convert_params deref os i cs kept body = Err SchemaError.
  Proof.
    induction ps as [|[p q] ps IH]; intros os i cs kept body G Bo; inversion G as [|? o ? os' [Gp U] G' E1 E2]; subst; [left; cbn; eauto|].
    cbn [convert_params]. cbn [fst snd] in *. destruct (from_parameter_total p q o body cs Gp U Bo) as [([d c] & E)|E]; rewrite E; cbn [bind fst snd]; [|now right].
    destruct (is_body c) eqn:Ib.
    - pose proof (from_parameter_body_ok deref p q o body cs d c Gp U Bo E Ib) as Bd.
      destruct (IH os' (S i) cs kept (Some d) G' Bd) as [([[k b] m] & E')|E']; rewrite E'; cbn [bind]; eauto.
    - apply IH; assumption.
  Qed.

  Lemma body_after_merged ps1 p q os1 o os2 i cs kept body :
    usable_given deref ps1 os1 -> param_given deref p q o -> body_param q -> schema_resolves deref (val q "schema") false ->
    body_ok (old_body body) -> body <> None \/ no_merged ps1 = false ->
    convert_params deref (os1 ++ o :: os2) i cs kept body = Err SchemaError.
  Proof.
    intros G Gp Bp R Bo Hm. destruct (convert_params_total ps1 os1 i cs kept body G Bo) as [([[k b] m] & E)|E].
    - destruct (convert_params_split deref ps1 os1 i cs kept body k b m (usable_all_given _ _ _ G) E) as (_ & Em & Eb). destruct b as [b|].
      + exact (second_body_raises deref ps1 p q i cs kept body k b m os1 o os2 G Gp Bp R Bo E).
      + exfalso. destruct (proj1 Eb eq_refl) as [-> M0]. destruct Hm as [H|H]; [congruence|]. subst m. assert (X : no_merged ps1 = true); [|congruence].
        revert M0. clear. revert i. induction ps1 as [|[p q] ps IH]; intros i H; [reflexivity|]. cbn in *. unfold merges in H at 1. cbn in H. destruct (is_merged q); [discriminate|]. cbn. eauto.
    - rewrite convert_params_app, E. reflexivity.
  Qed.

  Lemma form_twice ps1 ps2 pq1 pq2 os1 o1 os2 o2 os3 i cs kept body t :
    usable_given deref ps1 os1 -> usable_given deref ps2 os2 -> param_given deref (fst pq1) (snd pq1) o1 -> param_given deref (fst pq2) (snd pq2) o2 ->
    form_param (snd pq1) -> form_param (snd pq2) -> pname pq1 = pname pq2 -> sent_as cs (snd pq1) t -> sent_as cs (snd pq2) t -> body_ok (old_body body) ->
    convert_params deref (os1 ++ o1 :: os2 ++ o2 :: os3) i cs kept body = Err SchemaError.
  Proof.
    intros G1 G2 P1 P2 F1 F2 En S1 S2 Bo.
    replace (os1 ++ o1 :: os2 ++ o2 :: os3)%list with ((os1 ++ o1 :: os2) ++ o2 :: os3)%list by (rewrite <- app_assoc; reflexivity).
    assert (G : usable_given deref (ps1 ++ pq1 :: ps2) (os1 ++ o1 :: os2)) by (apply Forall2_app; [exact G1|constructor; [split; [exact P1|right; left; exact F1]|exact G2]]).
    destruct (convert_params_total _ _ i cs kept body G Bo) as [([[k b] m] & E)|E]; [|rewrite convert_params_app, E; reflexivity].
    pose proof (pname_spec _ F2) as Hn.
    destruct (form_after deref _ (fst pq2) (snd pq2) o2 _ os3 i cs kept body k b m (pname pq2) G P2 F2 Hn Bo E) as [(b' & _ & _ & C)|[X _]]; [|exact X].
    exfalso. apply C. exists t. split; [exact S2|]. left. destruct (convert_params_grows deref _ _ i cs kept body k b m G Bo E) as (_ & _ & Gr).
    destruct (Gr pq1 t) as [X _]; [apply in_or_app; right; now left|exact F1|exact S1|]. rewrite En in X. exact X.
  Qed.

  (** kept parameters change nothing in the body *)
  Lemma kept_only : forall ps os i cs kept body kept' body' moved, usable_given deref ps os -> no_merged ps = true ->
    convert_params deref os i cs kept body = Ok (kept', body', moved) -> body' = body.
  Proof.
    induction ps as [|[p q] ps IH]; intros os i cs kept body kept' body' moved G N H; inversion G as [|? o ? os' [Gp U] G' E1 E2]; subst; [now injection H as <- <- <-|].
    cbn in N. apply andb_true_iff in N as [N1 N2]. cbn [convert_params] in H. apply bind_ok in H as ([d c] & E & H). cbn [fst snd] in *.
    rewrite (from_parameter_kind deref p q o body cs d c Gp E) in H. destruct (is_merged q); [discriminate|]. eapply IH; eauto.
  Qed.
  Lemma one_body ps1 p q ps2 os i cs kept' body' moved : usable_given deref (ps1 ++ (p, q) :: ps2) os -> no_merged ps1 = true -> no_merged ps2 = true ->
    body_param q -> wf_json (JDict q) -> schema_resolves deref (val q "schema") false ->
    convert_params deref os i cs [] None = Ok (kept', body', moved) -> exists b, body' = Some b /\ body_image cs q b.
  Proof.
    intros G N1 N2 Bp W R H. apply Forall2_app_inv_l in G as (os1 & os' & G1 & G & ->). inversion G as [|? o ? os2 [Gp U] G2 E1 E2]; subst. cbn [fst snd] in *.
    rewrite convert_params_app in H. apply bind_ok in H as ([[k b] m] & E & H). apply bind_ok in H as ([[k2 b2] m2] & H & X). injection X as <- <- <-.
    pose proof (kept_only _ _ _ _ _ _ _ _ _ G1 N1 E) as ->. cbn [convert_params] in H. rewrite (body_from deref p q o None cs Gp Bp R) in H.
    destruct (request_body_first deref p q o cs Gp Bp W) as (b1 & E1 & Im & _). rewrite E1 in H. cbn [bind fst snd is_body] in H.
    apply bind_ok in H as ([[k3 b3] m3] & H & X). injection X as <- <- <-. pose proof (kept_only _ _ _ _ _ _ _ _ _ G2 N2 H) as ->. eauto.
  Qed.

  (** ** operations *)
  Lemma forms_operation d o ps root pr cs x body :
    loaded (BCls "Operation") (JDict d) o -> params_at deref (val d "parameters") ps -> Forall (fun pq => form_param (snd pq)) ps ->
    NoDup (map pname ps) -> Forall (fun pq => ~ query_array_only (val (snd pq) "collectionFormat")) ps ->
    to_operation deref o None root pr cs = Ok (x, body) ->
    let cs' := or_default (texts (val d "consumes")) cs in
    (body = None <-> ps = []) /\
    (forall t, body_holds t (filter (sends cs' t) ps) (old_body body)) /\
    lookup "required" (old_body body) = (if existsb (fun pq => required_param (snd pq)) ps then Some (JBool true) else None) /\
    (forall k, k <> "content" -> k <> "required" -> lookup k (old_body body) = None).
  Proof.
    intros L P F N Q H. cbv zeta. assert (Z : forall t, body_holds t [] []).
    { intros t. unfold body_holds, has_media, body_properties, body_required, body_encoding, media, subd, arr. generalize (form_type t). intros ft. cbn. split; [split; intros X; exfalso; apply X; reflexivity|]. split; [constructor|]. split; [reflexivity|]. split; [destruct ft; constructor|]. auto. }
    destruct (to_operation_params deref d o ps None root pr cs x body L P H) as [[-> ->]|(es & kept & moved & G & E)].
    - cbn [old_body filter]. split; [tauto|]. split; [exact Z|]. split; reflexivity.
    - assert (Fg : form_given deref ps es).
      { clear - F G. induction G as [|pq o ps es Gp G IH]; [constructor|]. inversion F; subst. constructor; [auto|]. apply IH. assumption. }
      destruct (convert_forms deref ps es 0 (or_default (texts (val d "consumes")) cs) [] None Fg body_ok_nil (conj (fun _ => eq_refl) (fun _ => eq_refl)) Z eq_refl N Q) as (b' & E' & X).
      rewrite E in E'. injection E' as -> -> ->. destruct X as (X1 & _ & X2 & X3 & X4). cbn [List.app] in *. auto.
  Qed.
  Lemma body_operation d o ps1 p q ps2 root pr cs x body :
    loaded (BCls "Operation") (JDict d) o -> params_at deref (val d "parameters") (ps1 ++ (p, q) :: ps2) -> Forall (fun pq => usable deref (snd pq)) (ps1 ++ (p, q) :: ps2) ->
    no_merged ps1 = true -> no_merged ps2 = true -> body_param q -> wf_json (JDict q) -> schema_resolves deref (val q "schema") false ->
    to_operation deref o None root pr cs = Ok (x, body) ->
    exists b, body = Some b /\ body_image (or_default (texts (val d "consumes")) cs) q b.
  Proof.
    intros L P U N1 N2 Bp W R H. destruct (to_operation_params deref d o _ None root pr cs x body L P H) as [[X _]|(es & kept & moved & G & E)]; [destruct ps1; discriminate|].
    exact (one_body _ _ _ _ _ _ _ _ _ _ (usable_pairs _ _ _ G U) N1 N2 Bp W R E).
  Qed.
  Lemma operation_in_body d o ps body root pr cs x body' pq t :
    loaded (BCls "Operation") (JDict d) o -> params_at deref (val d "parameters") ps -> Forall (fun pq => usable deref (snd pq)) ps -> body_ok (old_body body) ->
    to_operation deref o body root pr cs = Ok (x, body') -> In pq ps -> form_param (snd pq) -> sent_as (or_default (texts (val d "consumes")) cs) (snd pq) t ->
    exists b, body' = Some b /\ mem (pname pq) (body_properties t b) = true.
  Proof.
    intros L P U Bo H I F S. destruct (to_operation_params deref d o _ body root pr cs x body' L P H) as [[X _]|(es & kept & moved & G & E)]; [subst ps; destruct I|].
    destruct (convert_params_grows deref ps es 0 _ [] body kept body' moved (usable_pairs _ _ _ G U) Bo E) as (_ & _ & Gr). destruct (Gr pq t I F S) as [M _].
    destruct body' as [b|]; [eauto|]. exfalso. cbn in M. discriminate.
  Qed.
End Lists3.
