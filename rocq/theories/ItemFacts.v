(** * References of path items: what the conversion writes for them. *)
From Coq Require Import String List Bool Arith Lia.
From Verif Require Import PyStr PyVal PyValFacts Jp Obj ObjFacts Classes_v2_0 SpecJson SpecObj SpecSchema SpecDoc SpecGiven Store Conv20 ConvFacts DocFacts2 PathFacts2.
From Verif Require Import PropertiesObjAux.
From Verif Require Shape30Facts2.
Import ListNotations.
Open Scope string_scope. Open Scope nat_scope.
Notation within := SpecObj.within (only parsing).

Section Items.
  Variables (deref : obj -> res obj) (nr : obj -> res json).
  Lemma methods_keys o root pr cs : forall ms shared ops s, convert_methods deref o ms shared root pr cs = Ok (ops, s) -> forall m y, In (m, y) ops -> In m ms.
  Proof.
    induction ms as [|m0 ms IH]; intros shared ops s H m y I; cbn [convert_methods] in H; [injection H as <- <-; destruct I|].
    apply bind_ok in H as (op & _ & H). destruct (truthy_obj op); [|right; exact (IH _ _ _ H m y I)].
    apply bind_ok in H as (x & _ & H). apply bind_ok in H as ([r s'] & Er & H). injection H as <- <-. cbn [fst] in I. destruct I as [E|I]; [injection E as -> _; now left|right; exact (IH _ _ _ Er m y I)].
  Qed.
  Lemma fold_other {A} (f : A -> json) (k : string) (ops : list (string * A)) : forall acc, (forall m y, In (m, y) ops -> m <> k) ->
    lookup k (fold_left (fun acc mx => dict_set (fst mx) (f (snd mx)) acc) ops acc) = lookup k acc.
  Proof.
    induction ops as [|[m y] ops IH]; intros acc N; cbn [fold_left]; [reflexivity|]. rewrite IH; [|intros m' y' I; apply (N m' y'); now right].
    cbn [fst snd]. rewrite lookup_set. destruct (String.eqb_spec m k) as [E|_]; [|reflexivity]. now elim (N m y (or_introl eq_refl)).
  Qed.
  Lemma item_ref o root cs pr px rl v : to_path_item deref nr o root cs pr = Ok (px, rl) -> lookup "$ref" px = Some v ->
    exists r, gattr o "ref" = Ok r /\ truthy_obj r = true /\ nr o = Ok v.
  Proof.
    unfold to_path_item. intros H L. apply bind_ok in H as (r & Gr & H). apply bind_ok in H as (ret & Er & H). apply bind_ok in H as (ps & _ & H). apply bind_ok in H as ([[kept body] moved] & _ & H).
    apply bind_ok in H as ([ops body'] & Em & H). injection H as <- _.
    assert (N : forall m y, In (m, y) ops -> m <> "$ref"). { intros m y I Z. pose proof (methods_keys _ _ _ _ _ _ _ _ Em m y I) as Im. rewrite Z in Im. clear -Im. cbn in Im. repeat (destruct Im as [Im|Im]; [discriminate Im|]). destruct Im. }
    assert (L2 : lookup "$ref" ret = Some v).
    { destruct body' as [b|]; [rewrite lookup_set in L; cbn [String.eqb Ascii.eqb Bool.eqb] in L|]; match type of L with lookup _ (fold_left _ ops ?acc) = _ => assert (L' : lookup "$ref" acc = Some v) end.
      - rewrite <- L. symmetry. exact (fold_other (fun y => JDict (with_body (fst y) (match body with Some _ => Some b | None => snd y end))) "$ref" ops _ N).
      - destruct kept; [exact L'|]. rewrite lookup_set in L'. exact L'.
      - rewrite <- L. symmetry. exact (fold_other (fun y => JDict (with_body (fst y) (match body with Some _ => None | None => snd y end))) "$ref" ops _ N).
      - destruct kept; [exact L'|]. rewrite lookup_set in L'. exact L'. }
    exists r. split; [exact Gr|]. destruct (truthy_obj r); [|injection Er as <-; discriminate L2]. split; [reflexivity|]. apply bind_ok in Er as (n & En & Er). injection Er as <-. cbn in L2. congruence.
  Qed.
  Lemma paths_in url cs pr es : forall acc x k px,
    foldM (fun acc kv =>
             if startswith "x-" (fst kv) then Err SchemaError
             else
               x <- to_path_item deref nr (snd kv) url cs pr ;;
               Ok (dict_set (fst kv) (JDict (fst x)) (fst acc),
                   match snd x with [] => snd acc | r => dict_set (jp_encode (fst kv)) (RMap r) (snd acc) end)) es acc = Ok x ->
    In (k, JDict px) (fst x) -> In (k, JDict px) (fst acc) \/ exists o rl, In (k, o) es /\ to_path_item deref nr o url cs pr = Ok (px, rl).
  Proof.
    match goal with |- context [foldM ?g _ _] => set (step := g) end. induction es as [|[k0 o] es IH]; intros acc x k px H I; cbn [foldM] in H; [injection H as <-; now left|].
    apply bind_ok in H as (a & H0 & H). destruct (IH _ _ _ _ H I) as [I2|(o' & rl & I2 & E)]; [|right; exists o', rl; split; [now right|exact E]].
    unfold step in H0. cbn [fst snd] in H0. destruct (startswith "x-" k0); [discriminate|]. apply bind_ok in H0 as ([y r] & Ey & H0). injection H0 as <-. cbn [fst snd] in I2.
    apply Shape30Facts2.in_dict_set in I2 as [[-> Z]|I2]; [|now left]. injection Z as ->. right. exists o, r. split; [now left|exact Ey].
  Qed.
  Lemma openapi_paths o x sec reloc k px : to_openapi deref nr o = Ok (x, sec, reloc) -> In (k, JDict px) (entries_of (val x "paths")) ->
    exists kp es url cs pr i rl, gattr o "paths" = Ok kp /\ truthy_obj kp = true /\ entries kp = Ok es /\ In (k, i) es /\ to_path_item deref nr i url cs pr = Ok (px, rl).
  Proof.
    unfold to_openapi. intros H I. apply bind_ok in H as (info & _ & H). apply bind_ok in H as (ret0 & E0 & H).
    assert (L0 : lookup "paths" ret0 = None). { destruct (truthy_obj info); [apply bind_ok in E0 as (y & _ & E0)|]; injection E0 as <-; reflexivity. }
    apply bind_ok in H as (url & _ & H). apply bind_ok in H as (cs & _ & H). apply bind_ok in H as (pr & _ & H). apply bind_ok in H as (kp & Gp & H). apply bind_ok in H as ([ret1 rel1] & E1 & H).
    apply bind_ok in H as (so & _ & H). apply bind_ok in H as (tags & _ & H). apply bind_ok in H as (ret2 & E2 & H). apply bind_ok in H as (ed & _ & H). apply bind_ok in H as (ret3 & E3 & H).
    apply bind_ok in H as (k1 & _ & H). apply bind_ok in H as (k2 & _ & H). apply bind_ok in H as (k3 & _ & H). apply bind_ok in H as (k4 & _ & H).
    apply bind_ok in H as (c1 & _ & H). apply bind_ok in H as (c2 & _ & H). apply bind_ok in H as (c3 & _ & H). apply bind_ok in H as (c4 & _ & H). injection H as <- _ _.
    assert (L3 : lookup "paths" ret3 = lookup "paths" ret2). { destruct (truthy_obj ed); [apply bind_ok in E3 as (y & _ & E3)|]; injection E3 as <-; [now rewrite lookup_set|reflexivity]. }
    assert (L2 : lookup "paths" ret2 = lookup "paths" ret1). { destruct (truthy_obj tags); [apply bind_ok in E2 as (y & _ & E2); apply bind_ok in E2 as (z & _ & E2)|]; injection E2 as <-; [now rewrite lookup_set|reflexivity]. }
    assert (LX : In (k, JDict px) (entries_of (val ret1 "paths"))). { unfold val in I |- *. rewrite <- L2, <- L3. destruct (truthy_obj k1 || truthy_obj k2 || truthy_obj k3 || truthy_obj k4); [rewrite lookup_set in I|]; exact I. }
    clear I. destruct (truthy_obj kp) eqn:T; [|injection E1 as <- _; unfold val in LX; rewrite lookup_set in LX; cbn [String.eqb Ascii.eqb Bool.eqb] in LX; rewrite L0 in LX; destruct LX].
    apply bind_ok in E1 as (es & Ee & E1). apply bind_ok in E1 as (y & Ec & E1). injection E1 as <- _. unfold val in LX. rewrite lookup_set in LX. cbn [String.eqb Ascii.eqb Bool.eqb entries_of] in LX.
    unfold convert_paths in Ec. destruct (paths_in _ _ _ _ _ _ _ _ Ec LX) as [[]|(i & rl & Ii & Ei)]. exists kp, es. do 3 eexists. exists i, rl. split; [exact Gp|]. split; [exact T|]. split; [exact Ee|]. split; [exact Ii|exact Ei].
  Qed.
  Lemma in_look {A} (d : list (string * A)) k x : NoDup (map fst d) -> In (k, x) d -> lookup k d = Some x.
  Proof.
    induction d as [|[k' y] d IH]; intros ND I; [destruct I|]. cbn [map fst] in ND. apply NoDup_cons_iff in ND as [N1 N2]. cbn [lookup]. destruct I as [E|I]; [injection E as -> ->; now rewrite String.eqb_refl|].
    destruct (String.eqb_spec k k') as [->|_]; [|now apply IH]. elim N1. now apply (in_map fst) in I.
  Qed.
  (** the path items of a document *)
  Lemma paths_attr d path root kp es k i : wf_json (JDict d) -> construct v20_table (JDict d) (BCls "Swagger") path [] = Ok root -> gattr root "paths" = Ok kp -> truthy_obj kp = true -> entries kp = Ok es -> In (k, i) es ->
    within root ["paths"; k] i /\ exists v, lookup k (entries_of (val d "paths")) = Some v /\ loaded (BCls "PathItem") v i.
  Proof.
    intros W C G T E I. destruct (map_child "Swagger" d root "paths" (BCls "PathItem") (ex_intro _ path C) eq_refl) as (kp' & G' & M). assert (kp' = kp) by congruence. subst kp'.
    destruct M as [[_ Z]|(es' & _ & _ & E' & F)]; [congruence|]. assert (es' = es) by congruence. subst es'.
    assert (ND : NoDup (keys es)). { assert (K : keys es = keys (entries_of (val d "paths"))) by (clear -F; induction F as [|x e l m [H _] F IH]; [reflexivity|]; unfold keys in *; cbn [map]; now rewrite IH, H). rewrite K. now apply nodup_entries. }
    pose proof (in_look _ _ _ ND I) as L. destruct (construct_cls_obj _ _ _ _ _ C) as (kids & ->).
    assert (GK : gattr (OObj "Swagger" path (JDict d) kids) "paths" = Ok (match lookup "paths" kids with Some o => o | None => OPrim JNull end)) by reflexivity. rewrite G in GK.
    destruct (lookup "paths" kids) as [ko|] eqn:LK; [|injection GK as ->; discriminate T]. injection GK as <-. destruct kp as [|c p s k0|b p es0|b p es0]; try discriminate E.
    assert (es0 = es) by (cbn in E; congruence). subst es0. split; [eapply wi_child; [exact LK|]; eapply wi_key; [exact L|apply wi_here]|].
    clear -F I ND. revert ND I. induction F as [|x e l m [H LE] F IH]; intros ND I; [destruct I|]. destruct x as [kx vx], e as [ke oe]. cbn [fst snd] in *. subst kx. unfold keys in ND. cbn [map fst] in ND. apply NoDup_cons_iff in ND as [N1 N2]. destruct I as [Z|I].
    - injection Z as -> ->. exists vx. split; [cbn [lookup]; now rewrite String.eqb_refl|exact LE].
    - destruct (IH N2 I) as (v & Lv & Lo). exists v. split; [|exact Lo]. cbn [lookup]. destruct (String.eqb_spec k ke) as [->|_]; [|exact Lv]. elim N1. now apply (in_map fst) in I.
  Qed.
  Theorem openapi_item_refs d path root x sec reloc k px v : wf_json (JDict d) -> construct v20_table (JDict d) (BCls "Swagger") path [] = Ok root -> (forall k v, lookup k (entries_of (val d "paths")) = Some v -> exists p, v = JDict p) -> to_openapi deref nr root = Ok (x, sec, reloc) ->
    In (k, JDict px) (entries_of (val x "paths")) -> lookup "$ref" px = Some v ->
    exists q p kids r, within root ["paths"; k] (OObj "PathItem" q (JDict p) kids) /\ lookup "$ref" p = Some r /\ nr (OObj "PathItem" q (JDict p) kids) = Ok v /\
      lookup k (entries_of (val d "paths")) = Some (JDict p) /\ truthy (val p "$ref") = true /\ loaded (BCls "PathItem") (JDict p) (OObj "PathItem" q (JDict p) kids).
  Proof.
    intros W C PD E I L. destruct (openapi_paths _ _ _ _ _ _ E I) as (kp & es & url & cs & pr & i & rl & G & T & Ee & Ii & Ei). destruct (paths_attr d path root kp es k i W C G T Ee Ii) as (Wi & v0 & Lv0 & Lo).
    destruct (item_ref _ _ _ _ _ _ _ Ei L) as (r & Gr & Tr & En). assert (JD := PD _ _ Lv0). destruct JD as (p & ->). rewrite (path_ref p i Lo) in Gr. injection Gr as <-. destruct Lo as [q Lo]. destruct (construct_cls_obj _ _ _ _ _ Lo) as (kids & ->).
    unfold val in Tr. destruct (lookup "$ref" p) as [r|] eqn:Lr; [|discriminate Tr]. exists q, p, kids, r. split; [exact Wi|]. split; [exact Lr|]. split; [exact En|]. split; [exact Lv0|]. split; [unfold val; rewrite Lr; exact Tr|now exists q].
  Qed.
End Items.
