(** Loading schemas; conversion preserves validation. *)
From Coq Require Import String Ascii List Bool Arith Lia.
From Verif Require Import PyStr PyStrFacts PyVal PyValFacts Jp UrlLib Obj ObjFacts Classes_v2_0 TablesFacts SpecJson ShapeFacts DumpFacts SpecObj SpecSchema Store Conv20 ConvFacts SchemaFacts.
Import ListNotations.
Open Scope string_scope. Open Scope nat_scope.

Lemma val_null_or (d : dict) k v : lookup k d = Some v -> v <> JNull -> val d k = v /\ val d k <> JNull.
Proof. unfold val. intros -> H. auto. Qed.
Lemma part_val (d : dict) k : val d k <> JNull -> part (val d k) (JDict d).
Proof. unfold val. destruct (lookup k d) as [v|] eqn:E; [|congruence]. intros _. exists k. now apply PyValFacts.lookup_In. Qed.
Lemma shaped_leaf c cd d : lookup c v20_table = Some cd -> c_children cd = [] -> shaped v20_table (BCls c) (JDict d).
Proof. intros L E. apply (sh_object v20_table c cd d L); rewrite E; intros ch; [intros v []|intros []]. Qed.
Lemma shaped_cls c cd d : lookup c v20_table = Some cd -> forallb (fun ch => negb (ch_required ch)) (c_children cd) = true ->
  (forall ch, In ch (c_children cd) -> val d (ch_name ch) <> JNull -> shaped v20_table (ch_builder ch) (val d (ch_name ch))) -> shaped v20_table (BCls c) (JDict d).
Proof.
  intros L R H. apply (sh_object v20_table c cd d L).
  - intros ch v Hin Lk Hv. destruct (val_null_or d _ _ Lk Hv) as [<- Hn]. now apply H.
  - intros ch Hin _. rewrite forallb_forall in R. specialize (R ch Hin). now apply negb_true_iff in R.
Qed.
Lemma schema_doc_shaped_aux : forall j,
  (schema_doc j -> shaped v20_table (BCls "Schema") j) /\
  (forall l, j = JList l -> Forall schema_doc l -> shaped v20_table (BListOf (BCls "Schema")) j) /\
  (forall p, j = JDict p -> Forall (fun kv => schema_doc (snd kv)) p -> shaped v20_table (BMapOf (BCls "Schema")) j).
Proof.
  induction j as [j IH] using json_part_ind. split; [|split].
  - intros S. inversion S as [d Hit Hall Hpr Had Hx He Ej]; subst j.
    apply (shaped_cls "Schema" v20_Schema d eq_refl eq_refl). intros ch Hin Hv.
    destruct (IH _ (part_val d (ch_name ch) Hv)) as (I1 & I2 & I3).
    repeat (destruct Hin as [<-|Hin]; [|]); [..|destruct Hin]; cbn [ch_name ch_builder] in *.
    + destruct Hx as [H|(x & ->)]; [contradiction|]. now apply (shaped_leaf _ v20_XMLObject).
    + destruct He as [H|(x & ->)]; [contradiction|]. now apply (shaped_leaf _ v20_ExternalDocumentation).
    + destruct Hit as [H|H]; [contradiction|]. auto.
    + destruct Hall as [H|(l & E & F)]; [contradiction|]. eauto.
    + destruct Hpr as [H|(l & E & F)]; [contradiction|]. eauto.
    + destruct Had as [H|[(b & ->)|H]]; [contradiction|apply sh_bool|]. apply sh_nobool; [inversion H; subst; discriminate|auto].
  - intros l -> F. constructor. intros x Hx. rewrite Forall_forall in F. destruct (IH x Hx) as [I _]. auto.
  - intros l -> F. constructor. intros k x Hx. rewrite Forall_forall in F. destruct (IH x (ex_intro _ k Hx)) as [I _]. apply I. exact (F _ Hx).
Qed.
Lemma schema_doc_loads j path : schema_doc j -> exists o, construct v20_table j (BCls "Schema") path [] = Ok o.
Proof. intros H. apply construct_shaped. now apply schema_doc_shaped_aux. Qed.
Theorem schema_converted j path : wf_json j -> schema_doc j ->
  exists o d', construct v20_table j (BCls "Schema") path [] = Ok o /\ to_schema false o = Ok d' /\ schema_image j (JDict d').
Proof.
  intros W S. destruct (schema_doc_loads j path S) as [o E]. destruct (to_schema_image (osize o) j o W S) as (d' & E' & Im); [eexists; exact E|lia|]. eauto 6.
Qed.

(** ** validation *)
Lemma and_iff_compat_both (A B C D : Prop) : (A <-> B) -> (C <-> D) -> (A /\ C <-> B /\ D). Proof. tauto. Qed.
Lemma non_null_val d d' k : lookup k d' = non_null (val d k) -> val d' k = val d k.
Proof. intros H. unfold val at 1. rewrite H. destruct (val d k); reflexivity. Qed.
Lemma val_some (d : dict) k v : lookup k d = Some v -> val d k = v. Proof. unfold val. now intros ->. Qed.
Lemma lookup_Forall2 {R : json -> json -> Prop} p p' : Forall2 (fun a b : string * json => fst a = fst b /\ R (snd a) (snd b)) p p' -> forall k,
  match lookup k p, lookup k p' with Some s, Some s' => R s s' | None, None => True | _, _ => False end.
Proof.
  induction 1 as [|[k1 s] [k2 s'] p p' [E H] _ IH]; intros k; cbn [lookup]; [exact I|]. cbn [fst snd] in *. subst k2. destruct (String.eqb k k1); [exact H|apply IH].
Qed.
Section Preserve.
  Variables (simple : list (string * option json) -> json -> Prop) (target target' : json -> option json).
  Hypothesis Ht : forall r, match target r with
    | Some t => exists t', target' r = Some t' /\ schema_doc t /\ file_free t /\ schema_image t t'
    | None => target' r = None end.
  Lemma valid_preserved : forall n s s' x, schema_doc s -> file_free s -> schema_image s s' -> (valid simple target n s x <-> valid simple target' n s' x).
  Proof.
    induction n as [|n IH]; intros s s' x S Ff Im; [reflexivity|].
    inversion S as [d Hit Hall Hpr Had Hx He Ej]; subst s. inversion Ff as [d0 Hff Ej]; subst d0.
    inversion Im as [d0 Tr E0 E1|d0 Tr Tf E0 E1|d0 d' Tr Tf Hk Hr1 Hr2 Hi1 Hi2 Ha1 Ha2 Hp1 Hp2 Had1 Had2 Had3 Hd Hx1 Hx2 He1 He2 Hcl E0 E1]; subst d0 s'.
    - cbn [valid]. assert (V : val [("$ref", val d "$ref")] "$ref" = val d "$ref") by reflexivity. rewrite V, Tr. specialize (Ht (val d "$ref")).
      destruct (target (val d "$ref")) as [t|]; [|rewrite Ht; reflexivity]. destruct Ht as (t' & -> & St & Ft & It). now apply IH.
    - destruct (Hff Tr) as [N _]. contradiction.
    - destruct (Hff Tr) as (_ & Fit & Fall & Fpr & Fad). clear Hff.
      assert (Er : val d' "$ref" = JNull). { unfold val. destruct (lookup "$ref" d') eqn:L; [|reflexivity]. apply Hcl in L. exfalso. cbv in L. repeat (destruct L as [L|L]; [discriminate L|]). exact L. }
      cbn [valid]. rewrite Tr, Er. cbn [truthy].
      assert (Es : simple_values d' = simple_values d).
      { unfold simple_values. apply map_ext_in. intros k Hin. f_equal. f_equal. apply non_null_val. apply Hk. clear -Hin. cbv in Hin. repeat (destruct Hin as [<-|Hin]; [in_list|]). destruct Hin. }
      rewrite Es. apply and_iff_compat_l.
      assert (Er2 : forall l, l <> [] -> (val d "required" = JList l <-> val d' "required" = JList l)).
      { intros l Hl. split; intros E.
        - destruct l as [|y l]; [contradiction|]. apply val_some. now apply Hr1.
        - destruct (val d "required") as [| | | | |[|y m]|] eqn:Ev; try (unfold val in E; rewrite Hr2 in E by discriminate; discriminate E).
          specialize (Hr1 y m eq_refl). apply val_some in Hr1. congruence. }
      apply and_iff_compat_both.
      { split; intros H l o name E Ex Hin; (assert (Hl : l <> []) by (intros ->; exact Hin)); apply (H l o name); try assumption; now apply (Er2 l Hl). }
      apply and_iff_compat_both.
      { destruct Hall as [Hall|(l & El & Fl)].
        - rewrite Hall. specialize (Ha2 (or_introl Hall)). split; intros _ l s' E; [unfold val in E; rewrite Ha2 in E|]; discriminate E.
        - rewrite El in *. destruct l as [|y l].
          + specialize (Ha2 (or_intror eq_refl)). split; intros _ l s' E; [unfold val in E; rewrite Ha2 in E; discriminate E|injection E as <-; intros []].
          + destruct (Ha1 _ eq_refl) as (l' & E' & F2); [discriminate|]. apply val_some in E'. rewrite E'. specialize (Fall _ eq_refl). clear -IH F2 Fl Fall.
            assert (G : (forall s', In s' (y :: l) -> valid simple target n s' x) <-> (forall s', In s' l' -> valid simple target' n s' x)).
            { revert Fl Fall. induction F2 as [|a b m m' Hab F2 IHF]; intros Fl Fall; [split; intros _ s' []|]. inversion Fl; inversion Fall; subst.
              specialize (IHF ltac:(assumption) ltac:(assumption)). split; intros H s' [<-|Hin].
              - apply (IH a b x); auto. apply H; now left.
              - apply IHF; [|exact Hin]. intros z Hz. apply H; now right.
              - apply (IH a b x); auto. apply H; now left.
              - apply IHF; [|exact Hin]. intros z Hz. apply H; now right. }
            split; intros H l0 s' E; injection E as <-; revert s'; apply G; intros s' Hs; apply (H _ s' eq_refl Hs). }
      apply and_iff_compat_both.
      { destruct (json_null_dec (val d "items")) as [Hn|Hn].
        - specialize (Hi2 Hn). split; intros _ l y E; exfalso; [|contradiction]. unfold val in E. rewrite Hi2 in E. now apply E.
        - destruct Hit as [?|Hit]; [contradiction|]. destruct (Hi1 Hn) as (s' & E' & I'). apply val_some in E'. rewrite E'.
          assert (Hs' : s' <> JNull) by (inversion I'; discriminate).
          split; intros H l y _ Hxl Hy; apply (IH _ _ y Hit (Fit Hn) I'); eapply H; eauto. }
      assert (Pr : forall k, match (match val d "properties" with JDict p => lookup k p | _ => None end), (match val d' "properties" with JDict p => lookup k p | _ => None end) with
                     | Some s, Some s' => schema_doc s /\ file_free s /\ schema_image s s' | None, None => True | _, _ => False end).
      { intros k. destruct Hpr as [Hpr|(p & Ep & Fp)].
        - rewrite Hpr. specialize (Hp2 (or_introl Hpr)). unfold val. rewrite Hp2. exact I.
        - rewrite Ep in *. destruct p as [|y p].
          + specialize (Hp2 (or_intror eq_refl)). unfold val. rewrite Hp2. exact I.
          + destruct (Hp1 _ eq_refl) as (p' & E' & F2); [discriminate|]. apply val_some in E'. rewrite E'. specialize (Fpr _ eq_refl).
            pose proof (lookup_Forall2 _ _ F2 k) as X. destruct (lookup k (y :: p)) eqn:L; [|exact X]. destruct (lookup k p'); [|exact X].
            apply PyValFacts.lookup_In in L. rewrite Forall_forall in Fp, Fpr. split; [exact (Fp _ L)|]. split; [exact (Fpr _ L)|exact X]. }
      assert (Pd : forall e, (forall k, val e "properties" = JDict k -> True) -> forall p (k : string), val e "properties" = JDict p -> (match val e "properties" with JDict p => lookup k p | _ => None end) = lookup k p) by (intros e _ p k ->; reflexivity).
      apply and_iff_compat_both.
      { split; intros H p o k s' y Ep Ex Ls Ly; specialize (Pr k); rewrite Ep, Ls in Pr.
        - destruct (val d "properties") as [| | | | | |p0] eqn:Ep0; try contradiction. destruct (lookup k p0) as [s0|] eqn:L0; [|contradiction]. destruct Pr as (A & B & C).
          apply (IH _ _ y A B C). eapply H; eauto.
        - destruct (val d' "properties") as [| | | | | |p0] eqn:Ep0; try contradiction. destruct (lookup k p0) as [s0|] eqn:L0; [|contradiction]. destruct Pr as (A & B & C).
          apply (IH _ _ y A B C). eapply H; eauto. }
      assert (Pn : forall k, (forall p, val d "properties" = JDict p -> lookup k p = None) <-> (forall p, val d' "properties" = JDict p -> lookup k p = None)).
      { intros k. specialize (Pr k). split; intros H p Ep; rewrite Ep in Pr.
        - destruct (val d "properties") as [| | | | | |p0]; try (destruct (lookup k p); [contradiction|reflexivity]). specialize (H _ eq_refl). rewrite H in Pr. destruct (lookup k p); [contradiction|reflexivity].
        - destruct (val d' "properties") as [| | | | | |p0]; try (destruct (lookup k p); [contradiction|reflexivity]). specialize (H _ eq_refl). rewrite H in Pr. destruct (lookup k p); [contradiction|reflexivity]. }
      assert (Ad : forall y, (val d "additionalProperties" <> JBool false /\ (forall a, val d "additionalProperties" = JDict a -> valid simple target n (JDict a) y)) <->
                             (val d' "additionalProperties" <> JBool false /\ (forall a, val d' "additionalProperties" = JDict a -> valid simple target' n (JDict a) y))).
      { intros y. destruct Had as [Had|[([|] & Had)|Had]].
        - specialize (Had3 (or_intror Had)). assert (En : val d' "additionalProperties" = JNull) by (unfold val; now rewrite Had3). rewrite En, Had. split; intros _; split; discriminate.
        - specialize (Had3 (or_introl Had)). assert (En : val d' "additionalProperties" = JNull) by (unfold val; now rewrite Had3). rewrite En, Had. split; intros _; split; discriminate.
        - specialize (Had2 Had). apply val_some in Had2. rewrite Had2, Had. split; intros [N _]; now contradiction N.
        - inversion Had as [a _ _ _ _ _ _ Ea]. symmetry in Ea. destruct (Had1 a Ea) as (s' & E' & I'). apply val_some in E'. rewrite E'. specialize (Fad a Ea). rewrite Ea in *.
          assert (exists a', s' = JDict a') as [a' ->] by (inversion I'; eauto).
          split; intros [_ H]; (split; [discriminate|]); intros a0 E0; injection E0 as <-; apply (IH _ _ y Had Fad I'); now apply H. }
      split; intros H o k y Ex Ly Hn; apply Ad; eapply H; eauto; now apply Pn.
  Qed.
End Preserve.
