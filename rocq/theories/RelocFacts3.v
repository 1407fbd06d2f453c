(** Proofs about references to parameters of converted documents. *)
From Coq Require Import String Ascii List Bool Arith ZArith Lia.
From Verif Require Import PyStr PyStrFacts PyVal PyValFacts Jp SpecJp JpFacts NatDecFacts UrlLib Obj ObjFacts ResolveFacts Classes_v2_0 TablesFacts SpecJson ShapeFacts DumpFacts SpecObj SpecSchema SpecConv SpecBody SpecOp SpecDoc Store SpecStore StoreFacts Conv20 ConvFacts SchemaFacts SchemaFacts2 ParamFacts BodyFacts BodyFacts2 ParamListFacts ParamListFacts2 OpFacts OpFacts2 PathFacts PathFacts2 DocFacts DocFacts2 RelocFacts RelocFacts2.
Import ListNotations.
Open Scope string_scope. Open Scope nat_scope.

(** ** numerals *)
Lemma digits_ge : forall r a z, digits_val r a = Some z -> (0 <= a)%Z -> (a <= z)%Z.
Proof.
  induction r as [|c r IH]; intros a z H Ha; cbn [digits_val] in H; [injection H as <-; lia|].
  match type of H with (if ?b then _ else _) = _ => destruct b; [|discriminate] end. apply IH in H; lia.
Qed.
Lemma digits_app : forall s r a, digits_val (s ++ r) a = match digits_val s a with Some z => digits_val r z | None => None end.
Proof.
  induction s as [|c s IH]; intros r a; cbn [String.append digits_val]; [reflexivity|].
  match goal with |- (if ?b then _ else _) = _ => destruct b; [|reflexivity] end. apply IH.
Qed.
Lemma nat_dec_prefix i j : prefix_of (nat_dec j) (nat_dec i) -> j <= i.
Proof.
  intros [r E]. assert (Hi := digits_aux (S i) i EmptyString ltac:(lia)). assert (Hj := digits_aux (S j) j EmptyString ltac:(lia)). fold (nat_dec i) in Hi. fold (nat_dec j) in Hj.
  cbn [digits_val] in Hi, Hj. rewrite E, digits_app, Hj in Hi. apply digits_ge in Hi; lia.
Qed.
Lemma digit_no_escape k : k < 10 -> digit k <> "~"%char /\ digit k <> "/"%char.
Proof. intros H. do 10 (destruct k as [|k]; [split; discriminate|]). lia. Qed.
Lemma nat_dec_no_escape n : no_escape (nat_dec n).
Proof.
  unfold nat_dec. generalize (S n). intros f. assert (G : forall f n acc, no_escape acc -> no_escape (nat_dec_aux f n acc)); [|now apply G].
  clear. induction f as [|f IH]; intros n acc H; cbn [nat_dec_aux]; [exact H|]. destruct (digit_no_escape (n mod 10) (digit_cases n)) as [D1 D2].
  assert (X : no_escape (String (digit (n mod 10)) acc)) by (cbn [no_escape]; auto). destruct (n / 10); [exact X|now apply IH].
Qed.
Lemma nat_dec_nonempty n : nat_dec n <> "".
Proof. destruct (nat_dec_aux_head (S n) n EmptyString ltac:(lia)) as (k & r & _ & E). fold (nat_dec n) in E. rewrite E. discriminate. Qed.
Lemma endswith_slash_app a s : s <> "" -> contains_char "/" s = false -> endswith "/" (a ++ s) = false.
Proof.
  intros Ne N. rewrite endswith_last, last_is_app by exact Ne. destruct (last_is "/" s) eqn:E; [|reflexivity]. rewrite last_is_spec in E. destruct E as [w ->]. rewrite contains_char_app in N. cbn in N. now rewrite orb_true_r in N.
Qed.
Lemma prefix_refl_nil s : prefix_of "" s. Proof. now exists s. Qed.

Section Params.
  Variables (deref : obj -> res obj) (normalized_ref : obj -> res json).
  Local Notation plain_params := (SpecGiven.plain_params deref).

  (** the global parameters are objects, not references *)

  Lemma plain_given q o : is_reference q = false -> refers deref "Parameter" q q -> loaded (BCls "Parameter") (JDict q) o -> param_given deref q q o.
  Proof.
    intros Nr Rq [pt L]. apply refers_param; [exact Rq|]. exists pt. rewrite construct_eq in *. cbn [select] in *. cbn [py_in bind]. unfold is_reference in Nr. rewrite Nr. exact L.
  Qed.
  Lemma global_lookup l ys n v : Forall2 (global deref) l ys -> lookup n l = Some v -> exists o y, lookup n ys = Some y /\ loaded (BCls "Parameter") v o /\ from_parameter deref o None [] = Ok y.
  Proof.
    induction 1 as [|[k1 v1] [k2 y] l ys (E & o & Lo & Ef) F IH]; cbn [lookup fst snd] in *; [discriminate|]. subst k2. destruct (String.eqb n k1); [|exact IH]. intros H. injection H as <-. eauto.
  Qed.
  Lemma global_lookup_back l ys n y : Forall2 (global deref) l ys -> lookup n ys = Some y -> exists v o, lookup n l = Some v /\ loaded (BCls "Parameter") v o /\ from_parameter deref o None [] = Ok y.
  Proof.
    induction 1 as [|[k1 v1] [k2 y2] l ys (E & o & Lo & Ef) F IH]; cbn [lookup fst snd] in *; [discriminate|]. subst k2. destruct (String.eqb n k1); [|exact IH]. intros H. injection H as <-. eauto.
  Qed.
  Lemma lookup_filter {A} (f : string * A -> bool) (l : list (string * A)) k : NoDup (map fst l) -> lookup k (filter f l) = match lookup k l with Some v => if f (k, v) then Some v else None | None => None end.
  Proof.
    induction l as [|[k1 v] l IH]; [reflexivity|]. cbn [map fst filter lookup]. intros N. inversion N as [|? ? Hn N']; subst. destruct (f (k1, v)) eqn:E; cbn [lookup]; destruct (String.eqb_spec k k1) as [->|]; [now rewrite E|now apply IH|rewrite E, IH by exact N'|now apply IH].
    assert (X : lookup k1 l = None) by (apply PyValFacts.lookup_none; exact Hn). now rewrite X.
  Qed.
  Lemma global_nodup l ys : Forall2 (global deref) l ys -> NoDup (keys l) -> NoDup (map fst ys).
  Proof. intros F N. enough (map fst ys = keys l) as -> by exact N. clear N. unfold keys. induction F as [|x y l ys [E _] _ IH]; [reflexivity|]. cbn [map]. congruence. Qed.
  Lemma lookup_as_doc ys k : lookup k (as_doc ys) = match lookup k ys with Some y => Some (JDict (fst y)) | None => None end.
  Proof. unfold as_doc. induction ys as [|[k1 y] l IH]; [reflexivity|]. cbn [map lookup fst snd]. destruct (String.eqb k k1); [reflexivity|exact IH]. Qed.

  (** a document whose parameters are plain *)
  Lemma body_ones_spec d ys k : Forall2 (global deref) (entries_of (val d "parameters")) ys -> NoDup (keys (entries_of (val d "parameters"))) -> plain_params d ->
    forall y, lookup k (body_ones ys) = Some y <-> lookup k ys = Some y /\ merged_name d k.
  Proof.
    intros F N Pl y. unfold body_ones. rewrite lookup_filter by exact (global_nodup _ _ F N). destruct (lookup k ys) as [y'|] eqn:E; [|split; [discriminate|intros [X _]; discriminate]].
    destruct (global_lookup_back _ _ _ _ F E) as (v & o & Lv & Lo & Ef). destruct (Pl k v Lv) as (q & -> & Nr & Rq & Pq). destruct y' as [b c]. cbn [snd].
    pose proof (from_parameter_kind deref q q o None [] b c (plain_given q o Nr Rq Lo) Ef) as K. rewrite K. destruct (is_merged q) eqn:Em.
    - split; [intros X; split; [exact X|exists q; auto]|tauto].
    - split; [discriminate|]. intros [_ (q' & Lq' & M)]. congruence.
  Qed.

  Lemma merged_parameter_reference d o x sec reloc n q ts : loaded (BCls "Swagger") (JDict d) o -> document d -> plain_params d -> to_openapi deref normalized_ref o = Ok (x, sec, reloc) ->
    lookup n (entries_of (val d "parameters")) = Some (JDict q) -> is_merged q = true -> n <> "" -> no_escape n -> (forall n', merged_name d n' -> contains_char "/" n' = false) -> starts_well ts ->
    patch_jp (pointer ("parameters" :: n :: ts)) (at_root reloc) = Ok (pointer ("components" :: "requestBodies" :: n :: ts)) /\
    exists b po c, jget (JDict x) ["components"; "requestBodies"; n] (JDict b) /\ param_given deref q q po /\ from_parameter deref po None [] = Ok (b, c).
  Proof.
    intros L D Pl H Hn Mq Nn Ne Hs Sw. destruct (document_table deref normalized_ref d o x sec reloc L D H) as [Tw Tk]. destruct D as (W & Hi & Hi2 & He & Ht).
    destruct (to_openapi_ok deref normalized_ref d o x sec reloc L W Hi Hi2 He Ht H) as (url & paths & schemas & ys & resps & secs & _ & _ & _ & _ & _ & _ & _ & _ & _ & _ & Fy & _ & Ls & _ & _ & _ & _ & _ & _ & Hc & _ & Lr & _).
    destruct (global_lookup _ _ _ _ Fy Hn) as (po & y & Ly & Lpo & Ef). pose proof (nodup_entries d "parameters" W) as Np.
    assert (Lb : lookup n (body_ones ys) = Some y). { apply (body_ones_spec d ys n Fy Np Pl). split; [exact Ly|]. exists q. auto. }
    destruct (Pl n _ Hn) as (q' & Eq & Nr & Rq & Pq). injection Eq as <-.
    assert (Lt : lookup "parameters" reloc = Some (RMap (param_routes ys))). { rewrite Lr. cbn [String.eqb Ascii.eqb Bool.eqb]. destruct ys; [discriminate|reflexivity]. }
    assert (Ens : contains_char "/" n = false) by exact (no_escape_slash n Ne).
    split.
    - assert (P : pointer ("parameters" :: n :: ts) = (join "/" ["#"; "parameters"; n] ++ tail_of ts)%string). { rewrite pointer_tail, !tail_cons, (no_escape_same n Ne). cbn. reflexivity. }
      rewrite P. rewrite (patch_jp_boundary (at_root reloc) ["#"; "parameters"; n] (tail_of ts) ("#/components/requestBodies/" ++ n) (root_wf reloc Tw)).
      + change (startswith "#" ("#/components/requestBodies/" ++ n)) with true. cbn iota. rewrite pointer_tail, !tail_cons, (no_escape_same n Ne). cbn. reflexivity.
      + repeat constructor; [discriminate|discriminate|exact Nn].
      + now apply tail_token.
      + rewrite <- P. apply root_leads. apply step_leads with (m' := param_routes ys); [apply section_longest; [exact Tk|in_list|exact Lt]|]. apply ld_text; [|discriminate].
        rewrite (no_escape_same n Ne). apply longest_only.
        * rewrite param_routes_lookup, Lb. destruct n; [congruence|reflexivity].
        * now exists (tail_of ts).
        * intros k' t' Hk P'. rewrite param_routes_lookup in Hk. destruct (String.eqb_spec "" k') as [<-|Nk]; [apply prefix_refl_nil|].
          destruct (lookup k' (body_ones ys)) as [y'|] eqn:E'; [|discriminate]. apply (body_ones_spec d ys k' Fy Np Pl) in E' as [_ Mk]. exact (prefix_token k' n ts (Hs k' Mk) P').
      + now apply endswith_slash_app.
    - destruct y as [b c]. exists b, po, c. split; [|split; [exact (plain_given q po Nr Rq Lpo)|exact Ef]].
      apply (components_get x "requestBodies" n (as_doc (body_ones ys)) (JDict b) [] _ Hc Ls); [|constructor]. rewrite lookup_as_doc, Lb. reflexivity.
  Qed.
  Lemma kept_parameter_reference d o x sec reloc n q ts : loaded (BCls "Swagger") (JDict d) o -> document d -> plain_params d -> to_openapi deref normalized_ref o = Ok (x, sec, reloc) ->
    lookup n (entries_of (val d "parameters")) = Some (JDict q) -> is_merged q = false -> n <> "" -> (forall n', merged_name d n' -> n' <> "" -> contains_char "/" n' = false /\ ~ prefix_of n' (rfc_escape n)) ->
    patch_jp (pointer ("parameters" :: n :: ts)) (at_root reloc) = Ok (pointer ("components" :: "parameters" :: n :: ts)) /\
    exists p, jget (JDict x) ["components"; "parameters"; n] (JDict p) /\ param_image q p.
  Proof.
    intros L D Pl H Hn Mq Nn Hs. destruct (document_table deref normalized_ref d o x sec reloc L D H) as [Tw Tk]. destruct D as (W & Hi & Hi2 & He & Ht).
    destruct (to_openapi_ok deref normalized_ref d o x sec reloc L W Hi Hi2 He Ht H) as (url & paths & schemas & ys & resps & secs & _ & _ & _ & _ & _ & _ & _ & _ & _ & _ & Fy & Ls & _ & _ & _ & _ & _ & _ & _ & Hc & _ & Lr & _).
    destruct (global_lookup _ _ _ _ Fy Hn) as (po & y & Ly & Lpo & Ef). pose proof (nodup_entries d "parameters" W) as Np.
    destruct (Pl n _ Hn) as (q' & Eq & Nr & Rq & Pq). injection Eq as <-.
    assert (Lt : lookup "parameters" reloc = Some (RMap (param_routes ys))). { rewrite Lr. cbn [String.eqb Ascii.eqb Bool.eqb]. destruct ys; [discriminate|reflexivity]. }
    split.
    - assert (P : pointer ("parameters" :: n :: ts) = (join "/" ["#"; "parameters"] ++ tail_of (n :: ts))%string). { rewrite pointer_tail, !tail_cons. cbn. reflexivity. }
      rewrite P. rewrite (patch_jp_default (at_root reloc) ["#"; "parameters"] (tail_of (n :: ts)) "#/components/parameters" (root_wf reloc Tw)).
      + change (startswith "#" "#/components/parameters") with true. cbn iota. rewrite pointer_tail, !tail_cons. reflexivity.
      + repeat constructor; discriminate.
      + discriminate.
      + now apply tail_token.
      + rewrite <- P. cbn [List.app]. apply root_leads. apply step_leads with (m' := param_routes ys); [apply section_longest; [exact Tk|in_list|exact Lt]|]. apply ld_text; [|discriminate].
        apply longest_only; [rewrite param_routes_lookup; reflexivity|apply prefix_refl_nil|].
        intros k' t' Hk P'. rewrite param_routes_lookup in Hk. destruct (String.eqb_spec "" k') as [<-|Nk]; [apply prefix_refl_nil|]. exfalso.
        destruct (lookup k' (body_ones ys)) as [y'|] eqn:E'; [|discriminate]. apply (body_ones_spec d ys k' Fy Np Pl) in E' as [_ Mk]. destruct (Hs k' Mk (not_eq_sym Nk)) as [Ns Np']. apply Np'. exact (prefix_token k' _ ts Ns P').
      + reflexivity.
    - destruct y as [b c]. pose proof (plain_given q po Nr Rq Lpo) as G. exists b. split.
      + apply (components_get x "parameters" n (as_doc (other_ones ys)) (JDict b) [] _ Hc Ls); [|constructor]. rewrite lookup_as_doc. unfold other_ones. rewrite lookup_filter by exact (global_nodup _ _ Fy Np). rewrite Ly. cbn [snd].
        rewrite (from_parameter_kind deref q q po None [] b c G Ef), Mq. reflexivity.
      + pose proof (from_parameter_kept deref q q po None [] b c G Pq Mq Ef) as K. unfold kept_image in K. rewrite Nr in K. destruct K as (p & E & Im). injection E as <-. exact Im.
  Qed.
End Params.
