(** Proofs about scopes. *)
From Coq Require Import String Ascii List Bool Arith Lia Permutation.
From Verif Require Import PyStr PyStrFacts PyVal PyValFacts Scope SpecScope.
Import ListNotations.
Open Scope string_scope.

Lemma scope_compose_assoc a b c sep :
  scope_compose (scope_compose a b sep) c sep = scope_compose a (scope_compose b c sep) sep.
Proof.
  destruct a as [[|xa a]|], b as [[|xb b]|], c as [[|xc c]|]; try reflexivity.
  cbn. now rewrite !sapp_assoc.
Qed.

Lemma scope_compose_none_r a sep : scope_compose a None sep = a.
Proof. destruct a as [[|]|]; reflexivity. Qed.
Lemma scope_compose_none_l a sep : scope_compose None a sep = a.
Proof. destruct a as [[|]|]; reflexivity. Qed.
Lemma scope_compose_both s n sep : s <> "" -> n <> "" -> scope_compose (Some s) (Some n) sep = Some (s ++ sep ++ n).
Proof. destruct s, n; try congruence; reflexivity. Qed.

(** *** split of a string on a string separator *)
Lemma split_str_nonempty sep k s : split_str_aux sep k s <> [].
Proof.
  revert k; induction s as [|a s IH]; intros k; cbn [split_str_aux]; [discriminate|].
  destruct k; [|apply IH]. destruct (startswith sep (String a s)); [discriminate|].
  destruct (split_str_aux sep 0 s); discriminate.
Qed.

Lemma split_str_aux_skip sep a b : split_str_aux sep (String.length a) (a ++ b) = split_str_aux sep 0 b.
Proof.
  induction a as [|x a IH]; [reflexivity|]. cbn [append String.length split_str_aux]. exact IH.
Qed.

Lemma split_str_name c sep' n rest :
  contains_char c n = false ->
  split_str_aux (String c sep') 0 (n ++ rest) =
  match split_str_aux (String c sep') 0 rest with [] => [n] | h :: t => (n ++ h) :: t end.
Proof.
  induction n as [|x n IH]; intros Hc; cbn [append].
  - destruct (split_str_aux (String c sep') 0 rest) eqn:E; [now apply split_str_nonempty in E | reflexivity].
  - cbn [contains_char] in Hc. apply orb_false_iff in Hc as [Hx Hn].
    cbn [split_str_aux startswith]. rewrite Ascii.eqb_sym in Hx. rewrite Hx.
    rewrite (IH Hn). destruct (split_str_aux (String c sep') 0 rest) eqn:E; [now apply split_str_nonempty in E | reflexivity].
Qed.

Lemma split_str_sep c sep' rest :
  split_str_aux (String c sep') 0 (String c sep' ++ rest) = "" :: split_str_aux (String c sep') 0 rest.
Proof.
  cbn [append split_str_aux]. change (String c (sep' ++ rest)) with (String c sep' ++ rest).
  rewrite startswith_app.
  replace (String.length (String c sep') - 1) with (String.length sep') by (cbn [String.length]; lia). f_equal. apply split_str_aux_skip.
Qed.

Lemma split_composed c sep' names :
  names <> [] -> Forall (fun n => contains_char c n = false) names ->
  split_str (String c sep') (composed (String c sep') names) = names.
Proof.
  unfold split_str. induction names as [|n names IH]; [congruence|]. intros _ Hf.
  inversion_clear Hf as [|? ? Hn Hf']. destruct names as [|m names].
  - cbn [composed]. rewrite <- (sapp_nil_r n) at 1. rewrite split_str_name by exact Hn.
    cbn. now rewrite sapp_nil_r.
  - change (composed (String c sep') (n :: m :: names))
      with (n ++ String c sep' ++ composed (String c sep') (m :: names)).
    rewrite split_str_name by exact Hn. rewrite split_str_sep. rewrite sapp_nil_r.
    f_equal. apply IH; [discriminate | exact Hf'].
Qed.

Lemma fold_compose sep names scope :
  Forall (fun n => n <> "") names -> scope <> "" ->
  fold_left (fun a b => scope_compose a b sep) (map Some names) (Some scope)
  = Some (composed sep (scope :: names)).
Proof.
  revert scope; induction names as [|n names IH]; intros scope Hf Hs; [reflexivity|].
  inversion_clear Hf as [|? ? Hn Hf']. cbn [map fold_left].
  rewrite scope_compose_both by assumption. rewrite IH; [| exact Hf' |].
  - f_equal. destruct names as [|m names].
    + reflexivity.
    + change (composed sep (scope :: n :: m :: names))
        with (scope ++ sep ++ n ++ sep ++ composed sep (m :: names)).
      change (composed sep ((scope ++ sep ++ n) :: m :: names))
        with ((scope ++ sep ++ n) ++ sep ++ composed sep (m :: names)).
      now rewrite !sapp_assoc.
  - intros H. apply sapp_eq_nil in H as [H _]. contradiction.
Qed.

Lemma composed_ne sep names : names <> [] -> Forall (fun n => n <> "") names -> composed sep names <> "".
Proof.
  destruct names as [|n [|m names]]; [congruence| |]; intros _ Hf; inversion_clear Hf; [assumption|].
  change (composed sep (n :: m :: names)) with (n ++ sep ++ composed sep (m :: names)).
  intros E. apply sapp_eq_nil in E as [E _]. contradiction.
Qed.

Lemma scope_roundtrip c sep' n names :
  Forall (fun n => n <> "" /\ contains_char c n = false) (n :: names) ->
  exists s, fold_left (fun a b => scope_compose a b (String c sep')) (map Some names) (Some n) = Some s
            /\ s = composed (String c sep') (n :: names)
            /\ scope_split (Some s) (String c sep') = Ok (map Some (n :: names)).
Proof.
  intros Hf. assert (Hne : Forall (fun n => n <> "") (n :: names)).
  { eapply Forall_impl; [|exact Hf]. cbv beta; tauto. }
  assert (Hnc : Forall (fun n => contains_char c n = false) (n :: names)).
  { eapply Forall_impl; [|exact Hf]. cbv beta; tauto. }
  exists (composed (String c sep') (n :: names)). split; [|split].
  - inversion_clear Hne. now apply fold_compose.
  - reflexivity.
  - unfold scope_split. rewrite (proj2 (truthy_str_true _)).
    + rewrite split_composed by (discriminate || exact Hnc). reflexivity.
    + apply composed_ne; [discriminate | exact Hne].
Qed.

(** *** last name *)
Lemma after_last_none sep s : sep <> "" -> after_last sep s = None -> forall p n, s <> p ++ sep ++ n.
Proof.
  intros Hsep. induction s as [|a s IH]; intros H p n He.
  - symmetry in He. apply sapp_eq_nil in He as [_ He]. apply sapp_eq_nil in He as [He _]. contradiction.
  - cbn [after_last] in H. destruct (after_last sep s) as [r|]; [discriminate|].
    destruct p as [|x p].
    + cbn [append] in He. rewrite He, startswith_app in H. discriminate.
    + cbn [append] in He. injection He as -> He. exact (IH eq_refl p n He).
Qed.

Lemma after_last_some sep s n : sep <> "" -> after_last sep s = Some n ->
  (exists p, s = p ++ sep ++ n) /\ forall p' n', s = p' ++ sep ++ n' -> String.length n <= String.length n'.
Proof.
  intros Hsep. revert n; induction s as [|a s IH]; intros n H; [discriminate|].
  cbn [after_last] in H. destruct (after_last sep s) as [r|] eqn:E.
  - injection H as <-. destruct (IH r eq_refl) as [[p Hp] Hm]. split.
    + exists (String a p). cbn [append]. now rewrite Hp.
    + intros [|x p'] n' He.
      * cbn [append] in He. apply (f_equal String.length) in He.
        cbn [String.length] in He. rewrite slength_app in He. apply (f_equal String.length) in Hp.
        rewrite !slength_app in Hp. destruct sep; [congruence|]. cbn [String.length] in *. lia.
      * cbn [append] in He. injection He as -> He. now apply (Hm p').
  - destruct (startswith sep (String a s)) eqn:Es; [|discriminate]. injection H as <-.
    apply startswith_spec in Es as [r Hr]. rewrite Hr, sdrop_app_length. split; [now exists ""|].
    intros [|x p'] n' He; [cbn [append] in He; apply sapp_inv_head in He; subst; lia|].
    rewrite <- Hr in He. cbn [append] in He. injection He as -> He.
    exfalso. exact (after_last_none sep s Hsep E p' n' He).
Qed.

Lemma rsplit_last_spec sep s : sep <> "" -> last_name sep s (rsplit_last sep s).
Proof.
  intros Hsep. unfold rsplit_last, last_name. destruct (after_last sep s) as [n|] eqn:E.
  - left. destruct (after_last_some sep s n Hsep E) as [[p Hp] Hm]. exists p. auto.
  - right. split; [reflexivity|]. now apply after_last_none.
Qed.

Lemma last_name_unique sep s n m : last_name sep s n -> last_name sep s m -> n = m.
Proof.
  intros [(p & Hp & Hm)|[-> Hno]] [(q & Hq & Hm')|[-> Hno']].
  - assert (L : String.length n = String.length m).
    { apply Nat.le_antisymm; [exact (Hm q m Hq) | exact (Hm' p n Hp)]. }
    rewrite Hp in Hq. rewrite <- !sapp_assoc in Hq.
    assert (Hlen : String.length (p ++ sep) = String.length (q ++ sep)).
    { apply (f_equal String.length) in Hq. rewrite !slength_app in Hq. rewrite !slength_app. lia. }
    apply (f_equal (sdrop (String.length (p ++ sep)))) in Hq.
    rewrite sdrop_app_length, Hlen, sdrop_app_length in Hq. exact Hq.
  - exfalso. exact (Hno' p n Hp).
  - exfalso. exact (Hno q m Hq).
  - reflexivity.
Qed.

(** *** ScopeDict *)
Lemma filter_singleton {A} (eq_dec : forall x y : A, {x = y} + {x <> y}) (f : A -> bool) l x :
  NoDup l -> (forall y, In y l /\ f y = true <-> y = x) -> filter f l = [x].
Proof.
  intros Hn Hx. assert (Hnf : NoDup (filter f l)) by now apply NoDup_filter.
  assert (Hin : forall y, In y (filter f l) <-> y = x) by (intros y; rewrite filter_In; apply Hx).
  destruct (filter f l) as [|a [|b t]].
  - exfalso. now apply (Hin x).
  - f_equal. apply (proj1 (Hin a)). now left.
  - exfalso. inversion_clear Hnf as [|? ? Hni _]. apply Hni. left.
    transitivity x; [|symmetry]; apply Hin; simpl; auto.
Qed.

Lemma filter_nil {A} (f : A -> bool) l : (forall y, In y l -> f y = false) -> filter f l = [].
Proof. induction l as [|x l IH]; intros H; [reflexivity|]. simpl. rewrite (H x) by now left. apply IH. intros; apply H; now right. Qed.

Section ScopeDictFacts.
  Context {A : Type} (sep : string) (d : list (string * A)).
  Hypothesis Hsep : sep <> "".
  Hypothesis Hnd : NoDup (keys d).

  Lemma sd_exact k v : In (k, v) d -> scopedict_get sep d (KName k) = Ok v.
  Proof. intros H. unfold scopedict_get. cbn. now rewrite (lookup_nodup k d v Hnd H). Qed.

  Lemma sd_unique_suffix k k' v : ~ In k (keys d) -> In (k', v) d ->
    (forall x, In x (keys d) /\ ends_with x k <-> x = k') ->
    scopedict_get sep d (KName k) = Ok v.
  Proof.
    intros Hk Hin Hu. unfold scopedict_get. cbn. rewrite (proj2 (lookup_none k d) Hk).
    rewrite (filter_singleton string_dec (endswith k) (keys d) k' Hnd).
    - now rewrite (lookup_nodup k' d v Hnd Hin).
    - intros y. rewrite <- Hu. unfold ends_with. now rewrite endswith_spec.
  Qed.

  Lemma sd_none k : (forall x, In x (keys d) -> ~ ends_with x k) ->
    scopedict_get sep d (KName k) = Err KeyError.
  Proof.
    intros H. unfold scopedict_get. cbn.
    assert (Hk : ~ In k (keys d)). { intros Hin. apply (H k Hin). now exists "". }
    rewrite (proj2 (lookup_none k d) Hk). rewrite filter_nil; [reflexivity|].
    intros y Hy. destruct (endswith k y) eqn:E; [|reflexivity].
    exfalso. apply (H y Hy). now apply endswith_spec.
  Qed.

  Definition cand k x := In x (keys d) /\ ends_with x k /\
     exists n, last_name sep x n /\ last_name sep k n.

  Lemma cand_filter k x :
    In x (filter (fun r => String.eqb (rsplit_last sep r) (rsplit_last sep k)) (filter (endswith k) (keys d)))
    <-> cand k x.
  Proof.
    rewrite !filter_In, endswith_spec, String.eqb_eq. unfold cand, ends_with. split.
    - intros [[Hi He] Hl]. repeat split; auto. exists (rsplit_last sep x). split; [now apply rsplit_last_spec|].
      rewrite Hl. now apply rsplit_last_spec.
    - intros (Hi & He & n & H1 & H2). repeat split; auto.
      rewrite (last_name_unique sep x _ n (rsplit_last_spec sep x Hsep) H1).
      now rewrite (last_name_unique sep k _ n (rsplit_last_spec sep k Hsep) H2).
  Qed.

  Lemma sd_multi_unfold k x y : ~ In k (keys d) -> x <> y ->
    In x (keys d) -> ends_with x k -> In y (keys d) -> ends_with y k ->
    scopedict_get sep d (KName k) =
    match filter (fun r => String.eqb (rsplit_last sep r) (rsplit_last sep k)) (filter (endswith k) (keys d)) with
    | [r] => match lookup r d with Some v => Ok v | None => Err KeyError end
    | _ => Err ValueError
    end.
  Proof.
    intros Hk Hxy Hx Hex Hy Hey. unfold scopedict_get. cbn [scope_key_text bind].
    rewrite (proj2 (lookup_none k d) Hk).
    assert (Fx : In x (filter (endswith k) (keys d))) by (apply filter_In; split; [exact Hx | now apply endswith_spec]).
    assert (Fy : In y (filter (endswith k) (keys d))) by (apply filter_In; split; [exact Hy | now apply endswith_spec]).
    rewrite (proj2 (truthy_str_true sep) Hsep).
    destruct (filter (endswith k) (keys d)) as [|a [|b t]]; [destruct Fx| |reflexivity].
    destruct Fx as [<-|[]], Fy as [<-|[]]. congruence.
  Qed.

  Lemma sd_multi_last k x y k' v : ~ In k (keys d) -> x <> y ->
    In x (keys d) -> ends_with x k -> In y (keys d) -> ends_with y k ->
    In (k', v) d -> (forall z, cand k z <-> z = k') ->
    scopedict_get sep d (KName k) = Ok v.
  Proof.
    intros Hk Hxy Hx Hex Hy Hey Hin Hu. rewrite (sd_multi_unfold k x y) by assumption.
    assert (E : filter (fun r => String.eqb (rsplit_last sep r) (rsplit_last sep k)) (filter (endswith k) (keys d)) = [k']).
    { apply (filter_singleton string_dec); [now apply NoDup_filter|].
      intros z. rewrite <- (Hu z), <- (cand_filter k z). now rewrite (filter_In (fun r => String.eqb (rsplit_last sep r) (rsplit_last sep k))). }
    rewrite E. now rewrite (lookup_nodup k' d v Hnd Hin).
  Qed.

  Lemma sd_multi_ambiguous k x y : ~ In k (keys d) -> x <> y ->
    In x (keys d) -> ends_with x k -> In y (keys d) -> ends_with y k ->
    (~ exists k', forall z, cand k z <-> z = k') ->
    scopedict_get sep d (KName k) = Err ValueError.
  Proof.
    intros Hk Hxy Hx Hex Hy Hey Hu. rewrite (sd_multi_unfold k x y) by assumption.
    destruct (filter _ (filter _ _)) as [|a [|b t]] eqn:E; try reflexivity.
    exfalso. apply Hu. exists a. intros z. rewrite <- cand_filter, E. simpl.
    split; [intros [H|[]]; congruence | intros ->; now left].
  Qed.
End ScopeDictFacts.

Lemma perm_filter {A} (f : A -> bool) l l' : Permutation l l' -> Permutation (filter f l) (filter f l').
Proof.
  induction 1; simpl; auto.
  - destruct (f x); auto.
  - destruct (f x), (f y); auto. constructor.
  - etransitivity; eauto.
Qed.

Lemma sd_perm {A} sep (d d' : list (string * A)) key :
  NoDup (keys d) -> Permutation d d' -> scopedict_get sep d key = scopedict_get sep d' key.
Proof.
  intros Hn Hp. unfold scopedict_get. destruct (scope_key_text sep key) as [k0|e]; [|reflexivity].
  cbn [bind]. destruct k0 as [k|].
  2:{ destruct d as [|x d]; [apply Permutation_nil in Hp; subst; reflexivity|].
      destruct d' as [|y d']; [apply Permutation_sym, Permutation_nil in Hp; discriminate|reflexivity]. }
  rewrite <- (lookup_perm k d d' Hn Hp). destruct (lookup k d); [reflexivity|].
  assert (Hk : Permutation (keys d) (keys d')) by now apply Permutation_map.
  pose proof (perm_filter (endswith k) _ _ Hk) as Hf.
  set (F := filter (endswith k) (keys d)) in *. set (F' := filter (endswith k) (keys d')) in *.
  assert (Hl : length F = length F') by now apply Permutation_length.
  destruct F as [|a [|b t]], F' as [|a' [|b' t']]; try discriminate Hl.
  - reflexivity.
  - apply Permutation_length_1 in Hf as ->. now rewrite (lookup_perm a' d d' Hn Hp).
  - destruct (truthy_str sep); [|reflexivity].
    set (g := fun r => String.eqb (rsplit_last sep r) (rsplit_last sep k)).
    pose proof (perm_filter g _ _ Hf) as Hg.
    assert (Hgl := Permutation_length Hg).
    destruct (filter g (a :: b :: t)) as [|x [|y u]], (filter g (a' :: b' :: t')) as [|x' [|y' u']];
      try discriminate Hgl; try reflexivity.
    apply Permutation_length_1 in Hg as ->. now rewrite (lookup_perm x' d d' Hn Hp).
Qed.
