(** * Facts about the filters of [compare_container]. *)
From Coq Require Import String Ascii List Bool Arith ZArith QArith Lia Permutation.
From Verif Require Import PyStr PyVal PyValFacts Jp CompareContainer SpecJson SpecCompareFilter CompareFacts.
Import ListNotations.
Close Scope Q_scope. Open Scope string_scope. Open Scope nat_scope.

Lemma same_length {A B} (P : A -> B -> Prop) l l' : Forall2 P l l' -> length l = length l'.
Proof. induction 1; cbn [length]; congruence. Qed.
Section Filters.
  Variables inc exc : list string.
  Notation shown := (shown inc exc).
  Notation alike := (alike inc exc).
  Notation kept d := (filter (fun kv : string * json => shown (fst kv)) d).
  Lemma visible_shown d : visible_keys inc exc d = map fst (kept d).
  Proof.
    unfold visible_keys, SpecCompareFilter.shown, in_strs. change (keys d) with (map fst d). induction d as [|[k v] d IH]; [destruct inc, exc; reflexivity|]. cbn [map fst filter].
    destruct inc as [|i0 il], exc as [|e0 el]; cbn [map filter fst existsb negb andb orb] in *; try (now rewrite IH).
    - destruct (negb _); cbn [map fst]; now rewrite IH.
    - destruct (_ || _); cbn [negb andb map fst]; now rewrite IH.
    - destruct ((k =? i0)%string || existsb (String.eqb k) il); cbn [negb andb map fst filter]; [destruct (negb _); cbn [map fst]|]; now rewrite IH.
  Qed.
  Lemma kept_lookup k d : shown k = true -> lookup k (kept d) = lookup k d.
  Proof.
    intros S. induction d as [|[k0 v] d IH]; [reflexivity|]. cbn [filter fst lookup]. destruct (String.eqb_spec k k0) as [<-|N].
    - rewrite S. cbn [lookup]. now rewrite String.eqb_refl.
    - destruct (shown k0); cbn [lookup]; [destruct (String.eqb_spec k k0); [congruence|]|]; exact IH.
  Qed.
  Lemma kept_shown k d : In k (map fst (kept d)) -> shown k = true.
  Proof. intros I. apply in_map_iff in I as ([k' v] & <- & I). now apply filter_In in I as [_ I]. Qed.
  Notation pairs := (Forall2 (fun kv kv' : string * json => fst kv = fst kv' /\ alike (snd kv) (snd kv'))).
  Lemma pairs_keys d d' : pairs d d' -> map fst d = map fst d'.
  Proof. induction 1 as [|x y d d' [E _] _ IH]; [reflexivity|]. cbn [map]. now rewrite E, IH. Qed.
  Lemma pairs_lookup k d d' : pairs d d' -> match lookup k d, lookup k d' with Some x, Some x' => alike x x' | None, None => True | _, _ => False end.
  Proof.
    induction 1 as [|[k1 x] [k2 y] d d' [E A] _ IH]; [exact I|]. cbn [fst snd] in E, A. subst k2. cbn [lookup]. destruct (String.eqb k k1); [exact A|exact IH].
  Qed.
  Lemma pairs_refl d : pairs d d.
  Proof. induction d; constructor; [split; [reflexivity|apply al_same]|assumption]. Qed.
  Lemma alike_all_refl l : Forall2 alike l l.
  Proof. induction l; constructor; [apply al_same|assumption]. Qed.
  Lemma alike_dict d x : alike (JDict d) x -> exists d', x = JDict d' /\ pairs (kept d) (kept d').
  Proof. intros H. inversion H; subst; eexists; (split; [reflexivity|]); [apply pairs_refl|assumption]. Qed.
  Lemma alike_list l x : alike (JList l) x -> exists l', x = JList l' /\ Forall2 alike l l' /\ (l = l' \/ (Forall dictionary l /\ Forall dictionary l')).
  Proof. intros H. inversion H; subst; eexists; (split; [reflexivity|]); [split; [apply alike_all_refl|now left]|auto]. Qed.
  Lemma alike_type x y : alike x y -> type_of x = type_of y.
  Proof. destruct 1; reflexivity. Qed.
  Lemma alike_singular l l' : Forall2 alike l l' -> singular l = singular l'.
  Proof.
    intros H. destruct H as [|x x' l l' A H]; [reflexivity|]. cbn [singular]. rewrite (alike_type _ _ A).
    assert (E : forallb (fun y => type_eqb (type_of y) (type_of x')) l = forallb (fun y => type_eqb (type_of y) (type_of x')) l').
    { induction H as [|y y' l l' B _ IH]; [reflexivity|]. cbn [forallb]. now rewrite (alike_type _ _ B), IH. }
    now rewrite E.
  Qed.
  Lemma mapM_two {A A'} (g : A -> res (list diff)) (g' : A' -> res (list diff)) l l' : Forall2 (fun x x' => rmap (map fst) (g x) = rmap (map fst) (g' x')) l l' ->
    rmap (fun ys => map fst (List.concat ys)) (mapM g l) = rmap (fun ys => map fst (List.concat ys)) (mapM g' l').
  Proof.
    induction 1 as [|x x' l l' E _ IH]; [reflexivity|]. cbn [mapM]. destruct (g x) as [a|], (g' x') as [a'|]; cbn [rmap bind] in *; try congruence.
    destruct (mapM g l), (mapM g' l'); cbn [rmap bind] in *; try congruence. injection E as E. injection IH as IH. cbn [List.concat]. now rewrite !map_app, E, IH.
  Qed.
  Lemma zip_two i l l' m m' : Forall2 alike l l' -> Forall2 alike m m' ->
    Forall2 (fun t t' : nat * json * json => fst (fst t) = fst (fst t') /\ alike (snd (fst t)) (snd (fst t')) /\ alike (snd t) (snd t')) (zip_from i l m) (zip_from i l' m').
  Proof.
    intros H. revert i m m'. induction H as [|x x' l l' A _ IH]; intros i m m' Hm; [constructor|]. destruct Hm as [|y y' m m' B Hm]; [constructor|]. cbn [zip_from]. constructor; [auto|]. now apply IH.
  Qed.
  Lemma zip_in i l m t : In t (zip_from i l m : list (nat * json * json)) -> In (snd (fst t)) l.
  Proof. revert i m. induction l as [|x l IH]; intros i m H; [destruct H|]. destruct m as [|y m]; [destruct H|]. cbn [zip_from] in H. destruct H as [<-|H]; [now left|right; eauto]. Qed.
  Lemma Forall2_mem {A B} (P : A -> B -> Prop) l l' : Forall2 P l l' -> Forall2 (fun x y => P x y /\ In x l /\ In y l') l l'.
  Proof.
    induction 1 as [|x y l l' H _ IH]; constructor; [cbn; auto|]. eapply Forall2_impl'; [|exact IH]. cbn. tauto.
  Qed.
  Lemma not_dict l t : l <> [] -> singular l = Ok t -> type_eqb t TDict = false -> ~ Forall dictionary l.
  Proof.
    intros N S T F. destruct l as [|x l]; [congruence|]. apply singular_ok in S. inversion_clear S as [|? ? E _]. inversion_clear F as [|? ? D _]. destruct x; try contradiction D. cbn in E. subst t. discriminate T.
  Qed.
  Theorem alike_compare : forall f f' base a a' b b', alike a a' -> alike b b' -> jdepth a < f -> jdepth a' < f' ->
    rmap (map fst) (compare_rec f inc exc base a b) = rmap (map fst) (compare_rec f' inc exc base a' b').
  Proof.
    induction f as [|f IH]; intros f' base a a' b b' Ha Hb L L'; [lia|]. destruct f' as [|f']; [lia|]. pose proof (alike_type _ _ Hb) as Tb.
    assert (SC : (match a with JDict _ | JList _ => False | _ => True end) -> a' = a) by (intros N; inversion Ha; subst; [reflexivity|destruct N|destruct N]).
    assert (PE : (match a with JDict _ | JList _ => False | _ => True end) -> py_eq a b = py_eq a b') by (intros N; inversion Hb; subst; [reflexivity| |]; destruct a; try destruct N; reflexivity).
    destruct a as [|v|z|q|s|l|d]; [rewrite (SC I)..| |].
    1-5: specialize (PE I); cbn [compare_rec]; rewrite PE; match goal with |- context [py_eq ?x ?y] => destruct (py_eq x y) end; reflexivity.
    - destruct (alike_list _ _ Ha) as (l' & -> & Hl & Cl). destruct (match b with JList _ => true | _ => false end) eqn:Db.
      2:{ assert (Db' : match b' with JList _ => true | _ => false end = false) by (destruct b, b'; try discriminate Tb; try discriminate Db; reflexivity).
          destruct b; try discriminate Db; destruct b'; try discriminate Db'; reflexivity. }
      destruct b as [| | | | |m|]; try discriminate Db. destruct (alike_list _ _ Hb) as (m' & -> & Hm & Cm).
      cbn [compare_rec]. rewrite <- (same_length _ _ _ Hl), <- (same_length _ _ _ Hm). destruct (Nat.eqb (length l) (length m)) eqn:EL; [|reflexivity]. cbn [negb]. apply Nat.eqb_eq in EL.
      rewrite <- (alike_singular _ _ Hl), <- (alike_singular _ _ Hm).
      assert (NE : l = [] /\ l' = [] \/ l <> [] /\ l' <> []) by (destruct Hl; [left; auto|right; split; discriminate]). destruct NE as [[-> ->]|[NE NE']]; [reflexivity|].
      assert (RW : forall (X : res (list diff)), match l with [] => Ok [] | _ :: _ => X end = X) by (destruct l; [congruence|reflexivity]). rewrite RW.
      assert (RW' : forall (X : res (list diff)), match l' with [] => Ok [] | _ :: _ => X end = X) by (destruct l'; [congruence|reflexivity]). rewrite RW'. clear RW RW'.
      destruct (singular l) as [ts|] eqn:Sl; [|reflexivity]. cbn [bind]. destruct (singular m) as [td|] eqn:Sm; [|reflexivity]. cbn [bind]. destruct (same_elem_type ts td) eqn:ST; [|reflexivity].
      assert (K : forall u u' w w', Forall2 alike u u' -> Forall2 alike w w' -> (forall x, In x u -> In x l) -> (forall x, In x u' -> In x l') ->
        rmap (fun ys => map fst (List.concat ys)) (mapM (fun t => compare_rec f inc exc (jp_join [nat_dec (fst (fst t))] (Some base)) (snd (fst t)) (snd t)) (zip_from 0 u w)) =
        rmap (fun ys => map fst (List.concat ys)) (mapM (fun t => compare_rec f' inc exc (jp_join [nat_dec (fst (fst t))] (Some base)) (snd (fst t)) (snd t)) (zip_from 0 u' w'))).
      { intros u u' w w' Hu Hw Iu Iu'. apply mapM_two. eapply Forall2_impl'; [|exact (Forall2_mem _ _ _ (zip_two 0 _ _ _ _ Hu Hw))]. intros t t' ((E & A & B) & I1 & I2). rewrite <- E. apply IH; [exact A|exact B| |].
        - pose proof (jdepth_list _ _ (Iu _ (zip_in _ _ _ _ I1))) as Q. cbn [jdepth] in L. lia.
        - pose proof (jdepth_list _ _ (Iu' _ (zip_in _ _ _ _ I2))) as Q. cbn [jdepth] in L'. lia. }
      assert (FIN : forall (g g' : nat * json * json -> res (list diff)) z z', rmap (fun ys => map fst (List.concat ys)) (mapM g z) = rmap (fun ys => map fst (List.concat ys)) (mapM g' z') ->
        rmap (map fst) (subs <- mapM g z ;; Ok (List.concat subs)) = rmap (map fst) (subs <- mapM g' z' ;; Ok (List.concat subs))).
      { intros g g' z z' E. destruct (mapM g z), (mapM g' z'); cbn [rmap bind] in *; first [exact E|discriminate E]. }
      destruct (type_eqb ts TDict) eqn:TD.
      + cbn [bind fst snd]. apply FIN. apply K; auto.
      + assert (l = l') by (destruct Cl as [E|[F _]]; [exact E|elim (not_dict _ _ NE Sl TD F)]). subst l'.
        assert (m = m'). { destruct Cm as [E|[F _]]; [exact E|]. exfalso. refine (not_dict m td _ Sm _ F); [intros ->; destruct l; [congruence|discriminate EL]|]. destruct ts, td; try discriminate ST; try discriminate TD; reflexivity. } subst m'.
        destruct (py_sorted l) as [sl|] eqn:E1; [|reflexivity]. cbn [bind]. destruct (py_sorted m) as [sm|]; [|reflexivity]. cbn [bind fst snd]. apply FIN.
        assert (PM := py_sorted_perm _ _ E1). apply K; [apply alike_all_refl|apply alike_all_refl| |]; intros x Ix; (eapply Permutation_in; [apply Permutation_sym; exact PM|exact Ix]).
    - destruct (alike_dict _ _ Ha) as (d' & -> & Hd). destruct (match b with JDict _ => true | _ => false end) eqn:Db.
      2:{ assert (Db' : match b' with JDict _ => true | _ => false end = false) by (destruct b, b'; try discriminate Tb; try discriminate Db; reflexivity).
          destruct b; try discriminate Db; destruct b'; try discriminate Db'; reflexivity. }
      destruct b as [| | | | | |e]; try discriminate Db. destruct (alike_dict _ _ Hb) as (e' & -> & He).
      cbn [compare_rec]. rewrite !visible_shown, <- (pairs_keys _ _ Hd), <- (pairs_keys _ _ He). set (ks := map fst (kept d)). set (ke := map fst (kept e)).
      match goal with |- rmap _ (bind (mapM ?g ?z) _) = rmap _ (bind (mapM ?g' ?z) _) =>
        assert (Q : rmap (fun ys => map fst (List.concat ys)) (mapM g z) = rmap (fun ys => map fst (List.concat ys)) (mapM g' z)); [apply mapM_two|destruct (mapM g z), (mapM g' z); cbn [rmap bind] in *; try congruence] end.
      2:{ injection Q as Q. unfold rmap. f_equal. unfold diff in *. rewrite !map_app. f_equal. f_equal. exact Q. }
      assert (R : forall z, (forall k, In k z -> In k ks /\ in_strs k ke = true) -> Forall2 (fun x x' : string => x = x' /\ In x ks /\ In x ke) z z).
      { induction z as [|k z IHz]; intros Hz; constructor; [|apply IHz; intros; apply Hz; now right]. destruct (Hz k (or_introl eq_refl)) as [H1 H2]. apply in_strs_In in H2. auto. }
      eapply Forall2_impl'; [|apply R; intros k I; apply filter_In in I; exact I]. intros k k' (<- & I1 & I2). cbn beta.
      assert (S := kept_shown _ _ I1). pose proof (pairs_lookup k _ _ Hd) as Ld. pose proof (pairs_lookup k _ _ He) as Le. rewrite !(kept_lookup k _ S) in Ld. rewrite !(kept_lookup k _ S) in Le.
      destruct (lookup k d) as [x|] eqn:E1, (lookup k d') as [x'|] eqn:E2; try contradiction; [|reflexivity]. destruct (lookup k e) as [y|], (lookup k e') as [y'|]; try contradiction; [|reflexivity].
      apply IH; [exact Ld|exact Le| |].
      + pose proof (jdepth_dict _ _ _ (lookup_In _ _ _ E1)) as Q. cbn [jdepth] in L. lia.
      + pose proof (jdepth_dict _ _ _ (lookup_In _ _ _ E2)) as Q. cbn [jdepth] in L'. lia.
  Qed.
End Filters.


(** lists of booleans against lists of integers *)
Fixpoint ins (b : bool) (l : list bool) : list bool :=
  match l with [] => [b] | y :: r => if (negb b && y)%bool then b :: l else y :: ins b r end.
Definition as_int (b : bool) : json := JInt (Z.b2z b).
Lemma insert_bools b l : py_insert (JBool b) (map JBool l) = Ok (map JBool (ins b l)).
Proof. induction l as [|y l IH]; [reflexivity|]. cbn [map py_insert ins]. destruct b, y; cbn [negb andb]; try reflexivity; change (py_lt _ _) with (Ok false) at 1; cbn [bind]; rewrite IH; reflexivity. Qed.
Lemma insert_ints b l : py_insert (as_int b) (map as_int l) = Ok (map as_int (ins b l)).
Proof. induction l as [|y l IH]; [reflexivity|]. cbn [map py_insert ins]. destruct b, y; cbn [negb andb]; try reflexivity; change (py_lt _ _) with (Ok false) at 1; cbn [bind]; rewrite IH; reflexivity. Qed.
Lemma sorted_bools l : py_sorted (map JBool l) = Ok (map JBool (fold_left (fun acc b => ins b acc) l [])).
Proof. unfold py_sorted. change (@nil json) with (map JBool []). generalize (@nil bool). induction l as [|b l IH]; intros acc; [reflexivity|]. cbn [map foldM fold_left]. rewrite insert_bools. cbn [bind]. apply IH. Qed.
Lemma sorted_ints l : py_sorted (map as_int l) = Ok (map as_int (fold_left (fun acc b => ins b acc) l [])).
Proof. unfold py_sorted. change (@nil json) with (map as_int []). generalize (@nil bool). induction l as [|b l IH]; intros acc; [reflexivity|]. cbn [map foldM fold_left]. rewrite insert_ints. cbn [bind]. apply IH. Qed.
Lemma zip_bools f base l : forall i, exists z, mapM (fun t : nat * json * json => compare_rec (S f) [] [] (jp_join [nat_dec (fst (fst t))] (Some base)) (snd (fst t)) (snd t)) (zip_from i (map JBool l) (map as_int l)) = Ok z /\ List.concat z = [].
Proof.
  induction l as [|b l IH]; intros i; [exists []; auto|]. destruct (IH (S i)) as (z & E & C). exists ([] :: z). split; [|exact C]. cbn [map zip_from mapM]. rewrite E. destruct b; reflexivity.
Qed.
Lemma bools_ints bs : compare_container (JList (map JBool bs)) (JList (map as_int bs)) [] [] = Ok [].
Proof.
  unfold compare_container. cbn [compare_rec]. rewrite !map_length, Nat.eqb_refl. cbn [negb]. destruct bs as [|b bs]; [reflexivity|].
  assert (SB : singular (map JBool (b :: bs)) = Ok TBool). { cbn. replace (forallb _ _) with true; [reflexivity|]. symmetry. apply forallb_forall. intros x I. apply in_map_iff in I. destruct I as (y & <- & _). reflexivity. }
  assert (SI : singular (map as_int (b :: bs)) = Ok TInt). { cbn. replace (forallb _ _) with true; [reflexivity|]. symmetry. apply forallb_forall. intros x I. apply in_map_iff in I. destruct I as (y & <- & _). reflexivity. }
  rewrite SB, SI, sorted_bools, sorted_ints. cbn [map bind same_elem_type type_eqb is_int_type andb orb fst snd].
  change (jdepth (JList (JBool b :: map JBool bs))) with (S (fold_right (fun x m => Nat.max (jdepth x) m) 0 (JBool b :: map JBool bs))).
  match goal with |- context [compare_rec (S ?f)] => destruct (zip_bools f "" (fold_left (fun acc x => ins x acc) (b :: bs) []) 0) as (z & E & C) end.
  cbn [same_elem_type type_eqb is_int_type orb andb]. rewrite E. cbn [bind]. now rewrite C.
Qed.
