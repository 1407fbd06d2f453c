(** * Construction on the heap agrees with construction of trees, and who the parents are. *)
From Coq Require Import String List Bool Arith Lia.
From Verif Require Import PyStr PyStrFacts PyVal PyValFacts Jp Obj ObjFacts DumpFacts Heap SpecHeap HeapFacts.
Import ListNotations.
Open Scope string_scope. Open Scope nat_scope.

(** ** a record of who was told whom as its parent *)
Fixpoint last_of (m : nat) (log : list (nat * nat)) (d : option nat) : option nat :=
  match log with [] => d | (x, p) :: l => last_of m l (if Nat.eqb x m then Some p else d) end.
Lemma last_of_app m l1 : forall l2 d, last_of m (l1 ++ l2) d = last_of m l2 (last_of m l1 d).
Proof. induction l1 as [|[x p] l1 IH]; intros l2 d; cbn; [reflexivity|apply IH]. Qed.
Lemma parent_alloc h c m : h_parent c = None -> get_parent (h ++ [c])%list m = get_parent h m.
Proof.
  intro E. unfold get_parent. destruct (Nat.lt_ge_cases m (len h)) as [L|L].
  - rewrite nth_error_app1 by exact L. reflexivity.
  - rewrite nth_error_app2 by exact L. rewrite (proj2 (nth_error_None h m) L). destruct (m - len h) as [|[|]]; cbn; [exact E|reflexivity..].
Qed.
Lemma parent_set h x p m : x < len h -> get_parent (fst (set_parent (HRef x) p h)) m = last_of m [(x, p)] (get_parent h m).
Proof.
  intro L. unfold get_parent, set_parent. cbn [fst last_of]. rewrite nth_set. destruct (Nat.eqb_spec x m) as [->|_]; [|reflexivity].
  destruct (nth_error h m) as [c|] eqn:E; [reflexivity|]. apply nth_error_None in E. lia.
Qed.
Lemma parent_kids h n ks m : get_parent (set_nth n (with_kids ks) h) m = get_parent h m.
Proof. unfold get_parent. rewrite nth_set. destruct (Nat.eqb n m); [|reflexivity]. destruct (nth_error h m); reflexivity. Qed.

Definition cond (h : heap) (p m : nat) : Prop := is_container h p \/ truthy_at h (HRef m) = true.
Definition below (S : nat -> Prop) (h : heap) : Prop := forall x, S x -> x < len h.

Record built (S : nat -> Prop) (h h' : heap) (v : hval) (log : list (nat * nat)) : Prop := mk_built
  { bl_unch : unchanged h h';
    bl_parent : forall m, get_parent h' m = last_of m log (get_parent h m);
    bl_event : forall m p, In (m, p) log -> len h <= p /\ exists k, holds h' p k (HRef m) /\ cond h' p m;
    bl_held : forall p k m, len h <= p -> holds h' p k (HRef m) -> cond h' p m -> In (m, p) log;
    bl_local : forall p k m, len h <= p -> holds h' p k (HRef m) -> (S m /\ truthy_at h' (HRef m) = true) \/ (p < m < len h');
    bl_unique : forall p k p' k' m, len h <= p -> len h <= p' -> len h <= m -> holds h' p k (HRef m) -> holds h' p' k' (HRef m) -> p = p';
    bl_reach : forall m, len h < m < len h' -> exists p k, len h <= p /\ holds h' p k (HRef m);
    bl_top : (exists j, v = HPrim j /\ h' = h) \/ (v = HRef (len h) /\ len h < len h') }.
Record looped (S : nat -> Prop) (n : nat) (al : bool) (h h' : heap) (kids : list (string * hval)) (log : list (nat * nat)) : Prop := mk_looped
  { lp_unch : unchanged h h';
    lp_parent : forall m, get_parent h' m = last_of m log (get_parent h m);
    lp_event : forall m p, In (m, p) log -> (len h <= p /\ exists k, holds h' p k (HRef m) /\ cond h' p m) \/ (p = n /\ exists k, In (k, HRef m) kids /\ (al = true \/ truthy_at h' (HRef m) = true));
    lp_held : forall p k m, len h <= p -> holds h' p k (HRef m) -> cond h' p m -> In (m, p) log;
    lp_held_n : forall k m, In (k, HRef m) kids -> al = true \/ truthy_at h' (HRef m) = true -> In (m, n) log;
    lp_local : forall p k m, len h <= p -> holds h' p k (HRef m) -> (S m /\ truthy_at h' (HRef m) = true) \/ (p < m < len h');
    lp_local_n : forall k m, In (k, HRef m) kids -> (S m /\ truthy_at h' (HRef m) = true) \/ (len h <= m < len h');
    lp_unique : forall p k p' k' m, len h <= p -> len h <= p' -> len h <= m -> holds h' p k (HRef m) -> holds h' p' k' (HRef m) -> p = p';
    lp_unique_n : forall k m, In (k, HRef m) kids -> len h <= m -> forall p' k', len h <= p' -> ~ holds h' p' k' (HRef m);
    lp_reach : forall m, len h <= m < len h' -> (exists p k, len h <= p /\ holds h' p k (HRef m)) \/ exists k, In (k, HRef m) kids }.

Lemma fresh_none h p k v : len h <= p -> ~ holds h p k v.
Proof. intros L H. apply holds_lt in H. lia. Qed.
Lemma looped_nil S n al h : looped S n al h h [] [].
Proof.
  constructor; try (intros; contradiction).
  - apply unchanged_refl.
  - reflexivity.
  - intros p k m L H. destruct (fresh_none _ _ _ _ L H).
  - intros p k m L H. destruct (fresh_none _ _ _ _ L H).
  - intros p k p' k' m L _ _ H. destruct (fresh_none _ _ _ _ L H).
  - intros m L. lia.
Qed.
Lemma looped_prim S n al h k j : looped S n al h h [(k, HPrim j)] [].
Proof.
  constructor; try (intros; contradiction).
  - apply unchanged_refl.
  - reflexivity.
  - intros p k' m L H. destruct (fresh_none _ _ _ _ L H).
  - intros k' m [E|[]]. discriminate.
  - intros p k' m L H. destruct (fresh_none _ _ _ _ L H).
  - intros k' m [E|[]]. discriminate.
  - intros p k1 p' k' m L _ _ H. destruct (fresh_none _ _ _ _ L H).
  - intros k' m [E|[]]. discriminate.
  - intros m L. lia.
Qed.
Lemma truthy_ref h h' m : unchanged h h' -> m < len h -> truthy_at h' (HRef m) = truthy_at h (HRef m).
Proof. intros U L. apply truthy_unchanged; [exact U|]. intros n E. assert (n = m) by congruence. subst. exact L. Qed.

Lemma looped_app S n al h hb h' k1 k2 l1 l2 : below S h -> looped S n al h hb k1 l1 -> looped S n al hb h' k2 l2 -> looped S n al h h' (k1 ++ k2) (l1 ++ l2).
Proof.
  intros BS A B. pose proof (lp_unch _ _ _ _ _ _ _ A) as UA. pose proof (lp_unch _ _ _ _ _ _ _ B) as UB.
  pose proof (unchanged_len _ _ UA) as LA. pose proof (unchanged_len _ _ UB) as LB.
  assert (HO : forall p k v, p < len hb -> holds h' p k v -> holds hb p k v) by (intros p k v L; apply (holds_unchanged hb h' p k v UB L)).
  assert (HN : forall p k v, holds hb p k v -> holds h' p k v) by (intros p k v H; apply (holds_unchanged hb h' p k v UB (holds_lt _ _ _ _ H)); exact H).
  assert (MLT : forall p k m, len h <= p -> holds hb p k (HRef m) -> m < len hb).
  { intros p k m L H. destruct (lp_local _ _ _ _ _ _ _ A p k m L H) as [[X _]|X]; [apply BS in X; lia|lia]. }
  assert (MLN : forall k m, In (k, HRef m) k1 -> m < len hb).
  { intros k m H. destruct (lp_local_n _ _ _ _ _ _ _ A k m H) as [[X _]|X]; [apply BS in X; lia|lia]. }
  assert (TR : forall m, m < len hb -> truthy_at h' (HRef m) = truthy_at hb (HRef m)) by (intros m L; exact (truthy_ref hb h' m UB L)).
  assert (CD : forall p m, p < len hb -> m < len hb -> (cond h' p m <-> cond hb p m)).
  { intros p m L1 L2. unfold cond. rewrite (TR m L2), (container_unchanged hb h' p UB L1). reflexivity. }
  constructor.
  - exact (unchanged_trans _ _ _ UA UB).
  - intro m. rewrite last_of_app, <- (lp_parent _ _ _ _ _ _ _ A m). apply (lp_parent _ _ _ _ _ _ _ B).
  - intros m p H. apply in_app_or in H. destruct H as [H|H].
    + destruct (lp_event _ _ _ _ _ _ _ A m p H) as [[L (k & HK & C)] | [-> (k & HK & C)]].
      * left. split; [exact L|]. exists k. split; [exact (HN _ _ _ HK)|]. apply CD; [exact (holds_lt _ _ _ _ HK)|exact (MLT _ _ _ L HK)|exact C].
      * right. split; [reflexivity|]. exists k. split; [apply in_or_app; left; exact HK|]. rewrite (TR m (MLN _ _ HK)). exact C.
    + destruct (lp_event _ _ _ _ _ _ _ B m p H) as [[L (k & HK & C)] | [-> (k & HK & C)]].
      * left. split; [lia|]. exists k. split; assumption.
      * right. split; [reflexivity|]. exists k. split; [apply in_or_app; right; exact HK|exact C].
  - intros p k m L H C. apply in_or_app. destruct (Nat.lt_ge_cases p (len hb)) as [LP|LP].
    + left. apply HO in H; [|exact LP]. apply (lp_held _ _ _ _ _ _ _ A p k m L H). apply CD; [exact LP|exact (MLT _ _ _ L H)|exact C].
    + right. exact (lp_held _ _ _ _ _ _ _ B p k m LP H C).
  - intros k m H C. apply in_or_app. apply in_app_or in H. destruct H as [H|H].
    + left. apply (lp_held_n _ _ _ _ _ _ _ A k m H). rewrite (TR m (MLN _ _ H)) in C. exact C.
    + right. exact (lp_held_n _ _ _ _ _ _ _ B k m H C).
  - intros p k m L H. destruct (Nat.lt_ge_cases p (len hb)) as [LP|LP].
    + apply HO in H; [|exact LP]. destruct (lp_local _ _ _ _ _ _ _ A p k m L H) as [[X T]|X]; [left|right; lia].
      split; [exact X|]. rewrite TR; [exact T|]. apply BS in X. lia.
    + destruct (lp_local _ _ _ _ _ _ _ B p k m LP H) as [X|X]; [left; exact X|right; lia].
  - intros k m H. apply in_app_or in H. destruct H as [H|H].
    + destruct (lp_local_n _ _ _ _ _ _ _ A k m H) as [[X T]|X]; [left|right; lia]. split; [exact X|]. rewrite TR; [exact T|]. apply BS in X. lia.
    + destruct (lp_local_n _ _ _ _ _ _ _ B k m H) as [X|X]; [left; exact X|right; lia].
  - intros p k p' k' m L L' LM H H'.
    assert (CR : forall q kq, len hb <= q -> holds h' q kq (HRef m) -> len hb <= m).
    { intros q kq LQ HQ. destruct (lp_local _ _ _ _ _ _ _ B q kq m LQ HQ) as [[X _]|X]; [apply BS in X; lia|lia]. }
    destruct (Nat.lt_ge_cases p (len hb)) as [LP|LP]; destruct (Nat.lt_ge_cases p' (len hb)) as [LP'|LP'].
    + apply HO in H; [|exact LP]. apply HO in H'; [|exact LP']. exact (lp_unique _ _ _ _ _ _ _ A _ _ _ _ _ L L' LM H H').
    + apply HO in H; [|exact LP]. pose proof (MLT _ _ _ L H). pose proof (CR _ _ LP' H'). lia.
    + apply HO in H'; [|exact LP']. pose proof (MLT _ _ _ L' H'). pose proof (CR _ _ LP H). lia.
    + exact (lp_unique _ _ _ _ _ _ _ B _ _ _ _ _ LP LP' (CR _ _ LP H) H H').
  - intros k m H LM p' k' L' H'. apply in_app_or in H. destruct H as [H|H].
    + pose proof (MLN _ _ H). destruct (Nat.lt_ge_cases p' (len hb)) as [LP'|LP'].
      * apply HO in H'; [|exact LP']. exact (lp_unique_n _ _ _ _ _ _ _ A k m H LM p' k' L' H').
      * destruct (lp_local _ _ _ _ _ _ _ B p' k' m LP' H') as [[X _]|X]; [apply BS in X; lia|lia].
    + assert (LM' : len hb <= m) by (destruct (lp_local_n _ _ _ _ _ _ _ B k m H) as [[X _]|X]; [apply BS in X; lia|lia]).
      destruct (Nat.lt_ge_cases p' (len hb)) as [LP'|LP'].
      * apply HO in H'; [|exact LP']. pose proof (MLT _ _ _ L' H'). lia.
      * exact (lp_unique_n _ _ _ _ _ _ _ B k m H LM' p' k' LP' H').
  - intros m L. destruct (Nat.lt_ge_cases m (len hb)) as [LP|LP].
    + destruct (lp_reach _ _ _ _ _ _ _ A m (conj (proj1 L) LP)) as [(p & k & X & H)|[k H]].
      * left. exists p, k. split; [exact X|exact (HN _ _ _ H)].
      * right. exists k. apply in_or_app. left. exact H.
    + destruct (lp_reach _ _ _ _ _ _ _ B m (conj LP (proj2 L))) as [(p & k & X & H)|[k H]].
      * left. exists p, k. split; [lia|exact H].
      * right. exists k. apply in_or_app. right. exact H.
Qed.

(** telling the parent *)
Definition tell (al : bool) (v : hval) (n : nat) (h : heap) : heap := if al || truthy_at h v then fst (set_parent v n h) else h.
Lemma tell_len al v n h : len (tell al v n h) = len h.
Proof. unfold tell. destruct (al || truthy_at h v); [|reflexivity]. destruct v; cbn; [reflexivity|apply set_length]. Qed.
Lemma tell_unch al v n h : unchanged h (tell al v n h).
Proof. unfold tell. destruct (al || truthy_at h v); [apply unchanged_parent|apply unchanged_refl]. Qed.
Lemma looped_override S n al h k m0 : below S h -> S m0 -> truthy_at h (HRef m0) = true -> looped S n al h (tell al (HRef m0) n h) [(k, HRef m0)] [(m0, n)].
Proof.
  intros BS X T. pose proof (tell_unch al (HRef m0) n h) as U. pose proof (tell_len al (HRef m0) n h) as LE.
  assert (FR : forall p k v, len h <= p -> ~ holds (tell al (HRef m0) n h) p k v) by (intros p k1 v L H; apply holds_lt in H; lia).
  assert (TT : truthy_at (tell al (HRef m0) n h) (HRef m0) = true) by (rewrite (truthy_ref h _ m0 U (BS _ X)); exact T).
  constructor.
  - exact U.
  - intro m. unfold tell. rewrite T, orb_true_r. apply parent_set. exact (BS _ X).
  - intros m p [E|[]]. assert (m = m0 /\ p = n) as [-> ->] by (split; congruence). right. split; [reflexivity|]. exists k. split; [left; reflexivity|]. right. exact TT.
  - intros p k' m L H. destruct (FR _ _ _ L H).
  - intros k' m [E|[]] _. assert (m = m0) by congruence. subst m. left. reflexivity.
  - intros p k' m L H. destruct (FR _ _ _ L H).
  - intros k' m [E|[]]. assert (m = m0) by congruence. subst m. left. split; assumption.
  - intros p k1 p' k' m L _ _ H. destruct (FR _ _ _ L H).
  - intros k' m [E|[]] LM p' k1 L H. destruct (FR _ _ _ L H).
  - intros m L. rewrite LE in L. lia.
Qed.
Lemma looped_built S n al h ha k log : below S h -> built S h ha (HRef (len h)) log ->
  exists log', looped S n al h (tell al (HRef (len h)) n ha) [(k, HRef (len h))] log'.
Proof.
  intros BS A. pose proof (tell_unch al (HRef (len h)) n ha) as U. pose proof (tell_len al (HRef (len h)) n ha) as LE.
  set (hb := tell al (HRef (len h)) n ha) in *.
  destruct (bl_top _ _ _ _ _ A) as [(j & E & _)|[_ LT]]; [discriminate|].
  assert (HH : forall p k v, holds hb p k v <-> holds ha p k v).
  { intros p k1 v. split; intro H.
    - apply (holds_unchanged ha hb p k1 v U); [|exact H]. apply holds_lt in H. lia.
    - apply (holds_unchanged ha hb p k1 v U); [exact (holds_lt _ _ _ _ H)|exact H]. }
  assert (TR : forall m, m < len ha -> truthy_at hb (HRef m) = truthy_at ha (HRef m)) by (intros m L; exact (truthy_ref ha hb m U L)).
  assert (ML : forall p k m, len h <= p -> holds ha p k (HRef m) -> m < len ha).
  { intros p k1 m L H. destruct (bl_local _ _ _ _ _ A p k1 m L H) as [[X _]|X]; [apply BS in X; lia|lia]. }
  assert (CD : forall p m, p < len ha -> m < len ha -> (cond hb p m <-> cond ha p m)).
  { intros p m L1 L2. unfold cond. rewrite (TR m L2), (container_unchanged ha hb p U L1). reflexivity. }
  assert (TOP : forall p k, len h <= p -> ~ holds ha p k (HRef (len h))).
  { intros p k1 L H. destruct (bl_local _ _ _ _ _ A p k1 _ L H) as [[X _]|X]; [apply BS in X; lia|lia]. }
  exists (log ++ if al || truthy_at ha (HRef (len h)) then [(len h, n)] else [])%list. constructor.
  - exact (unchanged_trans _ _ _ (bl_unch _ _ _ _ _ A) U).
  - intro m. rewrite last_of_app, <- (bl_parent _ _ _ _ _ A m). subst hb. unfold tell. destruct (al || truthy_at ha (HRef (len h))); [apply parent_set; exact LT|reflexivity].
  - intros m p H. apply in_app_or in H. destruct H as [H|H].
    + left. destruct (bl_event _ _ _ _ _ A m p H) as [L (k1 & HK & C)]. split; [exact L|]. exists k1. split; [apply HH; exact HK|]. apply CD; [exact (holds_lt _ _ _ _ HK)|exact (ML _ _ _ L HK)|exact C].
    + destruct (al || truthy_at ha (HRef (len h))) eqn:E; [|destruct H]. destruct H as [H|[]]. assert (m = len h /\ p = n) as [-> ->] by (split; congruence).
      right. split; [reflexivity|]. exists k. split; [left; reflexivity|]. rewrite (TR _ LT). apply orb_prop. exact E.
  - intros p k1 m L H C. apply in_or_app. left. apply HH in H. apply (bl_held _ _ _ _ _ A p k1 m L H). apply CD; [exact (holds_lt _ _ _ _ H)|exact (ML _ _ _ L H)|exact C].
  - intros k1 m [E|[]] C. assert (m = len h) by congruence. subst m. apply in_or_app. right. rewrite (TR _ LT) in C.
    replace (al || truthy_at ha (HRef (len h))) with true; [left; reflexivity|]. symmetry. apply orb_true_iff. exact C.
  - intros p k1 m L H. apply HH in H. rewrite LE. destruct (bl_local _ _ _ _ _ A p k1 m L H) as [[X T]|X]; [left|right; exact X]. split; [exact X|]. rewrite (TR _ (ML _ _ _ L H)). exact T.
  - intros k1 m [E|[]]. assert (m = len h) by congruence. subst m. right. lia.
  - intros p k1 p' k' m L L' LM H H'. apply HH in H. apply HH in H'. exact (bl_unique _ _ _ _ _ A _ _ _ _ _ L L' LM H H').
  - intros k1 m [E|[]] LM p' k' L' H. assert (m = len h) by congruence. subst m. apply HH in H. exact (TOP _ _ L' H).
  - intros m L. rewrite LE in L. destruct (Nat.eq_dec m (len h)) as [->|NE]; [right; exists k; left; reflexivity|]. left.
    destruct (bl_reach _ _ _ _ _ A m) as (p & k1 & X & H); [lia|]. exists p, k1. split; [exact X|]. apply HH. exact H.
Qed.

(** finishing an object *)
Lemma built_cell S kind path spec h h2 kids log : below S h ->
  let al := match kind with HObj _ => false | _ => true end in
  looped S (len h) al (h ++ [mk_cell kind path spec [] None])%list h2 kids log ->
  built S h (set_nth (len h) (with_kids kids) h2) (HRef (len h)) log.
Proof.
  intros BS al A. set (n := len h) in *. set (c0 := mk_cell kind path spec [] None) in *. set (h1 := (h ++ [c0])%list) in *.
  assert (L1 : len h1 = Datatypes.S n). { unfold h1. rewrite app_length. cbn. lia. }
  pose proof (lp_unch _ _ _ _ _ _ _ A) as U. pose proof (unchanged_len _ _ U) as LU.
  assert (N1 : nth_error h1 n = Some c0). { unfold h1, n. rewrite nth_error_app2, Nat.sub_diag by lia. reflexivity. }
  destruct (U _ _ N1) as (c2 & N2 & K2 & _). set (h3 := set_nth n (with_kids kids) h2).
  assert (L3 : len h3 = len h2) by apply set_length.
  assert (N3 : nth_error h3 n = Some (with_kids kids c2)). { unfold h3. rewrite nth_set, Nat.eqb_refl, N2. reflexivity. }
  assert (O3 : forall p, p <> n -> nth_error h3 p = nth_error h2 p). { intros p NE. unfold h3. rewrite nth_set. destruct (Nat.eqb_spec n p); [congruence|reflexivity]. }
  assert (HN : forall k v, holds h3 n k v <-> In (k, v) kids).
  { intros k v. split; [intros (c & E & H); assert (c = with_kids kids c2) by congruence; subst c; exact H|intro H; exists (with_kids kids c2); split; [exact N3|exact H]]. }
  assert (HO : forall p k v, p <> n -> (holds h3 p k v <-> holds h2 p k v)) by (intros p k v NE; unfold holds; rewrite (O3 p NE); reflexivity).
  assert (TR : forall m, m <> n -> truthy_at h3 (HRef m) = truthy_at h2 (HRef m)) by (intros m NE; cbn; rewrite (O3 m NE); reflexivity).
  assert (CN : is_container h3 n <-> al = true).
  { unfold is_container. rewrite N3. unfold al. split.
    - intros (c & E & X). assert (c = with_kids kids c2) by congruence. subst c. cbn [with_kids h_kind] in X. rewrite K2 in X. cbn in X. destruct kind; [destruct X|reflexivity..].
    - intro E. eexists. split; [reflexivity|]. cbn [with_kids h_kind]. rewrite K2. cbn. destruct kind; [discriminate|exact I..]. }
  assert (CO : forall p, p <> n -> (is_container h3 p <-> is_container h2 p)) by (intros p NE; unfold is_container; rewrite (O3 p NE); reflexivity).
  assert (KN : forall k m, In (k, HRef m) kids -> m <> n).
  { intros k m H ->. destruct (lp_local_n _ _ _ _ _ _ _ A k n H) as [[X _]|X]; [apply BS in X; unfold n in X; lia|lia]. }
  assert (HM : forall p k m, n < p -> holds h2 p k (HRef m) -> m <> n).
  { intros p k m L H ->. destruct (lp_local _ _ _ _ _ _ _ A p k n) as [[X _]|X]; [lia|exact H|apply BS in X; unfold n in X; lia|lia]. }
  assert (BS1 : forall x, S x -> x < n) by (intros x X; apply BS in X; exact X).
  constructor.
  - apply unchanged_kids; [|unfold n; lia]. exact (unchanged_trans _ _ _ (unchanged_alloc h c0) U).
  - intro m. fold h3. unfold h3. rewrite parent_kids, (lp_parent _ _ _ _ _ _ _ A m). unfold h1. rewrite parent_alloc by reflexivity. reflexivity.
  - intros m p H. fold h3. destruct (lp_event _ _ _ _ _ _ _ A m p H) as [[L (k & HK & C)] | [-> (k & HK & C)]].
    + split; [fold n; lia|]. exists k. split; [apply HO; [lia|exact HK]|]. unfold cond. rewrite (CO p) by lia. rewrite (TR m); [exact C|]. apply (HM p k); [lia|exact HK].
    + split; [fold n; lia|]. exists k. split; [apply HN; exact HK|]. unfold cond. rewrite CN, (TR m (KN _ _ HK)). exact C.
  - intros p k m L H C. fold h3 in H, C. fold n in L. destruct (Nat.eq_dec p n) as [->|NE].
    + apply HN in H. apply (lp_held_n _ _ _ _ _ _ _ A k m H). unfold cond in C. rewrite CN, (TR m (KN _ _ H)) in C. exact C.
    + apply HO in H; [|exact NE]. apply (lp_held _ _ _ _ _ _ _ A p k m); [lia|exact H|]. unfold cond in C. rewrite (CO p NE), (TR m) in C; [exact C|]. apply (HM p k); [lia|exact H].
  - intros p k m L H. fold h3 in H |- *. fold n in L. rewrite L3. destruct (Nat.eq_dec p n) as [->|NE].
    + apply HN in H. rewrite (TR m (KN _ _ H)). destruct (lp_local_n _ _ _ _ _ _ _ A k m H) as [X|X]; [left; exact X|right; lia].
    + apply HO in H; [|exact NE]. rewrite (TR m) by (apply (HM p k); [lia|exact H]). destruct (lp_local _ _ _ _ _ _ _ A p k m) as [X|X]; [lia|exact H|left; exact X|right; lia].
  - intros p k p' k' m L L' LM H H'. fold h3 in H, H'. fold n in L, L', LM. destruct (Nat.eq_dec p n) as [->|NE]; destruct (Nat.eq_dec p' n) as [->|NE']; [reflexivity| | |].
    + apply HN in H. apply HO in H'; [|exact NE']. exfalso. refine (lp_unique_n _ _ _ _ _ _ _ A k m H _ p' k' _ H'); [|lia]. pose proof (KN _ _ H). lia.
    + apply HN in H'. apply HO in H; [|exact NE]. exfalso. refine (lp_unique_n _ _ _ _ _ _ _ A k' m H' _ p k _ H); [|lia]. pose proof (KN _ _ H'). lia.
    + apply HO in H; [|exact NE]. apply HO in H'; [|exact NE']. refine (lp_unique _ _ _ _ _ _ _ A _ _ _ _ m _ _ _ H H'); try lia. assert (m <> n) by (apply (HM p k); [lia|exact H]). lia.
  - intros m L. fold h3 in L |- *. fold n in L |- *. rewrite L3 in L. destruct (lp_reach _ _ _ _ _ _ _ A m) as [(p & k & X & H)|[k H]]; [lia| |].
    + exists p, k. split; [lia|]. apply HO; [lia|exact H].
    + exists n, k. split; [lia|]. apply HN. exact H.
  - right. split; [reflexivity|]. fold h3. rewrite L3. fold n. lia.
Qed.
