(** * Parents of the objects of a tree. *)
From Coq Require Import String List Bool Arith Lia.
From Verif Require Import PyStr PyStrFacts PyVal PyValFacts Jp Obj ObjFacts SpecObj DumpFacts ResolveFacts Heap SpecHeap HeapFacts HeapFacts2 HeapFacts3.
Import ListNotations.
Open Scope string_scope. Open Scope nat_scope.
Notation within := SpecObj.within (only parsing).

Lemma last_of_none m log d : (forall p, ~ In (m, p) log) -> last_of m log d = d.
Proof.
  revert d. induction log as [|[x p] log IH]; intros d H; cbn; [reflexivity|].
  destruct (Nat.eqb_spec x m) as [->|_]; [destruct (H p); left; reflexivity|]. apply IH. intros q Q. apply (H q). right. exact Q.
Qed.
Lemma last_of_cases m log d : last_of m log d = d \/ exists p, last_of m log d = Some p /\ In (m, p) log.
Proof.
  revert d. induction log as [|[x p] log IH]; intros d; cbn; [left; reflexivity|].
  destruct (IH (if Nat.eqb x m then Some p else d)) as [E|(q & E & I)]; [|right; exists q; split; [exact E|right; exact I]].
  destruct (Nat.eqb_spec x m) as [->|_]; [right; exists p; split; [exact E|left; reflexivity]|left; exact E].
Qed.
Lemma last_of_some m log p0 d : In (m, p0) log -> exists p, last_of m log d = Some p /\ In (m, p) log.
Proof.
  revert d. induction log as [|[x p] log IH]; intros d; [intros []|]. intros [E|I]; cbn.
  - assert (x = m /\ p = p0) as [-> ->] by (split; congruence). rewrite Nat.eqb_refl.
    destruct (last_of_cases m log (Some p0)) as [E'|(q & E' & I)]; [exists p0; split; [exact E'|left; reflexivity]|exists q; split; [exact E'|right; exact I]].
  - destruct (IH (if Nat.eqb x m then Some p else d) I) as (q & E & I'). exists q. split; [exact E|right; exact I'].
Qed.
Lemma truthy_empty h m : m < len h -> (truthy_at h (HRef m) = true <-> ~ is_empty_container h m).
Proof.
  intro L. destruct (nth_error h m) as [c|] eqn:E; [|apply nth_error_None in E; lia].
  unfold is_empty_container, is_container. cbn. rewrite E. split.
  - intros T [(c1 & E1 & K) (c2 & E2 & N)]. assert (c1 = c) by congruence. assert (c2 = c) by congruence. subst c1 c2. rewrite N in T. destruct (h_kind c); [destruct K|discriminate..].
  - intro N. destruct (h_kind c) eqn:K; [reflexivity| |].
    + destruct (h_kids c) eqn:KK; [|reflexivity]. destruct N. split; [exists c; split; [reflexivity|rewrite K; exact I]|exists c; split; [reflexivity|exact KK]].
    + destruct (h_kids c) eqn:KK; [|reflexivity]. destruct N. split; [exists c; split; [reflexivity|rewrite K; exact I]|exists c; split; [reflexivity|exact KK]].
Qed.
Lemma container_dec h p : is_container h p \/ ~ is_container h p.
Proof.
  unfold is_container. destruct (nth_error h p) as [c|]; [|right; intros (c & E & _); discriminate].
  destruct (h_kind c) eqn:K; [right; intros (x & E & X); assert (x = c) by congruence; subst x; rewrite K in X; exact X|left; exists c; rewrite K; split; [reflexivity|exact I]..].
Qed.
Lemma empty_dec h m : is_empty_container h m \/ ~ is_empty_container h m.
Proof.
  destruct (Nat.lt_ge_cases m (len h)) as [L|L].
  - destruct (truthy_at h (HRef m)) eqn:T; [right; apply truthy_empty; assumption|]. left. unfold is_empty_container, is_container.
    cbn in T. destruct (nth_error h m) as [c|] eqn:E; [|apply nth_error_None in E; lia]. destruct (h_kind c) eqn:K; [discriminate|..];
      (destruct (h_kids c) eqn:KK; [|discriminate]; split; [exists c; split; [reflexivity|rewrite K; exact I]|exists c; split; [reflexivity|exact KK]]).
  - right. intros [(c & E & _) _]. assert (m < len h) by (apply nth_error_Some; congruence). lia.
Qed.
Lemma holder_nonempty h p k v : holds h p k v -> ~ is_empty_container h p.
Proof. intros (c & E & I) [_ (c' & E' & N)]. assert (c' = c) by congruence. subst c'. rewrite N in I. destruct I. Qed.
Lemma leads_snoc h ts : forall r k m, leads h r (ts ++ [k]) m <-> exists p, leads h r ts p /\ holds h p k (HRef m).
Proof.
  induction ts as [|t ts IH]; intros r k m; cbn [List.app]; split.
  - intro L. inversion L as [|n k' m' ts' m'' H L' E1 E2 E3]; subst. inversion L'; subst. exists r. split; [constructor|exact H].
  - intros (p & L & H). inversion L; subst. econstructor; [exact H|constructor].
  - intro L. inversion L as [|n k' m' ts' m'' H L' E1 E2 E3]; subst. apply IH in L' as (p & L1 & H1). exists p. split; [econstructor; [exact H|exact L1]|exact H1].
  - intros (p & L & H). inversion L as [|n k' m' ts' m'' H0 L' E1 E2 E3]; subst. econstructor; [exact H0|]. apply IH. exists p. split; assumption.
Qed.

Section Tree.
  Variables (h h' : heap) (r : nat) (log : list (nat * nat)).
  Hypothesis B : built (fun _ => False) h h' (HRef r) log.
  Lemma tree_top : r = len h /\ len h < len h'.
  Proof. destruct (bl_top _ _ _ _ _ B) as [(j & E & _)|[E L]]; [discriminate|]. split; [congruence|exact L]. Qed.
  Lemma tree_local p k m : len h <= p -> holds h' p k (HRef m) -> p < m < len h'.
  Proof. intros L H. destruct (bl_local _ _ _ _ _ B p k m L H) as [[[] _]|X]; exact X. Qed.
  Lemma leads_fresh ts : forall p m, len h <= p -> leads h' p ts m -> len h <= m.
  Proof. induction ts as [|t ts IH]; intros p m L D; inversion D as [|n k' m' ts' m'' H D' E1 E2 E3]; subst; [exact L|]. apply (IH m'); [|exact D']. pose proof (tree_local p t m' L H). lia. Qed.
  Lemma none_before m : len h <= m -> get_parent h m = None.
  Proof. intro L. unfold get_parent. rewrite (proj2 (nth_error_None h m) L). reflexivity. Qed.
  Lemma parent_rule p k m : len h <= p -> holds h' p k (HRef m) ->
    (is_empty_container h' m /\ ~ is_container h' p -> get_parent h' m = None) /\ (~ (is_empty_container h' m /\ ~ is_container h' p) -> get_parent h' m = Some p).
  Proof.
    intros L H. pose proof (tree_local p k m L H) as LM.
    assert (EV : forall q, In (m, q) log -> q = p /\ cond h' p m).
    { intros q Q. destruct (bl_event _ _ _ _ _ B m q Q) as [LQ (kq & HQ & C)]. assert (E : q = p) by (apply (bl_unique _ _ _ _ _ B q kq p k m LQ L); [lia|exact HQ|exact H]). subst q. split; [reflexivity|exact C]. }
    rewrite (bl_parent _ _ _ _ _ B m). split.
    - intros [E NC]. rewrite last_of_none; [apply none_before; lia|]. intros q Q. destruct (EV q Q) as [_ [C|C]]; [exact (NC C)|]. apply truthy_empty in C; [exact (C E)|lia].
    - intro N. assert (C : cond h' p m).
      { unfold cond. rewrite truthy_empty by lia. destruct (container_dec h' p) as [C|C]; [left; exact C|right]. intro E. apply N. split; assumption. }
      destruct (last_of_some m log p (get_parent h m) (bl_held _ _ _ _ _ B p k m L H C)) as (q & E & Q). rewrite E. destruct (EV q Q) as [-> _]. reflexivity.
  Qed.
  Lemma top_parent : get_parent h' r = None.
  Proof.
    destruct tree_top as [ER LT]. rewrite (bl_parent _ _ _ _ _ B), last_of_none; [apply none_before; lia|].
    intros p P. destruct (bl_event _ _ _ _ _ B _ _ P) as [L (k & H & _)]. pose proof (tree_local _ _ _ L H). lia.
  Qed.
  Lemma ancestors us : forall p m, len h <= p -> leads h' p us m -> us = [] \/ ~ is_empty_container h' m -> ancestor h' (len us) m = Some p.
  Proof.
    induction us as [|k us IH] using rev_ind; intros p m L D N.
    - inversion D; subst. reflexivity.
    - apply leads_snoc in D as (q & D & H). pose proof (leads_fresh us p q L D) as LQ. rewrite app_length, Nat.add_comm. cbn [len ancestor Nat.add].
      destruct N as [N|N]; [destruct us; discriminate|].
      rewrite (proj2 (parent_rule q k m LQ H)) by (intros [X _]; exact (N X)). apply IH; [exact L|exact D|]. right. exact (holder_nonempty _ _ _ _ H).
  Qed.
  Lemma others_parents m : m < len h -> get_parent h' m = get_parent h m.
  Proof.
    intro L. rewrite (bl_parent _ _ _ _ _ B). apply last_of_none. intros p P. destruct (bl_event _ _ _ _ _ B _ _ P) as [LP (k & H & _)]. pose proof (tree_local _ _ _ LP H). lia.
  Qed.
End Tree.

Lemma reads_lookup S h ks os k o : reads_all S h ks os -> lookup k os = Some o -> exists v, In (k, v) ks /\ reads S h v o.
Proof.
  induction 1 as [|k' v o' ks os R RA IH]; cbn; [discriminate|]. destruct (String.eqb_spec k k') as [->|_].
  - intro E. injection E as ->. exists v. split; [left; reflexivity|exact R].
  - intro E. destruct (IH E) as (w & I1 & R1). exists w. split; [right; exact I1|exact R1].
Qed.
Lemma reads_nth S h ks os i k o : reads_all S h ks os -> nth_error os i = Some (k, o) -> exists v, In (k, v) ks /\ reads S h v o.
Proof.
  intro R. revert i. induction R as [|k' v o' ks os R RA IH]; intros [|i]; cbn; try discriminate.
  - intro E. injection E as -> ->. exists v. split; [left; reflexivity|exact R].
  - intro E. destruct (IH i E) as (w & I1 & R1). exists w. split; [right; exact I1|exact R1].
Qed.
Lemma within_leads S h : forall o ts x, within o ts x -> (forall j, x <> OPrim j) -> forall n, reads S h (HRef n) o -> exists m, leads h n ts m /\ reads S h (HRef m) x.
Proof.
  intros o ts x W NP. induction W as [o|c p s kids k o1 ts o' L W IH|b p es i s e ts o' IT N W IH|b p es k e ts o' L W IH]; intros n R.
  - exists n. split; [constructor|exact R].
  - inversion R as [|n' c' p' s' ks pa kids' X E RA| |]; subst. destruct (reads_lookup _ _ _ _ _ _ RA L) as (v & I1 & R1).
    destruct v as [j|m1]; [inversion R1; subst; inversion W; subst; destruct (NP j eq_refl)|].
    destruct (IH NP m1 R1) as (m & D & RM). exists m. split; [|exact RM]. econstructor; [|exact D]. eexists. split; [exact E|exact I1].
  - inversion R as [| |n' b' p' s' ks pa kids' X E RA KEYS|]; subst. apply index_text_nat_dec in IT. subst s.
    assert (NK : nth_error kids' i = Some (nat_dec i, e)).
    { rewrite nth_error_map in N. destruct (nth_error kids' i) as [[k1 e1]|] eqn:EK; [|discriminate]. cbn in N. assert (e1 = e) by congruence. subst e1.
      assert (LI : i < len kids') by (apply nth_error_Some; congruence).
      assert (F : nth_error (map fst kids') i = Some k1) by (rewrite nth_error_map, EK; reflexivity).
      rewrite KEYS, nth_error_map in F. rewrite (nth_error_nth' (seq 0 (len kids')) 0) in F by (rewrite seq_length; exact LI). rewrite seq_nth in F by exact LI. cbn [option_map] in F. change (0 + i) with i in F. congruence. }
    destruct (reads_nth _ _ _ _ _ _ _ RA NK) as (v & I1 & R1).
    destruct v as [j|m1]; [inversion R1; subst; inversion W; subst; destruct (NP j eq_refl)|].
    destruct (IH NP m1 R1) as (m & D & RM). exists m. split; [|exact RM]. econstructor; [|exact D]. eexists. split; [exact E|exact I1].
  - inversion R as [| | |n' b' p' s' ks pa kids' X E RA]; subst. destruct (reads_lookup _ _ _ _ _ _ RA L) as (v & I1 & R1).
    destruct v as [j|m1]; [inversion R1; subst; inversion W; subst; destruct (NP j eq_refl)|].
    destruct (IH NP m1 R1) as (m & D & RM). exists m. split; [|exact RM]. econstructor; [|exact D]. eexists. split; [exact E|exact I1].
Qed.

(** ** attaching, assigning, merging *)
Lemma set_child_parents n name v h h' x : set_child n name v h = (h', Ok tt) -> get_parent h' x = get_parent h x.
Proof.
  unfold set_child. destruct v as [j|m]; [discriminate|]. intro E. injection E as <-. unfold get_parent. rewrite nth_set.
  destruct (Nat.eqb n x); [|reflexivity]. destruct (nth_error h x); reflexivity.
Qed.
Lemma set_child_holds n name v h h' : set_child n name v h = (h', Ok tt) ->
  (forall p k w, p <> n -> (holds h' p k w <-> holds h p k w)) /\ (forall k w, holds h' n k w -> (k = name /\ w = v) \/ holds h n k w)
  /\ (n < len h -> holds h' n name v).
Proof.
  unfold set_child. destruct v as [j|m]; [discriminate|]. intro E. injection E as <-. split; [|split].
  - intros p k w NE. unfold holds. rewrite nth_set. destruct (Nat.eqb_spec n p); [congruence|]. reflexivity.
  - intros k w (c & E & I). rewrite nth_set, Nat.eqb_refl in E. destruct (nth_error h n) as [c0|] eqn:E0; [|discriminate]. cbn in E. injection E as <-. cbn [with_kids h_kids] in I.
    apply in_dict_set in I as [I|I]; [left; injection I as -> ->; split; reflexivity|right; exists c0; split; [exact E0|exact I]].
  - intro L. destruct (nth_error h n) as [c0|] eqn:E0; [|apply nth_error_None in E0; lia]. eexists. split; [rewrite nth_set, Nat.eqb_refl, E0; reflexivity|]. cbn [with_kids h_kids].
    apply PyValFacts.lookup_In. apply lookup_dict_set_eq.
Qed.
Lemma hmerge_parents cs : forall n m h h' x, hmerge cs n m h = (h', Ok tt) -> get_parent h' x = get_parent h x.
Proof.
  induction cs as [|ch cs IH]; intros n m h h' x E; cbn [hmerge] in E; [injection E as <-; reflexivity|].
  destruct (truthy_at h (kid_at h n (ch_name ch))); [exact (IH _ _ _ _ _ E)|]. cbn zeta in E.
  destruct (truthy_at h (kid_at h m (ch_name ch))); [|exact (IH _ _ _ _ _ E)].
  unfold bindM in E. destruct (set_child n (ch_name ch) (kid_at h m (ch_name ch)) h) as [h1 [[]|e]] eqn:SC; [|discriminate].
  rewrite (IH _ _ _ _ _ E). exact (set_child_parents _ _ _ _ _ _ SC).
Qed.
Lemma kid_at_holds h n name x : kid_at h n name = HRef x -> holds h n name (HRef x).
Proof.
  unfold kid_at, holds. destruct (nth_error h n) as [c|]; [|discriminate]. destruct (lookup name (h_kids c)) as [v|] eqn:L; [|discriminate]. intros ->. exists c. split; [reflexivity|apply PyValFacts.lookup_In; exact L].
Qed.
Lemma hmerge_holds cs : forall n m h h' k x, n <> m -> hmerge cs n m h = (h', Ok tt) ->
  (forall p, p <> n -> (holds h' p k (HRef x) <-> holds h p k (HRef x))) /\ (holds h' n k (HRef x) -> holds h n k (HRef x) \/ holds h m k (HRef x)).
Proof.
  induction cs as [|ch cs IH]; intros n m h h' k x NE E; cbn [hmerge] in E; [injection E as <-; split; [reflexivity|auto]|].
  destruct (truthy_at h (kid_at h n (ch_name ch))); [exact (IH _ _ _ _ _ _ NE E)|]. cbn zeta in E.
  destruct (truthy_at h (kid_at h m (ch_name ch))); [|exact (IH _ _ _ _ _ _ NE E)].
  unfold bindM in E. destruct (set_child n (ch_name ch) (kid_at h m (ch_name ch)) h) as [h1 [[]|e]] eqn:SC; [|discriminate].
  destruct (set_child_holds _ _ _ _ _ SC) as (A & B1 & _). destruct (IH _ _ _ _ k x NE E) as [C D]. split.
  - intros p NP. rewrite (C p NP). exact (A p k (HRef x) NP).
  - intro H. destruct (D H) as [H1|H1].
    + destruct (B1 _ _ H1) as [[-> W]|H2]; [|left; exact H2]. right. apply kid_at_holds. symmetry. exact W.
    + right. apply (A m k (HRef x)); [congruence|exact H1].
Qed.
Lemma reads_bounded S h v o : reads S h v o -> reads (fun n => n < len h) h v o.
Proof.
  intro r. induction r using reads_mut with (P0 := fun ks os _ => reads_all (fun n => n < len h) h ks os); try (constructor; assumption).
  - econstructor; [apply nth_error_Some; congruence|eassumption..].
  - econstructor; [apply nth_error_Some; congruence|eassumption..].
  - econstructor; [apply nth_error_Some; congruence|eassumption..].
Qed.
