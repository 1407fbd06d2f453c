(** Proofs about dereferencing. *)
From Coq Require Import List Bool Arith Lia.
From Verif Require Import PyVal PyValFacts Deref SpecDeref.
Import ListNotations.

Lemma NoDup_app_remove_r {A} (l l' : list A) : NoDup (l ++ l') -> NoDup l.
Proof.
  induction l as [|x l IH]; cbn [app]; intros H; [constructor|]. inversion_clear H as [|? ? H1 H2].
  constructor; [|auto]. intros Hi. apply H1. apply in_or_app. now left.
Qed.

Definition step (h : heap) (i : nat) : option nat :=
  match nth_error h i with
  | Some n => if n_ref n then match n_attrs n with Some (Some j) => Some j | _ => None end else None
  | None => None
  end.

Lemma step_links h i j : step h i = Some j <-> links_to h i j.
Proof.
  unfold step, links_to. split.
  - destruct (nth_error h i) as [n|]; [|discriminate]. destruct (n_ref n) eqn:E1; [|discriminate].
    destruct (n_attrs n) as [[k|]|] eqn:E2; try discriminate. intros H. injection H as ->. eauto.
  - intros (n & -> & -> & ->). reflexivity.
Qed.

Lemma deref_loop_eq f h v c :
  deref_loop (S f) h v c =
  match step h c with
  | None => Ok (c, v)
  | Some nxt => v' <- guard_update v nxt ;; deref_loop f h v' nxt
  end.
Proof.
  cbn [deref_loop]. unfold step. destruct (nth_error h c) as [n|]; [|reflexivity].
  destruct (n_ref n); [|reflexivity]. destruct (n_attrs n) as [[k|]|]; reflexivity.
Qed.

Lemma guard_update_ok v i v' : guard_update v i = Ok v' <-> ~ In i v /\ v' = v ++ [i].
Proof.
  unfold guard_update. destruct (existsb (Nat.eqb i) v) eqn:E.
  - split; [discriminate|]. intros [H _]. exfalso. apply H.
    apply existsb_exists in E as (x & Hx & Hi). apply Nat.eqb_eq in Hi. now subst.
  - split.
    + intros H. injection H as <-. split; [|reflexivity]. intros Hi.
      assert (existsb (Nat.eqb i) v = true) by (apply existsb_exists; exists i; split; [exact Hi | apply Nat.eqb_refl]).
      congruence.
    + intros [_ ->]. reflexivity.
Qed.

Lemma guard_update_err v i e : guard_update v i = Err e <-> In i v /\ e = CycleDetectionError.
Proof.
  unfold guard_update. destruct (existsb (Nat.eqb i) v) eqn:E.
  - apply existsb_exists in E as (x & Hx & Hi). apply Nat.eqb_eq in Hi as <-.
    split; [intros H; injection H as <-; auto | intros [_ ->]; reflexivity].
  - split; [discriminate|]. intros [Hi _].
    assert (existsb (Nat.eqb i) v = true) by (apply existsb_exists; exists i; split; [exact Hi | apply Nat.eqb_refl]).
    congruence.
Qed.

Definition in_heap (h : heap) (l : list nat) : list nat := filter (fun i => Nat.ltb i (length h)) l.

Lemma NoDup_bounded_length l n : NoDup l -> (forall x, In x l -> x < n) -> length l <= n.
Proof.
  intros Hn Hb. rewrite <- (seq_length n 0). apply NoDup_incl_length; [exact Hn|].
  intros x Hx. apply in_seq. specialize (Hb x Hx). lia.
Qed.

(** termination: the ids visited by this call form a duplicate free list of heap ids *)
Lemma deref_loop_total f h v0 l c :
  closed h -> NoDup (l ++ [c]) -> (forall x, In x l -> x < length h) ->
  S (length h) <= f + length l ->
  (exists j l', deref_loop f h (v0 ++ l ++ [c]) c = Ok (j, v0 ++ l ++ l') /\ chain h c l' j /\ terminal h j /\ NoDup (l ++ l')
               /\ (forall x, In x l' -> x = c \/ ~ In x v0))
  \/ (exists l' j k, deref_loop f h (v0 ++ l ++ [c]) c = Err CycleDetectionError
               /\ chain h c l' j /\ links_to h j k /\ NoDup (l ++ l') /\ In k (v0 ++ l ++ l')
               /\ (forall x, In x l' -> x = c \/ ~ In x v0)).
Proof.
  intros Hcl. revert l c. induction f as [|f IH]; intros l c Hn Hb Hf.
  - exfalso. assert (length l <= length h) by (apply NoDup_bounded_length; [now apply NoDup_app_remove_r in Hn | exact Hb]). lia.
  - rewrite deref_loop_eq. destruct (step h c) as [nxt|] eqn:Es.
    + apply step_links in Es as Hl.
      assert (Hc : c < length h).
      { destruct Hl as (n & Hn' & _). apply nth_error_Some. congruence. }
      destruct (guard_update (v0 ++ l ++ [c]) nxt) as [v'|e] eqn:Eg.
      * apply guard_update_ok in Eg as [Hni ->]. cbn [bind].
        assert (Hn2 : NoDup ((l ++ [c]) ++ [nxt])).
        { apply (Permutation.Permutation_NoDup (l := nxt :: l ++ [c])); [apply Permutation.Permutation_cons_append|].
          constructor; [|exact Hn]. intros H. apply Hni. apply in_or_app. now right. }
        assert (Hb2 : forall x, In x (l ++ [c]) -> x < length h).
        { intros x Hx. apply in_app_or in Hx as [Hx|[<-|[]]]; auto. }
        rewrite <- app_assoc.
        assert (Hnv : ~ In nxt v0) by (intros H; apply Hni; apply in_or_app; now left).
        destruct (IH (l ++ [c]) nxt Hn2 Hb2) as [(j & l' & E & Hch & Ht & Hnd & Hx)|(l' & j & k & E & Hch & Hlk & Hnd & Hi & Hx)].
        { rewrite app_length. simpl. lia. }
        -- left. exists j, (c :: l'). rewrite <- app_assoc in Hnd. replace (v0 ++ (l ++ [c]) ++ l') with (v0 ++ l ++ c :: l') in E by now rewrite <- !app_assoc. rewrite <- ?app_assoc in E. cbn [app] in E, Hnd.
           repeat split.
           ++ rewrite <- ?app_assoc. cbn [app]. exact E.
           ++ econstructor; eauto.
           ++ exact Ht.
           ++ exact Hnd.
           ++ intros x [<-|Hx']; [now left|]. right. destruct (Hx x Hx') as [->|H]; assumption.
        -- right. exists (c :: l'), j, k. rewrite <- app_assoc in Hnd. replace (v0 ++ (l ++ [c]) ++ l') with (v0 ++ l ++ c :: l') in Hi by now rewrite <- !app_assoc. rewrite <- ?app_assoc in E. cbn [app] in E, Hnd, Hi.
           repeat split; auto.
           ++ rewrite <- ?app_assoc. cbn [app]. exact E.
           ++ econstructor; eauto.
           ++ intros x [<-|Hx']; [now left|]. right. destruct (Hx x Hx') as [->|H]; assumption.
      * apply guard_update_err in Eg as [Hi ->]. right. exists [c], c, nxt. cbn [bind].
        repeat split; auto; [constructor|]. intros x [<-|[]]. now left.
    + left. exists c, [c]. repeat split; auto; [constructor| |].
      * intros k Hk. apply step_links in Hk. congruence.
      * intros x [<-|[]]. now left.
Qed.

Lemma deref_total h v0 i :
  closed h ->
  (exists j l, deref h v0 i = Ok (j, v0 ++ l) /\ chain h i l j /\ terminal h j /\ NoDup l
               /\ forall x, In x l -> ~ In x v0)
  \/ (deref h v0 i = Err CycleDetectionError /\
      (In i v0 \/
       exists l j k, chain h i l j /\ links_to h j k /\ In k (v0 ++ l))).
Proof.
  intros Hcl. unfold deref. destruct (guard_update v0 i) as [v|e] eqn:Eg; cbn [bind].
  - apply guard_update_ok in Eg as [Hni ->].
    destruct (deref_loop_total (S (length h)) h v0 [] i Hcl) as [(j & l' & E & Hch & Ht & Hnd & Hx)|(l' & j & k & E & Hch & Hlk & Hnd & Hi & Hx)].
    + simpl. constructor; [tauto|constructor].
    + intros x [].
    + simpl. lia.
    + left. exists j, l'. cbn [app] in E, Hnd. repeat split; auto.
      intros x H. destruct (Hx x H) as [->|H']; assumption.
    + right. cbn [app] in E, Hi. split; [exact E|]. right. exists l', j, k. auto.
  - apply guard_update_err in Eg as [Hi ->]. right. split; [reflexivity | now left].
Qed.

(** determinism of chains *)
Lemma links_det h i j k : links_to h i j -> links_to h i k -> j = k.
Proof. intros (n & H1 & _ & H2) (m & H3 & _ & H4). congruence. Qed.

Lemma chain_head h i l j : chain h i l j -> exists t, l = i :: t.
Proof. destruct 1; eauto. Qed.

Lemma chain_terminal_det h i l j l' j' :
  chain h i l j -> terminal h j -> chain h i l' j' -> exists m, l = l' ++ m.
Proof.
  intros H Ht H'. revert l j H Ht. induction H' as [i|i k l' j' Hl Hc IH]; intros l j H Ht.
  - destruct (chain_head _ _ _ _ H) as [t ->]. exists t. reflexivity.
  - destruct H as [i|i k2 l2 j Hl2 Hc2].
    + exfalso. exact (Ht k Hl).
    + rewrite (links_det _ _ _ _ Hl2 Hl) in Hc2. destruct (IH l2 j Hc2 Ht) as [m ->]. exists m. reflexivity.
Qed.

Lemma chain_snoc h i l j k : chain h i l j -> links_to h j k -> chain h i (l ++ [k]) k.
Proof. induction 1; intros Hl; cbn [app]; [eapply chain_next; [exact Hl|constructor] | econstructor; eauto]. Qed.

Lemma chain_suffix h i l j x : chain h i l j -> In x l -> exists l1 l2, l = l1 ++ l2 /\ chain h x l2 j.
Proof.
  induction 1 as [i|i k l j Hl Hc IH]; intros Hx.
  - destruct Hx as [<-|[]]. exists [], [i]. split; [reflexivity|constructor].
  - destruct Hx as [<-|Hx].
    + exists [], (i :: l). split; [reflexivity | econstructor; eauto].
    + destruct (IH Hx) as (l1 & l2 & -> & Hs). exists (i :: l1), l2. split; [reflexivity|exact Hs].
Qed.

(** a finite chain never repeats an object *)
Lemma chain_end_last h i l j : chain h i l j -> exists l0, l = l0 ++ [j].
Proof. induction 1 as [i|i k l j Hl Hc (l0 & ->)]; [exists []; reflexivity | exists (i :: l0); reflexivity]. Qed.

Lemma chain_terminal_nodup h i l j : chain h i l j -> terminal h j -> NoDup l.
Proof.
  intros H Ht. induction H as [i|i k l j Hl Hc IH]; [constructor; [tauto|constructor]|].
  constructor; [|now apply IH]. intros Hi.
  destruct (chain_suffix _ _ _ _ _ Hc Hi) as (l1 & l2 & -> & Hs).
  assert (Hfull : chain h i (i :: l1 ++ l2) j) by (econstructor; eauto).
  destruct (chain_terminal_det _ _ _ _ _ _ Hs Ht Hfull) as [m E].
  apply (f_equal (@length nat)) in E. rewrite app_length in E. cbn [length] in E. rewrite app_length in E. lia.
Qed.

Lemma deref_finite h v0 i l j :
  closed h -> chain h i l j -> terminal h j -> (forall x, In x l -> ~ In x v0) ->
  deref h v0 i = Ok (j, v0 ++ l).
Proof.
  intros Hcl Hc Ht Hv. destruct (deref_total h v0 i Hcl) as [(j' & l' & E & Hc' & Ht' & Hnd & Hx)|[E H]].
  - destruct (chain_terminal_det _ _ _ _ _ _ Hc Ht Hc') as [m Em].
    destruct (chain_terminal_det _ _ _ _ _ _ Hc' Ht' Hc) as [m' Em'].
    assert (m = []). { rewrite Em in Em'. apply (f_equal (@length nat)) in Em'. rewrite !app_length in Em'. destruct m; [reflexivity|simpl in Em'; lia]. }
    subst m. rewrite app_nil_r in Em. subst l'.
    destruct (chain_end_last _ _ _ _ Hc) as [a Ea]. destruct (chain_end_last _ _ _ _ Hc') as [b Eb].
    rewrite Ea in Eb. apply app_inj_tail in Eb as [_ ->]. exact E.
  - exfalso. destruct H as [Hi|(l' & j' & k & Hc' & Hl & Hi)].
    + destruct (chain_head _ _ _ _ Hc) as [t ->]. exact (Hv i (or_introl eq_refl) Hi).
    + pose proof (chain_snoc _ _ _ _ _ Hc' Hl) as Hc2.
      destruct (chain_terminal_det _ _ _ _ _ _ Hc Ht Hc2) as [m ->].
      apply in_app_or in Hi as [Hi|Hi].
      * apply (Hv k); [|exact Hi]. apply in_or_app. left. apply in_or_app. right. now left.
      * apply chain_terminal_nodup in Hc; [|exact Ht]. apply NoDup_app_remove_r in Hc.
        apply NoDup_remove_2 in Hc. apply Hc. rewrite app_nil_r. exact Hi.
Qed.

Lemma deref_cycle_iff h i :
  closed h ->
  (deref h [] i = Err CycleDetectionError <-> exists l j k, chain h i l j /\ links_to h j k /\ In k l).
Proof.
  intros Hcl. split.
  - intros E. destruct (deref_total h [] i Hcl) as [(j & l & E' & _)|[_ [[]|(l & j & k & H)]]]; [congruence|].
    exists l, j, k. exact H.
  - intros (l & j & k & Hc & Hl & Hi).
    destruct (deref_total h [] i Hcl) as [(j' & l' & E & Hc' & Ht' & _)|[E _]]; [|exact E].
    exfalso. pose proof (chain_snoc _ _ _ _ _ Hc Hl) as Hc2.
    destruct (chain_terminal_det _ _ _ _ _ _ Hc' Ht' Hc2) as [m ->].
    apply chain_terminal_nodup in Hc'; [|exact Ht']. apply NoDup_app_remove_r in Hc'.
    apply NoDup_remove_2 in Hc'. apply Hc'. rewrite app_nil_r. exact Hi.
Qed.

Lemma deref_guarded h v0 i :
  closed h -> deref h v0 i = Err CycleDetectionError ->
  In i v0 \/ exists l j k, chain h i l j /\ links_to h j k /\ (In k v0 \/ In k l).
Proof.
  intros Hcl E. destruct (deref_total h v0 i Hcl) as [(j & l & E' & _)|[_ [H|(l & j & k & H1 & H2 & H3)]]].
  - congruence.
  - now left.
  - right. exists l, j, k. repeat split; auto. now apply in_app_or.
Qed.

Lemma deref_guarded_conv h v0 i :
  closed h -> (In i v0 \/ exists l j, chain h i l j /\ In j v0) ->
  deref h v0 i = Err CycleDetectionError.
Proof.
  intros Hcl H. destruct (deref_total h v0 i Hcl) as [(j & l & E & Hc & Ht & Hn & Hx)|[E _]]; [|exact E].
  exfalso. destruct H as [Hi|(l' & j' & Hc' & Hj)].
  - destruct (chain_head _ _ _ _ Hc) as [t ->]. exact (Hx i (or_introl eq_refl) Hi).
  - destruct (chain_terminal_det _ _ _ _ _ _ Hc Ht Hc') as [m ->].
    destruct (chain_end_last _ _ _ _ Hc') as [a ->]. apply (Hx j'); [|exact Hj].
    apply in_or_app. left. apply in_or_app. right. now left.
Qed.
