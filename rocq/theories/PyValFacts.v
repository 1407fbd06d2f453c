(** Lemmas about [PyVal]: nested induction on JSON, association lists, the result monad. *)
From Coq Require Import String Ascii List Bool Arith ZArith QArith Lia Permutation.
From Verif Require Import PyStr PyStrFacts PyVal.
Import ListNotations.
Open Scope string_scope.

Section JsonInd.
  Variable P : json -> Prop.
  Hypothesis Hnull : P JNull.
  Hypothesis Hbool : forall b, P (JBool b).
  Hypothesis Hint : forall z, P (JInt z).
  Hypothesis Hfloat : forall q, P (JFloat q).
  Hypothesis Hstr : forall s, P (JStr s).
  Hypothesis Hlist : forall l, Forall P l -> P (JList l).
  Hypothesis Hdict : forall d, Forall (fun kv => P (snd kv)) d -> P (JDict d).
  Fixpoint json_ind' (j : json) : P j :=
    match j with
    | JNull => Hnull
    | JBool b => Hbool b
    | JInt z => Hint z
    | JFloat q => Hfloat q
    | JStr s => Hstr s
    | JList l =>
        Hlist l ((fix go (l : list json) : Forall P l :=
                    match l with
                    | [] => Forall_nil _
                    | x :: l' => Forall_cons x (json_ind' x) (go l')
                    end) l)
    | JDict d =>
        Hdict d ((fix go (d : list (string * json)) : Forall (fun kv => P (snd kv)) d :=
                    match d with
                    | [] => Forall_nil _
                    | kv :: d' => Forall_cons kv (json_ind' (snd kv)) (go d')
                    end) d)
    end.
End JsonInd.

(** ** monad *)
Lemma bind_ok {A B} (r : res A) (f : A -> res B) b :
  bind r f = Ok b <-> exists a, r = Ok a /\ f a = Ok b.
Proof. destruct r; simpl; split; [eauto | intros (a' & H & ?); congruence | discriminate | intros (? & ? & _); discriminate]. Qed.

Lemma bind_err {A B} (r : res A) (f : A -> res B) e :
  bind r f = Err e <-> r = Err e \/ exists a, r = Ok a /\ f a = Err e.
Proof.
  destruct r as [a|e']; simpl; split.
  - eauto.
  - intros [H|(a' & H & ?)]; congruence.
  - intros H; left; congruence.
  - intros [H|(a' & H & ?)]; congruence.
Qed.

Lemma mapM_ok {A B} (f : A -> res B) l ys :
  mapM f l = Ok ys <-> Forall2 (fun x y => f x = Ok y) l ys.
Proof.
  revert ys; induction l as [|x l IH]; intros ys; simpl.
  - split; [intros H; injection H as <-; constructor | intros H; inversion H; reflexivity].
  - rewrite bind_ok. split.
    + intros (y & Hy & H). apply bind_ok in H as (ys' & H & E). injection E as <-.
      constructor; [exact Hy|]. now apply IH.
    + intros H. inversion H as [|? y ? ys' Hy Hys]; subst. exists y. split; [exact Hy|].
      apply bind_ok. exists ys'. split; [now apply IH | reflexivity].
Qed.

Lemma mapM_map {A B C} (f : B -> res C) (g : A -> B) l : mapM f (map g l) = mapM (fun x => f (g x)) l.
Proof. induction l as [|x l IH]; simpl; [reflexivity | now rewrite IH]. Qed.

Lemma mapM_total {A B} (f : A -> res B) (g : A -> B) l :
  Forall (fun x => f x = Ok (g x)) l -> mapM f l = Ok (map g l).
Proof. induction 1 as [|x l Hx Hl IH]; simpl; [reflexivity | now rewrite Hx; simpl; rewrite IH]. Qed.

Lemma mapM_length {A B} (f : A -> res B) l ys : mapM f l = Ok ys -> length ys = length l.
Proof. rewrite mapM_ok. induction 1; simpl; congruence. Qed.

Lemma foldM_app {A B} (f : B -> A -> res B) l1 l2 acc :
  foldM f (l1 ++ l2)%list acc = (a <- foldM f l1 acc ;; foldM f l2 a).
Proof. revert acc; induction l1 as [|x l IH]; intros acc; simpl; [reflexivity|]. destruct (f acc x); simpl; auto. Qed.

(** ** association lists *)
Section Assoc.
  Context {A : Type}.
  Implicit Types d : list (string * A).

  Lemma lookup_In k d v : lookup k d = Some v -> In (k, v) d.
  Proof.
    induction d as [|[k' v'] d IH]; simpl; [discriminate|].
    destruct (String.eqb_spec k k') as [->|]; [injection 1 as ->; now left | right; auto].
  Qed.

  Lemma lookup_none k d : lookup k d = None <-> ~ In k (keys d).
  Proof.
    induction d as [|[k' v'] d IH]; simpl; [tauto|].
    destruct (String.eqb_spec k k') as [->|Hne]; [split; [discriminate | tauto]|].
    rewrite IH. split; [intros H [H'|H']; [congruence|tauto] | tauto].
  Qed.

  Lemma lookup_some_in k d : In k (keys d) <-> exists v, lookup k d = Some v.
  Proof.
    destruct (lookup k d) as [v|] eqn:E; split; eauto.
    - intros _. apply lookup_In in E. apply (in_map fst) in E. exact E.
    - intros H. apply lookup_none in E. tauto.
    - intros [v Hv]; discriminate.
  Qed.

  Lemma lookup_nodup k d v : NoDup (keys d) -> In (k, v) d -> lookup k d = Some v.
  Proof.
    induction d as [|[k' v'] d IH]; simpl; intros Hn Hin; [tauto|].
    inversion_clear Hn as [|? ? Hni Hn'].
    destruct Hin as [H|H].
    - injection H as -> ->. now rewrite String.eqb_refl.
    - destruct (String.eqb_spec k k') as [->|]; [|auto].
      exfalso. apply Hni. apply (in_map fst) in H. exact H.
  Qed.

  Lemma lookup_perm k d d' : NoDup (keys d) -> Permutation d d' -> lookup k d = lookup k d'.
  Proof.
    intros Hn Hp. assert (Hn' : NoDup (keys d')).
    { eapply Permutation_NoDup; [|exact Hn]. now apply Permutation_map. }
    destruct (lookup k d) as [v|] eqn:E.
    - symmetry. apply lookup_nodup; auto. eapply Permutation_in; eauto. now apply lookup_In.
    - symmetry. apply lookup_none. intros H. apply lookup_none in E. apply E.
      unfold keys in *. eapply Permutation_in; [|exact H]. apply Permutation_map. now symmetry.
  Qed.

  Lemma lookup_app k d d' : lookup k (d ++ d')%list = match lookup k d with Some v => Some v | None => lookup k d' end.
  Proof. induction d as [|[k' v'] d IH]; simpl; [reflexivity|]. destruct (String.eqb k k'); auto. Qed.

  Lemma lookup_dict_set_eq k v d : lookup k (dict_set k v d) = Some v.
  Proof.
    induction d as [|[k' v'] d IH]; simpl; [now rewrite String.eqb_refl|].
    destruct (String.eqb k k') eqn:E; simpl; rewrite E; [reflexivity|exact IH].
  Qed.

  Lemma lookup_dict_set_ne k k' v d : k <> k' -> lookup k' (dict_set k v d) = lookup k' d.
  Proof.
    intros Hne. induction d as [|[k2 v2] d IH]; simpl.
    - destruct (String.eqb_spec k' k); congruence.
    - destruct (String.eqb_spec k k2) as [->|]; simpl.
      + destruct (String.eqb_spec k' k2); congruence.
      + now rewrite IH.
  Qed.

  Lemma lookup_dict_set k k' v d :
    lookup k' (dict_set k v d) = if String.eqb k' k then Some v else lookup k' d.
  Proof.
    destruct (String.eqb_spec k' k) as [->|]; [apply lookup_dict_set_eq | apply lookup_dict_set_ne; congruence].
  Qed.

  Lemma keys_dict_set k v d : keys (dict_set k v d) = if mem k d then keys d else (keys d ++ [k])%list.
  Proof.
    unfold mem. induction d as [|[k2 v2] d IH]; simpl; [reflexivity|].
    destruct (String.eqb k k2) eqn:E; simpl; [reflexivity|].
    rewrite IH. destruct (lookup k d); reflexivity.
  Qed.

  Lemma nodup_dict_set k v d : NoDup (keys d) -> NoDup (keys (dict_set k v d)).
  Proof.
    intros H. rewrite keys_dict_set. unfold mem. destruct (lookup k d) eqn:E; [exact H|].
    apply lookup_none in E. apply (Permutation_NoDup (l := k :: keys d)).
    - apply Permutation_cons_append.
    - now constructor.
  Qed.

  Lemma in_dict_set k v d kv : In kv (dict_set k v d) -> kv = (k, v) \/ In kv d.
  Proof.
    induction d as [|[k2 v2] d IH]; simpl.
    - intros [H|[]]; left; congruence.
    - destruct (String.eqb_spec k k2) as [->|]; simpl; intros [H|H]; auto.
      destruct (IH H); auto.
  Qed.

  Lemma dict_set_fresh k v d : lookup k d = None -> dict_set k v d = (d ++ [(k, v)])%list.
  Proof.
    induction d as [|[k2 v2] d IH]; simpl; [reflexivity|].
    destruct (String.eqb k k2); [discriminate|]. intros H. now rewrite IH.
  Qed.

  Lemma keys_dict_del k d x : In x (keys (dict_del k d)) -> In x (keys d).
  Proof.
    induction d as [|[k2 v2] d IH]; simpl; [tauto|].
    destruct (String.eqb k k2); simpl; tauto.
  Qed.

  Lemma nodup_dict_del k d : NoDup (keys d) -> NoDup (keys (dict_del k d)).
  Proof.
    induction d as [|[k2 v2] d IH]; simpl; intros H; [constructor|].
    inversion_clear H. destruct (String.eqb k k2); [assumption|].
    simpl. constructor; [|auto]. intros Hin. apply keys_dict_del in Hin. contradiction.
  Qed.

  Lemma lookup_dict_del k k' d : NoDup (keys d) ->
    lookup k' (dict_del k d) = if String.eqb k' k then None else lookup k' d.
  Proof.
    induction d as [|[k2 v2] d IH]; simpl; intros Hn; [now destruct (String.eqb k' k)|].
    inversion_clear Hn as [|? ? Hni Hn'].
    destruct (String.eqb_spec k k2) as [->|Hne]; simpl.
    - destruct (String.eqb_spec k' k2) as [->|]; [|reflexivity]. now apply lookup_none.
    - rewrite (IH Hn'). destruct (String.eqb_spec k' k2) as [->|]; [|reflexivity].
      destruct (String.eqb_spec k2 k); [congruence|reflexivity].
  Qed.

  Lemma mem_true k d : mem k d = true <-> In k (keys d).
  Proof. unfold mem. rewrite lookup_some_in. destruct (lookup k d); split; eauto; [discriminate | intros [v H]; discriminate]. Qed.
  Lemma mem_false k d : mem k d = false <-> ~ In k (keys d).
  Proof. rewrite <- mem_true. destruct (mem k d); split; congruence. Qed.
End Assoc.

Lemma lookup_map {A B} (f : A -> B) k (d : list (string * A)) :
  lookup k (map (fun kv => (fst kv, f (snd kv))) d) = option_map f (lookup k d).
Proof. induction d as [|[k' v] d IH]; simpl; [reflexivity|]. destruct (String.eqb k k'); auto. Qed.

Lemma keys_map {A B} (f : A -> B) (d : list (string * A)) :
  keys (map (fun kv => (fst kv, f (snd kv))) d) = keys d.
Proof. unfold keys. rewrite map_map. reflexivity. Qed.

Lemma dict_update_lookup {A} (d e : list (string * A)) k : NoDup (keys e) ->
  lookup k (dict_update d e) = match lookup k e with Some v => Some v | None => lookup k d end.
Proof.
  unfold dict_update. revert d; induction e as [|[k' v] e IH]; intros d Hn; simpl; [reflexivity|].
  inversion_clear Hn as [|? ? Hni Hn'].
  rewrite (IH _ Hn'). rewrite lookup_dict_set.
  destruct (String.eqb_spec k k') as [->|]; [|reflexivity].
  rewrite (proj2 (lookup_none k' e) Hni). reflexivity.
Qed.
