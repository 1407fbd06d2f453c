(** C15: attributes declared with [internal]. *)
From Coq Require Import String Ascii List Bool Arith ZArith Lia.
From Verif Require Import PyStr PyStrFacts PyVal PyValFacts Jp JpFacts Obj ObjState SpecJson SpecObj ObjFacts ShapeFacts DumpFacts ReloadFacts ResolveFacts StateFacts.
Import ListNotations.
Open Scope string_scope. Open Scope nat_scope.

Lemma lookup_key {A} k (l : list (string * A)) v : lookup k l = Some v -> In k (map fst l).
Proof.
  induction l as [|[a b] l IH]; cbn [lookup]; [discriminate|]. destruct (String.eqb_spec k a) as [->|Hn]; cbn [map fst].
  - now left.
  - intros E. right. now apply IH.
Qed.
Lemma unamb_internal cd n d : unambiguous cd -> lookup n (c_internal cd) = Some d ->
  declared_child cd n = false /\ lookup n (c_renames cd) = None.
Proof.
  unfold unambiguous. intros H E. assert (Hin := lookup_key _ _ _ E).
  apply NoDup_app_iff_local in H as (_ & H & _). apply NoDup_app_iff_local in H as (_ & H & D1).
  apply NoDup_app_iff_local in H as (_ & H & D2). apply NoDup_app_iff_local in H as (_ & _ & D3).
  assert (H1 : ~ In n (map ch_name (c_children cd))) by (intros X; apply (D1 _ X); rewrite !in_app_iff; auto).
  assert (H2 : ~ In n (map ch_name (c_lazy cd))) by (intros X; apply (D2 _ X); rewrite !in_app_iff; auto).
  split.
  - apply declared_child_false; now apply find_child_none.
  - apply lookup_none. intros X. exact (D3 _ X Hin).
Qed.
Lemma inst_get_internal tbl o n d : unambiguous (i_class o) -> lookup n (c_internal (i_class o)) = Some d ->
  inst_get tbl o n = Ok (OPrim (match lookup n (i_internal o) with Some v => v | None => d end)).
Proof. intros U E. destruct (unamb_internal _ _ _ U E) as (E1 & E2). unfold inst_get. now rewrite E1, E2, E. Qed.
Lemma inst_put_internal o n v o' : inst_put o n v = Ok o' -> i_internal o' = i_internal o.
Proof.
  unfold inst_put. destruct (declared_child _ _); [discriminate|]. destruct (find_field n _) as [f|].
  - destruct (f_readonly f); [discriminate|]. destruct (i_spec o); try discriminate. intros H. now apply (f_equal (fun r => match r with Ok x => i_internal x | Err _ => [] end)) in H.
  - intros H. now apply (f_equal (fun r => match r with Ok x => i_internal x | Err _ => [] end)) in H.
Qed.
Lemma write_internal_other o m v n : m <> n -> lookup n (i_internal (write o (m, v))) = lookup n (i_internal o).
Proof.
  intros Hn. unfold write. cbn [fst snd]. destruct (inst_set o m v) as [o'|] eqn:E; [|reflexivity]. unfold inst_set in E.
  destruct (declared_child _ _); [discriminate|]. destruct (lookup m (c_renames _)).
  - now rewrite (inst_put_internal _ _ _ _ E).
  - destruct (lookup m (c_internal _)).
    + inversion E; subst. cbn [i_internal]. apply lookup_dict_set_ne. congruence.
    + now rewrite (inst_put_internal _ _ _ _ E).
Qed.
Lemma write_internal_same o n d v : unambiguous (i_class o) -> lookup n (c_internal (i_class o)) = Some d ->
  lookup n (i_internal (write o (n, v))) = Some v.
Proof.
  intros U E. destruct (unamb_internal _ _ _ U E) as (E1 & E2). unfold write. cbn [fst snd]. unfold inst_set.
  rewrite E1, E2, E. cbn [i_internal]. apply lookup_dict_set_eq.
Qed.
Lemma writes_internal_other ws : forall o n, (forall v, ~ In (n, v) ws) -> lookup n (i_internal (writes o ws)) = lookup n (i_internal o).
Proof.
  induction ws as [|[m v] ws IH]; intros o n H; [reflexivity|]. change (writes o ((m, v) :: ws)) with (writes (write o (m, v)) ws).
  rewrite IH; [|intros x Hx; apply (H x); now right]. apply write_internal_other. intros ->. apply (H v). now left.
Qed.
Lemma internal_unwritten tbl o ws n d : unambiguous (i_class o) -> lookup n (c_internal (i_class o)) = Some d ->
  (forall v, ~ In (n, v) ws) ->
  inst_get tbl (writes o ws) n = Ok (OPrim (match lookup n (i_internal o) with Some v => v | None => d end)).
Proof.
  intros U E H. rewrite (inst_get_internal tbl _ n d); [|now rewrite writes_class|now rewrite writes_class].
  now rewrite writes_internal_other.
Qed.
Lemma internal_written tbl o ws1 v ws2 n d : unambiguous (i_class o) -> lookup n (c_internal (i_class o)) = Some d ->
  (forall x, ~ In (n, x) ws2) -> inst_get tbl (writes o (ws1 ++ (n, v) :: ws2)) n = Ok (OPrim v).
Proof.
  intros U E H. set (o1 := writes o ws1).
  assert (X : writes o (ws1 ++ (n, v) :: ws2) = writes (write o1 (n, v)) ws2) by (unfold o1, writes; now rewrite fold_left_app).
  assert (C1 : i_class o1 = i_class o) by apply writes_class.
  rewrite X, (inst_get_internal tbl _ n d); [|now rewrite writes_class, write_class, C1|now rewrite writes_class, write_class, C1].
  rewrite writes_internal_other by exact H. rewrite (write_internal_same o1 n d v); [reflexivity| |]; now rewrite C1.
Qed.
