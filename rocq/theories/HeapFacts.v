(** * Facts about objects with identity. *)
From Coq Require Import String List Bool Arith Lia.
From Verif Require Import PyStr PyStrFacts PyVal PyValFacts Jp Obj ObjFacts DumpFacts Heap SpecHeap.
Import ListNotations.
Open Scope string_scope. Open Scope nat_scope.
Notation len := List.length.

(** ** lists *)
Lemma nth_set {A} (f : A -> A) : forall l n m, nth_error (set_nth n f l) m = if Nat.eqb n m then option_map f (nth_error l m) else nth_error l m.
Proof.
  induction l as [|x l IH]; intros [|n] [|m]; cbn; try reflexivity.
  - destruct (Nat.eqb n m); reflexivity.
  - apply IH.
Qed.
Lemma set_length {A} (f : A -> A) : forall l n, len (set_nth n f l) = len l.
Proof. induction l as [|x l IH]; intros [|n]; cbn; try reflexivity. f_equal. apply IH. Qed.

(** ** unchanged *)
Definition same_shape (c c' : cell) : Prop := h_kind c' = h_kind c /\ h_path c' = h_path c /\ h_spec c' = h_spec c /\ h_kids c' = h_kids c.
Lemma same_refl c : same_shape c c.
Proof. repeat split. Qed.
Lemma unchanged_refl h : unchanged h h.
Proof. intros n c H. exists c. split; [exact H|repeat split]. Qed.
Lemma unchanged_trans h1 h2 h3 : unchanged h1 h2 -> unchanged h2 h3 -> unchanged h1 h3.
Proof.
  intros A B n c H. destruct (A n c H) as (c2 & H2 & E1 & E2 & E3 & E4). destruct (B n c2 H2) as (c3 & H3 & F1 & F2 & F3 & F4).
  exists c3. split; [exact H3|]. repeat split; congruence.
Qed.
Lemma unchanged_len h h' : unchanged h h' -> len h <= len h'.
Proof.
  intro U. destruct (Nat.le_gt_cases (len h) (len h')) as [L|L]; [exact L|exfalso].
  destruct (nth_error h (len h')) as [c|] eqn:E.
  - destruct (U _ _ E) as (c' & E' & _). assert (X : nth_error h' (len h') <> None) by congruence. apply nth_error_Some in X. lia.
  - apply nth_error_None in E. lia.
Qed.
Lemma unchanged_alloc h c : unchanged h (h ++ [c])%list.
Proof. intros n x H. exists x. split; [|repeat split]. rewrite nth_error_app1; [exact H|]. apply nth_error_Some. congruence. Qed.
Lemma unchanged_parent h v p : unchanged h (fst (set_parent v p h)).
Proof.
  intros n c H. destruct v as [j|m]; cbn [set_parent fst]; [exists c; split; [exact H|repeat split]|].
  rewrite nth_set, H. destruct (Nat.eqb m n); cbn; eexists; (split; [reflexivity|]); repeat split.
Qed.
Lemma unchanged_kids h0 h n kids : unchanged h0 h -> len h0 <= n -> unchanged h0 (set_nth n (with_kids kids) h).
Proof.
  intros U L m c H. destruct (U m c H) as (c' & H' & E). exists c'. split; [|exact E].
  rewrite nth_set. destruct (Nat.eqb_spec n m) as [->|_]; [|exact H']. assert (m < len h0) by (apply nth_error_Some; congruence). lia.
Qed.
Lemma truthy_unchanged h h' v : unchanged h h' -> (forall n, v = HRef n -> n < len h) -> truthy_at h' v = truthy_at h v.
Proof.
  intros U L. destruct v as [j|n]; [reflexivity|]. cbn. specialize (L n eq_refl). destruct (nth_error h n) as [c|] eqn:E.
  - destruct (U _ _ E) as (c' & -> & -> & _ & _ & ->). reflexivity.
  - apply nth_error_None in E. lia.
Qed.
Lemma container_unchanged h h' n : unchanged h h' -> n < len h -> (is_container h' n <-> is_container h n).
Proof.
  intros U L. destruct (nth_error h n) as [c|] eqn:E; [|apply nth_error_None in E; lia].
  destruct (U _ _ E) as (c' & E' & K & _). unfold is_container. split; intros (x & X & Y).
  - exists c. split; [exact E|]. assert (x = c') by congruence. subst x. rewrite K in Y. exact Y.
  - exists c'. split; [exact E'|]. assert (x = c) by congruence. subst x. rewrite K. exact Y.
Qed.
Lemma holds_unchanged h h' n k v : unchanged h h' -> n < len h -> (holds h' n k v <-> holds h n k v).
Proof.
  intros U L. destruct (nth_error h n) as [c|] eqn:E; [|apply nth_error_None in E; lia].
  destruct (U _ _ E) as (c' & E' & _ & _ & _ & K). unfold holds. split; intros (x & X & Y).
  - exists c. split; [exact E|]. assert (x = c') by congruence. subst x. rewrite K in Y. exact Y.
  - exists c'. split; [exact E'|]. assert (x = c) by congruence. subst x. rewrite K. exact Y.
Qed.
Lemma holds_lt h n k v : holds h n k v -> n < len h.
Proof. intros (c & E & _). apply nth_error_Some. congruence. Qed.

(** ** reading back *)
Lemma reads_frame (S S' : nat -> Prop) h h' : (forall n, S n -> S' n) -> (forall n c, S n -> nth_error h n = Some c -> exists c', nth_error h' n = Some c' /\ same_shape c c') ->
  (forall v o, reads S h v o -> reads S' h' v o) /\ (forall ks os, reads_all S h ks os -> reads_all S' h' ks os).
Proof.
  intros HS F.
  assert (A : forall v o (r : reads S h v o), reads S' h' v o).
  { intros v o r. induction r using reads_mut with (P0 := fun ks os _ => reads_all S' h' ks os); try (constructor; assumption).
    - destruct (F _ _ s0 e) as ([k' p' s' ks' pa'] & E & E1 & E2 & E3 & E4). cbn in *. subst. econstructor; eauto.
    - destruct (F _ _ s0 e) as ([k' p' s' ks' pa'] & E & E1 & E2 & E3 & E4). cbn in *. subst. econstructor; eauto.
    - destruct (F _ _ s0 e) as ([k' p' s' ks' pa'] & E & E1 & E2 & E3 & E4). cbn in *. subst. econstructor; eauto. }
  split; [exact A|]. intros ks os R. induction R; constructor; auto.
Qed.
Lemma reads_unchanged (S S' : nat -> Prop) h h' v o : (forall n, S n -> S' n) -> unchanged h h' -> reads S h v o -> reads S' h' v o.
Proof. intros HS U. apply (reads_frame S S' h h' HS). intros n c _ H. destruct (U n c H) as (c' & H' & E). exists c'. split; [exact H'|exact E]. Qed.
Lemma reads_all_unchanged (S S' : nat -> Prop) h h' v o : (forall n, S n -> S' n) -> unchanged h h' -> reads_all S h v o -> reads_all S' h' v o.
Proof. intros HS U. apply (reads_frame S S' h h' HS). intros n c _ H. destruct (U n c H) as (c' & H' & E). exists c'. split; [exact H'|exact E]. Qed.
Lemma reads_truthy S h v o : reads S h v o -> truthy_at h v = truthy_obj o.
Proof.
  destruct 1 as [j|n c p s ks pa kids _ E R|n b p s ks pa kids _ E R _|n b p s ks pa kids _ E R]; cbn; rewrite ?E; try reflexivity; destruct R; reflexivity.
Qed.
Lemma reads_ref S h n o : reads S h (HRef n) o -> S n /\ n < len h.
Proof. intro R. inversion R as [|n' c p s ks pa kids X E|n' c p s ks pa kids X E|n' c p s ks pa kids X E]; subst; (split; [exact X|apply nth_error_Some; congruence]). Qed.

(** ** overrides *)
Definition orel (S : nat -> Prop) (h : heap) : hover -> override -> Prop := reads_all S h.
Inductive mrel (S : nat -> Prop) (h : heap) : list (string * hover) -> list (string * override) -> Prop :=
| mr_nil : mrel S h [] []
| mr_cons k a b m m' : orel S h a b -> mrel S h m m' -> mrel S h ((k, a) :: m) ((k, b) :: m').
Lemma orel_lookup S h a b k : orel S h a b -> match lookup k a, lookup k b with Some v, Some o => reads S h v o | None, None => True | _, _ => False end.
Proof. induction 1 as [|k' v o ks os R RA IH]; cbn; [exact I|]. destruct (String.eqb k k'); [exact R|exact IH]. Qed.
Lemma orel_set S h a b k v o : orel S h a b -> reads S h v o -> orel S h (dict_set k v a) (dict_set k o b).
Proof. intros R V. induction R as [|k' v' o' ks os R RA IH]; cbn; [constructor; [exact V|constructor]|]. destruct (String.eqb k k'); constructor; assumption. Qed.
Lemma mrel_lookup S h m m' k : mrel S h m m' -> match lookup k m, lookup k m' with Some v, Some o => orel S h v o | None, None => True | _, _ => False end.
Proof. induction 1 as [|k' v o ks os R RA IH]; cbn; [exact I|]. destruct (String.eqb k k'); [exact R|exact IH]. Qed.
Lemma mrel_set S h m m' k v o : mrel S h m m' -> orel S h v o -> mrel S h (dict_set k v m) (dict_set k o m').
Proof. intros R V. induction R as [|k' v' o' ks os R RA IH]; cbn; [constructor; [exact V|constructor]|]. destruct (String.eqb k k'); constructor; assumption. Qed.
Lemma mrel_insert S h m m' a b v o : mrel S h m m' -> reads S h v o -> mrel S h (hovr_insert a b v m) (ovr_insert a b o m').
Proof.
  intros R V. apply mrel_set; [exact R|]. apply orel_set; [|exact V]. pose proof (mrel_lookup S h m m' a R) as L.
  destruct (lookup a m), (lookup a m'); try contradiction; [exact L|constructor].
Qed.
Lemma hsplit_rel S h a b : orel S h a b -> match split_override b with Ok m' => exists m, hsplit a = Ok m /\ mrel S h m m' | Err e => hsplit a = Err e end.
Proof.
  intro R. unfold split_override, hsplit.
  assert (G : forall m m', mrel S h m m' ->
    match foldM (fun m kv => match jp_split_max (Some (fst kv)) (Some 1) with [] => Err PyException | [t] => Ok (ovr_insert t "" (snd kv) m) | t :: t' :: _ => Ok (ovr_insert t t' (snd kv) m) end) b m' with
    | Ok r' => exists r, foldM (fun m kv => match jp_split_max (Some (fst kv)) (Some 1) with [] => Err PyException | [t] => Ok (hovr_insert t "" (snd kv) m) | t :: t' :: _ => Ok (hovr_insert t t' (snd kv) m) end) a m = Ok r /\ mrel S h r r'
    | Err e => foldM (fun m kv => match jp_split_max (Some (fst kv)) (Some 1) with [] => Err PyException | [t] => Ok (hovr_insert t "" (snd kv) m) | t :: t' :: _ => Ok (hovr_insert t t' (snd kv) m) end) a m = Err e
    end).
  { induction R as [|k v o ks os V RA IH]; intros m m' MR; cbn [foldM fst snd]; [exists m; split; [reflexivity|exact MR]|].
    destruct (jp_split_max (Some k) (Some 1)) as [|t [|t' r]]; cbn [bind]; [reflexivity|apply IH; apply mrel_insert; assumption..]. }
  apply G. constructor.
Qed.
Lemma mrel_get S h m m' k : mrel S h m m' -> orel S h (hovr_get k m) (ovr_get k m').
Proof. intro R. pose proof (mrel_lookup S h m m' k R) as L. unfold hovr_get, ovr_get. destruct (lookup k m), (lookup k m'); try contradiction; [exact L|constructor]. Qed.
Lemma orel_here S h a b : orel S h a b -> match ovr_here b with Some o => exists v, hovr_here h a = Some v /\ reads S h v o /\ truthy_at h v = true | None => hovr_here h a = None end.
Proof.
  intro R. pose proof (orel_lookup S h a b "" R) as L. unfold hovr_here, ovr_here.
  destruct (lookup "" a) as [v|], (lookup "" b) as [o|]; try contradiction; [|reflexivity].
  rewrite (reads_truthy _ _ _ _ L). destruct (truthy_obj o) eqn:T; [|reflexivity]. exists v. split; [reflexivity|]. split; [exact L|]. rewrite (reads_truthy _ _ _ _ L). exact T.
Qed.
Lemma orel_unchanged S h h' a b : unchanged h h' -> orel S h a b -> orel S h' a b.
Proof. intro U. apply reads_all_unchanged; auto. Qed.

(** ** the nested recursion of [hbuild], flattened *)
Definition list_items tbl b path m :=
  fix go (i : nat) (l : list json) : list (string * M (option hval)) :=
    match l with
    | [] => []
    | x :: l' => let key := nat_dec i in
        (key, slot (hovr_get key m) (some_of (hbuild tbl x b (sub_path path key) (hovr_get key m)))) :: go (S i) l'
    end.
Definition map_items tbl b path m :=
  fix go (d : list (string * json)) : list (string * M (option hval)) :=
    match d with
    | [] => []
    | (key, x) :: d' => (key, slot (hovr_get key m) (some_of (hbuild tbl x b (sub_path path key) (hovr_get key m)))) :: go d'
    end.
Definition child_item tbl path m (j : json) (ch : childdef) : M (option hval) :=
  match j with
  | JDict d =>
      match lookup (ch_name ch) d with
      | None => if ch_required ch then raise FieldNotExist else ret None
      | Some JNull => ret None
      | Some x => some_of (hbuild tbl x (ch_builder ch) (sub_path path (ch_name ch)) (hovr_get (ch_name ch) m))
      end
  | _ => bindM (lift (absent_child j ch)) (fun _ => ret None)
  end.
Definition child_items tbl path m j (cs : list childdef) : list (string * M (option hval)) :=
  map (fun ch => (ch_name ch, slot (hovr_get (ch_name ch) m) (child_item tbl path m j ch))) cs.
Definition hcore tbl (k : core) (j : json) (path : option string) (ovr : hover) (h : heap) : heap * res hval :=
  match k with
  | KPrim v => (h, Ok (HPrim v))
  | KStr => match ovr with [] => match j with JStr _ => (h, Ok (HPrim j)) | _ => (h, Err PyException) end | _ => (h, Err PyException) end
  | KList b' =>
      match hsplit ovr with
      | Err e => (h, Err e)
      | Ok m => match j with JList l => construct_cell (HList b') path j (list_items tbl b' path m 0 l) h | _ => (h, Err PyException) end
      end
  | KMap b' =>
      match hsplit ovr with
      | Err e => (h, Err e)
      | Ok m => match j with JDict d => construct_cell (HMap b') path j (map_items tbl b' path m d) h | _ => (h, Err PyException) end
      end
  | KCls c =>
      match hsplit ovr with
      | Err e => (h, Err e)
      | Ok m => match lookup c tbl with None => (h, Err KeyError) | Some cd => construct_cell (HObj c) path j (child_items tbl path m j (c_children cd)) h end
      end
  end.
Lemma hbuild_eq tbl j b path ovr h :
  hbuild tbl j b path ovr h = match select b j with Err e => (h, Err e) | Ok k => hcore tbl k j path ovr h end.
Proof.
  assert (CH : forall m ch d,
    (fix find (d : list (string * json)) : M (option hval) :=
       match d with
       | [] => if ch_required ch then raise FieldNotExist else ret None
       | (k', x) :: d' => if String.eqb (ch_name ch) k' then match x with JNull => ret None | _ => some_of (hbuild tbl x (ch_builder ch) (sub_path path (ch_name ch)) (hovr_get (ch_name ch) m)) end else find d'
       end) d = child_item tbl path m (JDict d) ch).
  { intros m ch d. unfold child_item. induction d as [|[k' x] d IH]; [reflexivity|]. cbn [lookup]. destruct (String.eqb (ch_name ch) k'); [destruct x; reflexivity|exact IH]. }
  destruct j as [| | | | |l|d]; cbn [hbuild].
  7: { destruct (select b (JDict d)) as [[v|c|b'|b'|]|e]; try reflexivity; unfold bindM, lift, hcore.
    - destruct (hsplit ovr) as [m|e]; [|reflexivity]. destruct (lookup c tbl) as [cd|]; [|reflexivity]. unfold child_items.
      match goal with |- construct_cell _ _ _ (map ?f _) _ = construct_cell _ _ _ (map ?g _) _ => replace (map f (c_children cd)) with (map g (c_children cd)); [reflexivity|] end.
      apply map_ext. intro ch. rewrite <- (CH m ch d). reflexivity.
    - destruct ovr; reflexivity. }
  6: { destruct (select b (JList l)) as [[v|c|b'|b'|]|e]; try reflexivity; unfold bindM, lift, hcore; first [destruct (hsplit ovr); [first [reflexivity|destruct (lookup c tbl); reflexivity]|reflexivity] | destruct ovr; reflexivity]. }
  all: match goal with |- context [select ?bb ?j] => destruct (select bb j) as [[v|c|b'|b'|]|e]; try reflexivity; unfold bindM, lift, hcore; first [destruct (hsplit ovr); [first [reflexivity|destruct (lookup c tbl); reflexivity]|reflexivity] | destruct ovr; reflexivity] end.
Qed.
