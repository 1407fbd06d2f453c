(** * C82: objects with identity: who holds whom, and who the parent is. *)
From Coq Require Import String List Bool Arith Lia.
From Verif Require Import PyStr PyVal PyValFacts Jp Obj SpecObj Classes_v2_0 Classes_v3_0_0 Heap SpecHeap HeapFacts HeapFacts2 HeapFacts3 HeapFacts4.
Import ListNotations.
Open Scope string_scope. Open Scope nat_scope.

Lemma no_override_built T j b path h h' r : hbuild T j b path [] h = (h', Ok (HRef r)) -> exists log, built (fun _ => False) h h' (HRef r) log.
Proof.
  intro E. pose proof (hbuild_ok T j b path [] [] (fun _ => False) h (ra_nil _ _) (fun x (X : False) => match X with end)) as A. rewrite E in A.
  destruct (construct T j b path []) as [o|e]; [|destruct A as (h1 & E1 & _); discriminate].
  destruct A as (h1 & v & log & E1 & _ & B). injection E1 as <- <-. exists log. exact B.
Qed.

(** C82: building on a heap of objects makes exactly the tree of values of the tree model (Obj.v), in new objects,
    with the overriding objects in their places, fails exactly as it does, and changes nothing but
    parents in the objects that were there before *)
Theorem C82_tree : forall T j b path (S : nat -> Prop) h ovr ovr_trees,
  (forall x, S x -> x < len h) -> reads_all S h ovr ovr_trees ->
  match construct T j b path ovr_trees with
  | Ok o => exists h' v, hbuild T j b path ovr h = (h', Ok v) /\ reads (fun x => S x \/ len h <= x) h' v o /\ unchanged h h'
  | Err e => exists h', hbuild T j b path ovr h = (h', Err e) /\ unchanged h h'
  end.
Proof.
  intros T j b path S h ovr ovrT BS OR. pose proof (hbuild_ok T j b path ovr ovrT S h OR BS) as A. destruct (construct T j b path ovrT) as [o|e]; [|exact A].
  destruct A as (h' & v & log & E & R & B). exists h', v. split; [exact E|]. split; [exact R|exact (bl_unch _ _ _ _ _ B)].
Qed.
(** C82: after building a document without overrides, the parent of every object is the one that holds it:
    the object at [ts ++ [k]] has the object at [ts] as its parent, unless it is an empty list or map
    which is a child of an object (not an element of a container): that has none.  The root has none. *)
Theorem C82_parents : forall T j b path h h' r, hbuild T j b path [] h = (h', Ok (HRef r)) ->
  get_parent h' r = None
  /\ (forall ts k m, leads h' r (ts ++ [k]) m -> exists p, leads h' r ts p /\ holds h' p k (HRef m)
        /\ (is_empty_container h' m /\ ~ is_container h' p -> get_parent h' m = None)
        /\ (~ (is_empty_container h' m /\ ~ is_container h' p) -> get_parent h' m = Some p))
  /\ (forall m, m < len h -> get_parent h' m = get_parent h m).
Proof.
  intros T j b path h h' r E. destruct (no_override_built _ _ _ _ _ _ _ E) as [log B]. destruct (tree_top _ _ _ _ B) as [ER LT].
  split; [exact (top_parent _ _ _ _ B)|]. split; [|exact (others_parents _ _ _ _ B)].
  intros ts k m L. apply leads_snoc in L as (p & L & H). exists p. split; [exact L|]. split; [exact H|].
  apply (parent_rule _ _ _ _ B p k m); [|exact H]. apply (leads_fresh _ _ _ _ B ts r p); [lia|exact L].
Qed.
(** C82: following parents leads back: from the object at [ts ++ us], [len us] steps lead to the object
    at [ts] *)
Theorem C82_ancestors : forall T j b path h h' r, hbuild T j b path [] h = (h', Ok (HRef r)) ->
  forall ts p us m, leads h' r ts p -> leads h' p us m -> ~ is_empty_container h' m -> ancestor h' (len us) m = Some p.
Proof.
  intros T j b path h h' r E ts p us m L1 L2 N. destruct (no_override_built _ _ _ _ _ _ _ E) as [log B]. destruct (tree_top _ _ _ _ B) as [ER LT].
  apply (ancestors _ _ _ _ B us p m); [|exact L2|right; exact N]. apply (leads_fresh _ _ _ _ B ts r p); [lia|exact L1].
Qed.
(** C82: nothing is shared: an object of the tree is held by one object only, which is in the tree *)
Theorem C82_unshared : forall T j b path h h' r, hbuild T j b path [] h = (h', Ok (HRef r)) ->
  (forall n k m, holds h n k (HRef m) -> m < len h) ->
  (forall n k, ~ holds h' n k (HRef r))
  /\ forall ts m, leads h' r ts m -> forall n k n' k', holds h' n k (HRef m) -> holds h' n' k' (HRef m) -> n = n'.
Proof.
  intros T j b path h h' r E CL. destruct (no_override_built _ _ _ _ _ _ _ E) as [log B]. destruct (tree_top _ _ _ _ B) as [ER LT].
  assert (NEW : forall n k m, len h <= m -> holds h' n k (HRef m) -> len h <= n).
  { intros n k m L H. destruct (Nat.lt_ge_cases n (len h)) as [X|X]; [|exact X]. apply (holds_unchanged h h' n k _ (bl_unch _ _ _ _ _ B) X) in H. apply CL in H. lia. }
  split.
  - intros n k H. assert (L : len h <= n) by (apply (NEW n k r); [lia|exact H]). pose proof (tree_local _ _ _ _ B n k r L H). lia.
  - intros ts m L n k n' k' H H'. assert (LM : len h <= m) by (apply (leads_fresh _ _ _ _ B ts r m); [lia|exact L]).
    exact (bl_unique _ _ _ _ _ B n k n' k' m (NEW _ _ _ LM H) (NEW _ _ _ LM H') LM H H').
Qed.
(** C82: the object that the tree model finds at [ts] is there on the heap *)
Theorem C82_located : forall T j b path h o, construct T j b path [] = Ok o -> (forall v, o <> OPrim v) ->
  exists h' r, hbuild T j b path [] h = (h', Ok (HRef r))
  /\ forall ts x, SpecObj.within o ts x -> (forall v, x <> OPrim v) -> exists m, leads h' r ts m /\ reads (fun n => len h <= n) h' (HRef m) x.
Proof.
  intros T j b path h o C NP. pose proof (hbuild_ok T j b path [] [] (fun _ => False) h (ra_nil _ _) (fun x (X : False) => match X with end)) as A. rewrite C in A.
  destruct A as (h' & v & log & E & R & B). destruct v as [w|r]; [inversion R; subst; destruct (NP w eq_refl)|].
  exists h', r. split; [exact E|]. intros ts x W NX. apply (within_leads (fun n => len h <= n) h' o ts x W NX r).
  apply (reads_unchanged (more (fun _ => False) h) _ h' h'); [|apply unchanged_refl|exact R]. intros n [[]|L]. exact L.
Qed.
(** C82: an overriding object is told its new place: its parent is then one of the new objects that
    hold it; its old holder goes on holding it; every other object keeps its parent *)
Theorem C82_overrides : forall T j b path (S : nat -> Prop) h ovr ovr_trees h' v,
  (forall x, S x -> x < len h) -> reads_all S h ovr ovr_trees -> hbuild T j b path ovr h = (h', Ok v) ->
  (forall n k w, n < len h -> (holds h' n k w <-> holds h n k w))
  /\ forall m, m < len h ->
     ((forall n k, len h <= n -> ~ holds h' n k (HRef m)) -> get_parent h' m = get_parent h m)
     /\ (forall n k, len h <= n -> holds h' n k (HRef m) -> S m /\ exists n' k', len h <= n' /\ holds h' n' k' (HRef m) /\ get_parent h' m = Some n').
Proof.
  intros T j b path S h ovr ovrT h' v BS OR E. pose proof (hbuild_ok T j b path ovr ovrT S h OR BS) as A. rewrite E in A.
  destruct (construct T j b path ovrT) as [o|e]; [|destruct A as (h1 & E1 & _); discriminate].
  destruct A as (h1 & v1 & log & E1 & _ & B). injection E1 as <- <-. split; [intros n k w L; exact (holds_unchanged h h' n k w (bl_unch _ _ _ _ _ B) L)|].
  intros m L. split.
  - intro N. rewrite (bl_parent _ _ _ _ _ B). apply last_of_none. intros p P. destruct (bl_event _ _ _ _ _ B _ _ P) as [LP (k & H & _)]. exact (N p k LP H).
  - intros n k LN H. destruct (bl_local _ _ _ _ _ B n k m LN H) as [[X TR]|X]; [|lia]. split; [exact X|].
    destruct (last_of_some m log n (get_parent h m) (bl_held _ _ _ _ _ B n k m LN H (or_intror TR))) as (p & EP & IP).
    destruct (bl_event _ _ _ _ _ B _ _ IP) as [LP (k' & H' & _)]. exists p, k'. split; [exact LP|]. split; [exact H'|]. rewrite (bl_parent _ _ _ _ _ B). exact EP.
Qed.
(** C82: attach_child puts the object in its place and makes the holder its parent, and changes no other
    parent; names that are no children of the class are refused *)
Theorem C82_attach : forall T n name m h h', attach_child T n name (HRef m) h = (h', Ok tt) -> m < len h ->
  holds h' n name (HRef m) /\ get_parent h' m = Some n /\ (forall x, x <> m -> get_parent h' x = get_parent h x)
  /\ (forall p k w, p <> n -> (holds h' p k w <-> holds h p k w))
  /\ exists c p s ks pa cd, nth_error h n = Some (mk_cell (HObj c) p s ks pa) /\ lookup c T = Some cd /\ In name (map ch_name (c_children cd)).
Proof.
  intros T n name m h h' E LM. unfold attach_child in E. destruct (nth_error h n) as [[[c| |] p s ks pa]|] eqn:N; try discriminate.
  destruct (lookup c T) as [cd|] eqn:LC; [|discriminate]. destruct (find_child name (c_children cd)) as [ch|] eqn:FC; [|discriminate].
  unfold bindM in E. destruct (set_child n name (HRef m) h) as [h1 [[]|e]] eqn:SC; [|discriminate]. injection E as <-.
  destruct (set_child_holds _ _ _ _ _ SC) as (A & _ & C).
  assert (L1 : len h1 = len h). { unfold set_child in SC. injection SC as <-. apply set_length. }
  assert (LN : n < len h) by (apply nth_error_Some; congruence).
  assert (HS : forall p k w, holds (set_nth m (with_parent n) h1) p k w <-> holds h1 p k w).
  { intros q k w. assert (LL : len (set_nth m (with_parent n) h1) = len h1) by apply set_length.
    pose proof (unchanged_parent h1 (HRef m) n) as U. cbn [set_parent fst] in U.
    split; intro H; [apply (holds_unchanged h1 _ q k w U); [apply holds_lt in H; lia|exact H]|apply (holds_unchanged h1 _ q k w U); [exact (holds_lt _ _ _ _ H)|exact H]]. }
  split; [apply HS, C, LN|]. split; [|split; [|split]].
  - pose proof (parent_set h1 m n m) as P. cbn [set_parent fst last_of] in P. rewrite P, Nat.eqb_refl by lia. reflexivity.
  - intros x NX. pose proof (parent_set h1 m n x) as P. cbn [set_parent fst last_of] in P. rewrite P by lia. destruct (Nat.eqb_spec m x); [congruence|]. exact (set_child_parents _ _ _ _ _ _ SC).
  - intros q k w NQ. rewrite HS. exact (A q k w NQ).
  - exists c, p, s, ks, pa, cd. split; [reflexivity|]. split; [exact LC|]. unfold find_child in FC. apply find_some in FC as [I EQ]. apply String.eqb_eq in EQ. rewrite EQ. apply in_map. exact I.
Qed.
(** C82: merge_children and plain assignment change no parent: what the merged object took over still
    names the object it was written in as its parent *)
Theorem C82_merge : forall T n m h h', n <> m -> merge_children_at T n m h = (h', Ok tt) ->
  (forall x, get_parent h' x = get_parent h x)
  /\ (forall k x, holds h' n k (HRef x) -> holds h n k (HRef x) \/ holds h m k (HRef x))
  /\ (forall p k x, p <> n -> (holds h' p k (HRef x) <-> holds h p k (HRef x))).
Proof.
  intros T n m h h' NE E. unfold merge_children_at in E. destruct (nth_error h n) as [[[c| |] p s ks pa]|]; try discriminate.
  destruct (nth_error h m) as [[[c'| |] p' s' ks' pa']|]; try discriminate. destruct (lookup c T) as [cd|]; [|discriminate].
  split; [intro x; exact (hmerge_parents _ _ _ _ _ x E)|]. split.
  - intros k x. exact (proj2 (hmerge_holds _ _ _ _ _ k x NE E)).
  - intros q k x NQ. exact (proj1 (hmerge_holds _ _ _ _ _ k x NE E) q NQ).
Qed.

(** ** the statements apply *)
Definition opd : json := JDict [("responses", JDict [("200", JDict [("description", JStr "ok")])]); ("tags", JList [JStr "x"]); ("parameters", JList [])].
Definition swd : json := JDict [("swagger", JStr "2.0"); ("info", JDict [("title", JStr "t"); ("version", JStr "1")]); ("paths", JDict [("a", JDict [("get", opd)]); ("b", JDict [])])].
Definition walk_at (h : heap) (r : nat) (ts : list string) : option nat :=
  fold_left (fun o k => match o with Some n => match kid_at h n k with HRef m => Some m | HPrim _ => None end | None => None end) ts (Some r).
Definition parents_of (h : heap) (r : nat) (tss : list (list string)) : list (option (option nat)) :=
  map (fun ts => option_map (get_parent h) (walk_at h r ts)) tss.
Definition at_ (h : heap) (r : nat) (ts : list string) : option nat := walk_at h r ts.
(** the parent of the operation is the path item, of the path item the map of paths, of that the document;
    the empty list of parameters has no parent, the empty path item has one *)
Example C82_case :
  match hbuild v20_table swd (BCls "Swagger") (Some "http://h/d#") [] [] with
  | (h, Ok (HRef r)) =>
      get_parent h r = None
      /\ parents_of h r [["paths"]; ["paths"; "a"]; ["paths"; "a"; "get"]; ["paths"; "b"]]
         = [Some (Some r); Some (at_ h r ["paths"]); Some (at_ h r ["paths"; "a"]); Some (at_ h r ["paths"])]
      /\ parents_of h r [["paths"; "a"; "get"; "parameters"]] = [Some None]
      /\ option_map (ancestor h 5) (at_ h r ["paths"; "a"; "get"; "responses"; "200"]) = Some (Some r)
  | _ => False
  end.
Proof. vm_compute. repeat split; reflexivity. Qed.
(** an object built before and used as an override: it gets a new parent; and a merged path item: its
    operation still has the other path item as its parent *)
Example C82_override_case :
  match hbuild v20_table (JDict [("a", JDict [("get", opd)])]) (BMapOf (BCls "PathItem")) None [] [] with
  | (h, Ok (HRef m)) =>
      match at_ h m ["a"] with
      | Some a =>
          match hbuild v20_table swd (BCls "Swagger") None [("paths/a", HRef a)] h with
          | (h', Ok (HRef r)) => get_parent h a = Some m /\ at_ h' r ["paths"; "a"] = Some a /\ get_parent h' a = at_ h' r ["paths"] /\ at_ h' m ["a"] = Some a
          | _ => False
          end
      | None => False
      end
  | _ => False
  end.
Proof. vm_compute. repeat split; reflexivity. Qed.
(** the override is an object that was there before, as [C82_overrides] asks *)
Definition one_item : json := JDict [("a", JDict [("get", opd)])].
Definition item_heap : heap := fst (hbuild v20_table one_item (BMapOf (BCls "PathItem")) None [] []).
Example C82_override_reads : (exists m, snd (hbuild v20_table one_item (BMapOf (BCls "PathItem")) None [] []) = Ok (HRef m) /\ walk_at item_heap m ["a"] = Some 1)
  /\ exists t, reads_all (fun n => n < len item_heap) item_heap [("paths/a", HRef 1)] [("paths/a", t)].
Proof.
  split; [exists 0; vm_compute; split; reflexivity|].
  destruct (construct v20_table one_item (BMapOf (BCls "PathItem")) None []) as [o|e] eqn:C; [|vm_compute in C; discriminate].
  pose proof (C82_tree v20_table one_item (BMapOf (BCls "PathItem")) None (fun _ => False) [] [] [] (fun x (X : False) => match X with end) (ra_nil _ _)) as A.
  rewrite C in A. destruct A as (h' & v & E & R & _). assert (EH : h' = item_heap) by (unfold item_heap; rewrite E; reflexivity). subst h'.
  assert (EV : v = HRef 0) by (apply (f_equal (fun x => match snd x with Ok w => w | Err _ => v end)) in E; cbn [snd] in E; rewrite <- E; vm_compute; reflexivity). subst v.
  inversion R as [|n c p s ks pa kids X N RA|n c p s ks pa kids X N RA|n c p s ks pa kids X N RA]; subst; vm_compute in N; try discriminate N.
  injection N as <- <- <- <- <-. inversion RA as [|k v o ks os R1 RA1]; subst. exists o. constructor; [|constructor].
  exact (reads_bounded _ _ _ _ R1).
Qed.
(** a path item merged into an empty one (as [_merge_path_item] does, comm.py:18-19): the result holds the
    operation, but the operation's parent is the path item it was written in *)
Definition two_items : heap :=
  fst (hbuild v20_table (JDict []) (BCls "PathItem") None [] (fst (hbuild v20_table (JDict [("get", opd)]) (BCls "PathItem") None [] []))).
Theorem C82_merge_refuted : exists h n m x h', merge_children_at v20_table n m h = (h', Ok tt) /\ holds h' n "get" (HRef x) /\ get_parent h' x = Some m /\ m <> n.
Proof.
  exists two_items, 6, 0, 1, (fst (merge_children_at v20_table 6 0 two_items)).
  split; [vm_compute; reflexivity|]. split; [apply kid_at_holds; vm_compute; reflexivity|]. split; [vm_compute; reflexivity|discriminate].
Qed.
(** the operation of the first path item attached to the second *)
Example C82_attach_case : exists h', attach_child v20_table 6 "get" (HRef 1) two_items = (h', Ok tt) /\ get_parent two_items 1 = Some 0 /\ get_parent h' 1 = Some 6.
Proof. exists (fst (attach_child v20_table 6 "get" (HRef 1) two_items)). vm_compute. repeat split; reflexivity. Qed.

Print Assumptions C82_tree.
Print Assumptions C82_parents.
Print Assumptions C82_ancestors.
Print Assumptions C82_unshared.
Print Assumptions C82_located.
Print Assumptions C82_overrides.
Print Assumptions C82_attach.
Print Assumptions C82_merge.
Print Assumptions C82_merge_refuted.
