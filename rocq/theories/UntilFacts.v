(** Proofs about [get_until]. *)
From Coq Require Import String Ascii List Bool Arith Lia.
From Verif Require Import PyStr PyStrFacts PyVal PyValFacts Store SpecStore StoreFacts StoreFacts2.
Import ListNotations.
Open Scope string_scope. Open Scope nat_scope.

Lemma index_of_app x (a b : list string) : ~ In x a -> index_of x (a ++ x :: b)%list = Ok (length a).
Proof.
  induction a as [|y a IH]; intros H; cbn [app index_of]; [now rewrite String.eqb_refl|].
  destruct (String.eqb_spec x y) as [->|]; [destruct H; now left|]. rewrite IH; [reflexivity|]. intros Hi. apply H. now right.
Qed.
Lemma index_of_none x l : ~ In x l -> index_of x l = Err ValueError.
Proof.
  induction l as [|y l IH]; intros H; [reflexivity|]. cbn [index_of]. destruct (String.eqb_spec x y) as [->|]; [destruct H; now left|].
  rewrite IH; [reflexivity|]. intros Hi. apply H. now right.
Qed.
Lemma ascending_app_r a b : ascending (a ++ b)%list -> ascending b.
Proof. induction a as [|x a IH]; intros H; [exact H|]. apply IH. now apply ascending_tail with x. Qed.
Lemma ascending_app_lt a b x y : ascending (a ++ b)%list -> In x a -> In y b -> version_lt x y.
Proof.
  induction a as [|z a IH]; intros A Hx Hy; [destruct Hx|]. destruct Hx as [<-|Hx]; [|apply IH; [now apply ascending_tail with z|assumption|assumption]].
  apply (ascending_lt _ _ A). apply in_or_app. now right.
Qed.
Lemma version_lt_le a b : version_lt a b -> version_le a b.
Proof. intros (x & y & H1 & H2 & H3). exists x, y. repeat split; auto. now apply ver_lt_asym. Qed.
Lemma version_lt_not_le a b : version_lt a b -> ~ version_le b a.
Proof. intros (x & y & H1 & H2 & H3) (y' & x' & H4 & H5 & H6). assert (y' = y) by congruence. assert (x' = x) by congruence. subst. congruence. Qed.
Lemma version_le_refl a x : strict_version a = Ok x -> version_le a a.
Proof. intros H. exists x, x. repeat split; auto. apply ver_ltb_irrefl. Qed.

(** the slice of the list of versions *)
Lemma slice vs v until : ascending vs -> In v vs -> (match until with Some u => In u vs /\ version_le v u | None => True end) ->
  exists i e l, index_of v vs = Ok i /\
    (match until with Some u => if truthy_str u then rmap S (index_of u vs) else Ok (length vs) | None => Ok (length vs) end) = Ok e /\
    skipn (S i) (firstn e vs) = l /\ ascending (v :: l) /\ forall w, In w (v :: l) <-> in_range vs v until w.
Proof.
  intros A Hv Hu. assert (N := ascending_nodup _ A). destruct (in_split _ _ Hv) as (pre & mid & E). destruct (ascending_valid _ _ A Hv) as [xv Xv].
  assert (Nv : ~ In v pre). { subst vs. apply NoDup_remove_2 in N. intros H. apply N, in_or_app. now left. }
  assert (Bef : forall w, In w pre -> ~ version_le v w).
  { intros w Hw. apply version_lt_not_le. subst vs. apply (ascending_app_lt _ _ _ _ A Hw). now left. }
  assert (Aft : forall w, In w (v :: mid) -> version_le v w).
  { subst vs. apply ascending_app_r in A. intros w [<-|Hw]; [now apply version_le_refl with xv|]. apply version_lt_le. now apply (ascending_lt _ _ A). }
  exists (length pre). destruct until as [u|].
  - destruct Hu as [Hu Lu]. destruct (ascending_valid _ _ A Hu) as [xu Xu]. assert (Tu := version_nonempty _ _ Xu). apply truthy_str_true in Tu. rewrite Tu.
    assert (Hu' : In u (v :: mid)). { subst vs. apply in_app_or in Hu as [Hu|Hu]; [now destruct (Bef _ Hu)|exact Hu]. }
    destruct (in_split _ _ Hu') as (l0 & post & E2).
    assert (Evs : vs = ((pre ++ l0) ++ u :: post)%list) by (rewrite E, E2; now rewrite app_assoc).
    assert (Nu : ~ In u (pre ++ l0)). { rewrite Evs in N. apply NoDup_remove_2 in N. intros H. apply N, in_or_app. now left. }
    exists (S (length (pre ++ l0))), (tl (l0 ++ [u])). split; [subst vs; now apply index_of_app|]. split; [rewrite Evs at 1; rewrite index_of_app by exact Nu; reflexivity|].
    assert (Fe : firstn (S (length (pre ++ l0))) vs = (pre ++ l0 ++ [u])%list).
    { rewrite Evs. change (u :: post) with ([u] ++ post)%list. rewrite (app_assoc (pre ++ l0) [u] post). rewrite firstn_app.
      assert (Le : S (length (pre ++ l0)) = length ((pre ++ l0) ++ [u])) by (rewrite (app_length _ [u]); cbn; lia). rewrite Le, firstn_all, Nat.sub_diag. cbn [firstn]. now rewrite app_nil_r, app_assoc. }
    assert (R : exists l, (l0 ++ [u])%list = v :: l /\ (v :: l ++ post)%list = v :: mid).
    { destruct l0 as [|z l0]; cbn [app] in *; injection E2 as <- ->.
      - exists []. split; reflexivity.
      - exists (l0 ++ [u])%list. split; [reflexivity|]. now rewrite <- app_assoc. }
    destruct R as (l & R1 & R2). split; [|split].
    + rewrite Fe, R1. cbn [tl]. change (S (length pre)) with (1 + length pre). rewrite skipn_app. rewrite skipn_all2 by lia. replace (1 + length pre - length pre) with 1 by lia. reflexivity.
    + rewrite R1. cbn [tl]. subst vs. apply ascending_app_r in A. rewrite <- R2 in A. clear -A. rewrite app_comm_cons in A.
      revert A. generalize (v :: l). intros m. induction m as [|x m IH]; intros A; [constructor|]. destruct m as [|y m].
      * cbn [app] in A. destruct (ascending_head _ _ A) as [k K]. now apply asc_one with k.
      * cbn [app] in A. inversion A; subst. constructor; [assumption|]. now apply IH.
    + intros w. rewrite R1. cbn [tl]. unfold in_range. split.
      * intros Hw. assert (Hw2 : In w (v :: mid)). { rewrite <- R2. rewrite app_comm_cons. apply in_or_app. now left. }
        split; [rewrite E; apply in_or_app; now right|]. split; [now apply Aft|]. rewrite <- R1 in Hw. apply in_app_or in Hw as [Hw|[<-|[]]]; [|now apply version_le_refl with xu].
        apply version_lt_le. rewrite Evs in A. apply (ascending_app_lt _ _ _ _ A); [apply in_or_app; now right|now left].
      * intros (Hi & L1 & L2). rewrite Evs in Hi. rewrite <- R1. rewrite <- app_assoc in Hi. apply in_app_or in Hi as [Hi|Hi]; [now destruct (Bef _ Hi)|].
        apply in_app_or in Hi as [Hi|[<-|Hi]]; [apply in_or_app; now left|apply in_or_app; right; now left|]. exfalso.
        rewrite Evs in A. apply ascending_app_r in A. now apply (version_lt_not_le _ _ (ascending_lt _ _ A _ Hi)).
  - exists (length vs), mid. split; [subst vs; now apply index_of_app|]. split; [reflexivity|]. rewrite firstn_all. split; [|split].
    + subst vs. rewrite skipn_app. rewrite skipn_all2 by lia. replace (S (length pre) - length pre) with 1 by lia. reflexivity.
    + subst vs. now apply ascending_app_r in A.
    + intros w. unfold in_range. split.
      * intros Hw. split; [rewrite E; apply in_or_app; now right|]. split; [now apply Aft|exact I].
      * intros (Hi & L1 & _). rewrite E in Hi. apply in_app_or in Hi as [Hi|Hi]; [now destruct (Bef _ Hi)|exact Hi].
Qed.

Section Until.
  Context {O : Type}.
  Variables (is_base truthy_o : O -> bool) (resolve_o : O -> list string -> res O).
  Notation run_ops := (run_ops is_base).
  Notation store_get := (store_get resolve_o).
  Notation nothing := (nothing truthy_o).

  Lemma chain_spec vs ps u jp v : ascending vs -> In v vs ->
    forall l from src, ascending (from :: l) -> (forall w, In w (from :: l) -> In w vs /\ version_le v w) ->
    store_relocate (run_ops vs ps) u jp v (Some from) = Ok src ->
    exists ch, until_chain (run_ops vs ps) u from src l = Ok ch /\ map fst ch = l /\
      forall w q, In (w, q) ch -> store_relocate (run_ops vs ps) u jp v (Some w) = Ok q.
  Proof.
    intros A Hv. induction l as [|w l IH]; intros from src Al In_l R; cbn [until_chain].
    - exists []. split; [reflexivity|]. split; [reflexivity|]. intros ? ? [].
    - destruct (In_l from) as [Hf Lf]; [now left|]. destruct (In_l w) as [Hw Lw]; [right; now left|].
      assert (Lfw : version_le from w) by (apply version_lt_le, (ascending_lt _ _ Al); now left).
      destruct (relocate_total is_base vs ps u src from w A Hw Lfw) as [src' R']. rewrite R'. cbn [bind].
      assert (R2 : store_relocate (run_ops vs ps) u jp v (Some w) = Ok src').
      { rewrite (relocate_compose is_base vs ps u jp v from w A Hf Hw Lf Lfw), R. exact R'. }
      destruct (IH w src') as (ch & E & M & K); [now apply ascending_tail with from|intros x Hx; apply In_l; now right|exact R2|].
      rewrite E. cbn [bind]. exists ((w, src') :: ch). split; [reflexivity|]. split; [cbn; now rewrite M|]. intros x q [[= <- <-]|H]; [exact R2|now apply K].
  Qed.
  Lemma seek_spec s u l : match until_seek truthy_o resolve_o s u l with
    | Ok (Some (o, q, w)) => exists l1 l2, l = (l1 ++ (w, q) :: l2)%list /\ store_get s u q w = Ok (Some o) /\ truthy_o o = true /\
                                         forall w' q', In (w', q') l1 -> nothing (store_get s u q' w')
    | Ok None => forall w q, In (w, q) l -> nothing (store_get s u q w)
    | Err e => exists l1 w q l2, l = (l1 ++ (w, q) :: l2)%list /\ store_get s u q w = Err e /\
                                         forall w' q', In (w', q') l1 -> nothing (store_get s u q' w')
    end.
  Proof.
    induction l as [|[w q] l IH]; cbn [until_seek]; [intros ? ? []|].
    destruct (store_get s u q w) as [[o|]|e] eqn:G; cbn [bind].
    - destruct (truthy_o o) eqn:T.
      + exists [], l. split; [reflexivity|]. split; [exact G|]. split; [exact T|]. intros ? ? [].
      + assert (Z : nothing (store_get s u q w)) by (right; exists o; auto).
        destruct (until_seek truthy_o resolve_o s u l) as [[[[o' q'] w']|]|e].
        * destruct IH as (l1 & l2 & -> & G' & T' & K). exists ((w, q) :: l1), l2. split; [reflexivity|]. split; [exact G'|]. split; [exact T'|].
          intros w2 q2 [[= <- <-]|H]; [exact Z|now apply K].
        * intros w2 q2 [[= <- <-]|H]; [exact Z|now apply IH].
        * destruct IH as (l1 & w' & q' & l2 & -> & G' & K). exists ((w, q) :: l1), w', q', l2. split; [reflexivity|]. split; [exact G'|].
          intros w2 q2 [[= <- <-]|H]; [exact Z|now apply K].
    - assert (Z : nothing (store_get s u q w)) by now left.
      destruct (until_seek truthy_o resolve_o s u l) as [[[[o' q'] w']|]|e].
      * destruct IH as (l1 & l2 & -> & G' & T' & K). exists ((w, q) :: l1), l2. split; [reflexivity|]. split; [exact G'|]. split; [exact T'|].
        intros w2 q2 [[= <- <-]|H]; [exact Z|now apply K].
      * intros w2 q2 [[= <- <-]|H]; [exact Z|now apply IH].
      * destruct IH as (l1 & w' & q' & l2 & -> & G' & K). exists ((w, q) :: l1), w', q', l2. split; [reflexivity|]. split; [exact G'|].
        intros w2 q2 [[= <- <-]|H]; [exact Z|now apply K].
    - exists [], w, q, l. split; [reflexivity|]. split; [exact G|]. intros ? ? [].
  Qed.

  Theorem until_newest vs ps u jp v until : ascending vs -> In v vs ->
    (match until with Some b => In b vs /\ version_le v b | None => True end) ->
    let s := run_ops vs ps in
    match store_get_until truthy_o resolve_o s u jp v until with
    | Ok (Some (o, q, w)) =>
        in_range vs v until w /\ store_relocate s u jp v (Some w) = Ok q /\ store_get s u q w = Ok (Some o) /\ truthy_o o = true /\
        (forall w', in_range vs v until w' -> version_lt w w' ->
           exists q', store_relocate s u jp v (Some w') = Ok q' /\ nothing (store_get s u q' w'))
    | Ok None => forall w, in_range vs v until w -> exists q, store_relocate s u jp v (Some w) = Ok q /\ nothing (store_get s u q w)
    | Err e => exists w q, in_range vs v until w /\ store_relocate s u jp v (Some w) = Ok q /\ store_get s u q w = Err e /\
        (forall w', in_range vs v until w' -> version_lt w w' ->
           exists q', store_relocate s u jp v (Some w') = Ok q' /\ nothing (store_get s u q' w'))
    end.
  Proof.
    intros A Hv Hu s. destruct (slice vs v until A Hv Hu) as (i & e & l & Ei & Ee & El & Al & Rl).
    assert (Vs : s_versions s = vs).
    { unfold s. clear. induction ps as [|p ps IH] using rev_ind; [reflexivity|]. rewrite run_ops_snoc. destruct p as [o u' jp v|u' jp v r|u' t rs]; cbn [Store.run_op].
      - unfold store_set. now destruct (is_base o).
      - unfold store_get_under. destruct (r && _); [exact IH|]. destruct (lookup u' _) as [[|? ?]|]; [exact IH| |exact IH]. now destruct r.
      - unfold store_update_routes. now destruct (lookup t _). }
    unfold store_get_until. rewrite Vs, Ei. cbn [bind].
    assert (Ee' : match until with Some u0 => if truthy_str u0 then rmap S (index_of u0 vs) else Ok (length vs) | None => Ok (length vs) end = Ok e) by exact Ee.
    rewrite Ee'. cbn [bind]. rewrite El.
    destruct (ascending_valid _ _ A Hv) as [xv Xv].
    assert (R0 : store_relocate s u jp v (Some v) = Ok jp) by (apply relocate_back; [exact A|exact Hv|now apply version_le_refl with xv]).
    destruct (chain_spec vs ps u jp v A Hv l v jp Al) as (ch & Ech & Mch & Kch).
    { intros w Hw. apply Rl in Hw. destruct Hw as (H1 & H2 & _). auto. }
    { exact R0. }
    unfold s in *. rewrite Ech. cbn [bind]. set (L := (v, jp) :: ch) in *.
    assert (ML : map fst L = v :: l) by (unfold L; cbn; now rewrite Mch).
    assert (KL : forall w q, In (w, q) L -> store_relocate (run_ops vs ps) u jp v (Some w) = Ok q) by (intros w q [[= <- <-]|H]; [exact R0|now apply Kch]).
    assert (RL : forall w q, In (w, q) L -> in_range vs v until w). { intros w q H. apply Rl. rewrite <- ML. now apply in_map with (f := fst) in H. }
    assert (Newer : forall l1 w q l2, rev L = (l1 ++ (w, q) :: l2)%list -> forall w', in_range vs v until w' -> version_lt w w' -> exists q', In (w', q') l1 /\ In (w', q') L).
    { intros l1 w q l2 E w' Hw' Lt. apply Rl in Hw'. rewrite <- ML in Hw'. apply in_map_iff in Hw' as ([w1 q'] & E1 & H1). cbn in E1. subst w1.
      exists q'. split; [|exact H1]. assert (H2 := H1). rewrite in_rev in H2. rewrite E in H2. apply in_app_or in H2 as [H2|[[= -> _]|H2]]; [exact H2| |].
      - exfalso. destruct Lt as (x & y & X & Y & Z). assert (x = y) by congruence. subst. now rewrite ver_ltb_irrefl in Z.
      - exfalso. assert (E3 : L = (rev l2 ++ (w, q) :: rev l1)%list).
        { rewrite <- (rev_involutive L), E, rev_app_distr. cbn [rev]. now rewrite <- app_assoc. }
        assert (E4 : (v :: l) = (map fst (rev l2) ++ w :: map fst (rev l1))%list) by (rewrite <- ML, E3, map_app; reflexivity).
        rewrite E4 in Al. apply (version_lt_not_le _ _ Lt), version_lt_le. apply (ascending_app_lt _ _ _ _ Al); [|now left].
        apply in_map_iff. exists (w', q'). split; [reflexivity|]. now rewrite <- in_rev. }
    assert (S := seek_spec (run_ops vs ps) u (rev L)). change (rev ((v, jp) :: ch)) with (rev L).
    destruct (until_seek truthy_o resolve_o (run_ops vs ps) u (rev L)) as [[[[o q] w]|]|ex].
    - destruct S as (l1 & l2 & E & G & T & K). assert (HL : In (w, q) L). { rewrite in_rev, E. apply in_or_app. right. now left. }
      split; [now apply RL with q|]. split; [now apply KL|]. split; [exact G|]. split; [exact T|].
      intros w' Hw' Lt. destruct (Newer _ _ _ _ E w' Hw' Lt) as (q' & H1 & H2). exists q'. split; [now apply KL|now apply K].
    - intros w Hw. apply Rl in Hw. rewrite <- ML in Hw. apply in_map_iff in Hw as ([w1 q] & E1 & H1). cbn in E1. subst w1. exists q. split; [now apply KL|]. apply S. now rewrite <- in_rev.
    - destruct S as (l1 & w & q & l2 & E & G & K). assert (HL : In (w, q) L). { rewrite in_rev, E. apply in_or_app. right. now left. }
      exists w, q. split; [now apply RL with q|]. split; [now apply KL|]. split; [exact G|].
      intros w' Hw' Lt. destruct (Newer _ _ _ _ E w' Hw' Lt) as (q' & H1 & H2). exists q'. split; [now apply KL|now apply K].
  Qed.
  Lemma until_unknown s u jp v until : ~ In v (s_versions s) -> store_get_until truthy_o resolve_o s u jp v until = Err ValueError.
  Proof. intros H. unfold store_get_until. now rewrite index_of_none. Qed.
  Lemma until_unknown_bound s u jp v b : In v (s_versions s) -> ~ In b (s_versions s) -> b <> "" -> store_get_until truthy_o resolve_o s u jp v (Some b) = Err ValueError.
  Proof.
    intros H N Hb. unfold store_get_until. assert (E : exists i, index_of v (s_versions s) = Ok i).
    { clear N. induction (s_versions s) as [|x l IH]; [destruct H|]. cbn [index_of]. destruct (String.eqb_spec v x); [eauto|]. destruct H as [->|H]; [congruence|]. destruct (IH H) as [i ->]. eexists; reflexivity. }
    destruct E as [i ->]. cbn [bind]. apply truthy_str_true in Hb. rewrite Hb. now rewrite index_of_none.
  Qed.
End Until.
