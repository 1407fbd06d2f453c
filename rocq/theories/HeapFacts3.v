(** * The main induction: [hbuild] against [construct]. *)
From Coq Require Import String List Bool Arith Lia.
From Verif Require Import PyStr PyStrFacts PyVal PyValFacts Jp Obj ObjFacts ShapeFacts DumpFacts WfFacts Heap SpecHeap HeapFacts HeapFacts2.
Import ListNotations.
Open Scope string_scope. Open Scope nat_scope.

Definition more (S : nat -> Prop) (h : heap) : nat -> Prop := fun x => S x \/ len h <= x.
(** what is built is what the tree model says *)
Definition agrees (S : nat -> Prop) (h : heap) (out : heap * res hval) (r : res obj) : Prop :=
  match r with
  | Ok o => exists h' v log, out = (h', Ok v) /\ reads (more S h) h' v o /\ built S h h' v log
  | Err e => exists h', out = (h', Err e) /\ unchanged h h'
  end.
Definition item_ok (S : nat -> Prop) (h : heap) (out : heap * res (option hval)) (r : res (option obj)) : Prop :=
  match r with
  | Ok None => out = (h, Ok None)
  | Ok (Some o) => (exists v, out = (h, Ok (Some v)) /\ reads S h v o /\ truthy_at h v = true)
                   \/ (exists h' v log, out = (h', Ok (Some v)) /\ reads (more S h) h' v o /\ built S h h' v log)
  | Err e => exists h', out = (h', Err e) /\ unchanged h h'
  end.
Fixpoint collect (prs : list (string * res (option obj))) : res (list (string * obj)) :=
  match prs with
  | [] => Ok []
  | (k, r) :: prs' =>
      kid <- r ;; rest <- collect prs' ;; Ok (match kid with Some o => (k, o) :: rest | None => rest end)
  end.
Inductive items_ok (S : nat -> Prop) (h0 : heap) : list (string * M (option hval)) -> list (string * res (option obj)) -> Prop :=
| io_nil : items_ok S h0 [] []
| io_cons k item r items rs : (forall h, unchanged h0 h -> item_ok S h (item h) r) -> items_ok S h0 items rs -> items_ok S h0 ((k, item) :: items) ((k, r) :: rs).
Lemma set_parent_ok v n h : set_parent v n h = (fst (set_parent v n h), Ok tt).
Proof. reflexivity. Qed.
Lemma tell_eq (al : bool) v n h : (if al || truthy_at h v then set_parent v n h else (h, Ok tt)) = (tell al v n h, Ok tt).
Proof. unfold tell. destruct (al || truthy_at h v); reflexivity. Qed.

Lemma adopt_cons n al k item items h : adopt n al ((k, item) :: items) h =
  match item h with
  | (ha, Ok None) => adopt n al items ha
  | (ha, Ok (Some v)) => match adopt n al items (tell al v n ha) with (h', Ok rest) => (h', Ok ((k, v) :: rest)) | (h', Err e) => (h', Err e) end
  | (ha, Err e) => (ha, Err e)
  end.
Proof.
  cbn [adopt]. unfold bindM at 1. destruct (item h) as [ha [[v|]|e]]; try reflexivity. unfold bindM. rewrite tell_eq. cbv beta iota zeta.
  destruct (adopt n al items (tell al v n ha)) as [h' [r|e]]; reflexivity.
Qed.
Lemma adopt_ok S h0 n al items rs : below S h0 -> items_ok S h0 items rs -> forall h, unchanged h0 h ->
  match collect rs with
  | Ok kids => exists h' ks log, adopt n al items h = (h', Ok ks) /\ reads_all (more S h) h' ks kids /\ looped S n al h h' ks log
  | Err e => exists h', adopt n al items h = (h', Err e) /\ unchanged h h'
  end.
Proof.
  intros BS0 IO. induction IO as [|k item r items rs HI IO IH]; intros h U; [cbn [collect adopt]|cbn [collect]; rewrite adopt_cons].
  - exists h, [], []. split; [reflexivity|]. split; [constructor|apply looped_nil].
  - assert (BS : below S h) by (intros x X; apply BS0 in X; pose proof (unchanged_len _ _ U); lia).
    pose proof (HI h U) as X. destruct r as [[o|]|e]; cbn [item_ok] in X; cbn [bind].
    + (* a value *)
      assert (Y : exists ha v log, item h = (ha, Ok (Some v)) /\ reads (more S h) (tell al v n ha) v o /\ looped S n al h (tell al v n ha) [(k, v)] log).
      { destruct X as [(v & E & R & T) | (h' & v & log & E & R & B)].
        - destruct v as [j|m0].
          + exists h, (HPrim j), []. split; [exact E|]. assert (TE : tell al (HPrim j) n h = h) by (unfold tell; destruct (al || truthy_at h (HPrim j)); reflexivity).
            rewrite TE. split; [apply (reads_unchanged S _ h h); [unfold more; auto|apply unchanged_refl|exact R]|apply looped_prim].
          + exists h, (HRef m0), [(m0, n)]. split; [exact E|]. split.
            * apply (reads_unchanged S _ h); [unfold more; auto|apply tell_unch|exact R].
            * apply looped_override; [exact BS|exact (proj1 (reads_ref _ _ _ _ R))|exact T].
        - destruct (bl_top _ _ _ _ _ B) as [(j & -> & ->)|[-> LT]].
          + exists h, (HPrim j), []. split; [exact E|]. assert (TE : tell al (HPrim j) n h = h) by (unfold tell; destruct (al || truthy_at h (HPrim j)); reflexivity).
            rewrite TE. split; [exact R|apply looped_prim].
          + destruct (looped_built S n al h h' k log BS B) as [log' LB]. exists h', (HRef (len h)), log'. split; [exact E|]. split; [|exact LB].
            apply (reads_unchanged (more S h) _ h'); [auto|apply tell_unch|exact R]. }
      destruct Y as (ha & v & log & -> & R & LB). set (hb := tell al v n ha) in *. pose proof (lp_unch _ _ _ _ _ _ _ LB) as UB.
      specialize (IH hb (unchanged_trans _ _ _ U UB)). destruct (collect rs) as [kids|e]; cbn [bind].
      * destruct IH as (h' & ks & log2 & E2 & R2 & L2). rewrite E2. exists h', ((k, v) :: ks), (log ++ log2)%list. split; [reflexivity|]. split.
        -- constructor.
           ++ apply (reads_unchanged (more S h) _ hb); [auto|exact (lp_unch _ _ _ _ _ _ _ L2)|exact R].
           ++ apply (reads_all_unchanged (more S hb) _ h' h'); [|apply unchanged_refl|exact R2]. intros x [A|A]; [left; exact A|right]. pose proof (unchanged_len _ _ UB). lia.
        -- exact (looped_app S n al h hb h' [(k, v)] ks log log2 BS LB L2).
      * destruct IH as (h' & E2 & U2). rewrite E2. exists h'. split; [reflexivity|exact (unchanged_trans _ _ _ UB U2)].
    + (* nothing *)
      rewrite X. specialize (IH h U). destruct (collect rs) as [kids|e]; cbn [bind]; exact IH.
    + destruct X as (h' & -> & UX). exists h'. split; [reflexivity|exact UX].
Qed.
Lemma cell_ok S kind path spec items rs h mk : below S h -> items_ok S h items rs ->
  (forall ks kids h', reads_all (more S h) h' ks kids -> map fst kids = map fst kids -> collect rs = Ok kids -> forall pa, nth_error h' (len h) = Some (mk_cell kind path spec ks pa) -> reads (more S h) h' (HRef (len h)) (mk kids)) ->
  agrees S h (construct_cell kind path spec items h) (kids <- collect rs ;; Ok (mk kids)).
Proof.
  intros BS IO MK. unfold construct_cell, bindM at 1, alloc. set (h1 := (h ++ [mk_cell kind path spec [] None])%list).
  assert (U1 : unchanged h h1) by apply unchanged_alloc. assert (L1 : len h1 = Datatypes.S (len h)) by (unfold h1; rewrite app_length; cbn; lia).
  set (al := match kind with HObj _ => false | _ => true end).
  pose proof (adopt_ok S h (len h) al items rs BS IO h1 U1) as A. destruct (collect rs) as [kids|e] eqn:CO; cbn [bind agrees].
  - destruct A as (h' & ks & log & E & R & L). unfold bindM. rewrite E. cbn [set_kids ret].
    exists (set_nth (len h) (with_kids ks) h'), (HRef (len h)), log. split; [reflexivity|].
    pose proof (built_cell S kind path spec h h' ks log BS L) as B. split; [|exact B].
    pose proof (lp_unch _ _ _ _ _ _ _ L) as U.
    assert (N1 : nth_error h1 (len h) = Some (mk_cell kind path spec [] None)). { unfold h1. rewrite nth_error_app2, Nat.sub_diag by lia. reflexivity. }
    destruct (U _ _ N1) as ([k2 p2 s2 ks2 pa2] & N2 & E1 & E2 & E3 & _). cbn in E1, E2, E3. subst k2 p2 s2.
    apply (MK ks kids _) with (pa := pa2).
    + apply (reads_frame (more S h1) (more S h) h' _); [intros x [X|X]; [left; exact X|right; lia]| |exact R].
      intros x c X N. exists c. split; [|apply same_refl]. rewrite nth_set. destruct (Nat.eqb_spec (len h) x) as [<-|_]; [|exact N].
      destruct X as [X|X]; [apply BS in X; lia|lia].
    + reflexivity.
    + exact CO || reflexivity.
    + rewrite nth_set, Nat.eqb_refl, N2. reflexivity.
  - destruct A as (h' & E & U). unfold bindM. rewrite E. exists h'. split; [reflexivity|exact (unchanged_trans _ _ _ U1 U)].
Qed.

Section Main.
  Variable tbl : ctable.
  Definition built_as (j : json) : Prop := forall b path ovr ovrT S h, orel S h ovr ovrT -> below S h ->
    agrees S h (hbuild tbl j b path ovr h) (construct tbl j b path ovrT).
  Lemma slot_ok S h0 m m' key b path x : below S h0 -> mrel S h0 m m' -> built_as x -> forall h, unchanged h0 h ->
    item_ok S h (slot (hovr_get key m) (some_of (hbuild tbl x b path (hovr_get key m))) h)
      (match ovr_here (ovr_get key m') with Some e => Ok (Some e) | None => rmap Some (construct tbl x b path (ovr_get key m')) end).
  Proof.
    intros BS0 MR IH h U. assert (OR : orel S h (hovr_get key m) (ovr_get key m')) by (apply (orel_unchanged S h0 h); [exact U|apply mrel_get; exact MR]).
    pose proof (orel_here _ _ _ _ OR) as H. unfold slot. destruct (ovr_here (ovr_get key m')) as [o|].
    - destruct H as (v & -> & R & T). cbn [item_ok]. left. exists v. repeat split; assumption.
    - rewrite H. assert (BS : below S h) by (intros y Y; apply BS0 in Y; pose proof (unchanged_len _ _ U); lia).
      pose proof (IH b path _ _ S h OR BS) as A. unfold some_of, bindM. destruct (construct tbl x b path (ovr_get key m')) as [o|e]; cbn [rmap item_ok agrees] in *.
      + destruct A as (h' & v & log & -> & R & B). right. exists h', v, log. split; [reflexivity|split; assumption].
      + destruct A as (h' & -> & UU). exists h'. split; [reflexivity|exact UU].
  Qed.
  (** the items of the three constructors and what the tree model makes of them *)
  Definition slot_res b path m key x : res (option obj) :=
    match ovr_here (ovr_get key m) with Some e => Ok (Some e) | None => rmap Some (construct tbl x b (sub_path path key) (ovr_get key m)) end.
  Fixpoint list_res b path m (i : nat) (l : list json) : list (string * res (option obj)) :=
    match l with [] => [] | x :: l' => (nat_dec i, slot_res b path m (nat_dec i) x) :: list_res b path m (Datatypes.S i) l' end.
  Definition map_res b path m (d : list (string * json)) : list (string * res (option obj)) := map (fun kx => (fst kx, slot_res b path m (fst kx) (snd kx))) d.
  Definition child_res path m j (cs : list childdef) : list (string * res (option obj)) := map (fun ch => (ch_name ch, con_child tbl path m j ch)) cs.
  Lemma slot_res_eq b path m key x : slot_res b path m key x = rmap Some (con_slot tbl b path m key x).
  Proof. unfold slot_res, con_slot. destruct (ovr_here _); reflexivity. Qed.
  Lemma list_collect b path m l : forall i, rmap (map snd) (collect (list_res b path m i l)) = con_list tbl b path m i l
    /\ forall kids, collect (list_res b path m i l) = Ok kids -> map fst kids = map nat_dec (seq i (len kids)).
  Proof.
    induction l as [|x l IH]; intro i; rewrite con_list_eq; cbn [list_res collect]; [split; [reflexivity|intros kids E; injection E as <-; reflexivity]|].
    rewrite slot_res_eq. destruct (con_slot tbl b path m (nat_dec i) x) as [o|e]; cbn [rmap bind]; [|split; [reflexivity|discriminate]].
    destruct (IH (Datatypes.S i)) as [E K]. rewrite <- E. destruct (collect (list_res b path m (Datatypes.S i) l)) as [kids|e]; cbn [bind rmap]; [|split; [reflexivity|discriminate]].
    split; [reflexivity|]. intros ks E'. injection E' as <-. cbn [map fst len seq]. f_equal. exact (K kids eq_refl).
  Qed.
  Lemma map_collect b path m d : collect (map_res b path m d) = con_map tbl b path m d.
  Proof.
    induction d as [|[k x] d IH]; rewrite con_map_eq; [reflexivity|]. cbn [map_res map collect fst snd]. fold (map_res b path m d). rewrite slot_res_eq.
    destruct (con_slot tbl b path m k x) as [o|e]; cbn [rmap bind]; [|reflexivity]. rewrite IH. reflexivity.
  Qed.
  Lemma child_collect path m j cs : collect (child_res path m j cs) = con_kids tbl path m j cs.
  Proof. induction cs as [|ch cs IH]; [reflexivity|]. cbn [child_res map collect con_kids]. fold (child_res path m j cs). rewrite IH. reflexivity. Qed.

  Lemma list_items_ok S h b path m m' l : below S h -> mrel S h m m' -> (forall x, In x l -> built_as x) -> forall i, items_ok S h (list_items tbl b path m i l) (list_res b path m' i l).
  Proof.
    intros BS MR. induction l as [|x l IH]; intros HB i; cbn [list_items list_res]; constructor.
    - apply slot_ok; [exact BS|exact MR|apply HB; left; reflexivity].
    - apply IH. intros y Y. apply HB. right. exact Y.
  Qed.
  Lemma map_items_ok S h b path m m' d : below S h -> mrel S h m m' -> (forall k x, In (k, x) d -> built_as x) -> items_ok S h (map_items tbl b path m d) (map_res b path m' d).
  Proof.
    intros BS MR. induction d as [|[k x] d IH]; intro HB; cbn [map_items map_res map fst snd]; constructor.
    - apply slot_ok; [exact BS|exact MR|apply (HB k); left; reflexivity].
    - apply IH. intros k' y Y. apply (HB k'). right. exact Y.
  Qed.
  Lemma child_items_ok S h path m m' j cs : below S h -> mrel S h m m' -> (forall k x d, j = JDict d -> In (k, x) d -> built_as x) -> items_ok S h (child_items tbl path m j cs) (child_res path m' j cs).
  Proof.
    intros BS MR HB. induction cs as [|ch cs IH]; cbn [child_items child_res map]; constructor; [|exact IH].
    intros h1 U. set (key := ch_name ch).
    assert (OR : orel S h1 (hovr_get key m) (ovr_get key m')) by (apply (orel_unchanged S h h1); [exact U|apply mrel_get; exact MR]).
    assert (ND : forall r : res unit, (forall d, j <> JDict d) -> absent_child j ch = r -> item_ok S h1 (slot (hovr_get key m) (bindM (lift r) (fun _ => ret None)) h1) (match ovr_here (ovr_get key m') with Some e => Ok (Some e) | None => _ <- r ;; Ok None end)).
    { intros r _ _. pose proof (orel_here _ _ _ _ OR) as H. unfold slot. destruct (ovr_here (ovr_get key m')) as [o|].
      - destruct H as (v & -> & R & T). left. exists v. repeat split; assumption.
      - rewrite H. unfold bindM, lift. destruct r as [u|e]; cbn [bind item_ok]; [reflexivity|]. exists h1. split; [reflexivity|apply unchanged_refl]. }
    unfold con_child, child_item. fold key. destruct j as [| | | | |l|d]; try (apply (ND _); [intros d; discriminate|reflexivity]).
    destruct (lookup key d) as [x|] eqn:L.
    - destruct x; try (apply (slot_ok S h m m' key (ch_builder ch) (sub_path path key) _ BS MR); [apply (HB key _ d eq_refl); apply PyValFacts.lookup_In; exact L|exact U]).
      pose proof (orel_here _ _ _ _ OR) as H. unfold slot. destruct (ovr_here (ovr_get key m')) as [o|].
      + destruct H as (v & -> & R & T). left. exists v. repeat split; assumption.
      + rewrite H. reflexivity.
    - pose proof (orel_here _ _ _ _ OR) as H. unfold slot. destruct (ovr_here (ovr_get key m')) as [o|].
      + destruct H as (v & -> & R & T). left. exists v. repeat split; assumption.
      + rewrite H. destruct (ch_required ch); cbn [item_ok]; [exists h1; split; [reflexivity|apply unchanged_refl]|reflexivity].
  Qed.
  Lemma agrees_err S h e : agrees S h (h, Err e) (Err e).
  Proof. exists h. split; [reflexivity|apply unchanged_refl]. Qed.
  Lemma agrees_prim S h j : agrees S h (h, Ok (HPrim j)) (Ok (OPrim j)).
  Proof.
    exists h, (HPrim j), []. split; [reflexivity|]. split; [constructor|]. constructor; try (intros; contradiction).
    - apply unchanged_refl.
    - reflexivity.
    - intros p k m L H. destruct (fresh_none _ _ _ _ L H).
    - intros p k m L H. destruct (fresh_none _ _ _ _ L H).
    - intros p k p' k' m L _ _ H. destruct (fresh_none _ _ _ _ L H).
    - intros m L. lia.
    - left. exists j. split; reflexivity.
  Qed.
  Lemma hbuild_ok : forall j, built_as j.
  Proof.
    induction j as [j IH] using json_part_ind. intros b path ovr ovrT S h OR BS. rewrite hbuild_eq, construct_eq.
    destruct (select b j) as [k|e]; cbn [bind]; [|apply agrees_err].
    pose proof (hsplit_rel S h ovr ovrT OR) as SP.
    destruct k as [v|c|b'|b'|]; cbn [hcore con_core].
    - apply agrees_prim.
    - destruct (split_override ovrT) as [m'|e]; cbn [bind]; [|rewrite SP; apply agrees_err]. destruct SP as (m & -> & MR).
      destruct (lookup c tbl) as [cd|]; [|apply agrees_err]. rewrite <- child_collect.
      apply (cell_ok S (HObj c) path j _ (child_res path m' j (c_children cd)) h (fun kids => OObj c path j kids) BS).
      + apply child_items_ok; [exact BS|exact MR|]. intros k x d -> H. apply IH. exists k. exact H.
      + intros ks kids h' R _ _ pa N. apply (r_obj _ _ _ _ _ _ ks pa); [right; lia|exact N|exact R].
    - destruct (split_override ovrT) as [m'|e]; cbn [bind]; [|rewrite SP; apply agrees_err]. destruct SP as (m & -> & MR).
      destruct j as [| | | | |l|]; try apply agrees_err.
      destruct (list_collect b' path m' l 0) as [E K]. rewrite <- E.
      replace (es <- rmap (map snd) (collect (list_res b' path m' 0 l)) ;; Ok (OList b' path es)) with (kids <- collect (list_res b' path m' 0 l) ;; Ok (OList b' path (map snd kids))) by (destruct (collect _); reflexivity).
      apply (cell_ok S (HList b') path (JList l) _ _ h (fun kids => OList b' path (map snd kids)) BS).
      + apply list_items_ok; [exact BS|exact MR|]. intros x H. apply IH. exact H.
      + intros ks kids h' R _ CO pa N. apply (r_list _ _ _ _ _ (JList l) ks pa); [right; lia|exact N|exact R|exact (K kids CO)].
    - destruct (split_override ovrT) as [m'|e]; cbn [bind]; [|rewrite SP; apply agrees_err]. destruct SP as (m & -> & MR).
      destruct j as [| | | | | |d]; try apply agrees_err. rewrite <- map_collect.
      apply (cell_ok S (HMap b') path (JDict d) _ _ h (fun kids => OMap b' path kids) BS).
      + apply map_items_ok; [exact BS|exact MR|]. intros k x H. apply IH. exists k. exact H.
      + intros ks kids h' R _ _ pa N. apply (r_map _ _ _ _ _ (JDict d) ks pa); [right; lia|exact N|exact R].
    - inversion OR; subst; [|apply agrees_err]. destruct j; try apply agrees_err. apply agrees_prim.
  Qed.
End Main.
