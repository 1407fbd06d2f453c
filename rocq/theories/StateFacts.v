(** C15: reading and writing fields. *)
From Coq Require Import String Ascii List Bool Arith ZArith Lia.
From Verif Require Import PyStr PyStrFacts PyVal PyValFacts Jp JpFacts Obj ObjState SpecJson SpecObj ObjFacts ShapeFacts DumpFacts ReloadFacts ResolveFacts.
Import ListNotations.
Open Scope string_scope. Open Scope nat_scope.

Lemma NoDup_app_disj {A} (l m : list A) x : NoDup (l ++ m) -> In x l -> In x m -> False.
Proof. intros H. apply NoDup_app_iff_local in H as (_ & _ & H). intros Hl. exact (H x Hl). Qed.

Lemma unamb_field cd f : unambiguous cd -> In f (c_fields cd) ->
  find_field (f_name f) cd = Some f /\ find_child (f_name f) (c_children cd) = None /\ find_child (f_name f) (c_lazy cd) = None
  /\ lookup (f_name f) (c_renames cd) = None /\ lookup (f_name f) (c_internal cd) = None.
Proof.
  unfold unambiguous. intros H Hf. assert (Hin := in_map f_name _ _ Hf).
  apply NoDup_app_iff_local in H as (N1 & _ & D). assert (D' := D _ Hin). rewrite !in_app_iff in D'.
  split; [apply find_field_in; auto|]. split; [apply find_child_none; tauto|]. split; [apply find_child_none; tauto|].
  split; apply lookup_none; unfold keys; tauto.
Qed.
Lemma unamb_alias cd a k : unambiguous cd -> In (a, k) (c_renames cd) ->
  find_child a (c_children cd) = None /\ find_child a (c_lazy cd) = None /\ lookup a (c_renames cd) = Some k.
Proof.
  unfold unambiguous. intros H Hf. assert (Hin := in_map fst _ _ Hf). cbn in Hin.
  apply NoDup_app_iff_local in H as (_ & H & _). apply NoDup_app_iff_local in H as (_ & H & D1).
  apply NoDup_app_iff_local in H as (_ & H & D2). apply NoDup_app_iff_local in H as (N & _ & _).
  split; [|split].
  - apply find_child_none. intros Hc. apply (D1 _ Hc). rewrite !in_app_iff. tauto.
  - apply find_child_none. intros Hc. apply (D2 _ Hc). rewrite !in_app_iff. tauto.
  - apply lookup_nodup; [exact N|exact Hf].
Qed.

Lemma declared_child_false cd name : find_child name (c_children cd) = None -> find_child name (c_lazy cd) = None ->
  declared_child cd name = false.
Proof. intros H1 H2. unfold declared_child. now rewrite H1, H2. Qed.

Lemma inst_plain_field tbl o f : unambiguous (i_class o) -> In f (c_fields (i_class o)) ->
  inst_plain tbl o (f_name f) = rmap OPrim (field_get f (i_spec o)).
Proof.
  intros U Hf. destruct (unamb_field _ _ U Hf) as (E1 & E2 & E3 & _). unfold inst_plain.
  rewrite (declared_child_false _ _ E2 E3). unfold declared_field. rewrite E1. cbn [orb].
  unfold getattr_plain. now rewrite E2, E3, E1.
Qed.
Lemma inst_get_field tbl o name f : unambiguous (i_class o) -> names_field (i_class o) name f ->
  inst_get tbl o name = rmap OPrim (field_get f (i_spec o)).
Proof.
  intros U N. unfold inst_get. inversion N as [f' Hf E|a f' Hf Ha]; subst.
  - destruct (unamb_field _ _ U Hf) as (E1 & E2 & E3 & E4 & E5). rewrite (declared_child_false _ _ E2 E3), E4, E5.
    now apply inst_plain_field.
  - destruct (unamb_alias _ _ _ U Ha) as (E2 & E3 & E4). rewrite (declared_child_false _ _ E2 E3), E4.
    now apply inst_plain_field.
Qed.
Lemma inst_put_field o f v : unambiguous (i_class o) -> In f (c_fields (i_class o)) ->
  inst_put o (f_name f) v =
  if f_readonly f then Err AttributeError
  else match i_spec o with
       | JDict d => Ok (mk_inst (i_class o) (i_path o) (JDict (dict_set (f_name f) v d)) (i_kids o) (i_internal o) (i_extra o))
       | _ => Err TypeError
       end.
Proof.
  intros U Hf. destruct (unamb_field _ _ U Hf) as (E1 & E2 & E3 & _). unfold inst_put.
  now rewrite (declared_child_false _ _ E2 E3), E1.
Qed.
Lemma inst_set_field o name f v : unambiguous (i_class o) -> names_field (i_class o) name f ->
  inst_set o name v =
  if f_readonly f then Err AttributeError
  else match i_spec o with
       | JDict d => Ok (mk_inst (i_class o) (i_path o) (JDict (dict_set (f_name f) v d)) (i_kids o) (i_internal o) (i_extra o))
       | _ => Err TypeError
       end.
Proof.
  intros U N. unfold inst_set. inversion N as [f' Hf E|a f' Hf Ha]; subst.
  - destruct (unamb_field _ _ U Hf) as (E1 & E2 & E3 & E4 & E5). rewrite (declared_child_false _ _ E2 E3), E4, E5.
    now apply inst_put_field.
  - destruct (unamb_alias _ _ _ U Ha) as (E2 & E3 & E4). rewrite (declared_child_false _ _ E2 E3), E4.
    now apply inst_put_field.
Qed.

(** every write keeps the class, and changes in [spec] only the field it names *)
Lemma inst_put_effect o name v o' : inst_put o name v = Ok o' -> i_class o' = i_class o /\
  (i_spec o' = i_spec o \/ exists f d, In f (c_fields (i_class o)) /\ f_name f = name /\ f_readonly f = false /\
                                  i_spec o = JDict d /\ i_spec o' = JDict (dict_set (f_name f) v d)).
Proof.
  unfold inst_put. destruct (declared_child _ _); [discriminate|]. destruct (find_field name (i_class o)) as [f|] eqn:E.
  - destruct (f_readonly f) eqn:Er; [discriminate|]. destruct (i_spec o) eqn:Es; try discriminate.
    intros H. injection H as <-. split; [reflexivity|]. right. unfold find_field in E. apply find_some in E as [Hin En].
    apply String.eqb_eq in En. exists f, d. simpl. auto 6.
  - intros H. injection H as <-. simpl. auto.
Qed.
Lemma inst_set_effect o name v o' : inst_set o name v = Ok o' -> i_class o' = i_class o /\
  (i_spec o' = i_spec o \/ exists f d, names_field (i_class o) name f /\ f_readonly f = false /\
                                  i_spec o = JDict d /\ i_spec o' = JDict (dict_set (f_name f) v d)).
Proof.
  unfold inst_set. destruct (declared_child _ _); [discriminate|].
  destruct (lookup name (c_renames (i_class o))) as [key|] eqn:Er.
  - intros H. apply inst_put_effect in H as [Hc [H|(f & d & Hf & En & Ho & E1 & E2)]]; split; auto. right.
    exists f, d. split; [|auto]. apply nf_alias; [exact Hf|]. rewrite En. now apply lookup_In.
  - destruct (lookup name (c_internal (i_class o))).
    + intros H. injection H as <-. simpl. auto.
    + intros H. apply inst_put_effect in H as [Hc [H|(f & d & Hf & En & Ho & E1 & E2)]]; split; auto. right.
      exists f, d. split; [|auto]. rewrite <- En. now constructor.
Qed.

Lemma same_field cd f g : unambiguous cd -> In f (c_fields cd) -> In g (c_fields cd) -> f_name f = f_name g -> f = g.
Proof.
  unfold unambiguous. intros U Hf Hg E. apply NoDup_app_iff_local in U as (N & _). eapply NoDup_map_inj_local; eauto.
Qed.
Lemma names_in cd n f : names_field cd n f -> In f (c_fields cd).
Proof. intros H; inversion H; subst; assumption. Qed.

Lemma field_get_lookup f d d' : lookup (f_name f) d' = lookup (f_name f) d -> field_get f (JDict d') = field_get f (JDict d).
Proof. intros E. unfold field_get. cbn [py_in py_getitem]. unfold mem. now rewrite E. Qed.

Lemma write_keeps o w f : unambiguous (i_class o) -> In f (c_fields (i_class o)) ->
  (f_readonly f = true \/ ~ names_field (i_class o) (fst w) f) ->
  field_get f (i_spec (write o w)) = field_get f (i_spec o).
Proof.
  intros U Hf Hw. unfold write. destruct (inst_set o (fst w) (snd w)) as [o'|] eqn:E; [|reflexivity].
  apply inst_set_effect in E as [_ [->|(g & d & Hg & Hr & E1 & E2)]]; [reflexivity|].
  rewrite E1, E2. apply field_get_lookup. apply lookup_dict_set_ne. intros En.
  assert (g = f) by (eapply same_field; eauto; eapply names_in; eauto). subst g.
  destruct Hw as [Hw|Hw]; [congruence|contradiction].
Qed.
Lemma write_class o w : i_class (write o w) = i_class o.
Proof. unfold write. destruct (inst_set o (fst w) (snd w)) as [o'|] eqn:E; [|reflexivity]. now apply inst_set_effect in E as [E _]. Qed.
Lemma writes_class o ws : i_class (writes o ws) = i_class o.
Proof. revert o. induction ws as [|w ws IH]; intros o; [reflexivity|]. cbn. unfold writes in IH. rewrite IH. apply write_class. Qed.
Lemma writes_keep o ws f : unambiguous (i_class o) -> In f (c_fields (i_class o)) ->
  (f_readonly f = true \/ forall n v, In (n, v) ws -> ~ names_field (i_class o) n f) ->
  field_get f (i_spec (writes o ws)) = field_get f (i_spec o).
Proof.
  revert o. induction ws as [|w ws IH]; intros o U Hf Hw; [reflexivity|].
  change (writes o (w :: ws)) with (writes (write o w) ws). rewrite IH.
  - apply write_keeps; auto. destruct Hw as [Hw|Hw]; [auto|]. right. destruct w as [n v]. apply (Hw n v). now left.
  - now rewrite write_class.
  - now rewrite write_class.
  - rewrite write_class. destruct Hw as [Hw|Hw]; [auto|]. right. intros n v Hin. apply (Hw n v). now right.
Qed.
Lemma write_dict o w d : i_spec o = JDict d -> exists d', i_spec (write o w) = JDict d'.
Proof.
  intros E. unfold write. destruct (inst_set o (fst w) (snd w)) as [o'|] eqn:Es; [|eauto].
  apply inst_set_effect in Es as [_ [->|(g & d' & _ & _ & _ & ->)]]; eauto.
Qed.
Lemma writes_dict o ws d : i_spec o = JDict d -> exists d', i_spec (writes o ws) = JDict d'.
Proof.
  revert o d. induction ws as [|w ws IH]; intros o d E; [eauto|]. destruct (write_dict o w d E) as (d' & E').
  exact (IH _ _ E').
Qed.

Lemma read_initial tbl o name f d : unambiguous (i_class o) -> names_field (i_class o) name f -> i_spec o = JDict d ->
  inst_get tbl o name =
  match lookup (f_name f) d with
  | Some v => if f_restricted f then Err PyException else Ok (OPrim v)
  | None => if f_required f then Err PyException else Ok (OPrim (f_default f))
  end.
Proof.
  intros U N E. rewrite (inst_get_field tbl o name f U N), E. unfold field_get. cbn [py_in py_getitem bind]. unfold mem.
  destruct (lookup (f_name f) d) as [v|]; cbn [bind]; [destruct (f_restricted f)|destruct (f_required f)]; reflexivity.
Qed.

Lemma read_after_writes tbl o ws1 m v ws2 name f d : unambiguous (i_class o) -> i_spec o = JDict d ->
  names_field (i_class o) name f -> names_field (i_class o) m f -> f_readonly f = false -> f_restricted f = false ->
  (forall n x, In (n, x) ws2 -> ~ names_field (i_class o) n f) ->
  inst_get tbl (writes o (ws1 ++ (m, v) :: ws2)) name = Ok (OPrim v).
Proof.
  intros U Ed N M Hw Hr Hlast. set (o1 := writes o ws1).
  assert (E : writes o (ws1 ++ (m, v) :: ws2) = writes (write o1 (m, v)) ws2).
  { unfold o1, writes. rewrite fold_left_app. reflexivity. }
  rewrite E. assert (C1 : i_class o1 = i_class o) by apply writes_class.
  assert (C2 : i_class (write o1 (m, v)) = i_class o) by (rewrite write_class; exact C1).
  destruct (writes_dict o ws1 d Ed) as (d1 & E1). fold o1 in E1.
  rewrite (inst_get_field tbl _ name f); [| now rewrite writes_class, C2 | now rewrite writes_class, C2].
  rewrite writes_keep; [| now rewrite C2 | rewrite C2; eapply names_in; eauto | rewrite C2; auto].
  unfold write. cbn [fst snd]. rewrite (inst_set_field o1 m f v); [|now rewrite C1|now rewrite C1].
  rewrite Hw, E1. cbn [i_spec]. unfold field_get. cbn [py_in py_getitem bind]. unfold mem. rewrite lookup_dict_set_eq.
  cbn [bind]. rewrite Hr. reflexivity.
Qed.

Lemma read_unwritten tbl o ws name f : unambiguous (i_class o) -> names_field (i_class o) name f ->
  (f_readonly f = true \/ forall n v, In (n, v) ws -> ~ names_field (i_class o) n f) ->
  inst_get tbl (writes o ws) name = inst_get tbl o name.
Proof.
  intros U N Hw. rewrite (inst_get_field tbl (writes o ws) name f), (inst_get_field tbl o name f); auto.
  - rewrite writes_keep; auto. eapply names_in; eauto.
  - now rewrite writes_class.
  - now rewrite writes_class.
Qed.

(** ** C21 *)
Definition getattr tbl (o : obj) (name : string) : res obj :=
  match o with
  | OObj c p s kids => match lookup c tbl with Some cd => getattr_ tbl cd p s kids name | None => Err KeyError end
  | _ => Err AttributeError
  end.
Lemma merge_kids_spec cs : NoDup (map ch_name cs) -> forall kids other r, merge_kids cs kids other = Ok r ->
  forall k, kid_of k r =
    if existsb (fun c => String.eqb k (ch_name c)) cs
    then (if truthy_obj (kid_of k kids) then kid_of k kids
          else if truthy_obj (kid_of k other) then kid_of k other else kid_of k kids)
    else kid_of k kids.
Proof.
  induction cs as [|c cs IH]; intros Hn kids other r H k; cbn [merge_kids foldM] in H.
  - injection H as <-. reflexivity.
  - cbn [map] in Hn. apply NoDup_cons_iff in Hn as [Hc Hn]. unfold merge_kids in H. cbn [foldM] in H. apply bind_ok in H as (acc & Ha & H).
    fold (merge_kids cs acc other) in H. rewrite (IH Hn _ _ _ H k). cbn [existsb].
    assert (Hex : k = ch_name c -> existsb (fun c0 => String.eqb k (ch_name c0)) cs = false).
    { intros ->. apply not_true_is_false. intros Hx. apply existsb_exists in Hx as (x & Hx & E). apply String.eqb_eq in E.
      apply Hc. rewrite E. now apply in_map. }
    assert (Hk : kid_of k acc = if String.eqb k (ch_name c) then
                    (if truthy_obj (kid_of k kids) then kid_of k kids else if truthy_obj (kid_of k other) then kid_of k other else kid_of k kids)
                  else kid_of k kids).
    { destruct (String.eqb_spec k (ch_name c)) as [->|Hne].
      - destruct (truthy_obj (kid_of (ch_name c) kids)); [injection Ha as <-; reflexivity|].
        destruct (truthy_obj (kid_of (ch_name c) other)); [|injection Ha as <-; reflexivity].
        destruct (kid_of (ch_name c) other) eqn:Eo; [discriminate|..]; injection Ha as <-; unfold kid_of at 1; now rewrite lookup_dict_set_eq.
      - destruct (truthy_obj (kid_of (ch_name c) kids)); [injection Ha as <-; reflexivity|].
        destruct (truthy_obj (kid_of (ch_name c) other)); [|injection Ha as <-; reflexivity].
        destruct (kid_of (ch_name c) other) eqn:Eo; [discriminate|..]; injection Ha as <-; unfold kid_of;
          now rewrite lookup_dict_set_ne by congruence. }
    rewrite Hk. destruct (String.eqb_spec k (ch_name c)) as [E|]; [|reflexivity].
    rewrite (Hex E). reflexivity.
Qed.
Lemma merge_kids_err cs : NoDup (map ch_name cs) -> forall kids other e, merge_kids cs kids other = Err e <->
  e = PyException /\ exists c, In c cs /\ truthy_obj (kid_of (ch_name c) kids) = false
       /\ truthy_obj (kid_of (ch_name c) other) = true /\ primitive (kid_of (ch_name c) other).
Proof.
  induction cs as [|c cs IH]; intros Hn kids other e.
  - cbn. split; [discriminate|]. intros (_ & c & [] & _).
  - cbn [map] in Hn. apply NoDup_cons_iff in Hn as [Hc Hn]. unfold merge_kids. cbn [foldM].
    set (step := if truthy_obj (kid_of (ch_name c) kids) then Ok kids else
             let o := kid_of (ch_name c) other in
             if truthy_obj o then match o with OPrim _ => Err PyException | _ => Ok (dict_set (ch_name c) o kids) end else Ok kids).
    assert (Hrest : forall acc, step = Ok acc -> forall c', In c' cs -> kid_of (ch_name c') acc = kid_of (ch_name c') kids).
    { intros acc Ha c' Hin. assert (ch_name c <> ch_name c') by (intros E; apply Hc; rewrite E; now apply in_map).
      unfold step in Ha. destruct (truthy_obj (kid_of (ch_name c) kids)); [injection Ha as <-; reflexivity|]. cbn zeta in Ha.
      destruct (truthy_obj (kid_of (ch_name c) other)); [|injection Ha as <-; reflexivity].
      destruct (kid_of (ch_name c) other); [discriminate|..]; injection Ha as <-; unfold kid_of; now rewrite lookup_dict_set_ne. }
    destruct step as [acc|e'] eqn:Es; cbn [bind].
    + fold (merge_kids cs acc other). rewrite IH by exact Hn. apply and_iff_compat_l. split.
      * intros (c' & Hin & H1 & H2). exists c'. rewrite <- (Hrest acc eq_refl c' Hin). simpl; auto.
      * intros (c' & [<-|Hin] & H1 & H2 & H3).
        -- exfalso. unfold step in Es. rewrite H1 in Es. cbn zeta in Es. rewrite H2 in Es. destruct H3 as (j & E). rewrite E in Es. discriminate.
        -- exists c'. rewrite (Hrest acc eq_refl c' Hin). auto.
    + unfold step in Es. destruct (truthy_obj (kid_of (ch_name c) kids)) eqn:E1; [discriminate|]. cbn zeta in Es.
      destruct (truthy_obj (kid_of (ch_name c) other)) eqn:E2; [|discriminate].
      destruct (kid_of (ch_name c) other) eqn:E3; try discriminate. injection Es as <-. split.
      * intros H. injection H as <-. split; [reflexivity|]. exists c. rewrite E1, E3. simpl. repeat split; auto. eexists; reflexivity.
      * intros [-> _]. reflexivity.
Qed.
