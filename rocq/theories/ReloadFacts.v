(** C17: dumping, loading the dump and dumping again. *)
From Coq Require Import String Ascii List Bool Arith ZArith Lia.
From Verif Require Import PyStr PyStrFacts PyVal PyValFacts Jp JpFacts Obj SpecJson SpecObj ObjFacts ShapeFacts DumpFacts.
Import ListNotations.
Open Scope string_scope. Open Scope nat_scope.

Lemma con_kids_err tbl path m j cs e : con_kids tbl path m j cs = Err e ->
  exists ch, In ch cs /\ con_child tbl path m j ch = Err e.
Proof.
  induction cs as [|ch cs IH]; simpl; [discriminate|]. destruct (con_child tbl path m j ch) as [k|e'] eqn:E; simpl.
  - intros H. apply bind_err in H as [H|(x & _ & H)]; [|discriminate]. destruct (IH H) as (c & ? & ?). eauto.
  - intros H. injection H as <-. eauto.
Qed.
Lemma con_list_err tbl b path i l e : con_list tbl b path [] i l = Err e ->
  exists n x, nth_error l n = Some x /\ construct tbl x b (sub_path path (nat_dec (i + n))) [] = Err e.
Proof.
  revert i. induction l as [|x l IH]; intros i; rewrite con_list_eq; [discriminate|]. rewrite con_slot_nil.
  destruct (construct tbl x b (sub_path path (nat_dec i)) []) as [o|e'] eqn:E; simpl.
  - intros H. apply bind_err in H as [H|(y & _ & H)]; [|discriminate]. destruct (IH (S i) H) as (n & y & Hn & Hy).
    exists (S n), y. split; [exact Hn|]. rewrite <- plus_n_Sm. exact Hy.
  - intros H. injection H as <-. exists 0, x. rewrite Nat.add_0_r. auto.
Qed.
Lemma con_map_err tbl b path d e : con_map tbl b path [] d = Err e ->
  exists k x, In (k, x) d /\ construct tbl x b (sub_path path k) [] = Err e.
Proof.
  induction d as [|[k x] d IH]; rewrite con_map_eq; [discriminate|]. rewrite con_slot_nil.
  destruct (construct tbl x b (sub_path path k) []) as [o|e'] eqn:E; simpl.
  - intros H. apply bind_err in H as [H|(y & _ & H)]; [|discriminate]. destruct (IH H) as (k' & y & ? & ?). eauto 6.
  - intros H. injection H as <-. eauto 6.
Qed.
Lemma dump_kids_ext tbl kids kids' cs : (forall ch, In ch cs -> dump_kid tbl kids ch = dump_kid tbl kids' ch) ->
  dump_kids tbl kids cs = dump_kids tbl kids' cs.
Proof.
  induction cs as [|ch cs IH]; intros H; simpl; [reflexivity|]. rewrite (H ch) by now left.
  rewrite IH by (intros c Hc; apply H; now right). reflexivity.
Qed.
Lemma mapM_ext_in {A B} (f g : A -> res B) l : (forall x, In x l -> f x = g x) -> mapM f l = mapM g l.
Proof.
  induction l as [|x l IH]; intros H; simpl; [reflexivity|]. rewrite (H x) by now left.
  rewrite IH by (intros y Hy; apply H; now right). reflexivity.
Qed.
Lemma mapM_each {A B} (f : A -> res B) l ys x : mapM f l = Ok ys -> In x l -> exists y, f x = Ok y /\ In y ys.
Proof.
  rewrite mapM_ok. induction 1 as [|a y l ys Hy H IH]; intros Hin; [destruct Hin|].
  destruct Hin as [->|Hin]; [exists y; simpl; auto|]. destruct (IH Hin) as (z & ? & ?). exists z; simpl; auto.
Qed.

(** what loading a dumped value must give *)
Definition reloads tbl (b : builder) (o : obj) (v : json) (r : res obj) : Prop :=
  match r with
  | Ok o' => dump_elem tbl o' = Ok v /\ (primitive o' <-> primitive o)
             /\ (direct_builder b = true -> truthy_obj o' = truthy_obj o)
  | Err e => e = FieldNotExist /\ ~ no_required_child tbl
  end.

Lemma dump_elem_nonprim tbl o v : dump tbl o = Ok v -> dump_elem tbl o = Ok v /\ ~ primitive o.
Proof. destruct o; try discriminate; intros H; (split; [exact H|intros (? & ?); discriminate]). Qed.

(** an empty document for a class *)
Lemma construct_empty tbl c cd path : lookup c tbl = Some cd ->
  con_core tbl (KCls c) (JDict []) path [] = Ok (OObj c path (JDict []) [])
  \/ (con_core tbl (KCls c) (JDict []) path [] = Err FieldNotExist /\ ~ no_required_child tbl).
Proof.
  intros Ec. cbn [con_core]. rewrite split_nil, Ec. cbn [bind].
  destruct (con_kids tbl path [] (JDict []) (c_children cd)) as [kids|e] eqn:E.
  - left. simpl. assert (kids = []); [|now subst]. apply con_kids_ok in E as (ks & F & ->).
    induction F as [|ch k cs ks Hk F IH]; [reflexivity|]. simpl. rewrite IH, app_nil_r.
    unfold con_child in Hk. rewrite ovr_get_nil, ovr_here_nil in Hk. simpl in Hk.
    destruct (ch_required ch); [discriminate|]. injection Hk as <-. reflexivity.
  - right. apply con_kids_err in E as (ch & Hc & Hk). unfold con_child in Hk. rewrite ovr_get_nil, ovr_here_nil in Hk. simpl in Hk.
    destruct (ch_required ch) eqn:Er; [|discriminate]. injection Hk as <-. split; [reflexivity|].
    intros Hno. rewrite (Hno c cd ch Ec Hc) in Er. discriminate.
Qed.
Lemma dump_empty tbl c cd path : lookup c tbl = Some cd -> dump tbl (OObj c path (JDict []) []) = Ok (JDict []).
Proof.
  intros Ec. rewrite dump_obj_eq, Ec.
  assert (E : dump_kids tbl [] (c_children cd) = Ok []).
  { induction (c_children cd) as [|ch cs IH]; [reflexivity|]. simpl. rewrite IH. reflexivity. }
  rewrite E. cbn [bind]. rewrite dump_fields_eq.
  rewrite (mapM_total (field_entry (JDict [])) (fun _ => [])).
  2: { apply Forall_forall. intros f _. apply field_entry_dict. reflexivity. }
  simpl. f_equal. f_equal. induction (filter _ _); [reflexivity|assumption].
Qed.

(** every dumped key was present *)
Lemma dump_class_keys tbl c cd j path kids vd k :
  lookup c tbl = Some cd -> con_kids tbl path [] j (c_children cd) = Ok kids -> distinct_names cd ->
  dump tbl (OObj c path j kids) = Ok (JDict vd) -> In k (keys vd) -> py_in k j = Ok true.
Proof.
  intros Ec Ek Dn. rewrite dump_obj_eq, Ec. intros H Hin.
  apply bind_ok in H as (ks & Hks & H). apply bind_ok in H as (fs & Hfs & H). injection H as <-.
  unfold keys in Hin. rewrite map_app, in_app_iff in Hin. destruct Hin as [Hin|Hin]; apply keys_in_pair in Hin as (v & Hin).
  - destruct (dump_kids_in _ _ _ _ _ _ Hks Hin) as (ch & o & Hc & <- & Eo & _).
    destruct (declared_nodup cd Dn) as (_ & Nc & _).
    assert (El := con_kids_lookup _ _ _ _ _ _ ch Ek Nc Hc). rewrite Eo in El.
    unfold con_child in El. rewrite ovr_get_nil, ovr_here_nil in El.
    destruct j; try (apply bind_ok in El as (? & _ & El); discriminate).
    simpl. unfold mem. destruct (lookup (ch_name ch) d); [reflexivity|]. destruct (ch_required ch); discriminate.
  - apply (dump_fields_in _ _ _ _ _ Hfs) in Hin as (f & _ & _ & _ & H & _). exact H.
Qed.

Section Reload.
  Variable tbl : ctable.
  Hypothesis Wt : well_declared tbl.
  Hypothesis Pt : plain_table tbl.

  Lemma reload_class c cd j path path' kids v :
    lookup c tbl = Some cd -> con_kids tbl path [] j (c_children cd) = Ok kids ->
    dump tbl (OObj c path j kids) = Ok v ->
    (forall x, part x j -> forall b p p' o w, plain_builder tbl b = true -> construct tbl x b p [] = Ok o ->
               dump_elem tbl o = Ok w -> reloads tbl b o w (construct tbl w b p' [])) ->
    match con_core tbl (KCls c) v path' [] with
    | Ok o' => dump tbl o' = Ok v /\ exists kids', o' = OObj c path' v kids'
    | Err e => e = FieldNotExist /\ ~ no_required_child tbl
    end.
  Proof.
    intros Ec Ek Hd IH. destruct (declared_nodup cd (Wt c cd Ec)) as (Nf & Nc & Dfc).
    rewrite dump_obj_eq, Ec in Hd.
    apply bind_ok in Hd as (ks & Hks & Hd). apply bind_ok in Hd as (fs & Hfs & Hd). injection Hd as <-.
    (* lookups in the dump *)
    assert (Lch : forall ch, In ch (c_children cd) -> lookup (ch_name ch) (ks ++ fs)%list = lookup (ch_name ch) ks).
    { intros ch Hc. rewrite lookup_app. destruct (lookup (ch_name ch) ks); [reflexivity|].
      apply lookup_none. intros Hin. apply keys_in_pair in Hin as (v & Hin).
      apply (dump_fields_in _ _ _ _ _ Hfs) in Hin as (f & Hf & En & _). apply filter_In in Hf as [Hf _].
      eapply Dfc; eauto. }
    (* each child of the reloaded object *)
    assert (Hch : forall ch, In ch (c_children cd) ->
              match con_child tbl path' [] (JDict (ks ++ fs)) ch with
              | Ok k => match lookup (ch_name ch) ks with
                        | None => k = None
                        | Some w => exists o', k = Some o' /\ dump tbl o' = Ok w /\ truthy_obj o' = true
                        end
              | Err e => e = FieldNotExist /\ ~ no_required_child tbl
              end).
    { intros ch Hc. unfold con_child. rewrite ovr_get_nil, ovr_here_nil, (Lch ch Hc).
      assert (Edk := dump_kids_lookup _ _ _ _ ch Nc Hks Hc).
      assert (Eck := con_kids_lookup _ _ _ _ _ _ ch Ek Nc Hc).
      destruct (lookup (ch_name ch) ks) as [w|] eqn:Ew.
      - unfold dump_kid in Edk. destruct (lookup (ch_name ch) kids) as [o|]; [|discriminate].
        destruct (truthy_obj o) eqn:Et; [|discriminate]. destruct (dump tbl o) as [w'|] eqn:Ed; [|discriminate].
        injection Edk as ->. destruct (dump_elem_nonprim _ _ _ Ed) as [Ede Pe].
        unfold con_child in Eck. rewrite ovr_get_nil, ovr_here_nil in Eck.
        destruct j; try (apply bind_ok in Eck as (? & _ & Eck); discriminate).
        destruct (lookup (ch_name ch) d) as [x|] eqn:Ex; [|destruct (ch_required ch); discriminate].
        assert (Ho : construct tbl x (ch_builder ch) (sub_path path (ch_name ch)) [] = Ok o).
        { destruct x; try discriminate;
            (destruct (construct _ _ _ _ _) as [o1|]; [simpl in Eck; congruence|discriminate]). }
        destruct (Pt c cd ch Ec Hc) as [Pb Db].
        assert (R := IH x (ex_intro (fun k => In (k, x) d) (ch_name ch) (lookup_In _ _ _ Ex)) (ch_builder ch) _ (sub_path path' (ch_name ch)) o w Pb Ho Ede).
        assert (Hw : w <> JNull) by (destruct (dump_shape _ _ _ Ed) as [(? & ->)|(? & ->)]; discriminate).
        assert (Em : forall r : res obj, match w with JNull => Ok None | _ => rmap Some r end = rmap Some r)
          by (intros r; destruct w; congruence).
        rewrite Em. destruct (construct tbl w (ch_builder ch) (sub_path path' (ch_name ch)) []) as [o'|e]; simpl.
        + destruct R as (R1 & R2 & R3). exists o'. split; [reflexivity|]. split; [|rewrite <- Et; auto].
          destruct o'; try exact R1. exfalso. apply Pe, R2. eexists; reflexivity.
        + exact R.
      - destruct (ch_required ch) eqn:Er; [|reflexivity]. split; [reflexivity|].
        intros Hno. rewrite (Hno c cd ch Ec Hc) in Er. discriminate. }
    cbn [con_core]. rewrite split_nil, Ec. cbn [bind].
    destruct (con_kids tbl path' [] (JDict (ks ++ fs)) (c_children cd)) as [kids'|e] eqn:Ek'; cbn [bind].
    2: { apply con_kids_err in Ek' as (ch & Hc & E). specialize (Hch ch Hc). rewrite E in Hch. exact Hch. }
    split; [|eauto]. rewrite dump_obj_eq, Ec.
    assert (Hks' : dump_kids tbl kids' (c_children cd) = Ok ks).
    { rewrite <- Hks. apply dump_kids_ext. intros ch Hc. specialize (Hch ch Hc).
      assert (Eck := con_kids_lookup _ _ _ _ _ _ ch Ek' Nc Hc). rewrite Eck in Hch.
      rewrite (dump_kids_lookup _ _ _ _ ch Nc Hks Hc). unfold dump_kid.
      destruct (lookup (ch_name ch) ks) as [w|]; [|now rewrite Hch].
      destruct Hch as (o' & -> & Hd & ->). now rewrite Hd. }
    rewrite Hks'. cbn [bind].
    assert (Hfs' : dump_fields (filter (fun f => negb (mem (f_name f) ks)) (c_fields cd)) (JDict (ks ++ fs)) = Ok fs).
    { assert (Nfl : NoDup (map f_name (filter (fun f => negb (mem (f_name f) ks)) (c_fields cd)))).
      { clear -Nf. induction (c_fields cd) as [|f l IH]; simpl in *; [constructor|].
        apply NoDup_cons_iff in Nf as [Hf Nf]. destruct (negb _); [|auto]. simpl. constructor; [|auto].
        intros H. apply Hf. apply in_map_iff in H as (g & E & H). apply filter_In in H as [H _]. rewrite <- E. now apply in_map. }
      rewrite <- Hfs. rewrite dump_fields_eq in Hfs. rewrite !dump_fields_eq.
      destruct (mapM (field_entry j) _) as [l|] eqn:El; [|discriminate]. cbn [rmap] in Hfs. injection Hfs as Hfs.
      rewrite <- El. f_equal. apply mapM_ext_in. intros f Hf.
      destruct (mapM_each _ _ _ f El Hf) as (es & Hes & _). rewrite Hes.
      assert (Nin : lookup (f_name f) ks = None).
      { apply filter_In in Hf as [_ Hf]. apply negb_true_iff in Hf. unfold mem in Hf. destruct (lookup _ ks); [discriminate|reflexivity]. }
      apply field_entry_dict. rewrite lookup_app, Nin.
      assert (El' : lookup (f_name f) fs = lookup (f_name f) es).
      { rewrite <- Hfs. clear -El Hf Hes Nfl. apply mapM_ok in El.
        induction El as [|g es' gs l Hg El IH]; [destruct Hf|]. cbn [concat map] in *. rewrite lookup_app.
        apply NoDup_cons_iff in Nfl as [Hni Nfl]. destruct Hf as [->|Hf].
        - assert (es' = es) by congruence. subst es'. destruct (lookup (f_name f) es); [reflexivity|].
          apply lookup_none. intros Hin. apply Hni. clear -El Hin. induction El as [|g es' gs l Hg El IH]; [destruct Hin|].
          cbn [concat] in Hin. unfold keys in Hin. rewrite map_app, in_app_iff in Hin. cbn [map].
          destruct Hin as [Hin|Hin]; [left; symmetry; eapply field_entry_keys; eauto | right; auto].
        - rewrite (IH Nfl Hf). assert (lookup (f_name f) es' = None) as ->; [|reflexivity].
          apply lookup_none. intros Hin. apply (field_entry_keys _ _ _ _ Hg) in Hin. apply Hni. rewrite <- Hin.
          now apply in_map. }
      rewrite El'. destruct (lookup (f_name f) es) as [x|] eqn:Ex.
      - assert (Hex := lookup_In _ _ _ Ex).
        destruct (field_entry_present _ _ _ _ _ Hes Hex) as (_ & Hx & Hi & Hg & Hr). split; [exact Hr|].
        unfold field_entry in Hes. rewrite Hi in Hes. cbn [bind] in Hes. unfold field_get in Hes. rewrite Hi in Hes. cbn [bind] in Hes.
        rewrite Hr, Hg in Hes. cbn [bind] in Hes. injection Hes as <-. reflexivity.
      - destruct es as [|[k x] es]; [reflexivity|]. exfalso.
        assert (k = f_name f) by (eapply field_entry_keys; [exact Hes|simpl; auto]). subst k.
        simpl in Ex. rewrite String.eqb_refl in Ex. discriminate. }
    rewrite Hfs'. reflexivity.
  Qed.

  Definition sub_ok (j : json) : Prop :=
    forall x, part x j -> forall b p p' o w, plain_builder tbl b = true -> construct tbl x b p [] = Ok o ->
              dump_elem tbl o = Ok w -> reloads tbl b o w (construct tbl w b p' []).

  Lemma construct_cls j c p : construct tbl j (BCls c) p [] = con_core tbl (KCls c) j p [].
  Proof. rewrite construct_eq. reflexivity. Qed.

  Lemma reload_cls j c p p' o w : sub_ok j -> construct tbl j (BCls c) p [] = Ok o -> dump_elem tbl o = Ok w ->
    reloads tbl (BCls c) o w (construct tbl w (BCls c) p' []) /\ truthy_obj o = true /\ ~ primitive o /\
    exists vd, w = JDict vd /\ (forall k, In k (keys vd) -> py_in k j = Ok true) /\
               exists cd, lookup c tbl = Some cd /\ forall k, In k (keys vd) -> In k (map f_name (c_fields cd) ++ map ch_name (c_children cd)).
  Proof.
    intros IH. rewrite construct_cls. intros H Hd. assert (H' := H). cbn [con_core] in H'.
    rewrite split_nil in H'. cbn [bind] in H'. destruct (lookup c tbl) as [cd|] eqn:Ec; [|discriminate].
    apply bind_ok in H' as (kids & Ek & E). injection E as <-. cbn [dump_elem] in Hd.
    assert (R := reload_class c cd j p p' kids w Ec Ek Hd IH). rewrite construct_cls.
    split; [|split; [reflexivity|split; [intros (? & ?); discriminate|]]].
    - destruct (con_core tbl (KCls c) w p' []) as [o'|e]; cbn [reloads]; [|exact R].
      destruct R as (R & kids' & ->). split; [exact R|]. split; [|reflexivity].
      split; intros (? & ?); discriminate.
    - assert (Hd' := Hd). rewrite dump_obj_eq, Ec in Hd'. apply bind_ok in Hd' as (ks & Hks & Hd'). apply bind_ok in Hd' as (fs & Hfs & E).
      injection E as <-. exists (ks ++ fs)%list. split; [reflexivity|]. split.
      + intros k Hk. eapply dump_class_keys; eauto.
      + exists cd. split; [reflexivity|]. intros k Hk. unfold keys in Hk. rewrite map_app, in_app_iff in Hk. apply in_app_iff.
        destruct Hk as [Hk|Hk]; [right; eapply dump_kids_keys; eauto | left].
        apply keys_in_pair in Hk as (v & Hk). apply (dump_fields_in _ _ _ _ _ Hfs) in Hk as (f & Hf & <- & _).
        apply filter_In in Hf as [Hf _]. now apply in_map.
  Qed.

  Lemma construct_list l b p : construct tbl (JList l) (BListOf b) p [] = (es <- con_list tbl b p [] 0 l ;; Ok (OList b p es)).
  Proof. rewrite construct_eq. reflexivity. Qed.
  Lemma construct_map d b p : construct tbl (JDict d) (BMapOf b) p [] = (es <- con_map tbl b p [] d ;; Ok (OMap b p es)).
  Proof. rewrite construct_eq. reflexivity. Qed.

  Lemma bare_elem e v : bare e = Ok v -> dump_elem tbl e = Ok v /\ primitive e.
  Proof. destruct e; simpl; intros H; try discriminate. split; [exact H|eexists; reflexivity]. Qed.
  Lemma elem_bare e v : dump_elem tbl e = Ok v -> primitive e -> bare e = Ok v.
  Proof. intros H (j & ->). exact H. Qed.
  Lemma elem_dump e v : dump_elem tbl e = Ok v -> ~ primitive e -> dump tbl e = Ok v.
  Proof. intros H Hp. destruct e; try exact H. exfalso. apply Hp. eexists; reflexivity. Qed.
  Lemma prim_dec (o : obj) : primitive o \/ ~ primitive o.
  Proof. destruct o; [left; eexists; reflexivity|right; intros (? & ?); discriminate..]. Qed.

  Lemma nth_error_same {A B} (l : list A) (m : list B) n x : length l = length m -> nth_error l n = Some x ->
    exists y, nth_error m n = Some y.
  Proof.
    intros Hl H. destruct (nth_error m n) eqn:E; [eauto|]. apply nth_error_None in E.
    assert (n < length l) by (apply nth_error_Some; congruence). lia.
  Qed.
  Lemma Forall2_nth {A B} (R : A -> B -> Prop) l m n x y : Forall2 R l m -> nth_error l n = Some x -> nth_error m n = Some y -> R x y.
  Proof.
    intros H. revert n. induction H as [|a b l m Hab H IH]; intros [|n]; simpl; intros E1 E2; try discriminate.
    - congruence.
    - eauto.
  Qed.

  Lemma Forall2_length' {A B} (R : A -> B -> Prop) l m : Forall2 R l m -> length l = length m.
  Proof. induction 1; simpl; congruence. Qed.
  Lemma Forall2_transfer {A B} (R : A -> B -> Prop) (P : A -> Prop) (Q : B -> Prop) l m :
    Forall2 R l m -> Forall Q m -> (forall x y, R x y -> Q y -> P x) -> Forall P l.
  Proof.
    intros F. induction F as [|x y l m Hxy F IH]; intros K H; constructor; inversion K; subst; eauto.
  Qed.

  Lemma dump_list_iff b p es w : dump tbl (OList b p es) = Ok w <->
    exists vs, w = JList vs /\ Forall2 (fun e v => dump_elem tbl e = Ok v) es vs
               /\ (Forall primitive es \/ Forall (fun e => ~ primitive e) es).
  Proof.
    rewrite dump_list_eq. split.
    - intros H.
      assert (A : rmap JList (mapM bare es) = Ok w \/ rmap JList (mapM (dump tbl) es) = Ok w)
        by (destruct es as [|[] es]; auto).
      destruct A as [A|A]; [destruct (mapM bare es) as [vs|] eqn:Ev | destruct (mapM (dump tbl) es) as [vs|] eqn:Ev];
        simpl in A; try discriminate; injection A as <-; exists vs; (split; [reflexivity|]); apply mapM_ok in Ev.
      + split; [eapply Forall2_impl; [|exact Ev]; intros e v He; apply bare_elem in He; tauto|]. left.
        clear -tbl Ev. induction Ev as [|e v es vs He _ IH]; [constructor|constructor; [apply bare_elem in He; tauto|exact IH]].
      + split; [eapply Forall2_impl; [|exact Ev]; intros e v He; apply dump_elem_nonprim in He; tauto|]. right.
        clear -tbl Ev. induction Ev as [|e v es vs He _ IH]; [constructor|constructor; [apply dump_elem_nonprim in He; tauto|exact IH]].
    - intros (vs & -> & F & K).
      destruct es as [|e0 es]; [inversion F; reflexivity|].
      destruct K as [K|K].
      + assert (E : mapM bare (e0 :: es) = Ok vs).
        { apply mapM_ok. eapply Forall2_impl_in; [|exact F]. intros e v Hin He. apply elem_bare; [exact He|].
          rewrite Forall_forall in K. auto. }
        inversion K as [|? ? (j & Ej) _]; subst. now rewrite E.
      + assert (E : mapM (dump tbl) (e0 :: es) = Ok vs).
        { apply mapM_ok. eapply Forall2_impl_in; [|exact F]. intros e v Hin He. apply elem_dump; [exact He|].
          rewrite Forall_forall in K. auto. }
        rewrite E. inversion K as [|? ? Ej _]; subst. destruct e0; try reflexivity. exfalso. apply Ej. eexists; reflexivity.
  Qed.

  Lemma reload_list l b p p' o w : sub_ok (JList l) -> plain_builder tbl b = true ->
    construct tbl (JList l) (BListOf b) p [] = Ok o -> dump_elem tbl o = Ok w ->
    reloads tbl (BListOf b) o w (construct tbl w (BListOf b) p' []).
  Proof.
    intros IH Pb. rewrite construct_list. intros H Hd. apply bind_ok in H as (es & Hes & E). injection E as <-.
    cbn [dump_elem] in Hd. apply dump_list_iff in Hd as (vs & -> & F & K). rewrite construct_list.
    apply con_list_ok in Hes as [Hl Hn].
    assert (Hl2 : length es = length vs) by (eapply Forall2_length'; eauto).
    assert (R : forall n e v q, nth_error es n = Some e -> nth_error vs n = Some v -> reloads tbl b e v (construct tbl v b q [])).
    { intros n e v q He Hv. destruct (nth_error_same es l n e Hl He) as (x & Hx).
      apply (IH x (nth_error_In _ _ Hx) b _ q e v Pb (Hn n x e Hx He)). exact (Forall2_nth _ _ _ _ _ _ F He Hv). }
    destruct (con_list tbl b p' [] 0 vs) as [es'|e] eqn:Ev; cbn [bind reloads].
    - apply con_list_ok in Ev as [Hl' Hn'].
      assert (F' : Forall2 (fun e' v => dump_elem tbl e' = Ok v) es' vs).
      { apply nth_error_Forall2; [exact Hl'|]. intros n e' v He' Hv.
        destruct (nth_error_same vs es n v (eq_sym Hl2) Hv) as (e & He).
        specialize (R n e v (sub_path p' (nat_dec (0 + n))) He Hv). rewrite (Hn' n v e' Hv He') in R. cbn in R. tauto. }
      assert (Fp : Forall2 (fun e' e => primitive e' <-> primitive e) es' es).
      { apply nth_error_Forall2; [congruence|]. intros n e' e He' He.
        destruct (nth_error_same es vs n e Hl2 He) as (v & Hv).
        specialize (R n e v (sub_path p' (nat_dec (0 + n))) He Hv). rewrite (Hn' n v e' Hv He') in R. cbn in R. tauto. }
      split; [|split; [split; intros (? & ?); discriminate|]].
      + cbn [dump_elem]. apply dump_list_iff. exists vs. split; [reflexivity|]. split; [exact F'|].
        destruct K as [K|K]; [left|right]; apply (Forall2_transfer _ _ _ _ _ Fp K); intros ? ?; tauto.
      + intros _. simpl. assert (length es' = length es) by congruence. destruct es, es'; simpl in *; congruence.
    - apply con_list_err in Ev as (n & v & Hv & E). destruct (nth_error_same vs es n v (eq_sym Hl2) Hv) as (o & Ho).
      specialize (R n o v (sub_path p' (nat_dec (0 + n))) Ho Hv). rewrite E in R. exact R.
  Qed.

  Lemma dump_map_iff b p es w : dump tbl (OMap b p es) = Ok w <->
    exists vs, w = JDict vs /\ Forall2 (fun ke kv => fst ke = fst kv /\ dump_elem tbl (snd ke) = Ok (snd kv)) es vs.
  Proof.
    rewrite dump_map_eq. split.
    - destruct (mapM _ es) as [vs|] eqn:E; [|discriminate]. simpl. intros H. injection H as <-. exists vs. split; [reflexivity|].
      apply mapM_ok in E. eapply Forall2_impl; [|exact E]. intros [k e] [k' v] H. simpl in *.
      apply bind_ok in H as (v' & Hv & H). injection H as <- <-. auto.
    - intros (vs & -> & F). assert (mapM (fun ke => v <- dump_elem tbl (snd ke) ;; Ok (fst ke, v)) es = Ok vs) as ->; [|reflexivity].
      apply mapM_ok. eapply Forall2_impl; [|exact F]. intros [k e] [k' v] [E H]. simpl in *. rewrite H. simpl. congruence.
  Qed.

  Lemma reload_map d b p p' o w : sub_ok (JDict d) -> plain_builder tbl b = true ->
    construct tbl (JDict d) (BMapOf b) p [] = Ok o -> dump_elem tbl o = Ok w ->
    reloads tbl (BMapOf b) o w (construct tbl w (BMapOf b) p' []) /\ exists vd, w = JDict vd /\ keys vd = keys d.
  Proof.
    intros IH Pb. rewrite construct_map. intros H Hd. apply bind_ok in H as (es & Hes & E). injection E as <-.
    cbn [dump_elem] in Hd. apply dump_map_iff in Hd as (vs & -> & F). rewrite construct_map.
    apply con_map_ok in Hes.
    assert (Hkeys : keys vs = keys d).
    { transitivity (keys es).
      - clear -F. induction F as [|? ? ? ? [E _] F IH]; simpl; congruence.
      - clear -Hes. induction Hes as [|? ? ? ? [E _] F IH]; simpl; congruence. }
    split; [|eauto].
    assert (R : Forall2 (fun ke kv => fst ke = fst kv /\ forall q, reloads tbl b (snd ke) (snd kv) (construct tbl (snd kv) b q [])) es vs).
    { assert (G : forall ke, In ke es -> forall v q, dump_elem tbl (snd ke) = Ok v -> reloads tbl b (snd ke) v (construct tbl v b q [])).
      { assert (Hin : forall kx, In kx d -> part (snd kx) (JDict d)) by (intros [k x] Hx; exists k; exact Hx).
        clear -IH Hes Pb Hin. unfold sub_ok in IH. revert Hin.
        assert (Hp : forall kx, In kx d -> In kx d) by auto. revert Hp. 
        induction Hes as [|[k x] [k' e] d' es [E He] Hes IHe] in IH |- *.
        - intros _ _ ke [].
        - intros _ Hin ke [<-|Hke] v q Hv.
          + simpl in *. subst k'. apply (IH x (ex_intro _ k (or_introl eq_refl)) b _ q e v Pb He Hv).
          + apply IHe; auto.
            * intros y (k2 & Hy). apply IH. exists k2. now right.
            * intros [k2 y] Hy. exists k2. exact Hy. }
      eapply Forall2_impl_in; [|exact F]. intros ke kv Hin [E Hv]. split; [exact E|]. intros q. auto. }
    destruct (con_map tbl b p' [] vs) as [es'|e] eqn:Ev; cbn [bind reloads].
    - apply con_map_ok in Ev. split; [|split; [split; intros (? & ?); discriminate|]].
      + cbn [dump_elem]. apply dump_map_iff. exists vs. split; [reflexivity|]. clear -R Ev.
        revert es R. induction Ev as [|[k v] [k' e'] vs es' [E He] Ev IH]; intros es R; [constructor|].
        inversion R as [|[k2 e] ? es0 ? [E2 Re] R']; subst. simpl in *. subst. constructor; [|eapply IH; eauto].
        split; [reflexivity|]. simpl. specialize (Re (sub_path p' k')). rewrite He in Re. cbn in Re. tauto.
      + intros _. simpl. clear -R Ev. inversion R; subst; inversion Ev; subst; reflexivity.
    - apply con_map_err in Ev as (k & v & Hin & E). clear -R Hin E. induction R as [|ke kv es vs [_ Re] R IH]; [destruct Hin|].
      destruct Hin as [->|Hin]; [|auto]. simpl in Re. specialize (Re (sub_path p' k)). rewrite E in Re. exact Re.
  Qed.

  Lemma reload_all j : forall b p p' o w, plain_builder tbl b = true -> construct tbl j b p [] = Ok o ->
    dump_elem tbl o = Ok w -> reloads tbl b o w (construct tbl w b p' []).
  Proof.
    induction j as [j IH] using json_part_ind. fold (sub_ok j) in IH.
    induction b as [c|b IHb|b IHb| |r b IHb|b IHb]; intros p p' o w Pb H Hd.
    - destruct (reload_cls j c p p' o w IH H Hd) as [R _]. exact R.
    - assert (exists l, j = JList l) as (l & ->) by (rewrite construct_eq in H; destruct j; try discriminate; eauto).
      eapply reload_list; eauto.
    - assert (exists d, j = JDict d) as (d & ->) by (rewrite construct_eq in H; destruct j; try discriminate; eauto).
      eapply reload_map; eauto.
    - rewrite construct_eq in H. cbn in H. destruct j; try discriminate. injection H as <-. cbn in Hd. injection Hd as <-.
      rewrite construct_eq. cbn. repeat split; auto.
    - cbn [plain_builder] in Pb. apply andb_true_iff in Pb as [Pr Pb].
      destruct (lookup r tbl) as [rd|] eqn:Er; [|discriminate]. apply andb_true_iff in Pr as [Pr1 Pr2].
      rewrite construct_eq in H. cbn [select] in H.
      assert (Hnoref : forall vd, ~ In "$ref" (keys vd) -> construct tbl (JDict vd) (BRefElse r b) p' [] = construct tbl (JDict vd) b p' []).
      { intros vd Hn. rewrite !construct_eq. cbn [select py_in]. apply mem_false in Hn. rewrite Hn. reflexivity. }
      assert (Href : forall vd, In "$ref" (keys vd) -> construct tbl (JDict vd) (BRefElse r b) p' [] = construct tbl (JDict vd) (BCls r) p' []).
      { intros vd Hn. rewrite !construct_eq. cbn [select py_in]. apply mem_true in Hn. rewrite Hn. reflexivity. }
      destruct (py_in "$ref" j) as [[]|] eqn:Ei; cbn [bind] in H; [| |discriminate].
      + rewrite <- construct_cls in H. destruct (reload_cls j r p p' o w IH H Hd) as (R & Rt & Rp & vd & -> & Rk & cd & Ec & Rn).
        assert (cd = rd) by congruence. subst cd.
        assert (Kr : forall k, In k (keys vd) -> k = "$ref").
        { intros k Hk. apply Rn in Hk. destruct (c_children rd); [|discriminate]. cbn [map] in Hk. rewrite app_nil_r in Hk.
          apply in_map_iff in Hk as (f & <- & Hf). rewrite forallb_forall in Pr2. apply Pr2 in Hf. now apply String.eqb_eq. }
        destruct vd as [|[k v] vd].
        * rewrite Hnoref by (intros []). destruct b as [c| |b'| | |]; try discriminate Pb.
          -- rewrite construct_cls. unfold mem in Pb. destruct (lookup c tbl) as [cd|] eqn:Ec'; [|discriminate].
             destruct (construct_empty tbl c cd p' Ec') as [->|[-> Hno]]; cbn [reloads].
             ++ split; [eapply dump_empty; eauto|]. split; [|rewrite Rt; reflexivity].
                split; [intros (? & ?); discriminate|tauto].
             ++ auto.
          -- rewrite construct_map, con_map_eq. cbn [bind reloads]. split; [reflexivity|].
             split; [split; [intros (? & ?); discriminate|tauto]|]. cbn [direct_builder]. discriminate.
        * assert (k = "$ref") by (apply Kr; simpl; auto). subst k. rewrite Href by (simpl; auto).
          destruct (construct tbl _ (BCls r) p' []) as [o'|e]; cbn [reloads] in *; [|exact R].
          destruct R as (R1 & R2 & R3). split; [exact R1|]. split; [exact R2|]. intros _. apply R3. reflexivity.
      + assert (H' : construct tbl j b p [] = Ok o) by (rewrite construct_eq; exact H). clear H.
        assert (Rb : forall c, direct_builder b = true -> reloads tbl b o w c -> reloads tbl (BRefElse r b) o w c).
        { intros c Hb R. destruct c; cbn in *; [|exact R]. destruct R as (R1 & R2 & R3). repeat split; tauto. }
        destruct b as [c| |b'| | |]; try discriminate Pb.
        * destruct (reload_cls j c p p' o w IH H' Hd) as (R & _ & _ & vd & -> & Rk & _).
          rewrite Hnoref; [apply Rb; [reflexivity|exact R]|]. intros Hin. apply Rk in Hin. congruence.
        * assert (exists d, j = JDict d) as (d & ->) by (rewrite construct_eq in H'; destruct j; try discriminate; eauto).
          destruct (reload_map d b' p p' o w IH Pb H' Hd) as (R & vd & -> & Ek).
          rewrite Hnoref; [apply Rb; [reflexivity|exact R]|]. rewrite Ek. intros Hin. simpl in Ei. apply mem_true in Hin. congruence.
    - cbn [plain_builder] in Pb.
      assert (Hb : (exists t, j = JBool t) \/ forall t, j <> JBool t) by (destruct j; eauto; right; discriminate).
      destruct Hb as [(t & ->)|Hb].
      + rewrite construct_eq in H. cbn in H. injection H as <-. cbn in Hd. injection Hd as <-. rewrite construct_eq. cbn. repeat split; auto.
      + assert (Eb : forall x q, (forall t, x <> JBool t) -> construct tbl x (BBoolElse b) q [] = construct tbl x b q []).
        { intros x q Hx. rewrite !construct_eq. cbn [select]. destruct x; try reflexivity. now contradiction (Hx b0). }
        rewrite Eb in H by exact Hb. specialize (IHb p p' o w Pb H Hd).
        rewrite Eb; [destruct (construct tbl w b p' []); exact IHb|].
        intros t ->. destruct o; cbn [dump_elem] in Hd.
        * rewrite construct_eq in H. apply bind_ok in H as (k & Ek & H). destruct k as [v|c|b'|b'|]; cbn [con_core] in H.
          -- apply select_prim in Ek as (_ & t' & ->). now contradiction (Hb t').
          -- apply bind_ok in H as (m & _ & H). destruct (lookup c tbl); [|discriminate]. apply bind_ok in H as (? & _ & H). discriminate.
          -- apply bind_ok in H as (m & _ & H). destruct j; try discriminate. apply bind_ok in H as (? & _ & H). discriminate.
          -- apply bind_ok in H as (m & _ & H). destruct j; try discriminate. apply bind_ok in H as (? & _ & H). discriminate.
          -- destruct j; try discriminate. congruence.
        * apply dump_shape in Hd as [(? & ?)|(? & ?)]; discriminate.
        * apply dump_shape in Hd as [(? & ?)|(? & ?)]; discriminate.
        * apply dump_shape in Hd as [(? & ?)|(? & ?)]; discriminate.
  Qed.
End Reload.
