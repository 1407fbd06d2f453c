(** Lemmas about [dump]: C16, C17, C18. *)
From Coq Require Import String Ascii List Bool Arith ZArith Lia.
From Verif Require Import PyStr PyStrFacts PyVal PyValFacts Jp JpFacts Obj SpecJson SpecObj ObjFacts ShapeFacts.
Import ListNotations.
Open Scope string_scope. Open Scope nat_scope.

(** ** unfolding dump *)
Definition dump_kid tbl (kids : list (string * obj)) (ch : childdef) : res (option json) :=
  match lookup (ch_name ch) kids with
  | Some o => if truthy_obj o then rmap Some (dump tbl o) else Ok None
  | None => Ok None
  end.
Fixpoint dump_kids tbl kids (cs : list childdef) : res (list (string * json)) :=
  match cs with
  | [] => Ok []
  | ch :: cs' =>
      kid <- dump_kid tbl kids ch ;;
      rest <- dump_kids tbl kids cs' ;;
      Ok (match kid with Some v => (ch_name ch, v) :: rest | None => rest end)
  end.
(** the value of an element of a container *)
Definition dump_elem tbl (e : obj) : res json := match e with OPrim j => Ok j | _ => dump tbl e end.
Definition bare (e : obj) : res json := match e with OPrim j => Ok j | _ => Err TypeError end.

Lemma dump_obj_eq tbl c p spec kids :
  dump tbl (OObj c p spec kids) =
  match lookup c tbl with
  | None => Err KeyError
  | Some cd =>
      ks <- dump_kids tbl kids (c_children cd) ;;
      fs <- dump_fields (filter (fun f => negb (mem (f_name f) ks)) (c_fields cd)) spec ;;
      Ok (JDict (ks ++ fs))
  end.
Proof.
  cbn [dump]. destruct (lookup c tbl) as [cd|]; [|reflexivity]. apply bind_ext; [|reflexivity].
  induction (c_children cd) as [|ch cs IH]; [reflexivity|]. cbn [dump_kids].
  apply bind_ext; [|intros a; apply bind_ext; [exact IH|reflexivity]].
  unfold dump_kid. clear IH. induction kids as [|[k o] kids IHk]; [reflexivity|]. cbn [lookup].
  destruct (String.eqb (ch_name ch) k); [reflexivity|exact IHk].
Qed.
Lemma dump_list_eq tbl b p es :
  dump tbl (OList b p es) =
  match es with
  | OPrim _ :: _ => rmap JList (mapM bare es)
  | _ => rmap JList (mapM (dump tbl) es)
  end.
Proof.
  cbn [dump]. destruct es as [|e es]; [reflexivity|].
  assert (H : forall l, (fix go (es : list obj) : res (list json) :=
                           match es with [] => Ok [] | e :: es' => v <- dump tbl e ;; vs <- go es' ;; Ok (v :: vs) end) l
                        = mapM (dump tbl) l).
  { induction l as [|x l IH]; [reflexivity|]. cbn [mapM]. rewrite <- IH. reflexivity. }
  specialize (H (e :: es)). destruct e; try reflexivity; f_equal; exact H.
Qed.
Lemma dump_map_eq tbl b p es :
  dump tbl (OMap b p es) =
  rmap JDict (mapM (fun ke => v <- dump_elem tbl (snd ke) ;; Ok (fst ke, v)) es).
Proof.
  cbn [dump]. f_equal. induction es as [|[k e] es IH]; [reflexivity|]. cbn [mapM fst snd]. rewrite <- IH.
  unfold dump_elem. destruct e; simpl; try reflexivity;
    match goal with |- (_ <- ?x ;; _) = _ => destruct x; reflexivity end.
Qed.
Arguments dump : simpl never.

(** *** fields *)
Definition field_entry (spec : json) (f : fielddef) : res (list (string * json)) :=
  i <- py_in (f_name f) spec ;;
  if (i : bool) then (v <- field_get f spec ;; Ok (match v with JNull => [] | _ => [(f_name f, v)] end)) else Ok [].
Lemma dump_fields_eq fs spec : dump_fields fs spec = rmap (@concat _) (mapM (field_entry spec) fs).
Proof.
  unfold dump_fields.
  assert (H : forall acc, foldM (fun acc f =>
             i <- py_in (f_name f) spec ;;
             if (i : bool) then
               (v <- field_get f spec ;;
                Ok (match v with JNull => acc | _ => (acc ++ [(f_name f, v)])%list end))
             else Ok acc) fs acc = rmap (fun l => acc ++ concat l)%list (mapM (field_entry spec) fs)).
  { induction fs as [|f fs IH]; intros acc; cbn [foldM mapM]; [simpl; now rewrite app_nil_r|].
    unfold field_entry at 1. destruct (py_in (f_name f) spec) as [[]|]; cbn [bind]; [| |reflexivity].
    - destruct (field_get f spec) as [v|]; cbn [bind]; [|reflexivity].
      assert (G : forall e, (match v with JNull => acc | _ => acc ++ [(f_name f, v)] end)%list = (acc ++ e)%list ->
                 (match v with JNull => [] | _ => [(f_name f, v)] end) = e ->
                 foldM (fun acc f =>
             i <- py_in (f_name f) spec ;;
             if (i : bool) then
               (v <- field_get f spec ;;
                Ok (match v with JNull => acc | _ => (acc ++ [(f_name f, v)])%list end))
             else Ok acc) fs (match v with JNull => acc | _ => acc ++ [(f_name f, v)] end)%list
                 = rmap (fun l => acc ++ concat l)%list (ys <- mapM (field_entry spec) fs ;; Ok ((match v with JNull => [] | _ => [(f_name f, v)] end) :: ys))).
      { intros e E1 E2. rewrite E1, E2, IH. destruct (mapM (field_entry spec) fs); simpl; [|reflexivity].
        now rewrite app_assoc. }
      destruct v; eapply G; try reflexivity. now rewrite app_nil_r.
    - rewrite IH. destruct (mapM (field_entry spec) fs); simpl; reflexivity. }
  rewrite H. destruct (mapM (field_entry spec) fs); reflexivity.
Qed.
(** each field is dumped exactly if it is present and not null *)
Lemma field_entry_dict d f es :
  field_entry (JDict d) f = Ok es <->
  match lookup (f_name f) d with
  | None => es = []
  | Some v => f_restricted f = false /\ es = (match v with JNull => [] | _ => [(f_name f, v)] end)
  end.
Proof.
  unfold field_entry, field_get. cbn [py_in py_getitem bind]. unfold mem.
  destruct (lookup (f_name f) d) as [v|]; cbn [bind].
  - destruct (f_restricted f); cbn [bind]; [split; [discriminate | intros [? _]; discriminate]|].
    split; [intros H; injection H as <-; auto | intros [_ ->]; reflexivity].
  - split; [intros H; now injection H as <- | now intros ->].
Qed.
Lemma field_entry_keys spec f es k : field_entry spec f = Ok es -> In k (keys es) -> k = f_name f.
Proof.
  unfold field_entry. intros H. apply bind_ok in H as (i & _ & H). destruct i.
  - apply bind_ok in H as (v & _ & H). injection H as <-. destruct v; simpl; intuition.
  - injection H as <-. intros [].
Qed.
Lemma field_entry_present spec f k v es : field_entry spec f = Ok es -> In (k, v) es ->
  k = f_name f /\ v <> JNull /\ py_in k spec = Ok true /\ py_getitem k spec = Ok v /\ f_restricted f = false.
Proof.
  unfold field_entry. intros H. apply bind_ok in H as (i & Hi & H). destruct i; [|injection H as <-; intros []].
  apply bind_ok in H as (w & Hw & H). unfold field_get in Hw. rewrite Hi in Hw. cbn [bind] in Hw.
  destruct (f_restricted f); [discriminate|]. injection H as <-. intros Hin.
  assert (w <> JNull /\ (k, v) = (f_name f, w)) as [Hn E].
  { destruct w; simpl in Hin; try (destruct Hin as [Hin|[]]; split; [discriminate|auto]). destruct Hin. }
  injection E as -> ->. auto.
Qed.
Lemma dump_fields_in fs spec out k v : dump_fields fs spec = Ok out -> In (k, v) out ->
  exists f, In f fs /\ f_name f = k /\ v <> JNull /\ py_in k spec = Ok true /\ py_getitem k spec = Ok v /\ f_restricted f = false.
Proof.
  rewrite dump_fields_eq. destruct (mapM (field_entry spec) fs) as [l|] eqn:E; [|discriminate]. simpl.
  intros H Hin. injection H as <-. apply mapM_ok in E. apply in_concat in Hin as (es & Hes & Hin).
  induction E as [|f es' fs l Hf E IH]; [destruct Hes|]. destruct Hes as [->|Hes].
  - apply field_entry_present with (1 := Hf) in Hin as (-> & ? & ? & ? & ?). exists f. simpl. auto 8.
  - destruct (IH Hes) as (f' & ? & ?). exists f'. simpl. auto.
Qed.
Lemma dump_fields_keys_nodup fs spec out : NoDup (map f_name fs) -> dump_fields fs spec = Ok out -> NoDup (keys out).
Proof.
  rewrite dump_fields_eq. destruct (mapM (field_entry spec) fs) as [l|] eqn:E; [|discriminate]. simpl.
  intros Hn H. injection H as <-. apply mapM_ok in E. induction E as [|f es fs l Hf E IH]; simpl; [constructor|].
  simpl in Hn. apply NoDup_cons_iff in Hn as [Hni Hn]. unfold keys. rewrite map_app.
  assert (Hsub : forall k, In k (keys (concat l)) -> In k (map f_name fs)).
  { clear -E. induction E as [|f es fs l Hf E IH]; intros k; simpl; [auto|].
    unfold keys. rewrite map_app, in_app_iff. intros [H|H]; [left; symmetry; eapply field_entry_keys; eauto | right; auto]. }
  assert (Hes : es = [] \/ exists v, es = [(f_name f, v)]).
  { clear -Hf. unfold field_entry in Hf. apply bind_ok in Hf as (i & _ & Hf). destruct i; [|injection Hf as <-; auto].
    apply bind_ok in Hf as (v & _ & Hf). injection Hf as <-. destruct v; eauto. }
  destruct Hes as [->|(v & ->)]; simpl; [auto|]. constructor; [|auto].
  intros Hin. apply Hni, Hsub, Hin.
Qed.

(** *** children *)
Lemma dump_kids_in tbl kids cs ks k v : dump_kids tbl kids cs = Ok ks -> In (k, v) ks ->
  exists ch o, In ch cs /\ ch_name ch = k /\ lookup k kids = Some o /\ truthy_obj o = true /\ dump tbl o = Ok v.
Proof.
  revert ks. induction cs as [|ch cs IH]; intros ks H Hin; cbn [dump_kids] in H; [injection H as <-; destruct Hin|].
  apply bind_ok in H as (kid & Hk & H). apply bind_ok in H as (rest & H & E). injection E as <-.
  assert (Hin' : (exists w, kid = Some w /\ (k, v) = (ch_name ch, w)) \/ In (k, v) rest).
  { destruct kid; simpl in Hin; [destruct Hin as [Hin|Hin]; [left; eauto|auto]|auto]. }
  destruct Hin' as [(w & -> & E)|Hin'].
  - injection E as -> ->. unfold dump_kid in Hk. destruct (lookup (ch_name ch) kids) as [o|] eqn:Eo; [|discriminate].
    destruct (truthy_obj o) eqn:Et; [|discriminate]. destruct (dump tbl o) as [w'|] eqn:Ed; [|discriminate].
    injection Hk as ->. exists ch, o. simpl. auto 8.
  - destruct (IH rest H Hin') as (c & o & ? & ?). exists c, o. simpl. auto.
Qed.
Lemma dump_kids_keys tbl kids cs ks k : dump_kids tbl kids cs = Ok ks -> In k (keys ks) -> In k (map ch_name cs).
Proof.
  intros H Hin. unfold keys in Hin. apply in_map_iff in Hin as ([k' v] & <- & Hin).
  destruct (dump_kids_in _ _ _ _ _ _ H Hin) as (ch & o & Hc & <- & _). simpl. now apply in_map.
Qed.
Lemma dump_kids_nodup tbl kids cs ks : NoDup (map ch_name cs) -> dump_kids tbl kids cs = Ok ks -> NoDup (keys ks).
Proof.
  revert ks. induction cs as [|ch cs IH]; intros ks Hn H; cbn [dump_kids] in H; [injection H as <-; constructor|].
  apply bind_ok in H as (kid & Hk & H). apply bind_ok in H as (rest & H & E). injection E as <-.
  cbn [map] in Hn. apply NoDup_cons_iff in Hn as [Hni Hn]. specialize (IH rest Hn H).
  destruct kid; [|exact IH]. simpl. constructor; [|exact IH].
  intros Hin. apply Hni. eapply dump_kids_keys; eauto.
Qed.
Lemma dump_kids_lookup tbl kids cs ks ch : NoDup (map ch_name cs) -> dump_kids tbl kids cs = Ok ks -> In ch cs ->
  dump_kid tbl kids ch = Ok (lookup (ch_name ch) ks).
Proof.
  revert ks. induction cs as [|c cs IH]; intros ks Hn H Hin; [destruct Hin|]. cbn [dump_kids] in H.
  apply bind_ok in H as (kid & Hk & H). apply bind_ok in H as (rest & H & E). injection E as <-.
  cbn [map] in Hn. apply NoDup_cons_iff in Hn as [Hni Hn]. destruct Hin as [->|Hin].
  - rewrite Hk. destruct kid; simpl; [now rewrite String.eqb_refl|]. f_equal. symmetry. apply lookup_none.
    intros Hx. apply Hni. eapply dump_kids_keys; eauto.
  - rewrite (IH rest Hn H Hin). destruct kid; [|reflexivity]. simpl.
    destruct (String.eqb_spec (ch_name ch) (ch_name c)) as [E|]; [|reflexivity].
    exfalso. apply Hni. rewrite <- E. now apply in_map.
Qed.
Lemma dump_kids_total tbl kids cs :
  (forall ch, In ch cs -> exists v, dump_kid tbl kids ch = Ok v) -> exists ks, dump_kids tbl kids cs = Ok ks.
Proof.
  induction cs as [|ch cs IH]; intros H; simpl; [eauto|]. destruct (H ch (or_introl eq_refl)) as [v ->]. simpl.
  destruct IH as [ks ->]; [intros c Hc; apply H; now right|]. simpl. eauto.
Qed.

(** a dump is a dict or a list *)
Lemma dump_shape tbl o v : dump tbl o = Ok v -> (exists d, v = JDict d) \/ (exists l, v = JList l).
Proof.
  destruct o as [j|c p s kids|b p es|b p es]; [discriminate|..].
  - rewrite dump_obj_eq. destruct (lookup c tbl); [|discriminate]. intros H.
    apply bind_ok in H as (ks & _ & H). apply bind_ok in H as (fs & _ & H). injection H as <-. eauto.
  - rewrite dump_list_eq. intros H. right.
    assert (G : forall r, rmap JList r = Ok v -> exists l, v = JList l).
    { intros [l|]; simpl; intros E; [injection E as <-; eauto|discriminate]. }
    destruct es as [|[] es]; eauto.
  - rewrite dump_map_eq. destruct (mapM _ es) as [l|]; simpl; [|discriminate]. intros H. injection H as <-. eauto.
Qed.

(** ** C16 *)
Lemma same_doc_refl j : wf_json j -> same_doc j j.
Proof.
  induction j as [| | | | |l IH|d IH] using json_ind'; intros W; try (apply sd_scalar; discriminate).
  - cbn in W. apply sd_list. induction IH as [|x l Hx IH IHl]; constructor; simpl in W; [tauto|]. apply IHl; tauto.
  - cbn in W. destruct W as [Hn W]. apply sd_dict; auto; [reflexivity|].
    intros k x y Hx Hy. rewrite Hx in Hy. injection Hy as <-. apply lookup_In in Hx.
    rewrite Forall_forall in IH. apply (IH _ Hx). clear -W Hx.
    induction d as [|kv d IHd]; [destruct Hx|]. simpl in W. destruct Hx as [->|Hx]; [tauto|]. apply IHd; tauto.
Qed.

Lemma wf_list l : wf_json (JList l) <-> forall x, In x l -> wf_json x.
Proof.
  cbn. induction l as [|x l IH]; simpl; [tauto|]. rewrite IH. split; [intros [? ?] y [->|]; auto | intros H; split; auto].
Qed.
Lemma wf_dict d : wf_json (JDict d) <-> NoDup (map fst d) /\ forall k x, In (k, x) d -> wf_json x.
Proof.
  cbn [wf_json]. apply and_iff_compat_l. induction d as [|[k v] d IH]; simpl; [tauto|]. rewrite IH. split.
  - intros [? ?] k' x [E|]; [injection E as <- <-|]; eauto.
  - intros H; split; [eapply H; eauto | eauto].
Qed.
Lemma wf_part x j : wf_json j -> part x j -> wf_json x.
Proof.
  destruct j as [| | | | |l|d]; cbn [part]; try tauto.
  - rewrite wf_list. auto.
  - rewrite wf_dict. intros [_ H] (k & Hk). eauto.
Qed.

Lemma has_ref_py j : has_ref j -> py_in "$ref" j = Ok true.
Proof. intros (d & v & -> & E). simpl. unfold mem. now rewrite E. Qed.
Lemma no_ref_py d : ~ has_ref (JDict d) -> py_in "$ref" (JDict d) = Ok false.
Proof.
  intros H. simpl. unfold mem. destruct (lookup "$ref" d) as [v|] eqn:E; [|reflexivity].
  exfalso. apply H. exists d, v. auto.
Qed.
Definition core_of (k : slot_kind) (j : json) : core :=
  match k with IsObject c => KCls c | IsList b => KList b | IsMap b => KMap b | IsString => KStr | IsBool => KPrim j end.
Lemma denotes_select b j k : denotes b j k -> select b j = Ok (core_of k j).
Proof.
  induction 1 as [c j|b j|b j|j|r b j H|r b d k Hn H IH|b v|b j k Hn H IH]; cbn [select]; try reflexivity.
  - now rewrite (has_ref_py j H).
  - rewrite (no_ref_py d Hn). exact IH.
  - destruct j; try exact IH. now contradiction (Hn b0).
Qed.
Lemma denotes_string b s j k : denotes b (JStr s) IsString -> denotes b j k -> k = IsString \/ k = IsBool.
Proof.
  revert j k. induction b as [c|b IH|b IH| |r b IH|b IH]; intros j k H H'; inversion H; subst; inversion H'; subst; eauto.
Qed.

Lemma lookup_in_map {A} k (d : list (string * A)) : In k (map fst d) -> exists v, lookup k d = Some v.
Proof. apply lookup_some_in. Qed.

Lemma Forall2_mapM {A B C} (f : B -> res C) (R : C -> A -> Prop) (l : list A) (es : list B) :
  Forall2 (fun x e => exists v, f e = Ok v /\ R v x) l es -> exists vs, mapM f es = Ok vs /\ Forall2 R vs l.
Proof.
  induction 1 as [|x e l es (v & Hv & Hr) H (vs & IH & IHr)]; simpl; [eexists; split; [reflexivity|constructor]|].
  rewrite Hv. simpl. rewrite IH. simpl. eexists; split; [reflexivity|]. constructor; assumption.
Qed.

Lemma keys_in_pair {A} k (d : list (string * A)) : In k (keys d) -> exists v, In (k, v) d.
Proof. intros H. apply lookup_some_in in H as (v & H). exists v. now apply lookup_In. Qed.
Lemma in_pair_keys {A} k v (d : list (string * A)) : In (k, v) d -> In k (keys d).
Proof. intros H. apply (in_map fst) in H. exact H. Qed.

Lemma conforms_all_str tbl b s x : conforms tbl b (JStr s) -> conforms tbl b x -> exists s', x = JStr s'.
Proof.
  intros H H'. inversion H as [? ? Ds| | |]; subst.
  inversion H' as [? s' D|? b'' l' D F|? b'' d D F|? c cd d D]; subst; [eauto|..];
    destruct (denotes_string _ _ _ _ Ds D) as [E|E]; discriminate E.
Qed.

Lemma nth_error_Forall2 {A B} (R : A -> B -> Prop) l m : length l = length m ->
  (forall n x y, nth_error l n = Some x -> nth_error m n = Some y -> R x y) -> Forall2 R l m.
Proof.
  revert m. induction l as [|x l IH]; intros [|y m] Hl H; try discriminate; constructor.
  - exact (H 0 x y eq_refl eq_refl).
  - apply IH; [simpl in Hl; lia|]. intros n. exact (H (S n)).
Qed.

Lemma Forall2_impl {A B} (R S : A -> B -> Prop) l m : (forall x y, R x y -> S x y) -> Forall2 R l m -> Forall2 S l m.
Proof. intros H. induction 1; constructor; auto. Qed.

Lemma Forall2_impl_in {A B} (R S : A -> B -> Prop) l m : (forall x y, In x l -> R x y -> S x y) -> Forall2 R l m -> Forall2 S l m.
Proof. intros H F. induction F; constructor; auto with datatypes. Qed.

(** the outcome of building and dumping a conforming value *)
Definition good tbl (o : obj) (v j : json) : Prop :=
  dump_elem tbl o = Ok v /\ same_doc v j /\ (primitive o <-> exists s, j = JStr s).

Lemma good_list tbl b' path l es :
  (forall x, In x l -> conforms tbl b' x) ->
  Forall2 (fun x e => exists v, good tbl e v x) l es ->
  exists v, dump tbl (OList b' path es) = Ok v /\ same_doc v (JList l).
Proof.
  intros C F2.
  assert (Hbare : forall e v, dump_elem tbl e = Ok v -> primitive e -> bare e = Ok v).
  { intros e v H (j & ->). exact H. }
  assert (Hdump : forall e v, dump_elem tbl e = Ok v -> ~ primitive e -> dump tbl e = Ok v).
  { intros e v H Hp. destruct e; try exact H. exfalso. apply Hp. eexists; reflexivity. }
  rewrite dump_list_eq. destruct F2 as [|x0 e0 l es G0 F2].
  { simpl. eexists; split; [reflexivity|]. apply sd_list. constructor. }
  destruct G0 as (v0 & D0 & S0 & P0).
  assert (Hk : Forall2 (fun x e => exists v, good tbl e v x /\ (primitive e <-> primitive e0)) (x0 :: l) (e0 :: es)).
  { constructor; [exists v0; split; [exact (conj D0 (conj S0 P0))|reflexivity]|].
    assert (C0 := C x0 (or_introl eq_refl)).
    assert (Cl : forall x, In x l -> conforms tbl b' x) by (intros x Hx; apply C; now right). clear C.
    induction F2 as [|x e l es (v & D & S & P) F2 IH]; constructor.
    - exists v. split; [exact (conj D (conj S P))|]. rewrite P, P0. specialize (Cl x (or_introl eq_refl)).
      split; intros (s & ->); eapply conforms_all_str; eauto.
    - apply IH. intros y Hy. apply Cl. now right. }
  assert (Fin : forall r, (exists vs, r = Ok vs /\ Forall2 same_doc vs (x0 :: l)) ->
                exists v, rmap JList r = Ok v /\ same_doc v (JList (x0 :: l))).
  { intros r (vs & -> & H). simpl. eexists; split; [reflexivity|]. now apply sd_list. }
  assert (Pd : primitive e0 \/ ~ primitive e0).
  { rewrite P0. destruct x0; try (right; intros (? & ?); discriminate). left; eauto. }
  assert (Hm : forall f, (forall e v, dump_elem tbl e = Ok v -> (primitive e <-> primitive e0) -> f e = Ok v) ->
               exists vs, mapM f (e0 :: es) = Ok vs /\ Forall2 same_doc vs (x0 :: l)).
  { intros f Hf. apply Forall2_mapM. eapply Forall2_impl; [|exact Hk].
    intros x e (v & (D & S & P) & E). exists v. split; [apply Hf; assumption|assumption]. }
  destruct Pd as [Pd|Pd].
  - destruct Pd as (j & ->). apply Fin, Hm. intros e v D E. apply Hbare; [exact D|]. apply E. eexists; reflexivity.
  - assert (G : exists v, rmap JList (mapM (dump tbl) (e0 :: es)) = Ok v /\ same_doc v (JList (x0 :: l))).
    { apply Fin, Hm. intros e v D E. apply Hdump; [exact D|]. rewrite E. exact Pd. }
    destruct e0; try exact G. exfalso. apply Pd. eexists; reflexivity.
Qed.

Lemma good_map tbl b' path d es : NoDup (map fst d) ->
  Forall2 (fun kx ke => fst kx = fst ke /\ exists v, good tbl (snd ke) v (snd kx)) d es ->
  exists v, dump tbl (OMap b' path es) = Ok v /\ same_doc v (JDict d).
Proof.
  intros Hn F2. rewrite dump_map_eq.
  destruct (Forall2_mapM (fun ke => v <- dump_elem tbl (snd ke) ;; Ok (fst ke, v))
              (fun kv kx => fst kv = fst kx /\ same_doc (snd kv) (snd kx)) d es) as (vs & -> & H).
  { eapply Forall2_impl; [|exact F2]. intros [k x] [k' e] (E & v & D & S & _). simpl in *. subst k'.
    exists (k, v). rewrite D. simpl. auto. }
  simpl. eexists; split; [reflexivity|].
  assert (Hkeys : map fst vs = map fst d).
  { clear -H. induction H as [|? ? ? ? [E _] H IH]; simpl; congruence. }
  apply sd_dict; rewrite ?Hkeys; auto; [reflexivity|].
  intros k x y Hx Hy. clear -H Hx Hy. induction H as [|[k1 v1] [k2 x2] vs d [E S] H IH]; [discriminate|].
  simpl in E, S. subst k2. simpl in Hx, Hy. destruct (String.eqb k k1); [congruence|auto].
Qed.

Lemma app_nodup {A} (l m : list A) : NoDup l -> NoDup m -> (forall x, In x l -> ~ In x m) -> NoDup (l ++ m).
Proof.
  induction 1 as [|x l Hx Hn IH]; intros Hm Hd; simpl; [exact Hm|]. constructor.
  - rewrite in_app_iff. intros [H|H]; [auto | apply (Hd x); simpl; auto].
  - apply IH; [exact Hm|]. intros y Hy. apply Hd. now right.
Qed.

Lemma NoDup_app_iff_local {A} (l m : list A) : NoDup (l ++ m) -> NoDup l /\ NoDup m /\ forall x, In x l -> ~ In x m.
Proof.
  induction l as [|x l IH]; simpl; intros H; [repeat split; [constructor|exact H|tauto]|].
  apply NoDup_cons_iff in H as [Hx H]. rewrite in_app_iff in Hx. destruct (IH H) as (Hl & Hm & Hd).
  split; [constructor; tauto|]. split; [exact Hm|]. intros y [->|Hy]; auto.
Qed.
Lemma NoDup_map_inj_local {A B} (f : A -> B) l x y : NoDup (map f l) -> In x l -> In y l -> f x = f y -> x = y.
Proof.
  induction l as [|z l IH]; simpl; intros Hn Hx Hy E; [destruct Hx|]. apply NoDup_cons_iff in Hn as [Hz Hn].
  destruct Hx as [->|Hx], Hy as [->|Hy]; auto; exfalso; apply Hz; [rewrite E|rewrite <- E]; now apply in_map.
Qed.

Lemma declared_nodup cd : distinct_names cd ->
  NoDup (map f_name (c_fields cd)) /\ NoDup (map ch_name (c_children cd)) /\
  forall f ch, In f (c_fields cd) -> In ch (c_children cd) -> f_name f <> ch_name ch.
Proof.
  intros H. apply NoDup_app_iff_local in H as (H1 & H2 & H3). repeat split; auto.
  intros f ch Hf Hc E. apply (H3 (f_name f)); [now apply in_map | rewrite E; now apply in_map].
Qed.

Lemma good_object tbl c cd path d kids : distinct_names cd -> lookup c tbl = Some cd -> wf_json (JDict d) ->
  (forall k v, In (k, v) d -> v <> JNull) ->
  (forall k v, In (k, v) d -> (exists f, In f (c_fields cd) /\ f_name f = k /\ f_restricted f = false)
                              \/ (exists ch, In ch (c_children cd) /\ ch_name ch = k)) ->
  (forall ch, In ch (c_children cd) ->
     match lookup (ch_name ch) d with
     | None => lookup (ch_name ch) kids = None
     | Some x => exists o v, lookup (ch_name ch) kids = Some o /\ truthy_obj o = true /\ dump tbl o = Ok v /\ same_doc v x
     end) ->
  exists v, dump tbl (OObj c path (JDict d) kids) = Ok v /\ same_doc v (JDict d).
Proof.
  intros Dn Ec W Hnn Hdecl Hkids. apply wf_dict in W as [Hnd W].
  destruct (declared_nodup cd Dn) as (Nf & Nc & Dfc).
  rewrite dump_obj_eq, Ec.
  destruct (dump_kids_total tbl kids (c_children cd)) as (ks & Eks).
  { intros ch Hin. specialize (Hkids ch Hin). unfold dump_kid.
    destruct (lookup (ch_name ch) d) as [x|]; [|rewrite Hkids; eauto].
    destruct Hkids as (o & v & -> & -> & -> & _). simpl; eauto. }
  rewrite Eks. cbn [bind].
  assert (Ff : filter (fun f => negb (mem (f_name f) ks)) (c_fields cd) = c_fields cd).
  { assert (H : forall f, In f (c_fields cd) -> mem (f_name f) ks = false).
    { intros f Hf. apply mem_false. intros Hin. apply (dump_kids_keys _ _ _ _ _ Eks) in Hin.
      apply in_map_iff in Hin as (ch & E & Hc). eapply Dfc; eauto. }
    clear -H. induction (c_fields cd) as [|f fs IH]; [reflexivity|]. simpl. rewrite (H f) by now left. simpl.
    f_equal. apply IH. intros g Hg. apply H. now right. }
  rewrite Ff.
  assert (Hent : forall f, In f (c_fields cd) -> field_entry (JDict d) f = Ok (match lookup (f_name f) d with Some v => [(f_name f, v)] | None => [] end)).
  { intros f Hf. apply field_entry_dict. destruct (lookup (f_name f) d) as [v|] eqn:Ev; [|reflexivity].
    apply lookup_In in Ev. split.
    - destruct (Hdecl _ _ Ev) as [(f' & Hf' & En & Hr)|(ch & Hc & En)]; [|exfalso; eapply Dfc; eauto].
      assert (f' = f) by (eapply NoDup_map_inj_local; eauto). subst f'. exact Hr.
    - specialize (Hnn _ _ Ev). destruct v; congruence. }
  rewrite dump_fields_eq.
  rewrite (mapM_total (field_entry (JDict d)) (fun f => match lookup (f_name f) d with Some v => [(f_name f, v)] | None => [] end))
    by (apply Forall_forall; exact Hent).
  cbn [rmap bind]. eexists; split; [reflexivity|].
  set (fs := concat (map (fun f => match lookup (f_name f) d with Some v => [(f_name f, v)] | None => [] end) (c_fields cd))).
  assert (Hfs : forall k v, In (k, v) fs <-> (exists f, In f (c_fields cd) /\ f_name f = k) /\ lookup k d = Some v).
  { intros k v. unfold fs. rewrite in_concat. split.
    - intros (es & Hes & Hin). apply in_map_iff in Hes as (f & <- & Hf).
      destruct (lookup (f_name f) d) as [w|] eqn:Ew; [|destruct Hin]. destruct Hin as [E|[]]. injection E as <- <-. eauto.
    - intros ((f & Hf & <-) & E). exists [(f_name f, v)]. split; [|simpl; auto].
      apply in_map_iff. exists f. rewrite E. auto. }
  assert (Nfs : NoDup (keys fs)).
  { apply (dump_fields_keys_nodup (c_fields cd) (JDict d)); [exact Nf|]. rewrite dump_fields_eq.
    rewrite (mapM_total (field_entry (JDict d)) (fun f => match lookup (f_name f) d with Some v => [(f_name f, v)] | None => [] end))
      by (apply Forall_forall; exact Hent). reflexivity. }
  assert (Hks : forall k v, In (k, v) ks -> exists x, lookup k d = Some x /\ same_doc v x).
  { intros k v Hin. destruct (dump_kids_in _ _ _ _ _ _ Eks Hin) as (ch & o & Hc & <- & Eo & Et & Ed).
    specialize (Hkids ch Hc). destruct (lookup (ch_name ch) d) as [x|]; [|congruence].
    destruct Hkids as (o' & v' & E1 & _ & E2 & E3). exists x. split; [reflexivity|congruence]. }
  assert (Nall : NoDup (map fst (ks ++ fs))).
  { rewrite map_app. apply app_nodup; [eapply dump_kids_nodup; eauto | exact Nfs |].
    intros k Hk Hk'. apply (dump_kids_keys _ _ _ _ _ Eks) in Hk. apply in_map_iff in Hk as (ch & <- & Hc).
    apply keys_in_pair in Hk' as (v & Hv). apply Hfs in Hv as ((f & Hf & E) & _). eapply Dfc; eauto. }
  apply sd_dict; [exact Nall | exact Hnd | |].
  - intros k. rewrite map_app, in_app_iff. split.
    + intros [H|H]; apply keys_in_pair in H as (v & H).
      * apply Hks in H as (x & H & _). apply lookup_In in H. eapply in_pair_keys; eauto.
      * apply Hfs in H as (_ & H). apply lookup_In in H. eapply in_pair_keys; eauto.
    + intros H. apply lookup_some_in in H as (x & H). apply lookup_In in H as H'.
      destruct (Hdecl _ _ H') as [(f & Hf & En & _)|(ch & Hc & En)].
      * right. apply (in_pair_keys k x). apply Hfs. eauto.
      * left. subst k. specialize (Hkids ch Hc). rewrite H in Hkids.
        destruct Hkids as (o & v & E1 & E2 & E3 & _).
        assert (Ek := dump_kids_lookup _ _ _ _ ch Nc Eks Hc). unfold dump_kid in Ek. rewrite E1, E2, E3 in Ek. simpl in Ek.
        injection Ek as Ek. symmetry in Ek. apply lookup_In in Ek. eapply in_pair_keys; eauto.
  - intros k x y Hx Hy. apply lookup_In in Hx. apply in_app_iff in Hx as [Hx|Hx].
    + apply Hks in Hx as (x' & Hx' & Hs). congruence.
    + apply Hfs in Hx as (_ & Hx). rewrite Hx in Hy. injection Hy as <-. apply same_doc_refl.
      apply lookup_In in Hx. eauto.
Qed.

Lemma conforms_dump tbl : well_declared tbl -> forall j b path, wf_json j -> conforms tbl b j ->
  exists o v, construct tbl j b path [] = Ok o /\ good tbl o v j /\ (filled b j -> truthy_obj o = true).
Proof.
  intros Wt j. induction j as [j IH] using json_part_ind. intros b path W C.
  rewrite construct_eq. inversion C as [? s D|? b' l D F|? b' d D F|? c cd d D Ec Hnn Hdecl Hch Hreq]; subst;
    rewrite (denotes_select _ _ _ D); cbn [bind core_of con_core].
  - exists (OPrim (JStr s)), (JStr s). repeat split.
    + apply sd_scalar; discriminate.
    + intros _. eauto.
    + intros _. eexists; reflexivity.
    + intros H; inversion H.
  - rewrite split_nil. cbn [bind].
    destruct (con_list_total tbl b' path 0 l) as (es & Ees).
    { intros x p Hx. destruct (IH x Hx b' p (wf_part _ _ W Hx) (F x Hx)) as (o & v & Ho & _). eauto. }
    rewrite Ees. cbn [bind].
    assert (F2 : Forall2 (fun x e => exists v, good tbl e v x) l es).
    { apply con_list_ok in Ees as [Hl Hn]. apply nth_error_Forall2; [auto|]. intros n x e Hx He.
      specialize (Hn n x e Hx He).
      assert (Hin : In x l) by (eapply nth_error_In; eauto).
      destruct (IH x Hin b' (sub_path path (nat_dec (0 + n))) (wf_part _ _ W Hin) (F x Hin)) as (o & v & Ho & Hv & _).
      rewrite Hn in Ho. injection Ho as <-. eauto. }
    destruct (good_list tbl b' path l es F F2) as (v & Dv & Sv).
    exists (OList b' path es), v. repeat split; auto.
    + intros (j & H); discriminate.
    + intros (s & H); discriminate.
    + intros Hf. inversion Hf; subst. inversion F2; reflexivity.
  - rewrite split_nil. cbn [bind].
    destruct (con_map_total tbl b' path d) as (es & Ees).
    { intros k x p Hx. destruct (IH x (ex_intro _ k Hx) b' p (wf_part _ _ W (ex_intro _ k Hx)) (F k x Hx)) as (o & v & Ho & _). eauto. }
    rewrite Ees. cbn [bind].
    assert (F2 : Forall2 (fun kx ke => fst kx = fst ke /\ exists v, good tbl (snd ke) v (snd kx)) d es).
    { apply con_map_ok in Ees. eapply Forall2_impl_in; [|exact Ees]. intros [k x] [k' e] Hx [E He].
      simpl in E, He. subst k'. split; [reflexivity|].
      destruct (IH x (ex_intro _ k Hx) b' (sub_path path k) (wf_part _ _ W (ex_intro _ k Hx)) (F k x Hx)) as (o & v & Ho & Hv & _).
      rewrite He in Ho. injection Ho as <-. eauto. }
    apply wf_dict in W as [Hnd _].
    destruct (good_map tbl b' path d es Hnd F2) as (v & Dv & Sv).
    exists (OMap b' path es), v. repeat split; auto.
    + intros (j & H); discriminate.
    + intros (s & H); discriminate.
    + intros Hf. inversion Hf as [|? b2 ? D2 Hd|? ? ? D2]; subst.
      * inversion F2; subst; [congruence|reflexivity].
      * apply denotes_select in D, D2. rewrite D in D2. discriminate.
  - rewrite split_nil, Ec. cbn [bind].
    destruct (declared_nodup cd (Wt c cd Ec)) as (Nf & Nc & Dfc).
    assert (Hcd : forall ch, In ch (c_children cd) ->
              match lookup (ch_name ch) d with
              | None => con_child tbl path [] (JDict d) ch = Ok None
              | Some x => exists o v, con_child tbl path [] (JDict d) ch = Ok (Some o) /\ truthy_obj o = true /\ dump tbl o = Ok v /\ same_doc v x
              end).
    { intros ch Hc. unfold con_child. rewrite ovr_get_nil, ovr_here_nil.
      destruct (lookup (ch_name ch) d) as [x|] eqn:Ex.
      - apply lookup_In in Ex. assert (Hx : part x (JDict d)) by (exists (ch_name ch); exact Ex).
        destruct (Hch ch x Hc Ex) as [Cx Fx].
        destruct (IH x Hx (ch_builder ch) (sub_path path (ch_name ch)) (wf_part _ _ W Hx) Cx) as (o & v & Ho & (Dv & Sv & Pv) & Hfill).
        exists o, v. rewrite Ho. split; [destruct x; try reflexivity; exfalso; exact (Hnn _ _ Ex eq_refl)|].
        split; [auto|]. split; [|exact Sv]. destruct o; try exact Dv. exfalso.
        destruct (proj1 Pv (ex_intro _ j eq_refl)) as (s & ->). inversion Fx.
      - destruct (ch_required ch) eqn:Er; [|reflexivity]. exfalso.
        apply lookup_none in Ex. apply Ex. exact (Hreq ch Hc Er). }
    destruct (con_kids_total tbl path [] (JDict d) (c_children cd)) as (kids & Ek).
    { intros ch Hc. specialize (Hcd ch Hc). destruct (lookup (ch_name ch) d); [|eauto].
      destruct Hcd as (o & v & -> & _). eauto. }
    rewrite Ek. cbn [bind].
    destruct (good_object tbl c cd path d kids (Wt c cd Ec) Ec W Hnn Hdecl) as (v & Dv & Sv).
    { intros ch Hc. specialize (Hcd ch Hc). assert (El := con_kids_lookup _ _ _ _ _ _ ch Ek Nc Hc).
      destruct (lookup (ch_name ch) d) as [x|].
      - destruct Hcd as (o & v & E & Ht & Hd & Hs). exists o, v. rewrite El in E. injection E as ->. auto.
      - rewrite El in Hcd. now injection Hcd. }
    exists (OObj c path (JDict d) kids), v. repeat split; auto.
    + intros (j & H); discriminate.
    + intros (s & H); discriminate.
Qed.
