(** The documents the converters of 2.0 make have no two entries with the same key. *)
From Coq Require Import String Ascii List Bool Arith Lia.
From Verif Require Import PyStr PyStrFacts PyVal PyValFacts Jp JpFacts Urls Obj ObjFacts SpecJson SpecObj ShapeFacts DumpFacts ResolveFacts PropertiesObjAux
  Classes_v2_0 Store Conv20 SpecTables SpecOpen.
Import ListNotations.
Open Scope string_scope. Open Scope nat_scope.

(** ** results that are, if they are, of some kind *)
Definition okp {A} (P : A -> Prop) (r : res A) : Prop := forall x, r = Ok x -> P x.
Lemma okp_ok {A} (P : A -> Prop) x : P x -> okp P (Ok x).
Proof. intros H y E. injection E as <-. exact H. Qed.
Lemma okp_err {A} (P : A -> Prop) e : okp P (Err e).
Proof. intros y E. discriminate E. Qed.
Lemma okp_bind {A B} (P : A -> Prop) (Q : B -> Prop) r f : okp P r -> (forall x, P x -> okp Q (f x)) -> okp Q (bind r f).
Proof. intros H K y E. apply bind_ok in E as (x & E & F). exact (K x (H x E) y F). Qed.
Lemma okp_rmap {A B} (P : A -> Prop) (Q : B -> Prop) (f : A -> B) r : okp P r -> (forall x, P x -> Q (f x)) -> okp Q (rmap f r).
Proof. intros H K y E. destruct r as [x|]; [|discriminate E]. injection E as <-. apply K, H. reflexivity. Qed.
Lemma okp_any {A} (r : res A) : okp (fun _ => True) r.
Proof. intros x _. exact I. Qed.
Lemma okp_fold {A B} (Q : A -> Prop) (P : B -> Prop) (f : B -> A -> res B) : (forall b a, P b -> Q a -> okp P (f b a)) ->
  forall l b, (forall a, In a l -> Q a) -> P b -> okp P (foldM f l b).
Proof.
  intros H. induction l as [|a l IH]; intros b Ql Pb; cbn [foldM]; [now apply okp_ok|].
  apply (okp_bind P); [apply H; [exact Pb|apply Ql; now left]|]. intros x Px. apply IH; [|exact Px]. intros a' I. apply Ql. now right.
Qed.
Lemma okp_map {A B} (Q : A -> Prop) (P : B -> Prop) (f : A -> res B) : (forall a, Q a -> okp P (f a)) -> forall l, (forall a, In a l -> Q a) -> okp (fun ys => forall y, In y ys -> P y) (mapM f l).
Proof.
  intros H l Ql ys E. apply mapM_ok in E. induction E as [|a y l ys E F IH]; [intros y []|].
  intros y' [<-|I]; [exact (H a (Ql a (or_introl eq_refl)) _ E)|]. apply IH; [|exact I]. intros a' I'. apply Ql. now right.
Qed.

(** ** well-formed documents *)
Definition wfd (d : list (string * json)) : Prop := wf_json (JDict d).
Lemma wfd_nil : wfd [].
Proof. split; [constructor|exact I]. Qed.
Lemma wfd_one k v : wf_json v -> wfd [(k, v)].
Proof. intros H. split; [repeat constructor; intros []|]. cbn. auto. Qed.
Lemma wfd_set k v d : wf_json v -> wfd d -> wfd (dict_set k v d).
Proof.
  intros V W. apply wf_dict in W as [N W]. apply wf_dict. split; [apply (nodup_dict_set k v d N)|]. intros k' x I.
  revert I. clear N. induction d as [|[k1 v1] d IH]; cbn [dict_set]; [intros [E|[]]; injection E as <- <-; exact V|].
  destruct (String.eqb k k1).
  - intros [E|I]; [injection E as <- <-; exact V|exact (W k' x (or_intror I))].
  - intros [E|I]; [injection E as <- <-; exact (W _ _ (or_introl eq_refl))|]. apply IH; [|exact I]. intros k2 x2 I2. exact (W k2 x2 (or_intror I2)).
Qed.
Lemma wfd_update : forall e d, (forall k v, In (k, v) e -> wf_json v) -> wfd d -> wfd (dict_update d e).
Proof.
  unfold dict_update. induction e as [|[k v] e IH]; intros d H W; cbn [fold_left fst snd]; [exact W|]. apply IH; [|apply wfd_set; [exact (H k v (or_introl eq_refl))|exact W]].
  intros k' v' I. exact (H k' v' (or_intror I)).
Qed.
Lemma wfd_in d k v : wfd d -> In (k, v) d -> wf_json v.
Proof. intros W I. apply wf_dict in W as [_ W]. exact (W k v I). Qed.
Lemma wfd_lookup d k v : wfd d -> lookup k d = Some v -> wf_json v.
Proof. intros W L. apply PyValFacts.lookup_In in L. exact (wfd_in d k v W L). Qed.
Lemma wf_strs l : (forall x, In x l -> wf_json x) -> wf_json (JList l).
Proof. intros H. now apply wf_list. Qed.
Lemma get_dict_wf k d : wfd d -> okp wfd (get_dict k d).
Proof.
  intros W x E. unfold get_dict in E. destruct (lookup k d) as [v|] eqn:L; [|injection E as <-; apply wfd_nil]. destruct v; try discriminate E. injection E as <-. exact (wfd_lookup _ _ _ W L).
Qed.

(** ** objects *)
Lemma nodup_join {A} (l m : list A) : NoDup l -> NoDup m -> (forall x, In x l -> ~ In x m) -> NoDup (l ++ m).
Proof.
  induction l as [|x l IH]; intros N M D; [exact M|]. inversion N as [|? ? NI N']; subst. cbn. constructor.
  - intros I. apply in_app_or in I as [I|I]; [exact (NI I)|exact (D x (or_introl eq_refl) I)].
  - apply IH; [exact N'|exact M|]. intros y I. exact (D y (or_intror I)).
Qed.
Lemma nodup_filtered {A B} (f : A -> B) (g : A -> bool) l : NoDup (map f l) -> NoDup (map f (filter g l)).
Proof.
  induction l as [|x l IH]; cbn; intros N; [exact N|]. inversion N as [|? ? NI N']; subst. destruct (g x); [|exact (IH N')]. cbn. constructor; [|exact (IH N')].
  intros I. apply in_map_iff in I as (y & E & I). apply filter_In in I as [I _]. apply NI. rewrite <- E. now apply in_map.
Qed.
Section Table.
  Variable T : ctable.
  Hypothesis WD : well_declared T.
  Lemma construct_wf : forall j, wf_json j -> forall b p, okp wf_obj (construct T j b p []).
  Proof.
    induction j as [j IH] using json_part_ind. intros W b p o C. rewrite construct_eq in C. apply bind_ok in C as (k & K & C).
    destruct k as [v|c|b'|b'|]; cbn [con_core] in C.
    - injection C as <-. constructor. revert K. clear -W. induction b as [c|b IH|b IH| |r b IH|b IH]; cbn [select]; intros K; try discriminate K; auto.
      + apply bind_ok in K as ([] & _ & K); [discriminate K|exact (IH K)].
      + destruct j; auto; injection K as <-; exact I.
    - rewrite split_nil in C. cbn [bind] in C. destruct (lookup c T) as [cd|] eqn:Tc; [|discriminate C]. apply bind_ok in C as (kids & CK & E). injection E as <-.
      constructor; [exact W|]. intros k x I. apply con_kids_ok in CK as (ks & F & ->). clear -IH W F I.
      induction F as [|ch k0 cs ks C F IHF]; [destruct I|]. cbn [combine map concat fst snd] in I. apply in_app_or in I as [I|I]; [|exact (IHF I)].
      unfold kid_entry in I. destruct k0 as [y|]; [|destruct I]. destruct I as [E|[]]. injection E as _ <-.
      unfold con_child in C. rewrite ovr_get_nil, ovr_here_nil in C. destruct j as [| | | | | |d]; try (apply bind_ok in C as (? & _ & C); discriminate C).
      destruct (lookup (ch_name ch) d) as [v|] eqn:L; [|destruct (ch_required ch); discriminate C].
      assert (P : part v (JDict d)) by (exists (ch_name ch); now apply PyValFacts.lookup_In).
      assert (G : rmap Some (construct T v (ch_builder ch) (sub_path p (ch_name ch)) []) = Ok (Some y)) by (destruct v; try discriminate C; exact C).
      destruct (construct T v _ _ _) as [y'|] eqn:E; [|discriminate G]. injection G as <-. exact (IH v P (wf_part _ _ W P) _ _ _ E).
    - rewrite split_nil in C. cbn [bind] in C. destruct j as [| | | | |l|]; try discriminate C. apply bind_ok in C as (es & CL & E). injection E as <-.
      constructor. intros x I. apply con_list_ok in CL as [HL CL]. apply In_nth_error in I as [n N].
      destruct (nth_error l n) as [v|] eqn:NV. 2:{ apply nth_error_None in NV. assert (n < length es) by (apply nth_error_Some; congruence). lia. }
      assert (P : part v (JList l)) by (cbn; now apply nth_error_In in NV). exact (IH v P (wf_part _ _ W P) _ _ _ (CL n v x NV N)).
    - rewrite split_nil in C. cbn [bind] in C. destruct j as [| | | | | |d]; try discriminate C. apply bind_ok in C as (es & CM & E). injection E as <-. apply con_map_ok in CM.
      assert (KE : map fst es = map fst d) by (clear -CM; induction CM as [|x y d es [H _] F IHF]; cbn; congruence).
      constructor; [rewrite KE; apply wf_dict in W; apply W|]. intros k x I. clear KE.
      assert (G : exists k v q, In (k, v) d /\ construct T v b' q [] = Ok x).
      { clear -CM I. induction CM as [|[k1 v] [k2 y] d es [H C] F IHF]; [destruct I|]. destruct I as [E|I].
        - injection E as _ <-. exists k1, v. eexists. split; [now left|exact C].
        - destruct (IHF I) as (k' & v' & q & I' & C'). exists k', v', q. split; [now right|exact C']. }
      destruct G as (k' & v & q & I' & C). assert (P : part v (JDict d)) by (exists k'; exact I'). exact (IH v P (wf_part _ _ W P) _ _ _ C).
    - destruct j; try discriminate C. injection C as <-. constructor. exact I.
  Qed.
  Lemma getitem_wf k s : wf_json s -> okp wf_json (py_getitem k s).
  Proof. intros W x E. destruct s; try discriminate E. cbn in E. destruct (lookup k d) as [v|] eqn:L; [|discriminate E]. injection E as <-. exact (wfd_lookup _ _ _ W L). Qed.
  Lemma dump_wf : forall o, wf_obj o -> okp wf_json (dump T o).
  Proof.
    induction o as [j|c p s kids IH|b p es IH|b p es IH] using obj_ind'; intros W v E; rewrite ?Forall_forall in *.
    - discriminate E.
    - inversion W as [|? ? ? ? Ws Wk| |]; subst. rewrite dump_obj_eq in E. destruct (lookup c T) as [cd|] eqn:Tc; [|discriminate E].
      apply bind_ok in E as (ks & EK & E). apply bind_ok in E as (fs & EF & E). injection E as <-. pose proof (WD c cd Tc) as D. unfold distinct_names in D.
      apply NoDup_app_iff_local in D. apply wf_dict. split.
      + rewrite map_app. apply nodup_join.
        * apply (dump_kids_nodup T kids (c_children cd)); [|exact EK]. exact (proj1 (proj2 D)).
        * apply (dump_fields_keys_nodup _ s fs) in EF; [exact EF|]. apply nodup_filtered. exact (proj1 D).
        * intros k Ik If. apply in_map_iff in If as ([k' x] & E & If). cbn in E. subst k'. destruct (dump_fields_in _ _ _ _ _ EF If) as (f & Inf & <- & _).
          apply filter_In in Inf as [Inf _]. apply (dump_kids_keys _ _ _ _ _ EK) in Ik. exact (proj2 (proj2 D) _ (in_map f_name _ _ Inf) Ik).
      + intros k x I. apply in_app_or in I as [I|I].
        * destruct (dump_kids_in _ _ _ _ _ _ EK I) as (ch & y & _ & _ & L & _ & D'). apply PyValFacts.lookup_In in L. exact (IH (k, y) L (Wk _ _ L) _ D').
        * destruct (dump_fields_in _ _ _ _ _ EF I) as (f & _ & _ & _ & _ & G & _). exact (getitem_wf _ _ Ws _ G).
    - inversion W as [| |? ? ? We|]; subst. rewrite dump_list_eq in E.
      assert (A : rmap JList (mapM bare es) = Ok v -> wf_json v).
      { apply (okp_rmap (fun ys => forall y, In y ys -> wf_json y)); [|intros x H; now apply wf_list]. apply (okp_map wf_obj); [|exact We].
        intros a Wa x Ex. destruct a; try discriminate Ex. injection Ex as <-. now inversion Wa. }
      assert (B : rmap JList (mapM (dump T) es) = Ok v -> wf_json v).
      { apply (okp_rmap (fun ys => forall y, In y ys -> wf_json y)); [|intros x H; now apply wf_list]. apply (okp_map (fun a => In a es)); [|auto].
        intros a Ia. exact (IH a Ia (We a Ia)). }
      destruct es as [|[] es]; auto.
    - inversion W as [| | |? ? ? N We]; subst. rewrite dump_map_eq in E. destruct (mapM _ es) as [d|] eqn:M; [|discriminate E]. injection E as <-. apply mapM_ok in M.
      apply wf_dict. split.
      + assert (KE : map fst d = map fst es). { clear -M. induction M as [|e x es d H F IHF]; [reflexivity|]. cbn. apply bind_ok in H as (v & _ & H). injection H as <-. cbn. congruence. }
        rewrite KE. exact N.
      + intros k x I. clear N W. induction M as [|[k1 e] y es d H F IHF]; [destruct I|]. destruct I as [->|I].
        * apply bind_ok in H as (v & Hv & H). injection H as _ <-. cbn [snd] in Hv. pose proof (We k1 e (or_introl eq_refl)) as Wx. unfold dump_elem in Hv.
          destruct e; [injection Hv as <-; now inversion Wx|..]; exact (IH _ (or_introl eq_refl) Wx _ Hv).
        * apply IHF; [|intros k2 o2 I2; exact (We k2 o2 (or_intror I2))|exact I]. intros z Iz. apply IH. now right.
  Qed.
End Table.

(** ** attributes *)
Lemma v20_declared : well_declared v20_table.
Proof. exact (repo_wd v20_table rt_v20). Qed.
Definition simple (j : json) : bool := match j with JList [] | JDict [] | JNull | JBool _ | JInt _ | JStr _ => true | _ => false end.
Definition simple_defaults (T : ctable) : bool :=
  forallb (fun c => forallb (fun f => simple (f_default f)) (c_fields (snd c)) && forallb (fun x => simple (snd x)) (c_internal (snd c))) T.
Lemma simple_wf j : simple j = true -> wf_json j.
Proof. destruct j as [| | | | |[|]|[|]]; try discriminate; intros _; cbn; auto. split; [constructor|exact I]. Qed.
Lemma getattr_wf T c cd p s kids n : simple_defaults T = true -> lookup c T = Some cd -> wf_obj (OObj c p s kids) -> okp wf_obj (getattr_ T cd p s kids n).
Proof.
  intros D L W x E. inversion W as [|? ? ? ? Ws Wk| |]; subst. apply PyValFacts.lookup_In in L.
  unfold simple_defaults in D. rewrite forallb_forall in D. specialize (D _ L). cbn [snd] in D. apply andb_prop in D as [DF DI]. rewrite forallb_forall in DF, DI. clear L.
  assert (PL : forall m y, getattr_plain T cd p s kids m = Ok y -> wf_obj y).
  { intros m y. unfold getattr_plain. destruct (find_child m (c_children cd)).
    - intros H. injection H as <-. destruct (lookup m kids) as [z|] eqn:Lz; [|constructor; exact I]. apply PyValFacts.lookup_In in Lz. exact (Wk _ _ Lz).
    - destruct (find_child m (c_lazy cd)) as [ch|].
      + intros H. apply bind_ok in H as ([] & _ & H).
        * apply bind_ok in H as (v & Hv & H). apply (getitem_wf _ _ Ws) in Hv. destruct v; try (exact (construct_wf T _ Hv _ _ _ H)). injection H as <-. constructor. exact I.
        * destruct (ch_required ch); [discriminate H|]. injection H as <-. constructor. exact I.
      + unfold find_field. destruct (find _ (c_fields cd)) as [f|] eqn:Ff; [|discriminate]. apply find_some in Ff as [If _]. intros H.
        destruct (field_get f s) as [v|] eqn:Fv; [|discriminate H]. injection H as <-. constructor. unfold field_get in Fv. apply bind_ok in Fv as ([] & _ & Fv).
        * destruct (f_restricted f); [discriminate Fv|]. exact (getitem_wf _ _ Ws _ Fv).
        * destruct (f_required f); [discriminate Fv|]. injection Fv as <-. apply simple_wf. exact (DF f If). }
  unfold getattr_ in E. destruct (find_child n (c_children cd)); [exact (PL _ _ E)|]. destruct (find_child n (c_lazy cd)); [exact (PL _ _ E)|].
  destruct (lookup n (c_renames cd)); [exact (PL _ _ E)|]. destruct (lookup n (c_internal cd)) as [v|] eqn:Li; [|exact (PL _ _ E)]. injection E as <-. constructor.
  apply PyValFacts.lookup_In in Li. exact (simple_wf v (DI _ Li)).
Qed.
Lemma v20_simple : simple_defaults v20_table = true.
Proof. vm_compute. reflexivity. Qed.
Lemma gattr_wf o n : wf_obj o -> okp wf_obj (gattr o n).
Proof.
  intros W x E. destruct o as [|c p s kids| |]; try discriminate E. unfold gattr in E.
  destruct (lookup c v20_table) as [cd|] eqn:L; [|discriminate E]. exact (getattr_wf v20_table c cd p s kids n v20_simple L W x E).
Qed.
Lemma gattr_none_wf o n : wf_obj o -> okp wf_obj (gattr_none o n).
Proof.
  intros W x E. unfold gattr_none in E. pose proof (gattr_wf o n W) as G. destruct (gattr o n) as [y|e]; [exact (G x E)|]. destruct e; try discriminate E. injection E as <-. constructor. exact I.
Qed.
Lemma prim_wf o : wf_obj o -> okp wf_json (prim o).
Proof. intros W x E. destruct o; try discriminate E. injection E as <-. now inversion W. Qed.
Lemma gfield_wf o n : wf_obj o -> okp wf_json (gfield o n).
Proof. intros W. apply (okp_bind wf_obj); [now apply gattr_wf|exact prim_wf]. Qed.
Lemma gfield_none_wf o n : wf_obj o -> okp wf_json (gfield_none o n).
Proof. intros W. apply (okp_bind wf_obj); [now apply gattr_none_wf|exact prim_wf]. Qed.
Lemma elems_wf o : wf_obj o -> okp (fun es => forall e, In e es -> wf_obj e) (elems o).
Proof. intros W x E. destruct o; try discriminate E. injection E as <-. now inversion W. Qed.
Definition wfes (es : list (string * obj)) : Prop := forall e, In e es -> wf_obj (snd e).
Lemma entries_wf o : wf_obj o -> okp wfes (entries o).
Proof. intros W x E. destruct o; try discriminate E. injection E as <-. inversion W; subst. intros [k y] I. eauto. Qed.
Lemma dump_wf20 o : wf_obj o -> okp wf_json (dump v20_table o).
Proof. apply dump_wf. exact v20_declared. Qed.
Lemma generate_wf o ns : wf_obj o -> okp wfd (generate_fields o ns).
Proof.
  intros W. unfold generate_fields. apply (okp_fold (fun _ => True)); [|auto|apply wfd_nil]. intros b a Wb _. apply (okp_bind wf_json); [now apply gfield_none_wf|].
  intros v Wv. apply okp_ok. destruct (is_null v); [exact Wb|now apply wfd_set].
Qed.
Lemma wfd_update_d e d : wfd e -> wfd d -> wfd (dict_update d e).
Proof. intros We. apply wfd_update. intros k v. now apply wfd_in. Qed.
Lemma if_okp {A} (P : A -> Prop) (b : bool) r r' : okp P r -> okp P r' -> okp P (if b then r else r').
Proof. now destruct b. Qed.
Lemma wf_str s : wf_json (JStr s).
Proof. exact I. Qed.
Lemma wf_bool b : wf_json (JBool b).
Proof. exact I. Qed.
Create HintDb wf discriminated.
#[export] Hint Constants Opaque : wf.
#[export] Hint Resolve gattr_wf gattr_none_wf prim_wf gfield_wf gfield_none_wf elems_wf entries_wf dump_wf20 generate_wf get_dict_wf wfd_nil wfd_one wfd_set wfd_update_d wf_str wf_bool : wf.
#[export] Hint Extern 1 (wf_json (JDict ?d)) => change (wfd d) : wf.
#[export] Hint Extern 1 (wf_json (JList _)) => apply wf_strs; intros ? [<-|[]] : wf.
Ltac wfs := repeat
  match goal with
  | |- okp _ (Err _) => apply okp_err
  | |- okp _ (if _ then _ else _) => apply if_okp
  | |- okp _ (Ok (if ?b then _ else _)) => destruct b
  | |- okp _ (Ok _) => apply okp_ok; solve [eauto 8 with wf]
  | |- okp _ (bind _ _) => first
     [ eapply okp_bind; [solve [eauto 7 with wf]|intros ? ?; cbv beta zeta]
     | apply (okp_bind wfd); [solve [wfs]|intros ? ?; cbv beta zeta]
     | eapply okp_bind; [apply okp_any|intros ? _; cbv beta zeta] ]
  | |- okp _ _ => solve [eauto 7 with wf]
  end.
Lemma external_docs_wf o : wf_obj o -> okp wfd (to_external_docs o).
Proof. intros W. unfold to_external_docs. wfs. Qed.
#[export] Hint Resolve external_docs_wf : wf.
Lemma to_tag_wf o : wf_obj o -> okp wfd (to_tag o).
Proof. intros W. unfold to_tag. wfs. Qed.
Lemma to_xml_wf o : wf_obj o -> okp wfd (to_xml o).
Proof. intros W. unfold to_xml. now apply generate_wf. Qed.
Lemma to_contact_wf o : wf_obj o -> okp wfd (to_contact o).
Proof. intros W. unfold to_contact. now apply generate_wf. Qed.
Lemma to_license_wf o : wf_obj o -> okp wfd (to_license o).
Proof. intros W. unfold to_license. wfs. Qed.
Lemma wfd_two k v k' v' : k <> k' -> wf_json v -> wf_json v' -> wfd [(k, v); (k', v')].
Proof. intros N V V'. apply wf_dict. split; [|intros k0 x [E|[E|[]]]; injection E as <- <-; assumption]. cbn. constructor; [intros [E|[]]; congruence|]. constructor; [intros []|constructor]. Qed.
#[export] Hint Resolve to_tag_wf to_xml_wf to_contact_wf to_license_wf : wf.
#[export] Hint Extern 1 (wfd [_; _]) => apply wfd_two; [discriminate|..] : wf.
Lemma to_info_wf o : wf_obj o -> okp wfd (to_info o).
Proof. intros W. unfold to_info. wfs. Qed.
#[export] Hint Resolve to_info_wf : wf.
Lemma from_items_wf : forall n o, wf_obj o -> okp wfd (from_items_n n o).
Proof. induction n as [|n IH]; intros o W; cbn [from_items_n]; wfs. Qed.
Lemma from_items_wf' o : wf_obj o -> okp wfd (from_items o).
Proof. apply from_items_wf. Qed.
#[export] Hint Resolve from_items_wf from_items_wf' : wf.
Lemma okp_list (r : res (list json)) : okp (fun l => forall x, In x l -> wf_json x) r -> okp wf_json (rmap JList r).
Proof. intros H. eapply okp_rmap; [exact H|]. intros l Hl. now apply wf_list. Qed.
Lemma okp_dict (r : res (list (string * json))) : okp wfd r -> okp wf_json (rmap JDict r).
Proof. intros H. eapply okp_rmap; [exact H|]. auto. Qed.
Lemma to_schema_wf : forall n form o, wf_obj o -> okp wfd (to_schema_n n form o).
Proof.
  induction n as [|n IH]; intros form o W; cbn [to_schema_n]; [apply okp_err|].
  eapply okp_bind; [apply gfield_none_wf; exact W|]. intros ref Wr. destruct (truthy ref); [apply okp_ok; auto with wf|].
  eapply okp_bind; [apply gfield_none_wf; exact W|]. intros ty Wt. destruct (json_is_str "file" ty); [apply okp_ok; auto with wf|].
  eapply okp_bind; [apply generate_wf; exact W|]. intros fs Wfs. eapply okp_bind; [apply gfield_none_wf; exact W|]. intros rq Wrq. cbv zeta.
  assert (W1 : wfd (match rq with JList (x :: l) => dict_set "required" (JList (x :: l)) fs | _ => fs end)).
  { destruct rq as [| | | | |[|]|]; try exact Wfs. now apply wfd_set. }
  revert W1. generalize (match rq with JList (x :: l) => dict_set "required" (JList (x :: l)) fs | _ => fs end). intros r1 W1.
  eapply okp_bind; [apply gattr_none_wf; exact W|]. intros allof Wa. apply (okp_bind wfd).
  { apply if_okp; [|now apply okp_ok]. eapply okp_bind; [apply elems_wf; exact Wa|]. intros es We.
    eapply okp_bind; [apply (okp_map wf_obj wf_json); [intros e Wo; apply okp_dict; exact (IH false e Wo)|exact We]|]. intros xs Wxs. apply okp_ok. apply wfd_set; [now apply wf_list|exact W1]. }
  intros r2 W2. eapply okp_bind; [apply gattr_none_wf; exact W|]. intros items Wi. apply (okp_bind wfd).
  { apply if_okp; [|now apply okp_ok]. apply (okp_bind wfd); [apply if_okp; [now apply from_items_wf|now apply IH]|]. intros x Wx. apply okp_ok. now apply wfd_set. }
  intros r3 W3. eapply okp_bind; [apply gattr_none_wf; exact W|]. intros props Wp. apply (okp_bind wfd).
  { apply if_okp; [|now apply okp_ok]. eapply okp_bind; [apply entries_wf; exact Wp|]. intros es We.
    eapply okp_bind; [apply (okp_map (fun e => wf_obj (snd e)) (fun kv => wf_json (snd kv))); [|exact We]|].
    - intros e Wo. eapply okp_rmap; [exact (IH form (snd e) Wo)|]. auto.
    - intros xs Wxs. apply okp_ok. apply wfd_set; [|exact W2 || exact W3]. apply wfd_update; [|apply wfd_nil]. intros k v I. exact (Wxs _ I). }
  intros r4 W4. eapply okp_bind; [apply gattr_none_wf; exact W|]. intros addp Wad. apply (okp_bind wfd).
  { assert (G : okp wfd (x <- to_schema_n n false addp ;; Ok (dict_set "additionalProperties" (JDict x) r4))).
    { eapply okp_bind; [exact (IH false addp Wad)|]. intros x Wx. apply okp_ok. now apply wfd_set. }
    destruct addp as [[| | | | | |]| | |]; try exact G; apply okp_ok; [exact W4|]. destruct b; [exact W4|now apply wfd_set]. }
  intros r5 W5. eapply okp_bind; [apply gfield_none_wf; exact W|]. intros disc Wd. cbv zeta.
  assert (W6 : wfd (if truthy disc then dict_set "discriminator" (JDict [("propertyName", disc)]) r5 else r5)).
  { destruct (truthy disc); [|exact W5]. apply wfd_set; [|exact W5]. now apply wfd_one. }
  revert W6. generalize (if truthy disc then dict_set "discriminator" (JDict [("propertyName", disc)]) r5 else r5). intros r6 W6.
  clear -W W6. wfs.
Qed.
Lemma to_schema_wf' form o : wf_obj o -> okp wfd (to_schema form o).
Proof. apply to_schema_wf. Qed.
#[export] Hint Resolve to_schema_wf' : wf.
Lemma to_flows_wf o : wf_obj o -> okp wfd (to_flows o).
Proof. intros W. unfold to_flows. wfs. Qed.
#[export] Hint Resolve to_flows_wf : wf.
Lemma to_security_scheme_wf o : wf_obj o -> okp wfd (to_security_scheme o).
Proof. intros W. unfold to_security_scheme. wfs. Qed.
Lemma put_style_wf se d : wfd d -> wfd (put_style se d).
Proof. intros W. unfold put_style. destruct se as [[s|] [b|]]; cbn [fst snd]; try destruct (truthy_str s); auto with wf. Qed.
#[export] Hint Resolve to_security_scheme_wf put_style_wf : wf.
Lemma to_header_wf o : wf_obj o -> okp wfd (to_header o).
Proof. intros W. unfold to_header. wfs. Qed.
Lemma to_encoding_wf o ct : wf_obj o -> okp wfd (to_encoding o ct).
Proof. intros W. unfold to_encoding. wfs. destruct (fst _); wfs. Qed.
#[export] Hint Resolve to_header_wf to_encoding_wf : wf.
Section Oracles.
  Variables (deref : obj -> res obj) (nr : obj -> res json).
  Hypothesis DR : forall o x, wf_obj o -> deref o = Ok x -> wf_obj x.
  Hypothesis NR : forall o n, wf_obj o -> nr o = Ok n -> wf_json n.
  Lemma deref_wf o : wf_obj o -> okp wf_obj (deref o).
  Proof. intros W x E. exact (DR o x W E). Qed.
  Lemma nr_wf o : wf_obj o -> okp wf_json (nr o).
  Proof. intros W x E. exact (NR o x W E). Qed.
  Hint Resolve deref_wf nr_wf : wf.
  Lemma to_media_type_wf o ct d : wf_obj o -> wfd d -> okp wfd (to_media_type deref o ct d).
  Proof.
    intros W Wd. unfold to_media_type.
    eapply okp_bind; [apply deref_wf; exact W|]. intros r Wr. eapply okp_bind; [apply get_dict_wf; exact Wd|]. intros sch Ws.
    eapply okp_bind; [apply gfield_wf; exact Wr|]. intros rq Wrq. eapply okp_bind; [apply gfield_wf; exact Wr|]. intros name Wn.
    apply (okp_bind wfd).
    { apply if_okp; [|now apply okp_ok]. destruct (lookup "required" sch) as [v|] eqn:L; [|apply okp_ok; auto with wf]. pose proof (wfd_lookup _ _ _ Ws L) as Wv.
      destruct v; try apply okp_err. apply okp_ok. apply wfd_set; [|exact Ws]. apply wf_list. intros x I. apply in_app_or in I as [I|[<-|[]]]; [|exact Wn]. rewrite wf_list in Wv. exact (Wv x I). }
    intros sch2 Ws2. eapply okp_bind; [apply get_dict_wf; exact Ws2|]. intros props Wp. eapply okp_bind; [apply okp_any|]. intros n _. apply if_okp; [apply okp_err|].
    eapply okp_bind; [apply gattr_none_wf; exact Wr|]. intros sc Wsc. cbv zeta.
    assert (W1 : wf_obj (if truthy_obj sc then sc else r)) by (destruct (truthy_obj sc); assumption).
    eapply okp_bind; [apply gattr_none_wf; exact W|]. intros ref _.
    eapply okp_bind; [apply (to_schema_wf' true); destruct (truthy_obj ref); [exact W|exact W1]|]. intros prop Wpr.
    eapply okp_bind; [apply okp_any|]. intros aev _.
    assert (W2 : wfd (match aev with OPrim (JBool true) => dict_set "nullable" (JBool true) prop | _ => prop end)) by (destruct aev as [[|[]| | | | |]| | |]; auto with wf).
    revert W2. generalize (match aev with OPrim (JBool true) => dict_set "nullable" (JBool true) prop | _ => prop end). intros pr W2.
    eapply okp_bind; [apply to_encoding_wf; exact W1|]. intros enc We.
    assert (W3 : wfd (dict_set "schema" (JDict (dict_set "properties" (JDict (dict_set n (JDict pr) props)) sch2)) d)) by auto 7 with wf.
    destruct enc as [|e enc]; [now apply okp_ok|]. eapply okp_bind; [apply get_dict_wf; exact W3|]. intros e0 We0. apply okp_ok. auto 7 with wf.
  Qed.
  Definition wfb (b : option dict) : Prop := match b with Some d => wfd d | None => True end.
  Lemma to_request_body_wf o b c cs : wf_obj o -> wfb b -> okp wfd (to_request_body deref o b c cs).
  Proof.
    intros W Wb. unfold to_request_body. assert (W0 : wfd (match b with Some b => b | None => [] end)) by (destruct b; [exact Wb|apply wfd_nil]).
    revert W0. generalize (match b with Some b => b | None => [] end). intros r0 W0.
    eapply okp_bind; [apply get_dict_wf; exact W0|]. intros ct Wc. eapply okp_bind; [apply deref_wf; exact W|]. intros r Wr.
    eapply okp_bind; [apply gfield_wf; exact Wr|]. intros rq _. cbv zeta.
    assert (W1 : wfd (if truthy rq then dict_set "required" (JBool true) r0 else r0)) by (destruct (truthy rq); auto with wf).
    revert W1. generalize (if truthy rq then dict_set "required" (JBool true) r0 else r0). intros r1 W1. apply if_okp; [|apply if_okp; [|apply okp_err]].
    - apply (okp_bind wfd); [|intros x Wx; apply okp_ok; auto with wf]. apply (okp_fold (fun _ => True)); [|auto|exact Wc]. intros d t Wd _.
      eapply okp_bind; [apply get_dict_wf; exact Wd|]. intros m Wm. eapply okp_bind; [apply to_media_type_wf; [exact W|exact Wm]|]. intros m' Wm'. apply okp_ok. auto with wf.
    - destruct b; [apply okp_err|]. eapply okp_bind; [apply generate_wf; exact Wr|]. intros fs Wfs.
      apply (okp_bind wfd); [|intros x Wx; apply okp_ok; auto with wf]. apply (okp_fold (fun _ => True)); [|auto|exact Wc]. intros d t Wd _. wfs.
  Qed.
  Lemma to_parameter_wf o : wf_obj o -> okp wfd (to_parameter o).
  Proof.
    intros W. unfold to_parameter. eapply okp_bind; [apply generate_wf; exact W|]. intros ret W0. eapply okp_bind; [apply gfield_none_wf; exact W|]. intros ty Wt.
    eapply okp_bind; [apply gfield_none_wf; exact W|]. intros in_ Wi. eapply okp_bind; [apply generate_wf; exact W|]. intros sch Ws.
    eapply okp_bind; [apply gfield_wf; exact W|]. intros name Wn. eapply okp_bind; [apply gattr_wf; exact W|]. intros items Wit.
    apply (okp_bind wfd); [wfs|]. intros sch2 Ws2. cbv zeta.
    assert (W1 : wfd (match sch2 with [] => ret | _ => dict_set "schema" (JDict sch2) ret end)) by (destruct sch2; auto with wf).
    revert W1. generalize (match sch2 with [] => ret | _ => dict_set "schema" (JDict sch2) ret end). intros r1 W1. wfs.
  Qed.
  Hint Resolve to_request_body_wf to_parameter_wf : wf.
  Lemma from_parameter_wf o b cs : wf_obj o -> wfb b -> okp (fun x => wfd (fst x)) (from_parameter deref o b cs).
  Proof.
    intros W Wb. unfold from_parameter. eapply okp_bind; [apply gattr_none_wf; exact W|]. intros ref Wrf. eapply okp_bind; [apply deref_wf; exact W|]. intros r Wr. cbv zeta.
    assert (B : forall c, okp (fun x : dict * pctx => wfd (fst x)) (b0 <- to_request_body deref o b c cs;; Ok (b0, c))).
    { intros c. eapply okp_bind; [apply to_request_body_wf; [exact W|exact Wb]|]. intros x Wx. apply okp_ok. exact Wx. }
    eapply okp_bind; [apply okp_any|]. intros _ _. eapply okp_bind; [apply okp_any|]. intros i _. eapply okp_bind; [apply okp_any|]. intros t _. cbv zeta.
    apply if_okp; [apply B|]. apply if_okp; [apply B|]. apply if_okp.
    - do 3 (eapply okp_bind; [apply okp_any|]; intros ? _). apply B.
    - apply if_okp.
      + eapply okp_bind; [apply prim_wf; exact Wrf|]. intros j Wj. apply okp_ok. cbn [fst]. auto with wf.
      + eapply okp_bind; [apply to_parameter_wf; exact W|]. intros j Wj. apply okp_ok. exact Wj.
  Qed.
  Lemma to_response_wf o pr : wf_obj o -> okp wfd (to_response deref o pr).
  Proof.
    intros W. unfold to_response. eapply okp_bind; [apply gfield_none_wf; exact W|]. intros ref Wrf. eapply okp_bind; [apply deref_wf; exact W|]. intros r Wr.
    eapply okp_bind; [apply okp_any|]. intros sc _. apply if_okp; [apply okp_ok; auto with wf|]. eapply okp_bind; [apply generate_wf; exact Wr|]. intros ret W0.
    eapply okp_bind; [apply gattr_wf; exact Wr|]. intros sc2 Ws. apply (okp_bind wfd).
    { apply if_okp; [|now apply okp_ok]. eapply okp_bind; [apply okp_any|]. intros ty _. cbv zeta. apply if_okp; [apply okp_ok; auto 8 with wf|].
      apply (okp_bind wfd); [|intros x Wx; apply okp_ok; auto with wf]. apply (okp_fold (fun _ => True)); [|auto|apply wfd_nil]. intros d t Wd _. wfs. }
    intros r1 W1. eapply okp_bind; [apply gattr_wf; exact Wr|]. intros hs Wh. apply if_okp; [|now apply okp_ok].
    eapply okp_bind; [apply entries_wf; exact Wh|]. intros es We.
    apply (okp_bind wfd); [|intros x Wx; apply okp_ok; auto with wf]. apply (okp_fold (fun e => wf_obj (snd e))); [|exact We|apply wfd_nil]. intros d t Wd Wt. wfs.
  Qed.
  Hint Resolve to_response_wf : wf.
  Definition wfl (l : list json) : Prop := forall x, In x l -> wf_json x.
  Lemma convert_params_wf : forall ps i cs kept b, (forall p, In p ps -> wf_obj p) -> wfl kept -> wfb b ->
    okp (fun x => wfl (fst (fst x)) /\ wfb (snd (fst x))) (convert_params deref ps i cs kept b).
  Proof.
    induction ps as [|p ps IH]; intros i cs kept b Wp Wk Wb; cbn [convert_params]; [apply okp_ok; auto|].
    assert (Wp' : forall q, In q ps -> wf_obj q) by (intros q I; apply Wp; now right).
    eapply okp_bind; [apply from_parameter_wf; [apply Wp; now left|exact Wb]|]. intros x Wx. apply if_okp.
    - eapply okp_bind; [apply (IH (S i) cs kept (Some (fst x)) Wp' Wk Wx)|]. intros [[k' b'] m] [Hk Hb]. apply okp_ok. auto.
    - apply IH; [exact Wp'| |exact Wb]. intros y I. apply in_app_or in I as [I|[<-|[]]]; [exact (Wk y I)|exact Wx].
  Qed.
  Definition wfr (x : dict * option dict) : Prop := wfd (fst x) /\ wfb (snd x).
  Lemma to_operation_wf o b url pr cs : wf_obj o -> wfb b -> okp wfr (to_operation deref o b url pr cs).
  Proof.
    intros W Wb. unfold to_operation. eapply okp_bind; [apply generate_wf; exact W|]. intros r0 W0.
    eapply okp_bind; [apply gattr_wf; exact W|]. intros tags Wt. apply (okp_bind wfd); [wfs|]. intros r1 W1.
    eapply okp_bind; [apply gattr_wf; exact W|]. intros sec Wsc. apply (okp_bind wfd); [wfs|]. intros r2 W2.
    eapply okp_bind; [apply gattr_wf; exact W|]. intros ps Wps. apply (okp_bind wfr).
    { apply if_okp; [|apply okp_ok; split; assumption]. eapply okp_bind; [apply elems_wf; exact Wps|]. intros es We. eapply okp_bind; [apply okp_any|]. intros c _.
      eapply okp_bind; [apply (convert_params_wf es 0 _ [] b We); [intros x []|exact Wb]|]. intros [[k b'] m] [Hk Hb]. apply okp_ok. split; cbn [fst snd]; [|exact Hb].
      destruct k; [exact W2|]. apply wfd_set; [|exact W2]. now apply wf_list. }
    intros [r3 b'] [W3 Wb']. cbn [fst snd] in *. cbv zeta. eapply okp_bind; [apply gattr_wf; exact W|]. intros rs Wrs. apply (okp_bind wfd).
    { apply if_okp; [|now apply okp_ok]. eapply okp_bind; [apply entries_wf; exact Wrs|]. intros es We. eapply okp_bind; [apply okp_any|]. intros c _.
      apply (okp_bind wfd); [|intros x Wx; apply okp_ok; auto with wf]. apply (okp_fold (fun e => wf_obj (snd e))); [|exact We|apply wfd_nil]. intros d t Wd Wt'. wfs. }
    intros r4 W4. eapply okp_bind; [apply gattr_wf; exact W|]. intros ed Wed. apply (okp_bind wfd); [wfs|]. intros r5 W5.
    eapply okp_bind; [apply okp_any|]. intros sch _. apply okp_ok. split; [|exact Wb']. cbn [fst]. destruct (truthy_obj sch); [|exact W5].
    apply wfd_set; [|exact W5]. apply wf_list. intros x I. apply in_map_iff in I as (s & <- & _). apply wfd_one. exact I.
  Qed.
  Lemma convert_methods_wf o url pr cs : wf_obj o -> forall ms b, wfb b ->
    okp (fun x => (forall e, In e (fst x) -> wfr (snd e)) /\ wfb (snd x)) (convert_methods deref o ms b url pr cs).
  Proof.
    intros W. induction ms as [|m ms IH]; intros b Wb; cbn [convert_methods]; [apply okp_ok; split; [intros e []|exact Wb]|].
    eapply okp_bind; [apply gattr_none_wf; exact W|]. intros op Wo. apply if_okp; [|exact (IH b Wb)].
    eapply okp_bind; [apply to_operation_wf; [exact Wo|exact Wb]|]. intros x Wx. cbv zeta.
    assert (Wb' : wfb (match b with Some _ => snd x | None => None end)) by (destruct b; [apply Wx|exact I]).
    eapply okp_bind; [exact (IH _ Wb')|]. intros rest [H1 H2]. apply okp_ok. cbn [fst snd]. split; [|exact H2]. intros e [<-|I]; [exact Wx|exact (H1 e I)].
  Qed.
  Lemma to_path_item_wf o url cs pr : wf_obj o -> okp (fun x => wfd (fst x)) (to_path_item deref nr o url cs pr).
  Proof.
    intros W. unfold to_path_item. eapply okp_bind; [apply okp_any|]. intros ref _. apply (okp_bind wfd); [wfs|]. intros r0 W0.
    eapply okp_bind; [apply gattr_wf; exact W|]. intros ps Wps.
    apply (okp_bind (fun x => wfl (fst (fst x)) /\ wfb (snd (fst x)))).
    { apply if_okp; [|apply okp_ok; split; [intros x []|exact I]]. eapply okp_bind; [apply elems_wf; exact Wps|]. intros es We.
      apply convert_params_wf; [exact We|intros x []|exact I]. }
    intros [[kept b] moved] [Hk Hb]. cbn [fst snd] in Hk, Hb.
    assert (W1 : wfd (match kept with [] => r0 | _ => dict_set "parameters" (JList kept) r0 end)).
    { destruct kept; [exact W0|]. apply wfd_set; [|exact W0]. now apply wf_list. }
    cbv zeta. revert W1. generalize (match kept with [] => r0 | _ => dict_set "parameters" (JList kept) r0 end). intros r1 W1.
    eapply okp_bind; [apply (convert_methods_wf o url pr cs W METHODS b Hb)|]. intros [ops b'] [Ho Hb']. cbn [fst snd] in Ho, Hb'. apply okp_ok. cbn [fst].
    assert (W2 : wfd (fold_left (fun acc mx => dict_set (fst mx) (JDict (with_body (fst (snd mx)) (match b with Some _ => b' | None => snd (snd mx) end))) acc) ops r1)).
    { revert r1 W1. induction ops as [|mx ops IH]; intros r1 W1; cbn [fold_left]; [exact W1|]. apply IH; [intros e I; apply Ho; now right|].
      apply wfd_set; [|exact W1]. destruct (Ho mx (or_introl eq_refl)) as [H1 H2]. unfold with_body.
      assert (Wx : wfb (match b with Some _ => b' | None => snd (snd mx) end)) by (destruct b; assumption). destruct (match b with Some _ => b' | None => snd (snd mx) end); [|exact H1].
      apply wfd_set; assumption. }
    destruct b' as [d|]; [|exact W2]. apply wfd_set; [exact Hb'|exact W2].
  Qed.
  Lemma convert_each_wf f es : (forall o, wf_obj o -> okp wfd (f o)) -> wfes es -> okp wfd (convert_each f es).
  Proof.
    intros H We. unfold convert_each. apply (okp_fold (fun e => wf_obj (snd e))); [|exact We|apply wfd_nil]. intros d t Wd Wt.
    eapply okp_bind; [exact (H _ Wt)|]. intros x Wx. apply okp_ok. auto with wf.
  Qed.
  Lemma convert_global_params_wf es : wfes es -> okp (fun x => wfd (fst (fst x)) /\ wfd (snd (fst x))) (convert_global_params deref es).
  Proof.
    intros We. unfold convert_global_params. apply (okp_fold (fun e => wf_obj (snd e))); [|exact We|split; apply wfd_nil]. intros [[p b] rl] t [Hp Hb] Wt. cbn [fst snd] in Hp, Hb.
    eapply okp_bind; [apply from_parameter_wf; [exact Wt|exact I]|]. intros x Wx. apply okp_ok. destruct (is_body (snd x)); cbn [fst snd]; split; auto with wf.
  Qed.
  Lemma convert_paths_wf es url cs pr : wfes es -> okp (fun x => wfd (fst x)) (convert_paths deref nr es url cs pr).
  Proof.
    intros We. unfold convert_paths. apply (okp_fold (fun e => wf_obj (snd e))); [|exact We|apply wfd_nil]. intros d t Wd Wt. apply if_okp; [apply okp_err|].
    eapply okp_bind; [apply to_path_item_wf; exact Wt|]. intros x Wx. apply okp_ok. cbn [fst]. auto with wf.
  Qed.
  Theorem to_openapi_wf o x sec rs : wf_obj o -> to_openapi deref nr o = Ok (x, sec, rs) -> wfd x.
  Proof.
    intros W. enough (G : okp (fun y => wfd (fst (fst y))) (to_openapi deref nr o)) by (intros E; exact (G _ E)).
    unfold to_openapi. cbv zeta. eapply okp_bind; [apply gattr_wf; exact W|]. intros info Wi. apply (okp_bind wfd); [wfs|]. intros r0 W0.
    eapply okp_bind; [apply okp_any|]. intros url _.
    assert (W1 : wfd (dict_set "servers" (JList [JDict [("url", JStr url)]]) r0)) by auto 6 with wf.
    revert W1. generalize (dict_set "servers" (JList [JDict [("url", JStr url)]]) r0). intros r1 W1.
    eapply okp_bind; [apply okp_any|]. intros cs _. eapply okp_bind; [apply okp_any|]. intros pr _.
    eapply okp_bind; [apply gattr_wf; exact W|]. intros paths Wp. apply (okp_bind (fun y => wfd (fst y))).
    { apply if_okp; [|apply okp_ok; exact W1]. eapply okp_bind; [apply entries_wf; exact Wp|]. intros es We. eapply okp_bind; [apply convert_paths_wf; exact We|].
      intros y Wy. apply okp_ok. cbn [fst]. auto with wf. }
    intros [r2 rl] W2. cbn [fst] in W2. eapply okp_bind; [apply okp_any|]. intros sc _. eapply okp_bind; [apply gattr_wf; exact W|]. intros tags Wt. apply (okp_bind wfd).
    { apply if_okp; [|now apply okp_ok]. eapply okp_bind; [apply elems_wf; exact Wt|]. intros es We.
      eapply okp_bind; [apply (okp_map wf_obj wf_json); [intros e Wo; apply okp_dict; now apply to_tag_wf|exact We]|]. intros xs Wxs. apply okp_ok. apply wfd_set; [now apply wf_list|exact W2]. }
    intros r3 W3. eapply okp_bind; [apply gattr_wf; exact W|]. intros ed Wed. apply (okp_bind wfd); [wfs|]. intros r4 W4.
    eapply okp_bind; [apply gattr_wf; exact W|]. intros defs Wdf. eapply okp_bind; [apply gattr_wf; exact W|]. intros params Wpa.
    eapply okp_bind; [apply gattr_wf; exact W|]. intros resps Wre. eapply okp_bind; [apply gattr_wf; exact W|]. intros secs Wse.
    apply (okp_bind (fun y => wfd (fst y))).
    { apply if_okp; [|apply okp_ok; apply wfd_nil]. eapply okp_bind; [apply entries_wf; exact Wdf|]. intros es We.
      eapply okp_bind; [apply convert_each_wf; [apply to_schema_wf'|exact We]|]. intros y Wy. apply okp_ok. now apply wfd_one. }
    intros [c1 l1] C1. cbn [fst] in C1. apply (okp_bind (fun y => wfd (fst y))).
    { apply if_okp; [|apply okp_ok; exact C1]. eapply okp_bind; [apply entries_wf; exact Wpa|]. intros es We.
      eapply okp_bind; [apply convert_global_params_wf; exact We|]. intros [[p b] l] [Hp Hb]. apply okp_ok. cbn [fst snd] in *. unfold set_nonempty. destruct b, p; auto with wf. }
    intros [c2 l2] C2. cbn [fst] in C2. apply (okp_bind (fun y => wfd (fst y))).
    { apply if_okp; [|apply okp_ok; exact C2]. eapply okp_bind; [apply entries_wf; exact Wre|]. intros es We.
      eapply okp_bind; [apply convert_each_wf; [intros q Wq; apply to_response_wf; exact Wq|exact We]|]. intros y Wy. apply okp_ok. cbn [fst]. auto with wf. }
    intros [c3 l3] C3. cbn [fst] in C3. apply (okp_bind (fun y => wfd (fst y))).
    { apply if_okp; [|apply okp_ok; exact C3]. eapply okp_bind; [apply entries_wf; exact Wse|]. intros es We.
      eapply okp_bind; [apply convert_each_wf; [apply to_security_scheme_wf|exact We]|]. intros y Wy. apply okp_ok. cbn [fst]. auto with wf. }
    intros [c4 l4] C4. cbn [fst] in C4. apply okp_ok. cbn [fst]. destruct (_ || _ || _ || _); auto with wf.
  Qed.
End Oracles.
