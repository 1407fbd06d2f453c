(** Facts about traversals: the size of the tree is enough fuel; the classes met below an object. *)
From Coq Require Import String Ascii List Bool Arith Lia.
From Verif Require Import PyStr PyVal PyValFacts Jp Obj SpecObj ObjFacts TablesFacts Scan SpecScan ScanFacts CompareContainer CompareFacts Up12.
Import ListNotations.
Open Scope string_scope. Open Scope nat_scope.

Definition sizes (l : list (string * obj)) : nat := fold_right (fun kx n => tree_size (snd kx) + n) 0 l.
Lemma sizes_app l m : sizes (l ++ m) = sizes l + sizes m.
Proof. induction l as [|x l IH]; simpl; [reflexivity|rewrite IH; lia]. Qed.
Lemma sizes_rev l : sizes (rev l) = sizes l.
Proof. induction l as [|x l IH]; simpl; [reflexivity|]. rewrite sizes_app, IH. simpl. lia. Qed.
Lemma tree_size_kids c p s kids : tree_size (OObj c p s kids) = S (sizes kids).
Proof. simpl. f_equal. induction kids as [|[k x] l IH]; simpl; [reflexivity|]. now rewrite IH. Qed.
Lemma tree_size_map b p es : tree_size (OMap b p es) = S (sizes es).
Proof. simpl. f_equal. induction es as [|[k x] l IH]; simpl; [reflexivity|]. now rewrite IH. Qed.
Lemma tree_size_list b p es i : tree_size (OList b p es) = S (sizes (indexed i es)).
Proof. simpl. f_equal. revert i. induction es as [|x l IH]; intros i; simpl; [reflexivity|]. now rewrite (IH (S i)). Qed.

Lemma sizes_set k x l : sizes (dict_set k x l) <= tree_size x + sizes l.
Proof. induction l as [|[k' y] l IH]; simpl; [lia|]. destruct (String.eqb k k'); simpl; lia. Qed.
Lemma sizes_del k l x : lookup k l = Some x -> exists l', sizes l = tree_size x + sizes l' /\ forall k', k' <> k -> lookup k' l' = lookup k' l.
Proof.
  induction l as [|[k1 y] l IH]; simpl; [discriminate|]. destruct (String.eqb k k1) eqn:E.
  - intros H. injection H as ->. apply String.eqb_eq in E as ->. exists l. split; [reflexivity|]. intros k' Hk.
    destruct (String.eqb k' k1) eqn:E'; [apply String.eqb_eq in E'; contradiction|reflexivity].
  - intros H. destruct (IH H) as (l' & Hs & Hl). exists ((k1, y) :: l'). simpl. split; [lia|]. intros k' Hk. destruct (String.eqb k' k1); [reflexivity|auto].
Qed.
Lemma sizes_slots (kids : list (string * obj)) (cs : list childdef) : NoDup (map ch_name cs) ->
  sizes (flat_map (fun ch => match lookup (ch_name ch) kids with Some x => [(ch_name ch, x)] | None => [] end) cs) <= sizes kids.
Proof.
  revert kids. induction cs as [|ch cs IH]; intros kids N; [simpl; lia|]. inversion N as [|? ? Hn N']; subst. cbn [flat_map].
  rewrite sizes_app. destruct (lookup (ch_name ch) kids) as [x|] eqn:E; [|simpl; auto].
  destruct (sizes_del _ _ _ E) as (l' & Hs & Hl). specialize (IH l' N'). simpl. rewrite Hs.
  enough (H : flat_map (fun ch => match lookup (ch_name ch) kids with Some x => [(ch_name ch, x)] | None => [] end) cs
    = flat_map (fun ch => match lookup (ch_name ch) l' with Some x => [(ch_name ch, x)] | None => [] end) cs) by (rewrite H; lia).
  clear -Hn Hl. induction cs as [|c cs IH]; [reflexivity|]. simpl. simpl in Hn. rewrite (Hl (ch_name c)) by (intros H; apply Hn; left; exact H).
  rewrite IH; [reflexivity|]. intros H. apply Hn. now right.
Qed.
Lemma slots_sizes T o : well_declared T -> S (sizes (slots T o)) <= tree_size o.
Proof.
  intros W. destruct o as [j|c p s kids|b p es|b p es].
  - simpl. lia.
  - rewrite tree_size_kids. cbn [slots]. destruct (lookup c T) as [cd|] eqn:E; [|simpl; lia].
    apply le_n_S. apply sizes_slots. assert (H := W _ _ E). unfold distinct_names in H. clear -H. induction (map f_name (c_fields cd)) as [|x l IH]; simpl in H; [exact H|]. inversion H; auto.
  - rewrite (tree_size_list _ _ _ 0). cbn [slots]. lia.
  - rewrite tree_size_map. cbn [slots]. lia.
Qed.
Lemma fold_set_sizes (f : string * obj -> string) l : forall acc, sizes (fold_left (fun acc i => dict_set (f i) (snd i) acc) l acc) <= sizes acc + sizes l.
Proof. induction l as [|x l IH]; intros acc; simpl; [lia|]. eapply Nat.le_trans; [apply IH|]. assert (H := sizes_set (f x) (snd x) acc). lia. Qed.
Lemma children_sizes T : well_declared T -> forall n o, odepth o <= n -> S (sizes (get_children T o)) <= tree_size o.
Proof.
  intros W. induction n as [|n IH]; intros o Ho.
  - rewrite odepth_zero_children by lia. destruct o; simpl; lia.
  - eapply Nat.le_trans; [|apply (slots_sizes T o W)]. apply le_n_S. rewrite get_children_slots.
    assert (D : forall k x, In (k, x) (slots T o) -> odepth x <= n) by (intros k x H; apply slots_depth in H; lia).
    revert D. generalize (slots T o) as l. intros l D.
    enough (H : forall acc, sizes (fold_left (add_slot (get_children T)) l acc) <= sizes acc + sizes l) by (specialize (H []); simpl in H; exact H).
    induction l as [|[k x] l IHl]; intros acc; cbn [fold_left]; [lia|].
    eapply Nat.le_trans; [apply IHl; intros ? ? H; eapply D; right; exact H|].
    assert (Hx := IH x (D k x (or_introl eq_refl))). change (sizes ((k, x) :: l)) with (tree_size x + sizes l).
    enough (H : sizes (add_slot (get_children T) acc (k, x)) <= sizes acc + tree_size x) by lia.
    unfold add_slot; cbn [fst snd]. destruct x as [j|c p s kids|b p es|b p es].
    + lia.
    + eapply Nat.le_trans; [apply sizes_set|lia].
    + eapply Nat.le_trans; [apply (fold_set_sizes (fun i => jp_join [k; fst i] None))|]. lia.
    + eapply Nat.le_trans; [apply (fold_set_sizes (fun i => jp_join [k; fst i] None))|]. lia.
Qed.
Lemma visits_size T leaves : well_declared T -> forall d o, length (visits T leaves d o) <= tree_size o.
Proof.
  intros W. induction d as [|d IH]; intros o.
  - simpl. destruct o; simpl; lia.
  - rewrite visits_eq. cbn [length]. eapply Nat.le_trans; [|apply (children_sizes T W (odepth o) o (le_n _))]. apply le_n_S.
    destruct (is_leaf leaves o); [simpl; lia|]. rewrite <- sizes_rev. generalize (rev (get_children T o)) as l.
    induction l as [|[k x] l IHl]; simpl; [lia|]. rewrite app_length, map_length. specialize (IH x). lia.
Qed.
(** the size of the tree is enough *)
Lemma tree_size_enough T leaves o f : well_declared T -> tree_size o <= f ->
  default_tree_traversal T f o leaves = Ok (map (shown "#") (visits T leaves (odepth o) o)).
Proof. intros W H. apply traversal_is_visits. eapply Nat.le_trans; [apply visits_size; exact W|exact H]. Qed.

(** ** classes *)
Fixpoint builder_in (cs : list string) (b : builder) : bool :=
  match b with
  | BCls c => existsb (String.eqb c) cs
  | BListOf b' | BMapOf b' | BBoolElse b' => builder_in cs b'
  | BStr => true
  | BRefElse r b' => existsb (String.eqb r) cs && builder_in cs b'
  end.
(** the classes in [cs] only have children with classes in [cs] *)
Definition closed_classes (T : ctable) (cs : list string) : bool :=
  forallb (fun c => match lookup c T with Some cd => forallb (fun ch => builder_in cs (ch_builder ch)) (c_children cd) | None => true end) cs.
Inductive only_in (cs : list string) : obj -> Prop :=
| oi_prim j : only_in cs (OPrim j)
| oi_obj c p s kids : In c cs -> (forall k x, In (k, x) kids -> only_in cs x) -> only_in cs (OObj c p s kids)
| oi_list b p es : (forall x, In x es -> only_in cs x) -> only_in cs (OList b p es)
| oi_map b p es : (forall k x, In (k, x) es -> only_in cs x) -> only_in cs (OMap b p es).

Lemma existsb_eqb_In c cs : existsb (String.eqb c) cs = true -> In c cs.
Proof. intros H. apply existsb_exists in H as (x & Hin & Hx). apply String.eqb_eq in Hx. now subst. Qed.
Lemma select_in cs b j k : builder_in cs b = true -> select b j = Ok k ->
  match k with KPrim _ => True | KCls c => In c cs | KList b' | KMap b' => builder_in cs b' = true | KStr => True end.
Proof.
  induction b as [c|b IH|b IH| |r b IH|b IH]; cbn [builder_in select]; intros H E.
  - injection E as <-. now apply existsb_eqb_In.
  - injection E as <-. exact H.
  - injection E as <-. exact H.
  - injection E as <-. exact I.
  - apply andb_true_iff in H as [H1 H2]. destruct (py_in "$ref" j) as [[]|]; cbn [bind] in E; try discriminate; [injection E as <-; now apply existsb_eqb_In|exact (IH H2 E)].
  - destruct j; try (now apply IH). injection E as <-. exact I.
Qed.
Lemma closed_child T cs c cd ch : closed_classes T cs = true -> In c cs -> lookup c T = Some cd -> In ch (c_children cd) -> builder_in cs (ch_builder ch) = true.
Proof. unfold closed_classes. intros H Hc Hl Hch. rewrite forallb_forall in H. specialize (H c Hc). rewrite Hl in H. rewrite forallb_forall in H. auto. Qed.

Lemma lookup_in_local {A} k (d : list (string * A)) v : lookup k d = Some v -> In (k, v) d.
Proof.
  induction d as [|[k' x] d IH]; simpl; [discriminate|]. destruct (String.eqb k k') eqn:E; [|auto].
  intros H. injection H as ->. apply String.eqb_eq in E as ->. now left.
Qed.
Lemma jdepth_dict_local k v (d : list (string * json)) : In (k, v) d -> CompareContainer.jdepth v <= fold_right (fun kv m => Nat.max (CompareContainer.jdepth (snd kv)) m) 0 d.
Proof. induction d as [|kv d IH]; intros H; [contradiction|]. destruct H as [->|H]; simpl; [lia|specialize (IH H); lia]. Qed.
Lemma construct_only T cs : closed_classes T cs = true -> forall n j b p o, CompareContainer.jdepth j <= n ->
  builder_in cs b = true -> construct T j b p [] = Ok o -> only_in cs o.
Proof.
  intros Cl. induction n as [n IH] using lt_wf_ind. intros j b p o Hn Hb Hc.
  rewrite construct_eq in Hc. destruct (select b j) as [k|e] eqn:Es; cbn [bind] in Hc; [|discriminate].
  assert (Hk := select_in _ _ _ _ Hb Es). destruct k as [v|c|b'|b'|]; cbn [con_core] in Hc.
  - injection Hc as <-. constructor.
  - rewrite split_nil in Hc. cbn [bind] in Hc. destruct (lookup c T) as [cd|] eqn:El; [|discriminate].
    destruct (con_kids T p [] j (c_children cd)) as [kids|] eqn:Ek; cbn [bind] in Hc; [|discriminate]. injection Hc as <-.
    constructor; [exact Hk|]. intros k x Hin. apply con_kids_ok in Ek as (ks & F & ->).
    assert (G : forall ch, In ch (c_children cd) -> builder_in cs (ch_builder ch) = true) by (intros; eapply closed_child; eauto).
    clear El. induction F as [|ch k0 l l' Hch F IHF]; [contradiction|]. cbn [combine map concat] in Hin. apply in_app_or in Hin as [Hin|Hin]; [|apply IHF; [exact Hin|intros; apply G; now right]].
    cbn [fst snd] in Hin. destruct k0 as [y|]; simpl in Hin; [|contradiction]. destruct Hin as [Hin|[]]. injection Hin as <- <-.
    unfold con_child in Hch. rewrite ovr_get_nil, ovr_here_nil in Hch.
    destruct j as [| | | | | |d]; try (destruct (absent_child _ ch); cbn [bind] in Hch; discriminate).
    destruct (lookup (ch_name ch) d) as [v|] eqn:Ev; [|destruct (ch_required ch); discriminate].
    assert (Hy : construct T v (ch_builder ch) (sub_path p (ch_name ch)) [] = Ok y).
    { destruct v; try discriminate; match goal with H : rmap Some ?r = _ |- _ => destruct r eqn:Er; cbn in H; [injection H as ->; reflexivity|discriminate] end. }
    eapply (IH (CompareContainer.jdepth v)); [|apply le_n|apply G; now left|exact Hy].
    eapply Nat.lt_le_trans; [|exact Hn]. cbn [CompareContainer.jdepth]. apply Nat.lt_succ_r. apply lookup_in_local in Ev. exact (jdepth_dict_local _ _ _ Ev).
  - rewrite split_nil in Hc. cbn [bind] in Hc. destruct j as [| | | | |l|]; try discriminate.
    destruct (con_list T b' p [] 0 l) as [es|] eqn:El; cbn [bind] in Hc; [|discriminate]. injection Hc as <-. constructor.
    apply con_list_ok in El as [Hlen Hall]. intros x Hx. apply In_nth_error in Hx as (i & Hi).
    destruct (nth_error l i) as [v|] eqn:Ev; [|apply nth_error_None in Ev; assert (nth_error es i <> None) by congruence; apply nth_error_Some in H; lia].
    assert (Hy := Hall _ _ _ Ev Hi). eapply (IH (CompareContainer.jdepth v)); [|apply le_n|exact Hk|exact Hy].
    eapply Nat.lt_le_trans; [|exact Hn]. cbn [CompareContainer.jdepth]. apply Nat.lt_succ_r. apply CompareFacts.jdepth_list. eapply nth_error_In; eauto.
  - rewrite split_nil in Hc. cbn [bind] in Hc. destruct j as [| | | | | |d]; try discriminate.
    destruct (con_map T b' p [] d) as [es|] eqn:El; cbn [bind] in Hc; [|discriminate]. injection Hc as <-. constructor.
    apply con_map_ok in El. intros k x Hx. assert (Hd : forall k v, In (k, v) d -> CompareContainer.jdepth v < n).
    { intros k' v Hv. eapply Nat.lt_le_trans; [|exact Hn]. cbn [CompareContainer.jdepth]. apply Nat.lt_succ_r. exact (jdepth_dict_local _ _ _ Hv). }
    clear Hn Es. induction El as [|[k1 v1] [k2 y2] l l' [Hk1 Hy] F IHF]; [contradiction|]. destruct Hx as [Hx|Hx].
    + injection Hx as -> ->. cbn [fst snd] in *. eapply (IH (CompareContainer.jdepth v1)); [apply (Hd k1); now left|apply le_n|exact Hk|exact Hy].
    + apply IHF; [exact Hx|intros; eapply Hd; right; eauto].
  - destruct j; try discriminate. injection Hc as <-. constructor.
Qed.
Lemma only_slots T cs o k x : only_in cs o -> In (k, x) (slots T o) -> only_in cs x.
Proof.
  intros H Hin. destruct H as [j|c p s kids Hc Hk|b p es He|b p es He]; cbn [slots] in Hin.
  - contradiction.
  - destruct (lookup c T); [|contradiction]. apply in_flat_map in Hin as (ch & _ & Hin). destruct (lookup (ch_name ch) kids) eqn:E; [|contradiction].
    destruct Hin as [Hin|[]]. injection Hin as <- <-. apply lookup_in_local in E. eauto.
  - apply indexed_in in Hin as (n & _ & Hn). apply nth_error_In in Hn. auto.
  - eauto.
Qed.
Lemma only_children T cs : forall n o, odepth o <= n -> only_in cs o -> forall k x, In (k, x) (get_children T o) -> only_in cs x.
Proof.
  induction n as [|n IH]; intros o Ho H k x Hin.
  - rewrite odepth_zero_children in Hin by lia. contradiction.
  - rewrite get_children_slots in Hin.
    assert (G : forall k x, In (k, x) (slots T o) -> odepth x <= n /\ only_in cs x) by (intros k' x' H'; split; [apply slots_depth in H'; lia|eapply only_slots; eauto]).
    revert G Hin. generalize (slots T o) as l. intros l G.
    enough (E : forall acc, (forall k x, In (k, x) acc -> only_in cs x) -> forall k x, In (k, x) (fold_left (add_slot (get_children T)) l acc) -> only_in cs x)
      by (intros Hin; eapply E; [|exact Hin]; contradiction).
    clear k x. induction l as [|[k1 y] l IHl]; intros acc A k x Hin; cbn [fold_left] in Hin; [eauto|].
    destruct (G k1 y (or_introl eq_refl)) as [Dy Oy].
    eapply IHl; [intros ? ? H'; apply (G k0); now right| |exact Hin]. clear Hin. intros k' x' Hin. unfold add_slot in Hin; cbn [fst snd] in Hin.
    destruct y as [j|c p s kids|b p es|b p es].
    + eauto.
    + apply (fold_set_in (fun _ => k1) (fun _ => OObj c p s kids) [tt] acc) in Hin. destruct Hin as [Hin|(i & _ & Ei)]; [eauto|]. cbn [snd] in Ei. rewrite Ei. exact Oy.
    + apply fold_set_in in Hin. destruct Hin as [Hin|([i1 i2] & Hi & Ei)]; [eauto|]. cbn [snd] in Ei. rewrite Ei. exact (IH _ Dy Oy _ _ Hi).
    + apply fold_set_in in Hin. destruct Hin as [Hin|([i1 i2] & Hi & Ei)]; [eauto|]. cbn [snd] in Ei. rewrite Ei. exact (IH _ Dy Oy _ _ Hi).
Qed.
Lemma only_visits T leaves cs : forall d o, only_in cs o -> forall e, In e (visits T leaves d o) -> only_in cs (snd e).
Proof.
  induction d as [|d IH]; intros o H e He.
  - destruct He as [<-|[]]. exact H.
  - rewrite visits_eq in He. destruct He as [<-|He]; [exact H|]. destruct (is_leaf leaves o); [contradiction|].
    apply in_flat_map in He as ([k x] & Hx & He). apply in_rev in Hx. apply in_map_iff in He as (e' & <- & He'). cbn [snd fst] in *.
    eapply IH; [|exact He']. exact (only_children T cs _ o (le_n _) H _ _ Hx).
Qed.
