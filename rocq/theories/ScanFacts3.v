(** Lemmas about traversal of constructed trees (C26, C27). *)
From Coq Require Import String Ascii List Bool Arith Lia.
From Verif Require Import PyStr PyStrFacts PyVal PyValFacts Jp JpFacts SpecJp NatDecFacts Obj ObjFacts SpecJson SpecObj DumpFacts ResolveFacts OverrideFacts
  Scan SpecScan Classes_v1_2 Classes_v2_0 Classes_v3_0_0 TablesFacts SpecTables PropertiesObjAux ScanFacts ScanFacts2.
Import ListNotations.
Open Scope string_scope. Open Scope nat_scope.

(** ** builders of elements *)
Fixpoint elem_builder (b : builder) : option builder :=
  match b with
  | BListOf b' | BMapOf b' => Some b'
  | BBoolElse b' | BRefElse _ b' => elem_builder b'
  | _ => None
  end.
Lemma select_list b j b' : select b j = Ok (KList b') -> elem_builder b = Some b'.
Proof.
  induction b; cbn; try discriminate; try congruence; auto.
  - intros H. apply bind_ok in H as (i & _ & H). destruct i; [discriminate|auto].
  - destruct j; try discriminate; auto.
Qed.
Lemma select_map b j b' : select b j = Ok (KMap b') -> elem_builder b = Some b'.
Proof.
  induction b; cbn; try discriminate; try congruence; auto.
  - intros H. apply bind_ok in H as (i & _ & H). destruct i; [discriminate|auto].
  - destruct j; try discriminate; auto.
Qed.
Lemma wf_jget1 j k v : wf_json j -> jget j [k] v -> wf_json v.
Proof.
  intros W H. inversion H as [|d ? v0 ts r Hl H'|l i ? v0 ts r Hi Hn H']; subst; inversion H'; subst.
  - apply wf_dict in W as [_ W]. eapply W. eapply PyValFacts.lookup_In; eauto.
  - apply wf_list with (x := v) in W; [exact W|]. eapply nth_error_In; eauto.
Qed.
Lemma child_builder T j b p o k o1 : well_declared T -> construct T j b p [] = Ok o -> within o [k] o1 ->
  exists j1 b1 p1, construct T j1 b1 p1 [] = Ok o1 /\ (wf_json j -> wf_json j1) /\
    ((is_object o /\ exists c cd ch, lookup c T = Some cd /\ In ch (c_children cd) /\ b1 = ch_builder ch) \/ (is_container o /\ elem_builder b = Some b1)).
Proof.
  intros Wt H W. rewrite construct_eq in H. apply bind_ok in H as (kd & Hs & H). destruct kd as [v|c|b'|b'|]; cbn [con_core] in H.
  - injection H as <-. exfalso. exact (within1_prim _ _ _ W).
  - rewrite split_nil in H. cbn [bind] in H. destruct (lookup c T) as [cd|] eqn:Ec; [|discriminate].
    apply bind_ok in H as (kids & Ek & E). injection E as <-.
    destruct (declared_nodup cd (Wt c cd Ec)) as (_ & Nc & _). apply within1_obj in W.
    assert (Hin : In k (map ch_name (c_children cd))) by (eapply con_kids_keys; eauto; apply lookup_some_in; eauto).
    apply in_map_iff in Hin as (ch & <- & Hc). assert (El := con_kids_lookup _ _ _ _ _ _ ch Ek Nc Hc). rewrite W in El.
    unfold con_child in El. rewrite ovr_get_nil, ovr_here_nil in El.
    destruct j as [| | | | |l|d]; try (apply bind_ok in El as (? & _ & El); discriminate).
    destruct (lookup (ch_name ch) d) as [x|] eqn:Ex; [|destruct (ch_required ch); discriminate].
    exists x, (ch_builder ch), (sub_path p (ch_name ch)). split; [|split].
    + destruct x; try discriminate; (destruct (construct _ _ _ _ _); [simpl in El; congruence|discriminate]).
    + intros Wj. eapply wf_jget1; [exact Wj|]. econstructor; [exact Ex|constructor].
    + left. split; [do 4 eexists; reflexivity|]. exists c, cd, ch. auto.
  - rewrite split_nil in H. cbn [bind] in H. destruct j as [| | | | |l|d]; try discriminate. apply bind_ok in H as (es & Ee & E). injection E as <-.
    apply con_list_ok in Ee as [Hl Hel]. apply within1_list in W as (i & Hi & Hn).
    destruct (nth_error l i) as [x|] eqn:Ex.
    + exists x, b', (sub_path p (nat_dec (0 + i))). split; [exact (Hel i x o1 Ex Hn)|]. split.
      * intros Wj. apply wf_list with (x := x) in Wj; [exact Wj|]. eapply nth_error_In; eauto.
      * right. split; [left; do 3 eexists; reflexivity|]. eapply select_list; eauto.
    + exfalso. apply nth_error_None in Ex. assert (X : nth_error es i <> None) by congruence. apply nth_error_Some in X. lia.
  - rewrite split_nil in H. cbn [bind] in H. destruct j as [| | | | |l|d]; try discriminate. apply bind_ok in H as (es & Ee & E). injection E as <-.
    apply con_map_ok in Ee. apply within1_map in W.
    assert (G : exists x, lookup k d = Some x /\ construct T x b' (sub_path p k) [] = Ok o1).
    { clear -Ee W. induction Ee as [|[k1 x] [k2 e] d es [E He] El IH]; simpl in *; [discriminate|]. subst k2.
      destruct (String.eqb_spec k k1) as [->|]; [injection W as ->; eauto|auto]. }
    destruct G as (x & Ex & Hx). exists x, b', (sub_path p k). split; [exact Hx|]. split.
    + intros Wj. eapply wf_jget1; [exact Wj|]. econstructor; [exact Ex|constructor].
    + right. split; [right; do 3 eexists; reflexivity|]. eapply select_map; eauto.
  - destruct j; try discriminate. injection H as <-. exfalso. exact (within1_prim _ _ _ W).
Qed.

(** ** constructed trees are tidy *)
Definition plain_names (T : ctable) : Prop :=
  forall c cd ch, lookup c T = Some cd -> In ch (c_children cd) -> jp_encode (ch_name ch) = ch_name ch /\ contains_char "/" (ch_name ch) = false.
Lemma flat_map_nodup {A} (f : childdef -> option A) cs : NoDup (map ch_name cs) ->
  NoDup (map fst (flat_map (fun ch => match f ch with Some x => [(ch_name ch, x)] | None => [] end) cs)).
Proof.
  induction cs as [|ch cs IH]; intros N; [constructor|]. cbn [map] in N. apply NoDup_cons_iff in N as [Ni N]. cbn [flat_map].
  destruct (f ch); cbn [app map fst]; [|auto]. constructor; [|auto]. intros Hin. apply Ni. apply in_map_iff in Hin as ([k y] & E & Hin). cbn in E. subst k.
  apply in_flat_map in Hin as (ch' & Hc & Hin). destruct (f ch'); [|destruct Hin]. destruct Hin as [E|[]]. injection E as E _. rewrite <- E. now apply in_map.
Qed.
Lemma indexed_nodup es : forall i, NoDup (map fst (indexed i es)).
Proof.
  induction es as [|e es IH]; intros i; cbn [indexed map fst]; constructor; [|apply IH].
  intros Hin. apply in_map_iff in Hin as ([k x] & E & Hin). cbn in E. subst k. apply indexed_in in Hin as (n & E & _). apply nat_dec_inj in E. lia.
Qed.
Lemma nodup_lookup {A} (d : list (string * A)) k v : NoDup (map fst d) -> lookup k d = Some v <-> In (k, v) d.
Proof.
  intros N. split; [apply PyValFacts.lookup_In|]. intros H. exact (PyValFacts.lookup_nodup k d v N H).
Qed.
Lemma map_keys T b p d es : con_map T b p [] d = Ok es -> map fst es = map fst d.
Proof. intros H. apply con_map_ok in H. induction H as [|[k x] [k' e] d es [E _] _ IH]; cbn in *; congruence. Qed.
Lemma unmixed_down o k e : unmixed o -> within o [k] e -> unmixed e.
Proof. intros U W ts x k1 k2 y z Wx. eapply U. apply (within_app o [k] e ts x W Wx). Qed.

Lemma construct_tidy T : well_declared T -> plain_names T -> forall n j b p o, odepth o <= n ->
  wf_json j -> construct T j b p [] = Ok o -> unmixed o -> tidy T o.
Proof.
  intros Wt Pn. induction n as [|n IH]; intros j b p o Hn Wj C U.
  - destruct o; cbn in Hn; try lia. constructor; cbn; try (intros; tauto); [constructor|].
    intros k e. split; [intros W; exact (within1_prim _ _ _ W)|tauto].
  - assert (SW : (NoDup (map fst (slots T o)) /\ forall k e, within o [k] e <-> In (k, e) (slots T o)) /\
                 (is_object o -> forall k e, In (k, e) (slots T o) -> jp_encode k = k /\ contains_char "/" k = false)).
    { assert (C' := C). rewrite construct_eq in C'. apply bind_ok in C' as (kd & Hs & H). destruct kd as [v|c|b'|b'|]; cbn [con_core] in H.
      - injection H as <-. split; [split; [constructor|]|intros (? & ? & ? & ? & E); discriminate]. intros k e. split; [intros W; exfalso; exact (within1_prim _ _ _ W)|intros []].
      - rewrite split_nil in H. cbn [bind] in H. destruct (lookup c T) as [cd|] eqn:Ec; [|discriminate].
        apply bind_ok in H as (kids & Ek & E). injection E as <-. cbn [slots]. rewrite Ec.
        destruct (declared_nodup cd (Wt c cd Ec)) as (_ & Nc & _). split; [split; [now apply (flat_map_nodup (fun ch => lookup (ch_name ch) kids))|]|].
        + intros k e. rewrite within1_obj, in_flat_map. split.
          * intros Hl. assert (Hin : In k (map ch_name (c_children cd))) by (eapply con_kids_keys; eauto; apply lookup_some_in; eauto).
            apply in_map_iff in Hin as (ch & <- & Hc). exists ch. split; [exact Hc|]. rewrite Hl. now left.
          * intros (ch & Hc & Hin). destruct (lookup (ch_name ch) kids) as [x|] eqn:Ex; [|destruct Hin]. destruct Hin as [E|[]]. injection E as <- <-. exact Ex.
        + intros _ k e Hin. apply in_flat_map in Hin as (ch & Hc & Hin). destruct (lookup (ch_name ch) kids) as [x|] eqn:Ex; [|destruct Hin].
          destruct Hin as [E|[]]. injection E as <- <-. eapply Pn; eauto.
      - rewrite split_nil in H. cbn [bind] in H. destruct j as [| | | | |l|d]; try discriminate. apply bind_ok in H as (es & Ee & E). injection E as <-.
        cbn [slots]. split; [split; [apply indexed_nodup|]|intros (? & ? & ? & ? & E); discriminate]. intros k e. rewrite within1_list, indexed_in. cbn [Nat.add].
        split; intros (i & Hi & Hn'); exists i; (split; [|exact Hn']); now apply index_text_nat_dec.
      - rewrite split_nil in H. cbn [bind] in H. destruct j as [| | | | |l|d]; try discriminate. apply bind_ok in H as (es & Ee & E). injection E as <-.
        cbn [slots]. assert (N : NoDup (map fst es)) by (rewrite (map_keys _ _ _ _ _ Ee); apply wf_dict in Wj; tauto).
        split; [split; [exact N|]|intros (? & ? & ? & ? & E); discriminate]. intros k e. rewrite within1_map. now apply nodup_lookup.
      - destruct j; try discriminate. injection H as <-. split; [split; [constructor|]|intros (? & ? & ? & ? & E); discriminate]. intros k e. split; [intros W; exfalso; exact (within1_prim _ _ _ W)|intros []]. }
    destruct SW as [[Nd SW] Pl]. constructor; auto.
    + intros k e Hin. assert (De := slots_depth T o k e Hin). apply SW in Hin. destruct (child_builder T j b p o k e Wt C Hin) as (j1 & b1 & p1 & C1 & W1 & _).
      eapply (IH j1 b1 p1 e); [lia|auto|exact C1|eapply unmixed_down; eauto].
    + intros Ho k e k' e' H1 H2 He He'. apply SW in H1, H2. exact (U [] o k k' e e' (wi_here o) Ho H1 H2 He He').
Qed.

(** ** table checks *)
Definition plain_namesb (T : ctable) : bool :=
  forallb (fun e => forallb (fun ch => String.eqb (jp_encode (ch_name ch)) (ch_name ch) && negb (contains_char "/" (ch_name ch))) (c_children (snd e))) T.
Lemma plain_names_check T : plain_namesb T = true -> plain_names T.
Proof.
  intros H c cd ch Hl Hc. apply TablesFacts.lookup_In in Hl. unfold plain_namesb in H. rewrite forallb_forall in H. specialize (H _ Hl). cbn in H.
  rewrite forallb_forall in H. specialize (H _ Hc). apply andb_true_iff in H as [H1 H2]. apply String.eqb_eq in H1. apply negb_true_iff in H2. auto.
Qed.
Lemma repo_plain_names T : repo_table T -> plain_names T.
Proof. intros []; apply plain_names_check; vm_compute; reflexivity. Qed.

Fixpoint obj_only (b : builder) : bool :=
  match b with BCls _ | BStr => true | BRefElse _ b' | BBoolElse b' => obj_only b' | _ => false end.
Fixpoint cont_only (b : builder) : bool :=
  match b with BListOf _ | BMapOf _ | BStr => true | BBoolElse b' => cont_only b' | _ => false end.
Fixpoint barren (b : builder) : bool :=
  match b with BStr => true | BListOf b' | BMapOf b' | BBoolElse b' => barren b' | _ => false end.
Fixpoint evenb (b : builder) : bool :=
  match b with
  | BListOf b' | BMapOf b' => (obj_only b' || cont_only b') && evenb b'
  | BBoolElse b' | BRefElse _ b' => evenb b'
  | _ => true
  end.
Fixpoint flatb (b : builder) : bool :=
  match b with
  | BListOf b' | BMapOf b' => (obj_only b' || barren b') && flatb b'
  | BBoolElse b' | BRefElse _ b' => flatb b'
  | _ => true
  end.
Definition all_builders (f : builder -> bool) (T : ctable) : bool :=
  forallb (fun e => forallb (fun ch => f (ch_builder ch)) (c_children (snd e))) T.
Lemma all_builders_ok f T c cd ch : all_builders f T = true -> lookup c T = Some cd -> In ch (c_children cd) -> f (ch_builder ch) = true.
Proof.
  intros H Hl Hc. apply TablesFacts.lookup_In in Hl. unfold all_builders in H. rewrite forallb_forall in H. specialize (H _ Hl). cbn in H.
  rewrite forallb_forall in H. exact (H _ Hc).
Qed.
Lemma elem_even b b1 : elem_builder b = Some b1 -> evenb b = true -> (obj_only b1 = true \/ cont_only b1 = true) /\ evenb b1 = true.
Proof.
  induction b; cbn; try discriminate; auto; intros E H; injection E as ->; apply andb_true_iff in H as [H H2]; apply orb_true_iff in H; auto.
Qed.
Lemma elem_flat b b1 : elem_builder b = Some b1 -> flatb b = true -> (obj_only b1 = true \/ barren b1 = true) /\ flatb b1 = true.
Proof.
  induction b; cbn; try discriminate; auto; intros E H; injection E as ->; apply andb_true_iff in H as [H H2]; apply orb_true_iff in H; auto.
Qed.
Lemma obj_only_kind T b j p o : obj_only b = true -> construct T j b p [] = Ok o -> ~ is_container o.
Proof.
  intros Hb H. rewrite construct_eq in H. apply bind_ok in H as (kd & Hs & H).
  assert (K : match kd with KList _ | KMap _ => False | _ => True end).
  { clear H. induction b; cbn in Hs, Hb; try discriminate; try (injection Hs as <-; exact I).
    - apply bind_ok in Hs as (i & _ & Hs). destruct i; [injection Hs as <-; exact I|exact (IHb Hb Hs)].
    - destruct j; solve [exact (IHb Hb Hs)|injection Hs as <-; exact I]. }
  destruct kd as [v|c|b'|b'|]; try destruct K; cbn [con_core] in H.
  - injection H as <-. intros [(? & ? & ? & E)|(? & ? & ? & E)]; discriminate.
  - rewrite split_nil in H. cbn [bind] in H. destruct (lookup c T); [|discriminate]. apply bind_ok in H as (kids & Ek & E). injection E as <-.
    intros [(? & ? & ? & E)|(? & ? & ? & E)]; discriminate.
  - destruct j; try discriminate. injection H as <-. intros [(? & ? & ? & E)|(? & ? & ? & E)]; discriminate.
Qed.
Lemma cont_only_kind T b j p o : cont_only b = true -> construct T j b p [] = Ok o -> ~ is_object o.
Proof.
  intros Hb H. rewrite construct_eq in H. apply bind_ok in H as (kd & Hs & H).
  assert (K : match kd with KCls _ => False | _ => True end).
  { clear H. induction b; cbn in Hs, Hb; try discriminate; try (injection Hs as <-; exact I).
    destruct j; solve [exact (IHb Hb Hs)|injection Hs as <-; exact I]. }
  destruct kd as [v|c|b'|b'|]; try destruct K; cbn [con_core] in H; rewrite ?split_nil in H; cbn [bind] in H.
  - injection H as <-. intros (? & ? & ? & ? & E); discriminate.
  - destruct j; try discriminate. apply bind_ok in H as (es & _ & E). injection E as <-. intros (? & ? & ? & ? & E); discriminate.
  - destruct j; try discriminate. apply bind_ok in H as (es & _ & E). injection E as <-. intros (? & ? & ? & ? & E); discriminate.
  - destruct j; try discriminate. injection H as <-. intros (? & ? & ? & ? & E); discriminate.
Qed.
Lemma barren_cont b : barren b = true -> cont_only b = true.
Proof. induction b; cbn; auto; discriminate. Qed.
Lemma barren_elem b b1 : barren b = true -> elem_builder b = Some b1 -> barren b1 = true.
Proof. induction b; cbn; try discriminate; auto; intros H E; injection E as <-; exact H. Qed.
Lemma barren_no_object T : well_declared T -> forall ts j b p o z, barren b = true -> construct T j b p [] = Ok o -> within o ts z -> ~ is_object z.
Proof.
  intros Wt. induction ts as [|t ts IH]; intros j b p o z Hb C W.
  - inversion W; subst. eapply cont_only_kind; eauto. now apply barren_cont.
  - apply within_cons_inv in W as (e & W1 & W2). destruct (child_builder T j b p o t e Wt C W1) as (j1 & b1 & p1 & C1 & _ & [(Ho & _)|(_ & Eb)]).
    + exfalso. exact (cont_only_kind T b j p o (barren_cont b Hb) C Ho).
    + exact (IH j1 b1 p1 e z (barren_elem b b1 Hb Eb) C1 W2).
Qed.
(** every sub-object is built from a builder satisfying a hereditary check *)
Lemma sub_builder T (f : builder -> bool) : well_declared T -> (forall c cd ch, lookup c T = Some cd -> In ch (c_children cd) -> f (ch_builder ch) = true) ->
  (forall b b1, elem_builder b = Some b1 -> f b = true -> f b1 = true) -> forall ts j b p o x, f b = true -> construct T j b p [] = Ok o -> within o ts x ->
  exists j1 b1 p1, construct T j1 b1 p1 [] = Ok x /\ f b1 = true.
Proof.
  intros Wt Hc He. induction ts as [|t ts IH]; intros j b p o x Hb C W.
  - inversion W; subst. eauto.
  - apply within_cons_inv in W as (e & W1 & W2). destruct (child_builder T j b p o t e Wt C W1) as (j1 & b1 & p1 & C1 & _ & [(_ & (c & cd & ch & Hl & Hin & ->))|(_ & Eb)]).
    + exact (IH j1 _ p1 e x (Hc c cd ch Hl Hin) C1 W2).
    + exact (IH j1 b1 p1 e x (He b b1 Eb Hb) C1 W2).
Qed.
Lemma even_unmixed T j b p o : well_declared T -> all_builders evenb T = true -> evenb b = true -> construct T j b p [] = Ok o -> unmixed o.
Proof.
  intros Wt Ht Hb C ts x k k' y z Wx Cx Wy Wz Oy Cz.
  destruct (sub_builder T evenb Wt (fun c cd ch => all_builders_ok evenb T c cd ch Ht) (fun b b1 E H => proj2 (elem_even b b1 E H)) ts j b p o x Hb C Wx) as (j1 & b1 & p1 & C1 & H1).
  destruct (child_builder T j1 b1 p1 x k y Wt C1 Wy) as (j2 & b2 & p2 & C2 & _ & [(Ho & _)|(_ & E2)]); [exact (not_both _ Ho Cx)|].
  destruct (child_builder T j1 b1 p1 x k' z Wt C1 Wz) as (j3 & b3 & p3 & C3 & _ & [(Ho & _)|(_ & E3)]); [exact (not_both _ Ho Cx)|].
  assert (b3 = b2) by congruence. subst b3. destruct (elem_even _ _ E2 H1) as [[K|K] _].
  - exact (obj_only_kind T _ _ _ _ K C3 Cz).
  - exact (cont_only_kind T _ _ _ _ K C2 Oy).
Qed.
Lemma flat_nested T j b p o : well_declared T -> all_builders flatb T = true -> flatb b = true -> construct T j b p [] = Ok o ->
  forall us k r x y z, within o us x -> is_container x -> within x [k] y -> is_container y -> within y r z -> ~ is_object z.
Proof.
  intros Wt Ht Hb C us k r x y z Wx Cx Wy Cy Wz.
  destruct (sub_builder T flatb Wt (fun c cd ch => all_builders_ok flatb T c cd ch Ht) (fun b b1 E H => proj2 (elem_flat b b1 E H)) us j b p o x Hb C Wx) as (j1 & b1 & p1 & C1 & H1).
  destruct (child_builder T j1 b1 p1 x k y Wt C1 Wy) as (j2 & b2 & p2 & C2 & _ & [(Ho & _)|(_ & E2)]); [intros _; exact (not_both _ Ho Cx)|].
  destruct (elem_flat _ _ E2 H1) as [[K|K] _].
  - exfalso. exact (obj_only_kind T _ _ _ _ K C2 Cy).
  - exact (barren_no_object T Wt r _ _ _ _ _ K C2 Wz).
Qed.

(** ** paths of shallow locations *)
Lemma nearest_long T o k k2 k3 ts x : nearest T o (k :: k2 :: k3 :: ts) x -> tidy T o ->
  exists y z, within o [k] y /\ is_container y /\ within y [k2] z /\ is_container z /\ within z (k3 :: ts) x.
Proof.
  intros Hn Ht. inversion Hn as [|? ? y ts' ? Hk Hy Hn2]; subst. assert (Ty := tidy_slot _ _ _ _ Ht Hk).
  inversion Hn2 as [|? ? z ts' ? Hk2 Hz Hn3]; subst. assert (Tz := tidy_slot _ _ _ _ Ty Hk2). exists y, z.
  split; [now apply (tidy_within T)|]. split; [exact Hy|]. split; [now apply (tidy_within T)|]. split; [exact Hz|]. eapply nearest_within; eauto.
Qed.
Lemma shallow_path T leaves o cs x : steps T leaves o cs x -> tidy T o -> is_object o -> forall base, base <> "" ->
  (forall us k r y z, concat cs = (us ++ k :: r)%list -> within o us y -> is_container y -> within y [k] z -> is_container z -> within z r x -> False) ->
  extend base (map key cs) = jp_join (concat cs) (Some base).
Proof.
  induction 1 as [o|o c y cs x Hl Hn St IH]; intros Ht Ho base Hb Sh.
  - cbn [map concat]. rewrite jp_join_base by exact Hb. reflexivity.
  - cbn [map concat]. rewrite <- jp_join_assoc_base by exact Hb. change (extend base (key c :: map key cs)) with (extend (join "/" [base; key c]) (map key cs)).
    assert (Ty := nearest_tidy _ _ _ _ Hn Ht). assert (Oy := nearest_object _ _ _ _ Hn). assert (Wy := nearest_within _ _ _ _ Hn Ht).
    assert (Ec : join "/" [base; key c] = jp_join c (Some base)).
    { rewrite jp_join_base by exact Hb. destruct (key_from_object T o c y Hn Ht Ho) as (k & Ps & Pe & [[-> Ek]|(ts & -> & Nts & Ek)]).
      - rewrite Ek, join2. cbn [map join]. now rewrite Pe.
      - rewrite Ek, join2. destruct ts as [|k2 [|k3 ts]]; [congruence| |].
        + cbn [key map]. rewrite Pe. reflexivity.
        + exfalso. destruct (nearest_long T o k k2 k3 ts y Hn Ht) as (u & z & Wu & Cu & Wz & Cz & Wr).
          destruct (steps_visible T leaves y cs x St Ty Oy) as (Wx & _).
          eapply (Sh [k] k2 (k3 :: ts ++ concat cs)%list u z); [reflexivity|exact Wu|exact Cu|exact Wz|exact Cz|].
          exact (within_app z (k3 :: ts) y (concat cs) x Wr Wx). }
    rewrite Ec. apply IH; auto; [apply jp_join_base_ne; exact Hb|].
    intros us k r u z E Wu Cu Wz Cz Wr. eapply (Sh (c ++ us)%list k r u z); [cbn [concat]; rewrite E; apply app_assoc| |exact Cu|exact Wz|exact Cz|exact Wr].
    eapply within_app; eauto.
Qed.
