(** C19, C20: resolution and paths. *)
From Coq Require Import String Ascii List Bool Arith ZArith Lia DecimalString.
From Verif Require Import PyStr PyStrFacts PyVal PyValFacts Jp JpFacts Obj NatDecFacts SpecJson SpecObj ObjFacts ShapeFacts DumpFacts ReloadFacts.
Import ListNotations.
Open Scope string_scope. Open Scope nat_scope.

Lemma index_text_nat_dec i s : index_text i s <-> s = nat_dec i.
Proof. unfold index_text. now rewrite nat_dec_uint. Qed.
Lemma py_int_index i s : index_text i s -> py_int s = Ok (Z.of_nat i).
Proof. intros H. apply index_text_nat_dec in H as ->. apply py_int_nat_dec. Qed.

(** the path below *)
Definition path_after (path : option string) (ts : list string) : option string := fold_left sub_path ts path.
Lemma path_after_base base ts : base <> "" -> path_after (Some base) ts = Some (jp_join ts (Some base)).
Proof.
  revert base. induction ts as [|t ts IH]; intros base Hb.
  - cbn. unfold jp_join. cbn. rewrite (proj2 (truthy_str_true base) Hb). reflexivity.
  - cbn [path_after fold_left]. unfold sub_path at 2. fold (path_after (Some (jp_join [t] (Some base))) ts).
    rewrite IH by now apply jp_join_base_ne. now rewrite jp_join_assoc_base.
Qed.

Lemma construct_path tbl j b path ovr o : construct tbl j b path ovr = Ok o -> ~ primitive o -> get_path o = path.
Proof.
  rewrite construct_eq. intros H Hp. apply bind_ok in H as (k & _ & H). destruct k as [v|c|b'|b'|]; cbn [con_core] in H.
  - injection H as <-. exfalso. apply Hp. eexists; reflexivity.
  - apply bind_ok in H as (m & _ & H). destruct (lookup c tbl); [|discriminate]. apply bind_ok in H as (? & _ & H). injection H as <-. reflexivity.
  - apply bind_ok in H as (m & _ & H). destruct j; try discriminate. apply bind_ok in H as (? & _ & H). injection H as <-. reflexivity.
  - apply bind_ok in H as (m & _ & H). destruct j; try discriminate. apply bind_ok in H as (? & _ & H). injection H as <-. reflexivity.
  - destruct ovr; [|discriminate]. destruct j; try discriminate. injection H as <-. exfalso. apply Hp. eexists; reflexivity.
Qed.

(** what was built: kind of the object from the builder *)
Inductive built tbl : json -> option string -> obj -> Prop :=
| bt_obj j c cd path kids : lookup c tbl = Some cd -> con_kids tbl path [] j (c_children cd) = Ok kids -> built tbl j path (OObj c path j kids)
| bt_list l b path es : con_list tbl b path [] 0 l = Ok es -> built tbl (JList l) path (OList b path es)
| bt_map d b path es : con_map tbl b path [] d = Ok es -> built tbl (JDict d) path (OMap b path es).
Lemma construct_built tbl j b path o : construct tbl j b path [] = Ok o -> ~ primitive o -> built tbl j path o.
Proof.
  rewrite construct_eq. intros H Hp. apply bind_ok in H as (k & _ & H). destruct k as [v|c|b'|b'|]; cbn [con_core] in H.
  - injection H as <-. exfalso. apply Hp. eexists; reflexivity.
  - rewrite split_nil in H. cbn [bind] in H. destruct (lookup c tbl) as [cd|] eqn:Ec; [|discriminate].
    apply bind_ok in H as (kids & Ek & H). injection H as <-. econstructor; eauto.
  - rewrite split_nil in H. cbn [bind] in H. destruct j; try discriminate. apply bind_ok in H as (es & Ee & H). injection H as <-. now constructor.
  - rewrite split_nil in H. cbn [bind] in H. destruct j; try discriminate. apply bind_ok in H as (es & Ee & H). injection H as <-. now constructor.
  - destruct j; try discriminate. injection H as <-. exfalso. apply Hp. eexists; reflexivity.
Qed.

Lemma find_child_in name cs : In name (map ch_name cs) -> exists ch, find_child name cs = Some ch /\ In ch cs /\ ch_name ch = name.
Proof.
  unfold find_child. induction cs as [|c cs IH]; simpl; [tauto|].
  destruct (String.eqb_spec name (ch_name c)) as [->|Hn]; [eauto|]. intros [E|H]; [congruence|].
  destruct (IH H) as (ch & ? & ? & ?). eauto.
Qed.
Lemma getattr_child cd path tbl spec kids name : In name (map ch_name (c_children cd)) ->
  getattr_ tbl cd path spec kids name = Ok (match lookup name kids with Some o => o | None => OPrim JNull end).
Proof.
  intros H. destruct (find_child_in _ _ H) as (ch & E & _). unfold getattr_, getattr_plain. rewrite E. reflexivity.
Qed.

(** the sub-object reached by one token *)
Lemma resolve_step tbl j path o k o1 ts : built tbl j path o -> within o [k] o1 -> ~ primitive o1 ->
  resolve tbl o (k :: ts) = resolve tbl o1 ts.
Proof.
  intros B Wi Hp. inversion Wi as [|c p s kids ? o2 ? ? Hl W'|b p es i s e ? ? Hi Hn W'|b p es ? e ? ? Hl W']; subst;
    inversion W'; subst; cbn [resolve].
  - inversion B as [? ? cd ? ? Ec Ek| |]; subst. rewrite Ec.
    assert (Hin : In k (map ch_name (c_children cd))).
    { eapply con_kids_keys; eauto. apply lookup_some_in. eauto. }
    rewrite (getattr_child cd p tbl s kids k Hin), Hl. cbn [bind]. destruct o1; try reflexivity.
    exfalso. apply Hp. eexists; reflexivity.
  - rewrite (py_int_index _ _ Hi). cbn [bind]. rewrite py_nth_nat, Hn. reflexivity.
  - now rewrite Hl.
Qed.

(** one level: what a child of a built object is built from *)
Lemma built_child tbl j path o k o1 : well_declared tbl -> built tbl j path o -> within o [k] o1 ->
  exists j1 b1, construct tbl j1 b1 (sub_path path k) [] = Ok o1 /\ jget j [k] j1.
Proof.
  intros Wt B Wi. inversion Wi as [|c p s kids ? o2 ? ? Hl W'|b p es i s e ? ? Hi Hn W'|b p es ? e ? ? Hl W']; subst; inversion W'; subst.
  - inversion B as [? ? cd ? ? Ec Ek| |]; subst.
    assert (Hin : In k (map ch_name (c_children cd))).
    { eapply con_kids_keys; eauto. apply lookup_some_in. eauto. }
    apply in_map_iff in Hin as (ch & <- & Hc). destruct (declared_nodup cd (Wt c cd Ec)) as (_ & Nc & _).
    assert (El := con_kids_lookup _ _ _ _ _ _ ch Ek Nc Hc). rewrite Hl in El.
    unfold con_child in El. rewrite ovr_get_nil, ovr_here_nil in El.
    destruct s; try (apply bind_ok in El as (? & _ & El); discriminate).
    destruct (lookup (ch_name ch) d) as [x|] eqn:Ex; [|destruct (ch_required ch); discriminate].
    exists x, (ch_builder ch). split; [|econstructor; [exact Ex|constructor]].
    destruct x; try discriminate; (destruct (construct _ _ _ _ _); [simpl in El; congruence|discriminate]).
  - inversion B as [|l ? ? ? El|]; subst. apply con_list_ok in El as [Hlen Hel].
    destruct (nth_error_same es l i o1 Hlen Hn) as (x & Hx). exists x, b. specialize (Hel i x o1 Hx Hn). cbn [Nat.add] in Hel.
    rewrite <- (proj1 (index_text_nat_dec i k) Hi) in Hel. split; [exact Hel|]. econstructor; eauto. constructor.
  - inversion B as [| |d ? ? ? El]; subst. apply con_map_ok in El.
    assert (G : exists j1, construct tbl j1 b (sub_path p k) [] = Ok o1 /\ lookup k d = Some j1).
    { clear -El Hl. induction El as [|[k1 x] [k2 e] d es [E He] El IH]; simpl in *; [discriminate|]. subst k2.
      destruct (String.eqb_spec k k1) as [->|]; [injection Hl as ->; eauto|auto]. }
    destruct G as (j1 & ? & ?). exists j1, b. split; [assumption|]. econstructor; eauto. constructor.
Qed.

Lemma within_cons_inv o k ts o' : within o (k :: ts) o' -> exists o1, within o [k] o1 /\ within o1 ts o'.
Proof.
  intros H. inversion H; subst; (eexists; split; [|eassumption]); econstructor; eauto; constructor.
Qed.

(** every descendant of a built object: its path, its document, and resolution *)
Lemma within_resolve tbl ts : well_declared tbl -> forall j b path o o', construct tbl j b path [] = Ok o ->
  within o ts o' -> ~ primitive o' ->
  get_path o' = path_after path ts /\ resolve tbl o ts = Ok o'
  /\ exists j' b', jget j ts j' /\ construct tbl j' b' (path_after path ts) [] = Ok o'.
Proof.
  intros Wt. induction ts as [|t ts IH]; intros j b path o o' C Wi Hp.
  - inversion Wi; subst. split; [eapply construct_path; eauto|]. split.
    + destruct o'; try reflexivity. exfalso. apply Hp. eexists; reflexivity.
    + exists j, b. split; [constructor|exact C].
  - apply within_cons_inv in Wi as (o1 & W1 & W2).
    assert (Hp0 : ~ primitive o) by (intros (x & ->); inversion W1).
    assert (Hp1 : ~ primitive o1).
    { intros (x & ->). inversion W2; subst. apply Hp. eexists; reflexivity. }
    assert (B := construct_built _ _ _ _ _ C Hp0).
    destruct (built_child _ _ _ _ _ _ Wt B W1) as (j1 & b1 & C1 & G1).
    destruct (IH _ _ _ _ _ C1 W2 Hp) as (P & R & j' & b' & G & C').
    split; [exact P|]. split; [rewrite (resolve_step _ _ _ _ _ _ _ B W1 Hp1); exact R|].
    exists j', b'. split; [|exact C']. inversion G1 as [|d k v ? ? Hl G1'|l i s v ? ? Hi Hn G1']; subst; inversion G1'; subst; econstructor; eauto.
Qed.

(** addressing through the declarations *)
Lemma addresses_within tbl b j ts b' j' : well_declared tbl -> addresses tbl b j ts b' j' ->
  forall path o, construct tbl j b path [] = Ok o ->
  exists o', construct tbl j' b' (path_after path ts) [] = Ok o' /\ within o ts o'.
Proof.
  intros Wt A. induction A as [b j|b c cd d ch v ts b' j' D Ec Hc Hl Hn A IH|b b0 l i s x ts b' j' D Hi Hx A IH|b b0 d k x ts b' j' D Hl A IH];
    intros path o C.
  - exists o. split; [exact C|constructor].
  - rewrite construct_eq, (denotes_select _ _ _ D) in C. cbn [bind core_of con_core] in C. rewrite split_nil, Ec in C. cbn [bind] in C.
    apply bind_ok in C as (kids & Ek & E). injection E as <-.
    destruct (declared_nodup cd (Wt c cd Ec)) as (_ & Nc & _).
    assert (El := con_kids_lookup _ _ _ _ _ _ ch Ek Nc Hc). unfold con_child in El. rewrite ovr_get_nil, ovr_here_nil, Hl in El.
    assert (exists o1, construct tbl v (ch_builder ch) (sub_path path (ch_name ch)) [] = Ok o1 /\ lookup (ch_name ch) kids = Some o1) as (o1 & C1 & L1).
    { destruct v; try congruence; (destruct (construct _ _ _ _ _) as [o1|]; [simpl in El; injection El as El; eauto|discriminate]). }
    destruct (IH _ _ C1) as (o' & C' & W'). exists o'. split; [exact C'|]. econstructor; eauto.
  - rewrite construct_eq, (denotes_select _ _ _ D) in C. cbn [bind core_of con_core] in C. rewrite split_nil in C. cbn [bind] in C.
    apply bind_ok in C as (es & Ek & E). injection E as <-. apply con_list_ok in Ek as [Hlen Hel].
    destruct (nth_error_same l es i x (eq_sym Hlen) Hx) as (e & He). specialize (Hel i x e Hx He). cbn [Nat.add] in Hel.
    rewrite <- (proj1 (index_text_nat_dec i s) Hi) in Hel. destruct (IH _ _ Hel) as (o' & C' & W'). exists o'. split; [exact C'|].
    econstructor; eauto.
  - rewrite construct_eq, (denotes_select _ _ _ D) in C. cbn [bind core_of con_core] in C. rewrite split_nil in C. cbn [bind] in C.
    apply bind_ok in C as (es & Ek & E). injection E as <-. apply con_map_ok in Ek.
    assert (exists e, lookup k es = Some e /\ construct tbl x b0 (sub_path path k) [] = Ok e) as (e & Le & Ce).
    { clear -Ek Hl. induction Ek as [|[k1 x1] [k2 e] d es [E He] El IH]; simpl in *; [discriminate|]. subst k2.
      destruct (String.eqb_spec k k1) as [->|]; [injection Hl as ->; eauto|auto]. }
    destruct (IH _ _ Ce) as (o' & C' & W'). exists o'. split; [exact C'|]. econstructor; eauto.
Qed.

Lemma addresses_jget tbl b j ts b' j' : addresses tbl b j ts b' j' -> jget j ts j'.
Proof. induction 1; econstructor; eauto. Qed.

Lemma within_app o ts o1 us o2 : within o ts o1 -> within o1 us o2 -> within o (ts ++ us) o2.
Proof. induction 1; simpl; intros; eauto; econstructor; eauto. Qed.

(** resolution to a string inside a container raises *)
Lemma within_prim_container tbl : well_declared tbl -> forall ts j b path o o1 k v, construct tbl j b path [] = Ok o ->
  within o ts o1 -> (match o1 with OList _ _ _ | OMap _ _ _ => True | _ => False end) -> within o1 [k] (OPrim v) ->
  resolve tbl o (ts ++ [k]) = Err AttributeError.
Proof.
  intros Wt ts. induction ts as [|t ts IH]; intros j b path o o1 k v C W K P.
  - inversion W; subst. simpl.
    inversion P as [|c p s kids ? o2 ? ? Hl W'|b0 p es i s e ? ? Hi Hn W'|b0 p es ? e ? ? Hl W']; subst; [contradiction| |]; inversion W'; subst; cbn [resolve].
    + rewrite (py_int_index _ _ Hi). cbn [bind]. rewrite py_nth_nat, Hn. reflexivity.
    + rewrite Hl. reflexivity.
  - apply within_cons_inv in W as (o2 & W1 & W2).
    assert (Hp0 : ~ primitive o) by (intros (x & ->); inversion W1).
    assert (Hp1 : ~ primitive o2).
    { intros (x & ->). inversion W2; subst. contradiction. }
    assert (B := construct_built _ _ _ _ _ C Hp0).
    destruct (built_child _ _ _ _ _ _ Wt B W1) as (j1 & b1 & C1 & _).
    change ((t :: ts) ++ [k])%list with (t :: (ts ++ [k]))%list.
    rewrite (resolve_step _ _ _ _ _ _ _ B W1 Hp1). eapply IH; eauto.
Qed.

(** raw values below a field *)
Lemma raw_resolve_jget j ts v : jget j ts v -> raw_resolve j ts = Ok v.
Proof.
  induction 1 as [j|d k v ts r Hl G IH|l i s v ts r Hi Hn G IH]; cbn [raw_resolve]; [reflexivity| |].
  - now rewrite Hl.
  - rewrite (py_int_index _ _ Hi). cbn [bind]. rewrite py_nth_nat, Hn. exact IH.
Qed.
Lemma resolve_app tbl o ts o1 us : resolve tbl o ts = Ok o1 -> ~ primitive o1 -> resolve tbl o (ts ++ us) = resolve tbl o1 us.
Proof.
  revert o. induction ts as [|t ts IH]; intros o H Hp.
  - cbn in H. destruct o; try discriminate; injection H as <-; reflexivity.
  - cbn [app resolve] in *. destruct o as [j|c p s kids|b p es|b p es]; [discriminate| | |].
    + destruct (lookup c tbl) as [cd|]; [|discriminate]. apply bind_ok in H as (o2 & E & H). rewrite E. cbn [bind].
      destruct o2; try (apply IH; assumption).
      exfalso. destruct (raw_resolve j ts); simpl in H; [|discriminate]. injection H as <-. apply Hp. eexists; reflexivity.
    + apply bind_ok in H as (i & E & H). rewrite E. cbn [bind]. apply bind_ok in H as (e & E' & H). rewrite E'. cbn [bind]. auto.
    + destruct (lookup t es); [auto|discriminate].
Qed.
Lemma find_field_in name cd f : NoDup (map f_name (c_fields cd)) -> In f (c_fields cd) -> f_name f = name -> find_field name cd = Some f.
Proof.
  unfold find_field. induction (c_fields cd) as [|g l IH]; simpl; intros Hn Hin E; [destruct Hin|].
  apply NoDup_cons_iff in Hn as [Hg Hn]. destruct (String.eqb_spec name (f_name g)) as [E'|Hne].
  - destruct Hin as [->|Hin]; [reflexivity|]. exfalso. apply Hg. rewrite <- E', <- E. now apply in_map.
  - destruct Hin as [->|Hin]; [congruence|auto].
Qed.
Lemma find_child_none name cs : ~ In name (map ch_name cs) -> find_child name cs = None.
Proof.
  unfold find_child. induction cs as [|c cs IH]; simpl; [reflexivity|]. intros H.
  destruct (String.eqb_spec name (ch_name c)); [exfalso; auto|auto].
Qed.
