(** C25: construction succeeds exactly on well-shaped documents. *)
From Coq Require Import String Ascii List Bool Arith ZArith Lia.
From Verif Require Import PyStr PyStrFacts PyVal PyValFacts Jp JpFacts Obj SpecJson SpecObj ObjFacts.
Import ListNotations.
Open Scope string_scope. Open Scope nat_scope.

Lemma substring_of_spec k s : substring_of k s = true <-> exists a b, s = a ++ k ++ b.
Proof.
  induction s as [|c s IH].
  - simpl. rewrite orb_false_r. split.
    + intros H. exists "", "". destruct k; [reflexivity|discriminate].
    + intros (a & b & H). symmetry in H. apply sapp_eq_nil in H as [-> H]. apply sapp_eq_nil in H as [-> ->]. reflexivity.
  - cbn [substring_of]. rewrite orb_true_iff, IH, startswith_spec. split.
    + intros [(r & ->)|(a & b & ->)]; [exists "", r; reflexivity | exists (String c a), b; reflexivity].
    + intros (a & b & H). destruct a as [|c' a]; simpl in H.
      * left. exists b. exact H.
      * right. injection H as _ H. eauto.
Qed.

Lemma py_in_true k j : py_in k j = Ok true <-> occurs_in k j.
Proof.
  destruct j as [| | | |s|l|d]; simpl; try (split; [discriminate | intros H; inversion H]; fail).
  - split.
    + intros H. injection H as H. apply substring_of_spec in H as (a & b & ->). constructor.
    + intros H. inversion H; subst. f_equal. apply substring_of_spec. eauto.
  - split.
    + intros H. injection H as H. apply existsb_exists in H as (x & Hin & Hx). destruct x; try discriminate.
      simpl in Hx. apply String.eqb_eq in Hx. subst. now constructor.
    + intros H. inversion H; subst. f_equal. apply existsb_exists. exists (JStr k). split; [assumption|]. simpl. apply String.eqb_refl.
  - unfold mem. split.
    + destruct (lookup k d) as [v|] eqn:E; [|discriminate]. intros _. econstructor; eauto.
    + intros H. inversion H as [d' v E| |]; subst. now rewrite E.
Qed.
Lemma py_in_false k j : py_in k j = Ok false <-> searchable j /\ ~ occurs_in k j.
Proof.
  rewrite <- py_in_true. destruct j; simpl; try (split; [discriminate | tauto]; fail);
    (split; [intros H; injection H as H; rewrite H; split; [exact I|discriminate]
            | intros [_ H]; f_equal; destruct (_ : bool); [contradiction H; reflexivity|reflexivity]]).
Qed.
Lemma py_in_cases k j :
  (py_in k j = Ok true /\ occurs_in k j) \/ (py_in k j = Ok false /\ searchable j /\ ~ occurs_in k j)
  \/ (py_in k j = Err TypeError /\ ~ searchable j).
Proof.
  destruct (py_in k j) as [[]|e] eqn:E.
  - left. split; [reflexivity | now apply py_in_true].
  - right; left. split; [reflexivity | now apply py_in_false].
  - right; right. destruct j; simpl in *; try discriminate; split; congruence || tauto.
Qed.

Lemma json_null_dec (v : json) : v = JNull \/ v <> JNull.
Proof. destruct v; auto; right; discriminate. Qed.

Definition shaped_core tbl (k : core) (j : json) : Prop :=
  match k with
  | KPrim v => v = j
  | KStr => exists s, j = JStr s
  | KList b => exists l, j = JList l /\ forall x, In x l -> shaped tbl b x
  | KMap b => exists d, j = JDict d /\ forall k x, In (k, x) d -> shaped tbl b x
  | KCls c => shaped tbl (BCls c) j
  end.
Lemma shaped_select tbl b j : shaped tbl b j <-> exists k, select b j = Ok k /\ shaped_core tbl k j.
Proof.
  induction b as [c|b IH|b IH| |r b IH|b IH]; cbn [select].
  - split; [intros H; exists (KCls c); auto | intros (k & E & H); injection E as <-; exact H].
  - split.
    + intros H. exists (KList b). split; [reflexivity|]. inversion H; subst. simpl; eauto.
    + intros (k & E & H). injection E as <-. destruct H as (l & -> & H). now constructor.
  - split.
    + intros H. exists (KMap b). split; [reflexivity|]. inversion H; subst. simpl; eauto.
    + intros (k & E & H). injection E as <-. destruct H as (l & -> & H). now constructor.
  - split.
    + intros H. exists KStr. split; [reflexivity|]. inversion H; subst. simpl; eauto.
    + intros (k & E & H). injection E as <-. destruct H as (l & ->). constructor.
  - destruct (py_in_cases "$ref" j) as [[-> Hr]|[[-> [Hs Hr]]|[-> Hs]]]; cbn [bind].
    + split.
      * intros H. exists (KCls r). split; [reflexivity|]. inversion H; subst; [assumption|contradiction].
      * intros (k & E & H). injection E as <-. now apply sh_ref.
    + rewrite <- IH. split.
      * intros H. inversion H; subst; [contradiction|assumption].
      * intros H. now apply sh_noref.
    + split; [|intros (k & E & _); discriminate].
      intros H. inversion H as [| | | | |? ? ? Ho|? ? ? Hse| |]; subst; [|contradiction].
      exfalso. apply Hs. inversion Ho; subst; exact I.
  - destruct j; cbn [bind].
    2: { split; [intros _; eexists; split; reflexivity | intros _; constructor]. }
    all: rewrite <- IH; split; [intros H; inversion H; subst; assumption | intros H; apply sh_nobool; [discriminate|assumption]].
Qed.

Lemma py_getitem_nondict k j : (forall d, j <> JDict d) -> py_getitem k j = Err TypeError.
Proof. destruct j; simpl; try reflexivity. intros H. now contradiction (H d). Qed.

(** immediate parts of a document *)
Definition part (x j : json) : Prop :=
  match j with JList l => In x l | JDict d => exists k, In (k, x) d | _ => False end.
Lemma json_part_ind (P : json -> Prop) : (forall j, (forall x, part x j -> P x) -> P j) -> forall j, P j.
Proof.
  intros H j. induction j as [| | | | |l IH|d IH] using json_ind'; apply H; simpl; try tauto.
  - intros x Hx. rewrite Forall_forall in IH. auto.
  - intros x (k & Hx). rewrite Forall_forall in IH. exact (IH _ Hx).
Qed.

Lemma select_prim b j v : select b j = Ok (KPrim v) -> v = j /\ exists t, j = JBool t.
Proof.
  induction b as [c|b IH|b IH| |r b IH|b IH]; cbn [select]; try discriminate.
  - intros H. apply bind_ok in H as (i & _ & H). destruct i; [discriminate|auto].
  - destruct j; auto. intros H. injection H as <-. eauto.
Qed.

Lemma con_child_nondict tbl path j ch : (forall d, j <> JDict d) ->
  (exists k, con_child tbl path [] j ch = Ok k) <->
  (searchable j /\ ~ occurs_in (ch_name ch) j /\ ch_required ch = false).
Proof.
  intros Hd. assert (E : con_child tbl path [] j ch = (_ <- absent_child j ch ;; Ok None)).
  { unfold con_child. rewrite ovr_get_nil, ovr_here_nil. destruct j; try reflexivity. now contradiction (Hd d). }
  rewrite E. unfold absent_child.
  destruct (py_in_cases (ch_name ch) j) as [[-> Hr]|[[-> [Hs Hr]]|[-> Hs]]]; cbn [bind].
  - rewrite py_getitem_nondict by assumption. simpl. split; [intros [k H]; discriminate | tauto].
  - destruct (ch_required ch); simpl; split; [intros [k H]; discriminate | intros (_ & _ & H); discriminate | auto | eauto].
  - split; [intros [k H]; discriminate | tauto].
Qed.

Lemma con_kids_iff tbl path j cs :
  (exists kids, con_kids tbl path [] j cs = Ok kids) <-> (forall ch, In ch cs -> exists k, con_child tbl path [] j ch = Ok k).
Proof.
  split; [intros (kids & H) ch Hin; eapply con_kids_each; eauto | intros H; now apply con_kids_total].
Qed.

Lemma construct_shaped tbl j : forall b path, (exists o, construct tbl j b path [] = Ok o) <-> shaped tbl b j.
Proof.
  induction j as [j IH] using json_part_ind. intros b path. rewrite shaped_select, construct_eq.
  assert (Hcls : forall c, (exists o, con_core tbl (KCls c) j path [] = Ok o) <-> shaped tbl (BCls c) j).
  { intros c. cbn [con_core]. rewrite split_nil. cbn [bind]. destruct (lookup c tbl) as [cd|] eqn:Ec.
    2: { split; [intros (o & H); discriminate | intros H; inversion H; congruence]. }
    transitivity (exists kids, con_kids tbl path [] j (c_children cd) = Ok kids).
    { split; [intros (o & H); apply bind_ok in H as (kids & H & _); eauto | intros (kids & ->); simpl; eauto]. }
    rewrite con_kids_iff.
    assert (Dj : (exists d, j = JDict d) \/ forall d, j <> JDict d) by (destruct j; eauto; right; discriminate).
    destruct Dj as [(d & ->)|Hd].
    - split.
      + intros H. apply (sh_object tbl c cd d Ec).
        * intros ch v Hin Hv Hn. destruct (H ch Hin) as (k & Hk). unfold con_child in Hk.
          rewrite ovr_get_nil, ovr_here_nil, Hv in Hk.
          apply (IH v) with (path := sub_path path (ch_name ch)); [exists (ch_name ch); now apply lookup_In|].
          destruct v; try congruence;
            (destruct (construct _ _ _ _ _) as [o|e]; [eauto|discriminate]).
        * intros ch Hin Hv. destruct (H ch Hin) as (k & Hk). unfold con_child in Hk.
          rewrite ovr_get_nil, ovr_here_nil, Hv in Hk. destruct (ch_required ch); [discriminate|reflexivity].
      + intros H ch Hin. inversion H as [| | |? cd' ? Ec' Hc Hr|? ? ? ? Hno| | | |]; subst.
        2: { now contradiction (Hno d). }
        rewrite Ec in Ec'. injection Ec' as <-. unfold con_child. rewrite ovr_get_nil, ovr_here_nil.
        destruct (lookup (ch_name ch) d) as [v|] eqn:Ev.
        * destruct (json_null_dec v) as [->|Hn]; [eauto|].
          specialize (Hc ch v Hin Ev Hn).
          apply (IH v) with (path := sub_path path (ch_name ch)) in Hc; [|exists (ch_name ch); now apply lookup_In].
          destruct Hc as (o & Ho). rewrite Ho. destruct v; simpl; eauto.
        * rewrite (Hr ch Hin Ev). eauto.
    - split.
      + intros H. apply (sh_odd_object tbl c cd j Ec Hd). intros ch Hin.
        apply (con_child_nondict tbl path j ch Hd). auto.
      + intros H ch Hin. inversion H as [| | |? ? d|? cd' ? Ec' _ Hc| | | |]; subst; [now contradiction (Hd d)|].
        rewrite Ec in Ec'. injection Ec' as <-. apply (con_child_nondict tbl path j ch Hd). auto. }
  assert (Hcore : forall k, select b j = Ok k -> (exists o, con_core tbl k j path [] = Ok o) <-> shaped_core tbl k j).
  { intros k Ek. destruct k as [v|c|b'|b'|]; [| apply Hcls | | |].
    - apply select_prim in Ek as [-> _]. cbn. split; eauto.
    - cbn [con_core shaped_core]. rewrite split_nil. cbn [bind]. destruct j as [| | | | |l|d];
        try (split; [intros (o & H); discriminate | intros (l' & H & _); discriminate]).
      split.
      + intros (o & H). apply bind_ok in H as (es & H & _). exists l. split; [reflexivity|].
        intros x Hx. apply con_list_ok in H as [Hl Hn]. apply In_nth_error in Hx as Hx'. destruct Hx' as (n & Hx').
        destruct (nth_error es n) as [e|] eqn:Ee.
        * apply (IH x Hx b' (sub_path path (nat_dec (0 + n)))). eauto.
        * apply nth_error_None in Ee. assert (n < length l) by (apply nth_error_Some; congruence). lia.
      + intros (l' & El & H). injection El as <-.
        destruct (con_list_total tbl b' path 0 l) as (es & ->); [|simpl; eauto].
        intros x p Hx. apply (IH x Hx). auto.
    - cbn [con_core shaped_core]. rewrite split_nil. cbn [bind]. destruct j as [| | | | |l|d];
        try (split; [intros (o & H); discriminate | intros (l' & H & _); discriminate]).
      split.
      + intros (o & H). apply bind_ok in H as (es & H & _). exists d. split; [reflexivity|].
        intros k x Hx. apply con_map_ok in H.
        apply (IH x (ex_intro _ k Hx) b' (sub_path path k)).
        clear -H Hx. induction H as [|[k1 x1] [k2 e2] d es [_ He] H IH]; [destruct Hx|].
        destruct Hx as [E|Hx]; [injection E as -> ->; eauto | auto].
      + intros (l' & El & H). injection El as <-.
        destruct (con_map_total tbl b' path d) as (es & ->); [|simpl; eauto].
        intros k x p Hx. apply (IH x (ex_intro _ k Hx)). eauto.
    - cbn. destruct j; split; try (intros (o & H); discriminate); eauto. }
  split.
  - intros (o & H). apply bind_ok in H as (k & Ek & H). exists k. split; [exact Ek|]. apply Hcore; eauto.
  - intros (k & Ek & H). apply (Hcore k Ek) in H as (o & H). exists o. rewrite Ek. exact H.
Qed.
