(** * Objects loaded from values of known shape. *)
From Coq Require Import String Ascii List Bool Arith Lia.
From Verif Require Import PyStr PyStrFacts PyVal PyValFacts Jp Obj ObjFacts Classes_v2_0 Classes_v3_0_0 TablesFacts SpecTables SpecJson ShapeFacts DumpFacts ReloadFacts NatDecFacts SpecObj OverrideFacts ResolveFacts SpecScan SpecDoc SpecLocal SpecInside Shape30Facts.
Import ListNotations.
Open Scope string_scope. Open Scope nat_scope.
Notation within := SpecObj.within (only parsing).

(** ** what the parts of a loaded object are loaded from *)
Lemma child_from T c p s kids cd k o1 : well_declared T -> lookup c T = Some cd -> con_kids T p [] s (c_children cd) = Ok kids -> lookup k kids = Some o1 ->
  exists ch d x, In ch (c_children cd) /\ ch_name ch = k /\ s = JDict d /\ lookup k d = Some x /\ x <> JNull /\ construct T x (ch_builder ch) (sub_path p k) [] = Ok o1.
Proof.
  intros Wt Ec Ek Hl.
  assert (Hin : In k (map ch_name (c_children cd))). { eapply con_kids_keys; eauto. apply lookup_some_in. eauto. }
  apply in_map_iff in Hin as (ch & <- & Hc). destruct (declared_nodup cd (Wt c cd Ec)) as (_ & Nc & _).
  assert (El := con_kids_lookup _ _ _ _ _ _ ch Ek Nc Hc). rewrite Hl in El. unfold con_child in El. rewrite ovr_get_nil, ovr_here_nil in El.
  destruct s as [| | | | | |d]; try (apply bind_ok in El as (? & _ & El); discriminate).
  destruct (lookup (ch_name ch) d) as [x|] eqn:Ex; [|destruct (ch_required ch); discriminate].
  exists ch, d, x. split; [exact Hc|]. split; [reflexivity|]. split; [reflexivity|]. split; [exact Ex|]. split; [intros ->; discriminate|].
  destruct x; try discriminate; (destruct (construct _ _ _ _ _); [simpl in El; congruence|discriminate]).
Qed.
Lemma element_from T b p l es i o1 : con_list T b p [] 0 l = Ok es -> nth_error es i = Some o1 -> exists x, In x l /\ construct T x b (sub_path p (nat_dec i)) [] = Ok o1.
Proof.
  intros El Hn. apply con_list_ok in El as [Hlen Hel]. destruct (nth_error_same es l i o1 Hlen Hn) as (x & Hx). exists x. split; [exact (nth_error_In _ _ Hx)|]. exact (Hel i x o1 Hx Hn).
Qed.
Lemma entry_from T b p d es k o1 : con_map T b p [] d = Ok es -> lookup k es = Some o1 -> exists x, In (k, x) d /\ construct T x b (sub_path p k) [] = Ok o1.
Proof.
  intros El Hl. apply con_map_ok in El. induction El as [|[k1 x] [k2 e] d es [E He] El IH]; [discriminate|]. cbn [fst snd] in *. subst k2. cbn [lookup] in Hl.
  destruct (String.eqb_spec k k1) as [->|]; [injection Hl as ->; exists x; split; [now left|exact He]|]. destruct (IH Hl) as (y & I' & C). exists y. split; [now right|exact C].
Qed.

(** ** builders of one kind of value *)
(** the builder gives only objects or only containers, the same holds for what is in it, and a Reference is only
    built from something with a "$ref" *)
Fixpoint safe (b : builder) : bool :=
  match b with
  | BCls c => negb (String.eqb c "Reference")
  | BListOf b' | BMapOf b' => safe b'
  | BStr => true
  | BRefElse r b' => match b' with BCls c => negb (String.eqb c "Reference") | _ => false end
  | BBoolElse b' => safe b'
  end.
Fixpoint boxy (b : builder) : bool := match b with BListOf _ | BMapOf _ => true | BBoolElse b' => boxy b' | _ => false end.
Lemma select_safe b j : safe b = true -> forall k, select b j = Ok k ->
  match k with KCls c => boxy b = false /\ (c = "Reference" -> py_in "$ref" j = Ok true) | KList b' | KMap b' => boxy b = true /\ safe b' = true | _ => True end.
Proof.
  induction b as [c0|b IH|b IH| |r b IH|b IH]; cbn [safe boxy select]; intros S0 k H.
  - injection H as <-. split; [reflexivity|]. intros ->. discriminate S0.
  - injection H as <-. auto.
  - injection H as <-. auto.
  - injection H as <-. exact I.
  - apply bind_ok in H as (i & Ei & H). destruct i; [injection H as <-; auto|]. destruct b; try discriminate. cbn [select] in H. injection H as <-. split; [reflexivity|]. intros ->. discriminate S0.
  - destruct j; try (exact (IH S0 k H)). injection H as <-. exact I.
Qed.

Ltac box := let Z := fresh in intros Z; exfalso; destruct Z as [(? & ? & ? & [=])|(? & ? & ? & [=])].
Section Sound.
  Context {okref : string -> json -> Prop}.
  Notation tight := (tight okref).
  Lemma select_tight b j : tight b j -> forall k, select b j = Ok k ->
    match k with KCls c => tight (BCls c) j | KList b' => tight (BListOf b') j | KMap b' => tight (BMapOf b') j | _ => True end.
  Proof.
    induction 1 as [s|b l Fl _|b d Fl _|c cd d L Fl _ R U O|r b d v L T IH|r b d L T IH|b v|b j N T IH]; cbn [select]; intros k H.
    - injection H as <-. exact I.
    - injection H as <-. now apply ti_list.
    - injection H as <-. now apply ti_map.
    - injection H as <-. now apply ti_object with cd.
    - cbn [py_in] in H. unfold mem in H. rewrite L in H. cbn [bind] in H. injection H as <-. exact T.
    - cbn [py_in] in H. unfold mem in H. rewrite L in H. cbn [bind] in H. exact (IH k H).
    - injection H as <-. exact I.
    - destruct j; try exact (IH k H). now elim (N b0).
  Qed.
  (** an object or container loaded from a value of known shape *)
  Definition sound (o : obj) : Prop :=
    match o with
    | OPrim _ => True
    | OObj c p s kids => tight (BCls c) s /\ (c = "Reference" -> exists d v, s = JDict d /\ lookup "$ref" d = Some v) /\ exists cd, lookup c v30_table = Some cd /\ con_kids v30_table p [] s (c_children cd) = Ok kids
    | OList b p es => safe b = true /\ exists l, con_list v30_table b p [] 0 l = Ok es /\ forall x, In x l -> tight b x
    | OMap b p es => safe b = true /\ exists d, con_map v30_table b p [] d = Ok es /\ forall k x, In (k, x) d -> tight b x
    end.
  Lemma sound_built j b p o : construct v30_table j b p [] = Ok o -> safe b = true -> tight b j -> sound o /\ (is_object o -> boxy b = false) /\ (is_container o -> boxy b = true).
  Proof.
    intros H S0 T. rewrite construct_eq in H. apply bind_ok in H as (k & Ek & H). pose proof (select_safe b j S0 k Ek) as Ks. pose proof (select_tight b j T k Ek) as Kt. destruct k as [v|c|b'|b'|]; cbn [con_core] in H.
    - injection H as <-. split; [exact I|]. split; [intros (? & ? & ? & ? & [=])|box].
    - rewrite split_nil in H. cbn [bind] in H. destruct (lookup c v30_table) as [cd|] eqn:Ec; [|discriminate]. apply bind_ok in H as (kids & Ekids & H). injection H as <-. destruct Ks as [K1 K2]. split; [|split; [auto|box]].
      cbn [sound]. split; [exact Kt|]. split; [|eauto]. intros Z. specialize (K2 Z). inversion Kt; subst. cbn [py_in] in K2. unfold mem in K2. destruct (lookup "$ref" d) as [v|] eqn:El; [eauto|discriminate].
    - rewrite split_nil in H. cbn [bind] in H. destruct j; try discriminate. apply bind_ok in H as (es & Ee & H). injection H as <-. destruct Ks as [K1 K2]. split; [|split; [intros (? & ? & ? & ? & [=])|auto]]. cbn [sound]. split; [exact K2|]. exists l. split; [exact Ee|]. inversion Kt; subst. assumption.
    - rewrite split_nil in H. cbn [bind] in H. destruct j; try discriminate. apply bind_ok in H as (es & Ee & H). injection H as <-. destruct Ks as [K1 K2]. split; [|split; [intros (? & ? & ? & ? & [=])|auto]]. cbn [sound]. split; [exact K2|]. eexists. split; [exact Ee|]. inversion Kt; subst. assumption.
    - destruct j; try discriminate. injection H as <-. split; [exact I|]. split; [intros (? & ? & ? & ? & [=])|box].
  Qed.
  Notation wd30 := v30_well_declared.
  Definition usedb (c : string) (ch : childdef) : bool := existsb (fun ck => String.eqb (fst ck) c && String.eqb (snd ck) (ch_name ch)) unused.
  Lemma table_safe : forallb (fun e => forallb (fun ch => usedb (fst e) ch || safe (ch_builder ch)) (c_children (snd e))) v30_table = true.
  Proof. vm_compute. reflexivity. Qed.
  Lemma child_safe c cd ch : lookup c v30_table = Some cd -> In ch (c_children cd) -> ~ In (c, ch_name ch) unused -> safe (ch_builder ch) = true.
  Proof.
    intros L Ic N. pose proof table_safe as T. rewrite forallb_forall in T. apply TablesFacts.lookup_In in L. specialize (T _ L). cbn [fst snd] in T. rewrite forallb_forall in T. specialize (T _ Ic). apply orb_prop in T as [T|T]; [|exact T].
    elim N. unfold usedb in T. apply existsb_exists in T as ([a b] & Iu & E). cbn [fst snd] in E. apply andb_prop in E as [E1 E2]. apply String.eqb_eq in E1, E2. now subst.
  Qed.
  Lemma sound_step o k o1 : sound o -> within o [k] o1 -> sound o1 /\ (is_container o -> exists b, (is_object o1 -> boxy b = false) /\ (is_container o1 -> boxy b = true) /\ match o with OList b' _ _ | OMap b' _ _ => b = b' | _ => False end).
  Proof.
    intros So Wi. inversion Wi as [|c p s kids ? o2 ? ? Hl W'|b p es i s e ? ? Hi Hn W'|b p es ? e ? ? Hl W']; subst; inversion W'; subst.
    - destruct So as (T & _ & cd & Ec & Ek). destruct (child_from v30_table c p s kids cd k o1 wd30 Ec Ek Hl) as (ch & d & x & Ic & <- & -> & Lx & Nx & C). split; [|box].
      inversion T as [| | |c0 cd0 d0 Ec0 F _ U _| | | |]; subst. assert (cd0 = cd) by congruence. subst.
      refine (proj1 (sound_built _ _ _ _ C _ (F ch x Ic Lx Nx))). apply (child_safe c cd ch Ec Ic). intros Iu. rewrite (U _ Iu) in Lx. discriminate.
    - destruct So as (Sb & l & El & F). destruct (element_from _ _ _ _ _ _ _ El Hn) as (x & Ix & C). destruct (sound_built _ _ _ _ C Sb (F x Ix)) as (B1 & B2 & B3). split; [exact B1|]. intros _. exists b. auto.
    - destruct So as (Sb & d & El & F). destruct (entry_from _ _ _ _ _ _ _ El Hl) as (x & Ix & C). destruct (sound_built _ _ _ _ C Sb (F k x Ix)) as (B1 & B2 & B3). split; [exact B1|]. intros _. exists b. auto.
  Qed.
  Lemma sound_within ts : forall o x, sound o -> within o ts x -> sound x.
  Proof.
    induction ts as [|t ts IH]; intros o x So Wi; [inversion Wi; now subst|]. apply within_cons_inv in Wi as (o1 & W1 & W2). exact (IH o1 x (proj1 (sound_step o t o1 So W1)) W2).
  Qed.
  Lemma sound_unmixed root : sound root -> unmixed root.
  Proof.
    intros So ts o k k' x y Wo Co Wx Wy Ox Cy. pose proof (sound_within ts root o So Wo) as S1.
    destruct (proj2 (sound_step o k x S1 Wx) Co) as (b & B1 & _ & M). destruct (proj2 (sound_step o k' y S1 Wy) Co) as (b' & _ & B2 & M').
    specialize (B1 Ox). specialize (B2 Cy). destruct o; try contradiction; subst; congruence.
  Qed.
  Lemma sound_media root : sound root -> no_media_examples root.
  Proof.
    intros So ts p s kids Wi. destruct (sound_within ts _ _ So Wi) as (T & _ & cd & Ec & Ek). destruct (lookup "examples" kids) as [o1|] eqn:E; [|reflexivity].
    destruct (child_from v30_table _ p s kids cd _ o1 wd30 Ec Ek E) as (ch & d & x & _ & _ & -> & Lx & _). inversion T as [| | |c0 cd0 d0 _ _ _ U _| | | |]; subst. rewrite (U "examples") in Lx by (now left). discriminate.
  Qed.
  Lemma sound_references (Good : list string -> Prop) root : (forall r, ~ okref "PathItem" r) -> (forall r, okref "Reference" r -> exists us, r = JStr (pointer us) /\ us <> [] /\ Good us) -> sound root -> references "3.0.0" Good root.
  Proof.
    intros NP NR So ts c p s kids Wi Ic. destruct (sound_within ts _ _ So Wi) as (T & HR & _). inversion T as [| | |c0 cd d _ _ _ _ O| | | |]; subst. exists d. split; [reflexivity|]. destruct (lookup "$ref" d) as [r|] eqn:El.
    - specialize (O r Ic eq_refl). split; [intros ->; exact (NP r O)|]. change (In c ["Reference"; "PathItem"]) in Ic. destruct Ic as [<-|[<-|[]]]; [exact (NR r O)|]. now elim (NP r).
    - intros Z. destruct (HR Z) as (d' & v & E & Lv). injection E as <-. congruence.
  Qed.
End Sound.
