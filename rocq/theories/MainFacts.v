(** * Facts about Main.v: which references the upgrade modules ask for. *)
From Coq Require Import String List Bool Arith ZArith Lia.
From Verif Require Import PyStr PyStrFacts PyVal PyValFacts Jp Urls Obj ObjFacts Classes_v1_2 Classes_v2_0 Classes_v3_0_0 Store SpecStore StoreFacts Scan ScanFacts App SpecApp AppFacts2 AppFacts3 AppFacts4 Main.
Import ListNotations.
Open Scope string_scope. Open Scope nat_scope.

(** ** references in objects *)
Inductive refs_in (R : list string) : obj -> Prop :=
| ri_prim j : refs_in R (OPrim j)
| ri_obj c p s kids : incl (ref_strings s) R -> (forall k x, In (k, x) kids -> refs_in R x) -> refs_in R (OObj c p s kids)
| ri_list b p es : (forall x, In x es -> refs_in R x) -> refs_in R (OList b p es)
| ri_map b p es : (forall k x, In (k, x) es -> refs_in R x) -> refs_in R (OMap b p es).

Lemma ref_strings_list R l x : incl (ref_strings (JList l)) R -> In x l -> incl (ref_strings x) R.
Proof. intros H I r Hr. apply H. cbn [ref_strings]. apply in_flat_map. eauto. Qed.
Lemma ref_strings_dict R d k x : incl (ref_strings (JDict d)) R -> In (k, x) d -> incl (ref_strings x) R.
Proof. intros H I r Hr. apply H. cbn [ref_strings]. apply in_flat_map. exists (k, x). split; [exact I|]. apply in_or_app. now right. Qed.
Lemma ref_strings_ref R d r : incl (ref_strings (JDict d)) R -> In ("$ref", JStr r) d -> In r R.
Proof. intros H I. apply H. cbn [ref_strings]. apply in_flat_map. exists ("$ref", JStr r). split; [exact I|]. cbn. now left. Qed.

Definition ovr_ok R (o : override) : Prop := forall k x, In (k, x) o -> refs_in R x.
Lemma split_override_ok R ovr m : split_override ovr = Ok m -> ovr_ok R ovr -> forall k o, In (k, o) m -> ovr_ok R o.
Proof.
  unfold split_override. intros H HO.
  assert (G : forall l acc, (forall k x, In (k, x) l -> refs_in R x) -> (forall k o, In (k, o) acc -> ovr_ok R o) ->
     foldM (fun m kv => match jp_split_max (Some (fst kv)) (Some 1) with [] => Err PyException | [t] => Ok (ovr_insert t "" (snd kv) m) | t :: t' :: _ => Ok (ovr_insert t t' (snd kv) m) end) l acc = Ok m ->
     forall k o, In (k, o) m -> ovr_ok R o).
  { induction l as [|[k x] l IH]; intros acc HL HA E; [cbn [foldM] in E; injection E as <-; exact HA|].
    cbn [foldM fst snd] in E. assert (INS : forall t t', forall k' o, In (k', o) (ovr_insert t t' x acc) -> ovr_ok R o).
    { intros t t' k' o I. unfold ovr_insert in I. apply in_dict_set in I as [E'|I]; [|now apply (HA k' o)]. injection E' as -> ->.
      intros k2 x2 I2. apply in_dict_set in I2 as [E2|I2]; [injection E2 as -> ->; apply (HL k); now left|].
      destruct (lookup t acc) as [o'|] eqn:L; [|destruct I2]. apply PyValFacts.lookup_In in L. now apply (HA t o' L k2). }
    assert (HL' : forall k0 x0, In (k0, x0) l -> refs_in R x0) by (intros; apply (HL k0); now right).
    destruct (jp_split_max (Some k) (Some 1)) as [|t [|t' ?]]; cbn [bind] in E; [discriminate E|exact (IH _ HL' (INS t "") E)|exact (IH _ HL' (INS t t') E)]. }
  apply (G ovr []); [exact HO|intros ? ? []|exact H].
Qed.
Lemma ovr_get_ok R m key : (forall k o, In (k, o) m -> ovr_ok R o) -> ovr_ok R (ovr_get key m).
Proof. intros H. unfold ovr_get. destruct (lookup key m) as [o|] eqn:L; [|intros ? ? []]. apply PyValFacts.lookup_In in L. eauto. Qed.
Lemma ovr_here_ok R o e : ovr_ok R o -> ovr_here o = Some e -> refs_in R e.
Proof. intros H. unfold ovr_here. destruct (lookup "" o) as [v|] eqn:L; [|discriminate]. destruct (truthy_obj v); [|discriminate]. intros [= <-]. apply PyValFacts.lookup_In in L. eauto. Qed.

Fixpoint jsize (j : json) : nat :=
  match j with
  | JList l => S (fold_right (fun x n => jsize x + n) 0 l)
  | JDict d => S (fold_right (fun kv n => jsize (snd kv) + n) 0 d)
  | _ => 1
  end.
Lemma jsize_list l x : In x l -> jsize x < jsize (JList l).
Proof. cbn [jsize]. induction l as [|y l IH]; [intros []|]. cbn [fold_right]. intros [->|H]; [lia|]. specialize (IH H). lia. Qed.
Lemma jsize_dict (d : list (string * json)) k x : In (k, x) d -> jsize x < jsize (JDict d).
Proof. cbn [jsize]. induction d as [|[k' y] l IH]; [intros []|]. cbn [fold_right snd]. intros [[= -> ->]|H]; [lia|]. specialize (IH H). lia. Qed.

Lemma construct_refs tbl R n : forall j b path ovr o, jsize j <= n -> incl (ref_strings j) R -> ovr_ok R ovr -> construct tbl j b path ovr = Ok o -> refs_in R o.
Proof.
  induction n as [|n IH]; intros j b path ovr o Hn HJ HO; [destruct j; cbn [jsize] in Hn; lia|].
  rewrite construct_eq. destruct (select b j) as [k|]; [|discriminate]. cbn [bind].
  destruct k as [v|c|b'|b'|]; cbn [con_core].
  - intros [= <-]. constructor.
  - destruct (split_override ovr) as [m|] eqn:SO; [|discriminate]. cbn [bind]. assert (HM := split_override_ok R _ _ SO HO).
    destruct (lookup c tbl) as [cd|]; [|discriminate]. destruct (con_kids tbl path m j (c_children cd)) as [kids|] eqn:CK; [|discriminate]. cbn [bind]. intros [= <-].
    constructor; [exact HJ|]. revert kids CK. induction (c_children cd) as [|ch cs IHc]; intros kids CK k x I; cbn [con_kids] in CK; [injection CK as <-; destruct I|].
    destruct (con_child tbl path m j ch) as [kid|] eqn:CC; [|discriminate CK]. cbn [bind] in CK. destruct (con_kids tbl path m j cs) as [rest|]; [|discriminate CK]. cbn [bind] in CK. injection CK as <-.
    destruct kid as [o|]; [|now apply (IHc rest eq_refl k x)]. destruct I as [[= <- <-]|I]; [|now apply (IHc rest eq_refl k x)].
    unfold con_child in CC. assert (HG := ovr_get_ok R m (ch_name ch) HM). destruct (ovr_here _) as [e|] eqn:OH; [injection CC as <-; exact (ovr_here_ok R _ _ HG OH)|].
    destruct j as [| | | | | |d]; try (destruct (absent_child _ ch); discriminate CC).
    destruct (lookup (ch_name ch) d) as [v|] eqn:L; [|destruct (ch_required ch); discriminate CC]. apply PyValFacts.lookup_In in L.
    assert (G : rmap Some (construct tbl v (ch_builder ch) (sub_path path (ch_name ch)) (ovr_get (ch_name ch) m)) = Ok (Some o) -> refs_in R o).
    { intros CC'. destruct (construct tbl v _ _ _) as [y|] eqn:CV; [|discriminate CC']. cbn [rmap] in CC'. injection CC' as <-.
      apply (IH v (ch_builder ch) (sub_path path (ch_name ch)) (ovr_get (ch_name ch) m) y); [|exact (ref_strings_dict R d _ _ HJ L)|exact HG|exact CV]. apply jsize_dict in L. lia. }
    destruct v; try discriminate CC; exact (G CC).
  - destruct (split_override ovr) as [m|] eqn:SO; [|discriminate]. cbn [bind]. assert (HM := split_override_ok R _ _ SO HO).
    destruct j as [| | | | |l|]; try discriminate. destruct (con_list tbl b' path m 0 l) as [es|] eqn:CL; [|discriminate]. cbn [bind]. intros [= <-]. constructor.
    assert (HL : forall x, In x l -> jsize x <= n /\ incl (ref_strings x) R) by (intros x I; split; [apply jsize_list in I; lia|exact (ref_strings_list R l x HJ I)]).
    clear Hn HJ SO. revert es CL. generalize 0 as i. induction l as [|x l IHl]; intros i es CL y I; rewrite con_list_eq in CL; [injection CL as <-; destruct I|].
    destruct (con_slot tbl b' path m (nat_dec i) x) as [e|] eqn:CS; [|discriminate CL]. cbn [bind] in CL. destruct (con_list tbl b' path m (S i) l) as [es'|] eqn:CL'; [|discriminate CL]. cbn [bind] in CL. injection CL as <-.
    destruct I as [<-|I]; [|refine (IHl _ (S i) es' CL' y I); intros; apply HL; now right].
    unfold con_slot in CS. assert (HG := ovr_get_ok R m (nat_dec i) HM). destruct (ovr_here _) as [e0|] eqn:OH; [injection CS as <-; exact (ovr_here_ok R _ _ HG OH)|].
    destruct (HL x (or_introl eq_refl)) as [H1 H2]. exact (IH _ _ _ _ _ H1 H2 HG CS).
  - destruct (split_override ovr) as [m|] eqn:SO; [|discriminate]. cbn [bind]. assert (HM := split_override_ok R _ _ SO HO).
    destruct j as [| | | | | |d]; try discriminate. destruct (con_map tbl b' path m d) as [es|] eqn:CL; [|discriminate]. cbn [bind]. intros [= <-]. constructor.
    assert (HL : forall k x, In (k, x) d -> jsize x <= n /\ incl (ref_strings x) R) by (intros k x I; split; [apply jsize_dict in I; lia|exact (ref_strings_dict R d k x HJ I)]).
    clear Hn HJ SO. revert es CL. induction d as [|[k x] d IHl]; intros es CL k' y I; rewrite con_map_eq in CL; [injection CL as <-; destruct I|].
    destruct (con_slot tbl b' path m k x) as [e|] eqn:CS; [|discriminate CL]. cbn [bind] in CL. destruct (con_map tbl b' path m d) as [es'|] eqn:CL'; [|discriminate CL]. cbn [bind] in CL. injection CL as <-.
    destruct I as [[= <- <-]|I]; [|refine (IHl _ es' eq_refl k' y I); intros k2 x2 I2; apply (HL k2); now right].
    unfold con_slot in CS. assert (HG := ovr_get_ok R m k HM). destruct (ovr_here _) as [e0|] eqn:OH; [injection CS as <-; exact (ovr_here_ok R _ _ HG OH)|].
    destruct (HL k x (or_introl eq_refl)) as [H1 H2]. exact (IH _ _ _ _ _ H1 H2 HG CS).
  - destruct ovr; [|discriminate]. destruct j; try discriminate. intros [= <-]. constructor.
Qed.

(** ** reading and resolving *)
Lemma getattr_refs tbl R cd c p s kids name o : refs_in R (OObj c p s kids) -> getattr_ tbl cd p s kids name = Ok o -> refs_in R o.
Proof.
  intros H. inversion H as [|c0 p0 s0 kids0 HS HK| |]; subst.
  assert (PL : forall nm, getattr_plain tbl cd p s kids nm = Ok o -> refs_in R o).
  { intros nm. unfold getattr_plain. destruct (find_child nm (c_children cd)).
    - intros [= <-]. destruct (lookup nm kids) as [x|] eqn:L; [|constructor]. apply PyValFacts.lookup_In in L. eauto.
    - destruct (find_child nm (c_lazy cd)) as [ch|].
      + destruct (py_in nm s) as [[]|]; [| |discriminate]; cbn [bind].
        * destruct s as [| | | | | |d]; cbn [py_getitem]; try discriminate. destruct (lookup nm d) as [v|] eqn:L; [|discriminate]. cbn [bind]. apply PyValFacts.lookup_In in L.
          assert (G : construct tbl v (ch_builder ch) (sub_path p nm) [] = Ok o -> refs_in R o) by (apply (construct_refs tbl R (jsize v)); [lia|exact (ref_strings_dict R d _ _ HS L)|intros ? ? []]).
          destruct v; try exact G. intros [= <-]. constructor.
        * destruct (ch_required ch); [discriminate|]. intros [= <-]. constructor.
      + destruct (find_field nm cd); [|discriminate]. destruct (field_get f s); [|discriminate]. cbn [rmap]. intros [= <-]. constructor. }
  unfold getattr_. destruct (find_child name (c_children cd)); [apply PL|]. destruct (find_child name (c_lazy cd)); [apply PL|].
  destruct (lookup name (c_renames cd)); [apply PL|]. destruct (lookup name (c_internal cd)); [|apply PL]. intros [= <-]. constructor.
Qed.
Lemma oattr_refs tbl R o name x : refs_in R o -> oattr tbl o name = Ok x -> refs_in R x.
Proof. intros H. destruct o as [|c p s kids| |]; cbn [oattr]; try discriminate. destruct (lookup c tbl) as [cd|]; [|discriminate]. now apply getattr_refs with c. Qed.
Lemma resolve_refs tbl R ts : forall o o', refs_in R o -> resolve tbl o ts = Ok o' -> refs_in R o'.
Proof.
  induction ts as [|t ts IH]; intros o o' H; cbn [resolve]; [destruct o; try discriminate; now intros [= <-]|].
  destruct o as [|c p s kids|b p es|b p es]; [discriminate| | |].
  - destruct (lookup c tbl) as [cd|]; [|discriminate]. destruct (getattr_ tbl cd p s kids t) as [x|] eqn:G; [|discriminate]. cbn [bind].
    assert (HX := getattr_refs tbl R cd c p s kids t x H G). destruct x; try (now apply IH). destruct (raw_resolve j ts); [|discriminate]. cbn [rmap]. intros [= <-]. constructor.
  - destruct (py_int t) as [z|]; [|discriminate]. cbn [bind]. destruct (py_nth es z) as [e|] eqn:N; [|discriminate]. cbn [bind]. apply IH. inversion H; subst.
    unfold py_nth in N. destruct (Z.ltb (if Z.ltb z 0 then _ else _) 0); [discriminate N|]. destruct (nth_error es _) as [e'|] eqn:NE; [|discriminate N]. injection N as <-. apply nth_error_In in NE. auto.
  - destruct (lookup t es) as [e|] eqn:L; [|discriminate]. apply IH. inversion H; subst. apply PyValFacts.lookup_In in L. eauto.
Qed.

(** ** the visited objects *)
Lemma slots_refs T R o k x : refs_in R o -> In (k, x) (slots T o) -> refs_in R x.
Proof.
  intros H. destruct o as [|c p s kids|b p es|b p es]; cbn [slots]; [intros []| | |]; inversion H; subst.
  - destruct (lookup c T) as [cd|]; [|intros []]. intros I. apply in_flat_map in I as (ch & _ & I). destruct (lookup (ch_name ch) kids) as [y|] eqn:L; [|destruct I].
    destruct I as [[= _ <-]|[]]. apply PyValFacts.lookup_In in L. eauto.
  - intros I. apply indexed_in in I as (n & _ & E). apply nth_error_In in E. auto.
  - eauto.
Qed.
Lemma children_refs T R n : forall o, odepth o <= n -> refs_in R o -> forall k x, In (k, x) (get_children T o) -> refs_in R x.
Proof.
  induction n as [|n IH]; intros o Hn HO.
  - intros k x. destruct o; cbn in Hn; try lia. intros [].
  - rewrite get_children_slots. assert (D := slots_depth T o). assert (HR := fun k x => slots_refs T R o k x HO). revert D HR. generalize (slots T o) as l.
    assert (G : forall l acc, (forall k e, In (k, e) l -> odepth e < odepth o) -> (forall k e, In (k, e) l -> refs_in R e) -> (forall k x, In (k, x) acc -> refs_in R x) ->
                forall k x, In (k, x) (fold_left (add_slot (get_children T)) l acc) -> refs_in R x).
    { induction l as [|[k' e] l IHl]; intros acc Hd Hl Ha k0 x0 H; cbn in H; [eauto|].
      eapply IHl; [| | |exact H]; [intros; eapply Hd; right; eauto|intros; eapply Hl; right; eauto|]. intros k1 x1 H1. unfold add_slot in H1. cbn [fst snd] in H1.
      assert (De : odepth e < odepth o) by (eapply Hd; left; reflexivity). assert (Re : refs_in R e) by (eapply Hl; left; reflexivity).
      destruct e as [j|c p s ks|b p es|b p es]; [eauto| | |].
      - apply in_dict_set in H1 as [E|H1]; [injection E as -> ->; exact Re|eauto].
      - apply fold_set_in in H1 as [H1|([k2 x2] & Hi & E)]; [eauto|]. cbn [snd] in E. subst x2. eapply IH; [|exact Re|exact Hi]. lia.
      - apply fold_set_in in H1 as [H1|([k2 x2] & Hi & E)]; [eauto|]. cbn [snd] in E. subst x2. eapply IH; [|exact Re|exact Hi]. lia. }
    intros l D HR. apply G; [exact D|exact HR|intros ? ? []].
Qed.
Lemma traverse_refs T R fuel : forall stack r, (forall p x, In (p, x) stack -> refs_in R x) -> traverse T fuel [] stack = Ok r -> forall p x, In (p, x) r -> refs_in R x.
Proof.
  induction fuel as [|f IH]; intros [|[p o] rest] r HS; cbn [traverse]; [intros [= <-] ? ? []|discriminate|intros [= <-] ? ? []|].
  destruct (traverse T f [] (rev (pushed T [] p o) ++ rest)) as [r'|] eqn:E; [|discriminate]. cbn [bind]. intros [= <-] q x [[= <- <-]|I]; [apply (HS p); now left|].
  refine (IH _ r' _ E q x I). intros q' x' I'. apply in_app_or in I' as [I'|I']; [|apply (HS q'); now right]. apply in_rev in I'. unfold pushed in I'. cbn [is_leaf] in I'.
  destruct (is_leaf [] o); [destruct I'|]. apply in_map_iff in I' as ([k y] & [= _ <-] & I'). cbn [snd]. apply (children_refs T R (odepth o) o (le_n _)) with k; [apply (HS p); now left|exact I'].
Qed.

(** ** the references read *)
Definition plain_ref (cd : classdef) : bool :=
  match find_child "ref" (c_children cd), find_child "ref" (c_lazy cd) with
  | None, None =>
      match lookup "ref" (c_renames cd) with
      | Some key => String.eqb key "$ref" && match find_child "$ref" (c_children cd), find_child "$ref" (c_lazy cd) with None, None => true | _, _ => false end
                    && match find_field "$ref" cd with Some f => String.eqb (f_name f) "$ref" && match f_default f with JNull => true | _ => false end | None => false end
      | None => match lookup "ref" (c_internal cd), find_field "ref" cd with None, None => true | _, _ => false end
      end
  | _, _ => false
  end.
Lemma tables_plain_ref : forallb (fun c => plain_ref (snd c)) v20_table = true /\ forallb (fun c => plain_ref (snd c)) v30_table = true.
Proof. split; vm_compute; reflexivity. Qed.
Lemma ref_known V R o r : V = "2.0" \/ V = "3.0.0" -> refs_in R o -> oattr (table_of V) o "ref" = Ok (OPrim (JStr r)) -> In r R.
Proof.
  intros HV H. destruct o as [|c p s kids| |]; cbn [oattr]; try discriminate. destruct (lookup c (table_of V)) as [cd|] eqn:LC; [|discriminate].
  assert (PR : plain_ref cd = true).
  { apply PyValFacts.lookup_In in LC. destruct tables_plain_ref as [T2 T3]. destruct HV as [-> | ->]; [rewrite forallb_forall in T2; apply (T2 _ LC)|rewrite forallb_forall in T3; apply (T3 _ LC)]. }
  unfold getattr_. unfold plain_ref in PR. destruct (find_child "ref" (c_children cd)) eqn:F1; [discriminate PR|]. destruct (find_child "ref" (c_lazy cd)) eqn:F2; [discriminate PR|].
  destruct (lookup "ref" (c_renames cd)) as [key|].
  - apply andb_true_iff in PR as [PR PF]. apply andb_true_iff in PR as [PK PC]. apply String.eqb_eq in PK. subst key. unfold getattr_plain.
    destruct (find_child "$ref" (c_children cd)); [discriminate PC|]. destruct (find_child "$ref" (c_lazy cd)); [discriminate PC|]. destruct (find_field "$ref" cd) as [f|]; [|discriminate PF].
    apply andb_true_iff in PF as [PF PD]. apply String.eqb_eq in PF. unfold field_get. rewrite PF. destruct s as [| | | |t|l|d]; cbn [py_in]; try discriminate; cbn [bind].
    + destruct (substring_of _ _); [destruct (f_restricted f); discriminate|]. destruct (f_required f); [discriminate|]. destruct (f_default f); discriminate.
    + destruct (existsb _ _); [destruct (f_restricted f); discriminate|]. destruct (f_required f); [discriminate|]. destruct (f_default f); discriminate.
    + destruct (mem "$ref" d).
      * destruct (f_restricted f); [discriminate|]. cbn [py_getitem]. destruct (lookup "$ref" d) as [v|] eqn:L; [|discriminate]. cbn [rmap]. intros [= ->]. apply PyValFacts.lookup_In in L.
        inversion H; subst. eapply ref_strings_ref; eauto.
      * destruct (f_required f); [discriminate|]. destruct (f_default f); discriminate.
  - destruct (lookup "ref" (c_internal cd)); [discriminate PR|]. unfold getattr_plain. rewrite F1, F2. destruct (find_field "ref" cd); discriminate.
Qed.

(** ** assigned references *)
Lemma in_dict_set_refs R k v d : incl (ref_strings (JDict d)) R -> incl (ref_strings v) R -> (k = "$ref" -> forall r, v = JStr r -> In r R) ->
  incl (ref_strings (JDict (dict_set k v d))) R.
Proof.
  intros HD HV HK r I. cbn [ref_strings] in I. apply in_flat_map in I as ([k' v'] & I & H). cbn [fst snd] in H.
  apply in_dict_set in I as [E|I].
  - injection E as -> ->. apply in_app_or in H as [H|H]; [|exact (HV _ H)]. destruct v; try contradiction. destruct (String.eqb_spec k "$ref") as [->|]; [|contradiction].
    destruct H as [<-|[]]. now apply HK.
  - apply HD. cbn [ref_strings]. apply in_flat_map. exists (k', v'). split; [exact I|exact H].
Qed.
Definition graft_items := fix go (es : list obj) (l : list json) := match es, l with e :: es', v :: l' => graft e v :: go es' l' | _, _ => l end.
Definition graft_entries := fix go (es : list (string * obj)) (d : list (string * json)) :=
  match es with [] => d | (k, e) :: es' => match lookup k d with Some v => dict_set k (graft e v) (go es' d) | None => go es' d end end.
Definition rewrite_entries u := fix go (l : list (string * obj)) := match l with [] => [] | (k, x) :: l' => (k, rewrite_refs u x) :: go l' end.
Lemma graft_list b p es l : graft (OList b p es) (JList l) = JList (graft_items es l).
Proof. reflexivity. Qed.
Lemma graft_map b p es d : graft (OMap b p es) (JDict d) = JDict (graft_entries es d).
Proof. reflexivity. Qed.
Lemma rewrite_entries_eq u l : rewrite_entries u l = map (fun kx => (fst kx, rewrite_refs u (snd kx))) l.
Proof. induction l as [|[k x] l IH]; [reflexivity|]. cbn [rewrite_entries map fst snd]. now rewrite IH. Qed.
Lemma rewrite_obj u c p s kids : rewrite_refs u (OObj c p s kids) =
  OObj c p (own_ref u p (graft_kids (map (fun kx => (fst kx, rewrite_refs u (snd kx))) kids) s)) (map (fun kx => (fst kx, rewrite_refs u (snd kx))) kids).
Proof. rewrite <- rewrite_entries_eq. reflexivity. Qed.
Lemma rewrite_list u b p es : rewrite_refs u (OList b p es) = OList b p (map (rewrite_refs u) es).
Proof. reflexivity. Qed.
Lemma rewrite_map u b p es : rewrite_refs u (OMap b p es) = OMap b p (map (fun kx => (fst kx, rewrite_refs u (snd kx))) es).
Proof. rewrite <- rewrite_entries_eq. reflexivity. Qed.

Lemma graft_str x v r : graft x v = JStr r -> v = JStr r.
Proof. destruct x as [j|c p s kids|b p es|b p es]; cbn [graft]; auto; [destruct s; auto; discriminate| |]; destruct v; auto; discriminate. Qed.
Lemma lookup_ref_known R d k v r : incl (ref_strings (JDict d)) R -> lookup k d = Some v -> k = "$ref" -> v = JStr r -> In r R.
Proof. intros H L -> ->. apply PyValFacts.lookup_In in L. exact (ref_strings_ref R d r H L). Qed.
Lemma graft_refs R n : forall x j, osize x <= n -> refs_in R x -> incl (ref_strings j) R -> incl (ref_strings (graft x j)) R.
Proof.
  induction n as [|n IH]; intros x j Hn HX HJ; [destruct x; cbn [osize] in Hn; lia|]. destruct x as [v|c p s kids|b p es|b p es].
  - exact HJ.
  - cbn [graft]. inversion HX; subst. destruct s; assumption.
  - destruct j; try exact HJ. rewrite graft_list. inversion HX as [| |? ? ? HE|]; subst. clear HX. cbn [osize] in Hn. revert l HJ. induction es as [|e es IHe]; intros [|v l] HJ; try exact HJ.
    cbn [graft_items]. intros r I. cbn [ref_strings flat_map] in I. apply in_app_or in I as [I|I].
    + revert r I. apply (IH e v); [cbn in Hn; lia|apply HE; now left|exact (ref_strings_list R _ v HJ (or_introl eq_refl))].
    + revert r I. apply IHe; [cbn in Hn |- *; lia|intros; apply HE; now right|]. intros r I. apply HJ. cbn [ref_strings flat_map]. apply in_or_app. now right.
  - destruct j; try exact HJ. rewrite graft_map. inversion HX as [| | |? ? ? HE]; subst. clear HX. cbn [osize] in Hn. induction es as [|[k e] es IHe]; [exact HJ|].
    cbn [graft_entries]. assert (G : incl (ref_strings (JDict (graft_entries es d))) R) by (apply IHe; [cbn in Hn |- *; lia|intros k' x' I; apply (HE k'); now right]).
    destruct (lookup k d) as [v|] eqn:L; [|exact G]. apply in_dict_set_refs; [exact G| |].
    + apply (IH e v); [cbn in Hn; lia|apply (HE k); now left|]. exact (ref_strings_dict R d k v HJ (PyValFacts.lookup_In _ _ _ L)).
    + intros E r GS. apply graft_str in GS. exact (lookup_ref_known R d k v r HJ L E GS).
Qed.
Lemma graft_kids_refs R kids s : (forall k x, In (k, x) kids -> refs_in R x) -> incl (ref_strings s) R -> incl (ref_strings (graft_kids kids s)) R.
Proof.
  intros HK HS. destruct s as [| | | | | |d]; try exact HS. cbn [graft_kids]. induction kids as [|[k e] kids IH]; [exact HS|]. cbn [fold_right fst snd].
  assert (G := IH (fun k x I => HK k x (or_intror I))). destruct (lookup k d) as [v|] eqn:L; [|exact G]. apply in_dict_set_refs; [exact G| |].
  - apply (graft_refs R (osize e)); [lia|apply (HK k); now left|]. exact (ref_strings_dict R d k v HS (PyValFacts.lookup_In _ _ _ L)).
  - intros E r GS. apply graft_str in GS. exact (lookup_ref_known R d k v r HS L E GS).
Qed.
Lemma own_ref_refs R u p s : (forall q r, In (q, r) u -> In r R) -> incl (ref_strings s) R -> incl (ref_strings (own_ref u p s)) R.
Proof.
  intros HU HS. unfold own_ref. destruct p as [q|]; [|exact HS]. destruct s as [| | | | | |d]; try exact HS. destruct (lookup q u) as [r|] eqn:L; [|exact HS].
  destruct (lookup "$ref" d) as [[]|]; try exact HS. apply in_dict_set_refs; [exact HS|intros ? []|]. intros _ r0 [= <-]. apply PyValFacts.lookup_In in L. eauto.
Qed.
Lemma rewrite_refs_in R u n : (forall q r, In (q, r) u -> In r R) -> forall o, osize o <= n -> refs_in R o -> refs_in R (rewrite_refs u o).
Proof.
  intros HU. induction n as [|n IH]; intros o Hn HO; [destruct o; cbn [osize] in Hn; lia|].
  assert (K : forall l : list (string * obj), (forall k x, In (k, x) l -> osize x <= n) -> (forall k x, In (k, x) l -> refs_in R x) -> forall k x, In (k, x) (map (fun kx => (fst kx, rewrite_refs u (snd kx))) l) -> refs_in R x).
  { intros l HS HL k x I. apply in_map_iff in I as ([k' y] & E & I). cbn [fst snd] in E. injection E as <- <-. apply IH; eauto. }
  assert (SZ : forall (l : list (string * obj)) k x, In (k, x) l -> osize x <= (fix go l := match l with [] => 0 | (_, x) :: l' => osize x + go l' end) l).
  { induction l as [|[k' y] l IHl]; intros k x I; [contradiction|]. destruct I as [[= -> ->]|I]; [lia|]. specialize (IHl _ _ I). lia. }
  destruct o as [v|c p s kids|b p es|b p es].
  - constructor.
  - rewrite rewrite_obj. inversion HO as [|? ? ? ? HS HK| |]; subst. cbn [osize] in Hn.
    assert (KK := K kids (fun k x I => Nat.le_trans _ _ _ (SZ kids k x I) (le_S_n _ _ Hn)) HK). constructor; [|exact KK]. apply own_ref_refs; [exact HU|]. now apply graft_kids_refs.
  - rewrite rewrite_list. inversion HO as [| |? ? ? HE|]; subst. cbn [osize] in Hn. constructor. intros x I. apply in_map_iff in I as (y & <- & I). apply IH; [|auto].
    clear HE HO K. induction es as [|z es IHe]; [contradiction|]. destruct I as [->|I]; [cbn in Hn; lia|]. apply IHe; [cbn in Hn |- *; lia|exact I].
  - rewrite rewrite_map. inversion HO as [| | |? ? ? HE]; subst. cbn [osize] in Hn. constructor. exact (K es (fun k x I => Nat.le_trans _ _ _ (SZ es k x I) (le_S_n _ _ Hn)) HE).
Qed.

(** ** the programs *)
Section Asks.
  Variables (path2url abspath : string -> string) (app_url : string) (mf : nat) (from12 : sobj -> res sobj) (from20 : sobj -> string -> string -> override -> res (sobj * routes)).
  Variables (V : string) (urls refs : list string) (fetch : string -> res json).
  Notation split := (split path2url abspath).
  Hypothesis HV : V = "2.0" \/ V = "3.0.0".
  Hypothesis known : known_documents split fetch urls refs.
  Hypothesis closed : V = "3.0.0" -> closed_under_resolving split urls refs.
  Definition from_known (url : string) (o : obj) : Prop := In url urls /\ refs_in refs o.
  (** where the references lead *)
  Definition leads : list (string * string) :=
    flat_map (fun u => flat_map (fun r => match normalize_jr (Some r) (Some u) with
                                          | Ok (Some n) => match split n with Ok l => [l] | Err _ => [] end
                                          | _ => []
                                          end) refs) urls.
  Lemma leads_length : length leads <= length urls * length refs.
  Proof.
    unfold leads. clear known closed. induction urls as [|u us IH]; [reflexivity|]. cbn [flat_map length]. rewrite app_length.
    assert (L : forall l, length (flat_map (fun r => match normalize_jr (Some r) (Some u) with Ok (Some n) => match split n with Ok l => [l] | Err _ => [] end | _ => [] end) l) <= length l).
    { induction l as [|r l IHl]; [reflexivity|]. cbn [flat_map length]. rewrite app_length. destruct (normalize_jr _ _) as [[n|]|]; [destruct (split n)|..]; cbn [length]; lia. }
    specialize (L refs). cbn [Nat.mul]. apply Nat.add_le_mono; [exact L|exact IH].
  Qed.
  Notation aw := (asks_within split from_known V leads).
  Lemma leads_in u r n l : In u urls -> In r refs -> normalize_jr (Some r) (Some u) = Ok (Some n) -> split n = Ok l -> In l leads.
  Proof. intros HU HR HN HS. unfold leads. apply in_flat_map. exists u. split; [exact HU|]. apply in_flat_map. exists r. split; [exact HR|]. rewrite HN, HS. now left. Qed.
  Lemma normalized_leads url o n : from_known url o -> normalized (table_of V) url o = Ok (Some n) ->
    exists l, split n = Ok l /\ fst l <> "" /\ In l leads /\ In (fst l) urls.
  Proof.
    intros [HU HR]. unfold normalized. destruct (oattr (table_of V) o "ref") as [x|] eqn:OA; [|discriminate]. cbn [bind]. destruct x as [j| | |]; try discriminate.
    destruct j as [| | | |r| |]; try (destruct (truthy _); discriminate); try discriminate. destruct (truthy_str r); [|discriminate]. intros HN.
    assert (RR := ref_known V refs o r HV HR OA). destruct (known_urls _ _ _ _ known r url n RR HU HN) as (u' & jp' & S & U' & NE).
    exists (u', jp'). split; [exact S|]. split; [exact NE|]. split; [exact (leads_in url r n _ HU RR HN S)|exact U'].
  Qed.
  Lemma aw_asks here n from b to rm k : from = V -> (to = None \/ to = Some V) -> forall url o, from_known url o -> normalized (table_of V) url o = Ok (Some n) ->
    (forall x r l, split n = Ok l -> from_known (fst l) (so_obj x) -> r = (fst l ++ snd l)%string \/ r = snd l -> aw here (k (x, r))) -> aw here (Ask (mk_query n from (Some (V, b)) to rm) k).
  Proof.
    intros -> HT url o HO HN HK. destruct (normalized_leads url o n HO HN) as (l & S & NE & IL & _).
    apply aw_ask with l; cbn [q_from q_to q_parser q_jref]; auto.
    - intros p [= <-]. reflexivity.
    - intros x r HX HR. now apply (HK x r l).
  Qed.
  (** the references assigned are known *)
  Definition ok_updates (u : ref_updates) : Prop := forall q r, In (q, r) u -> In r refs.
  Definition awc here (k : cont) : Prop := forall u, ok_updates u -> aw here (k u).
  Lemma aw_resolve here url b o k : from_known url o -> awc here k -> awc here (resolve_with path2url abspath V url b o k).
  Proof.
    intros HO HK u HU. unfold resolve_with. destruct HV as [E|E].
    - rewrite E. cbn [String.eqb Ascii.eqb Bool.eqb]. unfold resolve20. rewrite <- E. destruct (truthy_obj o); [|now apply HK].
      destruct (oattr (table_of V) o "ref") as [r|e] eqn:OA; [|destruct e; try (now apply HK); constructor].
      destruct (truthy_obj r); [|now apply HK]. destruct (normalized (table_of V) url o) as [[n|]|] eqn:N; [|constructor|constructor].
      apply aw_asks with url o; auto. intros x r0 l _ _ _. cbn [fst]. destruct (so_truthy x); [now apply HK|constructor].
    - rewrite E. cbn [String.eqb Ascii.eqb Bool.eqb]. unfold resolve30. rewrite <- E. destruct o as [|c p s kids| |]; try (now apply HK).
      destruct (String.eqb c "Reference" || String.eqb c "PathItem"); [|now apply HK].
      destruct (normalized (table_of V) url (OObj c p s kids)) as [[n|]|] eqn:N; [|destruct (String.eqb c "Reference"); [constructor|now apply HK]|constructor].
      apply aw_original. apply aw_asks with url (OObj c p s kids); auto; [rewrite E; reflexivity|]. intros x r0 l SN _ WH. cbn [fst snd]. destruct (so_truthy x); [|constructor].
      destruct (oattr (table_of V) (OObj c p s kids) "ref") as [[[| | | |old| |]| | |]|] eqn:OA; try constructor.
      destruct (new_ref path2url abspath old r0) as [r'|] eqn:NR; [|constructor]. apply HK. intros q r1 I. unfold assigned in I. destruct p as [q'|]; [|exact (HU _ _ I)].
      destruct I as [[= _ <-]|I]; [|exact (HU _ _ I)].
      assert (RO := ref_known V refs _ old HV (proj2 HO) OA). unfold normalized in N. rewrite OA in N. cbn [bind] in N. destruct (truthy_str old); [|discriminate N].
      destruct l as [u' jp']. apply (closed E old url n u' jp' r0 r'); auto; [apply HO|]. unfold assigned_ref. unfold new_ref in NR. destruct (startswith "#" old); [|congruence].
      destruct (split r0) as [[u0 f]|]; [|discriminate NR]. cbn [rmap snd] in NR. injection NR as <-. eauto.
  Qed.
  Lemma awc_fold {A} (P : A -> Prop) (f : A -> cont -> cont) here l k :
    (forall x k, P x -> awc here k -> awc here (f x k)) -> (forall x, In x l -> P x) -> awc here k -> awc here (fold_right f k l).
  Proof. intros H HP HK. induction l as [|x l IH]; [exact HK|]. cbn [fold_right]. apply H; [apply HP; now left|]. apply IH. intros; apply HP; now right. Qed.
  Lemma aw_fold {A} (P : A -> Prop) (f : A -> prog (sobj * routes) -> prog (sobj * routes)) here l k :
    (forall x k, P x -> aw here k -> aw here (f x k)) -> (forall x, In x l -> P x) -> aw here k -> aw here (fold_right f k l).
  Proof. intros H HP HK. induction l as [|x l IH]; [exact HK|]. cbn [fold_right]. apply H; [apply HP; now left|]. apply IH. intros; apply HP; now right. Qed.
  Lemma pick_known o t os b : refs_in refs o -> pick (table_of V) o t = Ok (os, b) -> forall x, In x os -> refs_in refs x.
  Proof.
    intros HO. destruct t as [b0|name b0|name b0|name b0]; cbn [pick].
    - intros [= <- _] x [<-|[]]. exact HO.
    - destruct (oattr (table_of V) o name) as [y|] eqn:OA; [|discriminate]. cbn [bind]. intros [= <- _] x [<-|[]]. exact (oattr_refs _ _ _ _ _ HO OA).
    - destruct (oattr (table_of V) o name) as [y|] eqn:OA; [|discriminate]. cbn [bind]. assert (HY := oattr_refs _ _ _ _ _ HO OA).
      destruct (truthy_obj y); [|intros [= <- _] x []]. destruct y; try discriminate; intros [= <- _] x I; [|destruct I]. inversion HY; subst. auto.
    - destruct (oattr (table_of V) o name) as [y|] eqn:OA; [|discriminate]. cbn [bind]. assert (HY := oattr_refs _ _ _ _ _ HO OA).
      destruct (truthy_obj y); [|intros [= <- _] x []]. destruct y; try discriminate; intros [= <- _] x I. apply in_map_iff in I as ([k z] & <- & I). inversion HY; subst. cbn [snd]. eauto.
  Qed.
  Lemma aw_refs here url o k : from_known url o -> awc here k -> awc here (resolve_obj_refs path2url abspath V url o k).
  Proof.
    intros HO HK. unfold resolve_obj_refs. destruct o as [|c p s kids| |]; try exact HK. set (o := OObj c p s kids) in *. clearbody o.
    apply (awc_fold (fun _ => True)); [|auto|exact HK]. intros t k' _ HK'. unfold resolve_target. destruct (pick (table_of V) o t) as [[os b]|] eqn:P; [|intros ? ?; constructor].
    apply (awc_fold (fun x => from_known url x)); [intros; now apply aw_resolve| |exact HK']. intros x I. split; [apply HO|]. exact (pick_known o t os b (proj2 HO) P x I).
  Qed.
  Lemma aw_chain here fuel : forall seen cur k url o, from_known url o -> normalized (table_of V) url o = Ok (Some cur) -> aw here k -> aw here (merge_chain path2url abspath app_url fuel V seen cur k).
  Proof.
    induction fuel as [|f IH]; intros seen cur k url o HO HN HK; cbn [merge_chain]; [constructor|].
    destruct (normalized_leads url o cur HO HN) as ([u jp] & S & NE & IL & IU). rewrite S. cbn [fst] in NE, IU. assert (TU : truthy_str u = true) by (destruct u; [congruence|reflexivity]). rewrite TU.
    apply aw_original. apply aw_asks with url o; auto.
    - destruct HV as [-> | ->]; reflexivity.
    - intros x r l S' HX _. rewrite S in S'. injection S' as <-. cbn [fst] in *. destruct (so_truthy x); [|constructor]. destruct (existsb _ seen); [exact HK|].
      destruct (normalized (table_of V) u (so_obj x)) as [[n|]|] eqn:N; [|exact HK|constructor]. destruct (truthy_str n); [|exact HK]. now apply IH with u (so_obj x).
  Qed.
  Lemma aw_merge here url o k : from_known url o -> aw here k -> aw here (merge_obj path2url abspath app_url mf V url o k).
  Proof.
    intros HO HK. unfold merge_obj. destruct o as [|c p s kids| |]; try exact HK. destruct (String.eqb c "PathItem"); [|exact HK].
    destruct (normalized (table_of V) url (OObj c p s kids)) as [[n|]|] eqn:N; [|exact HK|constructor]. destruct (truthy_str n); [|exact HK]. now apply aw_chain with url (OObj c p s kids).
  Qed.
  Lemma aw_visited here tbl o k : refs_in refs o -> (forall os, (forall x, In x os -> refs_in refs x) -> aw here (k os)) -> aw here (visited tbl o k).
  Proof.
    intros HO HK. unfold visited, default_tree_traversal. destruct (traverse tbl _ [] _) as [l|] eqn:T; [|constructor]. apply HK. intros x I. apply in_map_iff in I as ([p y] & <- & I). cbn [snd].
    refine (traverse_refs tbl refs _ _ _ _ T p y I). intros q z [[= _ <-]|[]]. exact HO.
  Qed.
  Lemma aw_module m o jref url jp : modules path2url abspath app_url mf from12 from20 V = Some m -> split jref = Ok (url, jp) -> swagger_version o = Ok V -> from_known url (so_obj o) -> aw url (m o jref).
  Proof.
    intros HM HS HW HO. assert (SV : so_version o = V) by (unfold swagger_version in HW; destruct (so_obj o); congruence).
    assert (MERGE : forall os, (forall x, In x os -> refs_in refs x) -> forall k, aw url k -> aw url (fold_right (merge_obj path2url abspath app_url mf V url) k os)).
    { intros os HOS k HK. apply (aw_fold (fun x => from_known url x)); [intros; now apply aw_merge|intros x I; split; [apply HO|now apply HOS]|exact HK]. }
    assert (RESOLVE : forall os, (forall x, In x os -> refs_in refs x) -> forall k, awc url k -> aw url (fold_right (resolve_obj_refs path2url abspath V url) k os [])).
    { intros os HOS k HK. apply (awc_fold (fun x => from_known url x)); [intros; now apply aw_refs|intros x I; split; [apply HO|now apply HOS]|exact HK|]. intros ? ? []. }
    assert (NE : V <> "") by (destruct HV as [-> | ->]; discriminate).
    unfold modules in HM. destruct HV as [E|E]; rewrite E in HM; cbn [String.eqb Ascii.eqb Bool.eqb] in HM; injection HM as <-.
    - unfold upgrade20. rewrite SV, E. cbn [String.eqb Ascii.eqb Bool.eqb]. rewrite SV, E. cbn [String.eqb Ascii.eqb Bool.eqb]. rewrite HS. rewrite <- E. apply aw_cache; [exact HO|exact NE|].
      apply aw_visited; [apply HO|]. intros os HOS. destruct (normalize_all _ _ _); [|constructor]. apply aw_cache; [exact HO|exact NE|]. apply RESOLVE; [exact HOS|].
      intros u HU. apply MERGE; [exact HOS|]. now constructor.
    - unfold upgrade300. rewrite HS, SV, E. cbn [String.eqb Ascii.eqb Bool.eqb]. unfold finish30. rewrite SV, E. cbn [String.eqb Ascii.eqb Bool.eqb]. rewrite <- E.
      apply aw_visited; [apply HO|]. intros os HOS. destruct (normalize_all _ _ _); [|constructor]. apply aw_cache; [exact HO|exact NE|]. apply aw_routes. apply RESOLVE; [exact HOS|].
      intros u HU. assert (HR : from_known url (so_obj (rewrite_sobj u o))) by (split; [apply HO|]; apply (rewrite_refs_in refs u (osize (so_obj o)) HU); [lia|apply HO]).
      apply aw_cache; [exact HR|exact NE|]. apply MERGE; [|now constructor].
      intros x I. apply in_map_iff in I as (y & <- & I). apply (rewrite_refs_in refs u (osize y) HU); [lia|now apply HOS].
  Qed.
End Asks.

(** ** opening a document *)
Theorem opening_ends path2url abspath app_url mf from12 from20 prepare fetch V urls refs fuel jref url0 jp0 :
  V = "2.0" \/ V = "3.0.0" ->
  (forall jref d v, fetch jref = Ok (JDict d) -> declares d v -> v = JStr V) ->
  known_documents (split path2url abspath) fetch urls refs ->
  (V = "3.0.0" -> closed_under_resolving (split path2url abspath) urls refs) ->
  (forall o jref o', prepare o jref = Ok o' -> so_obj o' = so_obj o) ->
  split path2url abspath jref = Ok (url0, jp0) -> In url0 urls ->
  length urls * length refs < fuel ->
  let (a, r) := open_document path2url abspath app_url ["1.2"; "2.0"; "3.0.0"] fetch (modules path2url abspath app_url mf from12 from20) prepare V fuel jref (fresh_app ["1.2"; "2.0"; "3.0.0"]) in
  nulls a <> [] \/ (NoDup (parsed a) /\ ~ too_deep a).
Proof.
  intros HV OV KN CL HP HS HU HF.
  apply (open_terminates path2url abspath app_url ["1.2"; "2.0"; "3.0.0"] fetch (modules path2url abspath app_url mf from12 from20) prepare V
           (leads path2url abspath urls refs) (from_known urls refs) (fun u => In u urls)); auto.
  - intros l I. unfold leads in I. apply in_flat_map in I as (u & IU & I). apply in_flat_map in I as (r & IR & I).
    destruct (normalize_jr (Some r) (Some u)) as [[n|]|] eqn:N; try destruct I. destruct (known_urls _ _ _ _ KN r u n IR IU N) as (u' & jp' & S & U' & _). rewrite S in I. destruct I as [<-|[]]. exact U'.
  - intros j src url jp b path ovr o ML F S HO C. split; [exact ML|]. refine (construct_refs _ refs (jsize src) src b path ovr o (le_n _) _ _ C).
    + intros r Hr. exact (known_refs _ _ _ _ KN j src url jp r F S ML Hr).
    + intros k x I. apply (HO k x I).
  - intros url v o ts o' [H1 H2] R. split; [exact H1|]. exact (resolve_refs _ refs ts o o' H2 R).
  - intros url o j o' H E. now rewrite (HP _ _ _ E).
  - destruct HV as [-> | ->]; vm_compute; reflexivity.
  - intros m o j url jp HM S SV HO. now apply (aw_module path2url abspath app_url mf from12 from20 V urls refs fetch HV KN CL m o j url jp).
  - intros url jp E. rewrite HS in E. now injection E as <- _.
  - assert (L := leads_length path2url abspath urls refs). lia.
Qed.
