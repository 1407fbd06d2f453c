(** Lemmas used by PropertiesObj. *)
From Coq Require Import String Ascii List Bool Arith ZArith Lia.
From Verif Require Import PyStr PyStrFacts PyVal PyValFacts NatDecFacts Jp JpFacts SpecJp Obj ObjState ObjFacts SpecJson SpecObj ShapeFacts DumpFacts ReloadFacts
  ResolveFacts StateFacts Classes_v1_2 Classes_v2_0 Classes_v3_0_0 TablesFacts ObjCompare SpecCompare CompareFacts ObjCompareFacts
  SpecOverride OverrideFacts Cache SpecCache CacheFacts SpecTables PropertiesUtilsAux.
Import ListNotations.
Open Scope string_scope.

(** ** the tables *)
Lemma repo_wd T : repo_table T -> well_declared T.
Proof. intros []; [apply v12_well_declared|apply v20_well_declared|apply v30_well_declared]. Qed.
Lemma repo_unamb T c cd : repo_table T -> lookup c T = Some cd -> unambiguous cd.
Proof. intros [] H; [eapply v12_unambiguous|eapply v20_unambiguous|eapply v30_unambiguous]; exact H. Qed.
Lemma repo_plain T : repo_table T -> plain_table T.
Proof. intros []; [apply v12_plain|apply v20_plain|apply v30_plain]. Qed.
Fixpoint wf_jsonb (j : json) : bool :=
  match j with
  | JList l => forallb wf_jsonb l
  | JDict d => nodupb (map fst d) && forallb (fun kv => wf_jsonb (snd kv)) d
  | _ => true
  end.
Lemma wf_jsonb_ok j : wf_jsonb j = true -> wf_json j.
Proof.
  induction j as [| | | | |l IH|d IH] using json_ind'; cbn [wf_jsonb]; intros H; try exact I.
  - apply wf_list. intros x Hx. rewrite forallb_forall in H. rewrite Forall_forall in IH. auto.
  - apply andb_true_iff in H as [H1 H2]. apply wf_dict. split; [now apply nodupb_ok|]. intros k x Hx.
    rewrite forallb_forall in H2. rewrite Forall_forall in IH. apply (IH (k, x) Hx). exact (H2 _ Hx).
Qed.
Lemma wf_defaults_check T : forallb (fun e => forallb (fun f => wf_jsonb (f_default f)) (c_fields (snd e))) T = true -> wf_defaults T.
Proof.
  intros H c cd f Hl Hf. apply TablesFacts.lookup_In in Hl. rewrite forallb_forall in H. specialize (H _ Hl). cbn in H.
  rewrite forallb_forall in H. apply wf_jsonb_ok. auto.
Qed.
Lemma uniform_check T : forallb (fun e => forallb (fun ch => uni_builder (ch_builder ch)) (c_children (snd e))) T = true -> uniform_table T.
Proof.
  intros H c cd f Hl Hf. apply TablesFacts.lookup_In in Hl. rewrite forallb_forall in H. specialize (H _ Hl). cbn in H.
  rewrite forallb_forall in H. auto.
Qed.
Lemma repo_wf_defaults T : repo_table T -> wf_defaults T.
Proof. intros []; apply wf_defaults_check; vm_compute; reflexivity. Qed.
Lemma repo_uniform T : repo_table T -> uniform_table T.
Proof. intros []; apply uniform_check; vm_compute; reflexivity. Qed.

(** ** C16 *)
Lemma load_dump T c j path : repo_table T -> wf_json j -> conforms T (BCls c) j ->
  exists o v, construct T j (BCls c) path [] = Ok o /\ dump T o = Ok v /\ same_doc v j.
Proof.
  intros R W C. destruct (conforms_dump T (repo_wd T R) j (BCls c) path W C) as (o & v & H & (D & S & P) & _).
  exists o, v. split; [exact H|]. split; [|exact S].
  destruct o as [x| | |]; try exact D. exfalso. destruct (proj1 P (ex_intro _ x eq_refl)) as (s & ->).
  inversion C as [b s' Hd| | |]. inversion Hd.
Qed.

(** ** C17 *)
Lemma construct_mem T j c p o : construct T j (BCls c) p [] = Ok o -> mem c T = true.
Proof.
  intros H. rewrite construct_eq in H. cbn [select bind con_core] in H. rewrite split_nil in H. cbn [bind] in H.
  unfold mem. destruct (lookup c T); [reflexivity|discriminate].
Qed.
Lemma construct_cls_obj T j c p o : construct T j (BCls c) p [] = Ok o -> exists kids, o = OObj c p j kids.
Proof.
  intros H. rewrite construct_eq in H. cbn [select bind con_core] in H. rewrite split_nil in H. cbn [bind] in H.
  destruct (lookup c T); [|discriminate]. apply bind_ok in H as (kids & _ & H). injection H as <-. eauto.
Qed.
Lemma reload_dump T c j p p' o w : repo_table T -> construct T j (BCls c) p [] = Ok o -> dump T o = Ok w ->
  match construct T w (BCls c) p' [] with
  | Ok o' => dump T o' = Ok w
  | Err e => e = FieldNotExist /\ ~ no_required_child T
  end.
Proof.
  intros R H D.
  assert (X := reload_all T (repo_wd T R) (repo_plain T R) j (BCls c) p p' o w (construct_mem _ _ _ _ _ H) H).
  destruct (construct_cls_obj _ _ _ _ _ H) as (kids & ->). specialize (X D). unfold reloads in X.
  destruct (construct T w (BCls c) p' []) as [o'|e] eqn:E; [|exact X].
  destruct (construct_cls_obj _ _ _ _ _ E) as (kids' & ->). destruct X as [X _]. exact X.
Qed.
Lemma reload_dump_norequired T c j p p' o w : repo_table T -> no_required_child T ->
  construct T j (BCls c) p [] = Ok o -> dump T o = Ok w ->
  exists o', construct T w (BCls c) p' [] = Ok o' /\ dump T o' = Ok w.
Proof.
  intros R N H D. assert (X := reload_dump T c j p p' o w R H D). destruct (construct T w (BCls c) p' []) as [o'|e]; [eauto|].
  destruct X as [_ X]. contradiction.
Qed.

(** ** C18 *)
Lemma forallb_filter_id {A} (f : A -> bool) l : forallb f l = true -> filter f l = l.
Proof. induction l as [|x l IH]; cbn; [reflexivity|]. intros H. apply andb_true_iff in H as [H1 H2]. rewrite H1. f_equal. auto. Qed.
Lemma NoDup_app_join {A} (l m : list A) : NoDup l -> NoDup m -> (forall x, In x l -> ~ In x m) -> NoDup (l ++ m).
Proof.
  induction l as [|x l IH]; intros Nl Nm D; [exact Nm|]. apply NoDup_cons_iff in Nl as [Ni Nl]. cbn. constructor.
  - rewrite in_app_iff. intros [H|H]; [auto|]. apply (D x (or_introl eq_refl) H).
  - apply IH; auto. intros y Hy. apply D. now right.
Qed.
Lemma in_lookup_keys {A} (d : list (string * A)) k v : NoDup (keys d) -> In (k, v) d -> lookup k d = Some v.
Proof.
  induction d as [|[k' x] d IH]; intros N H; [destruct H|]. cbn [keys map fst] in N. apply NoDup_cons_iff in N as [Ni N].
  cbn [lookup]. destruct H as [H|H].
  - injection H as -> ->. now rewrite String.eqb_refl.
  - destruct (String.eqb_spec k k') as [->|]; [|now apply IH]. exfalso. apply Ni. apply in_map_iff. exists (k', v). auto.
Qed.
Lemma dump_entries T c cd p d kids w : well_declared T -> lookup c T = Some cd -> dump T (OObj c p (JDict d) kids) = Ok w ->
  exists e, w = JDict e /\ NoDup (map fst e) /\
  forall k v, In (k, v) e <->
    (exists ch kid, In ch (c_children cd) /\ ch_name ch = k /\ lookup k kids = Some kid /\ truthy_obj kid = true /\ dump T kid = Ok v)
    \/ (exists f, In f (c_fields cd) /\ f_name f = k /\ lookup k d = Some v /\ v <> JNull).
Proof.
  intros Wt Ec H. destruct (declared_nodup cd (Wt c cd Ec)) as (Nf & Nc & Dfc). rewrite dump_obj_eq, Ec in H.
  apply bind_ok in H as (ks & Hks & H). apply bind_ok in H as (fs & Hfs & H). injection H as <-.
  assert (Fl : filter (fun f => negb (mem (f_name f) ks)) (c_fields cd) = c_fields cd).
  { apply forallb_filter_id. apply forallb_forall. intros f Hf. apply negb_true_iff. apply not_true_is_false. intros Hm.
    unfold mem in Hm. destruct (lookup (f_name f) ks) as [v|] eqn:E; [|discriminate]. apply TablesFacts.lookup_In in E.
    destruct (dump_kids_in _ _ _ _ _ _ Hks E) as (ch & _ & Hc & En & _). apply (Dfc f ch Hf Hc). congruence. }
  rewrite Fl in Hfs. eexists. split; [reflexivity|]. split.
  - rewrite map_app. apply NoDup_app_join; [apply (dump_kids_nodup _ _ _ _ Nc Hks)|apply (dump_fields_keys_nodup _ _ _ Nf Hfs)|].
    intros k Hk Hk'. apply (dump_kids_keys _ _ _ _ _ Hks) in Hk. apply in_map_iff in Hk' as ([k' v] & <- & Hk').
    apply (dump_fields_in _ _ _ _ _ Hfs) in Hk' as (f & Hf & <- & _). cbn [fst] in Hk. apply in_map_iff in Hk as (ch & En & Hc). apply (Dfc f ch Hf Hc). congruence.
  - intros k v. rewrite in_app_iff. split.
    + intros [Hk|Hk].
      * left. destruct (dump_kids_in _ _ _ _ _ _ Hks Hk) as (ch & o & X). exists ch, o. tauto.
      * right. destruct (dump_fields_in _ _ _ _ _ Hfs Hk) as (f & Hf & En & Hv & _ & Hg & _). exists f.
        cbn [py_getitem] in Hg. destruct (lookup k d) eqn:E; [|discriminate]. injection Hg as ->. auto.
    + intros [(ch & kid & Hc & <- & Hl & Ht & Hd)|(f & Hf & <- & Hl & Hv)].
      * left. assert (X := dump_kids_lookup _ _ _ _ _ Nc Hks Hc). unfold dump_kid in X. rewrite Hl, Ht, Hd in X. cbn in X.
        injection X as X. symmetry in X. now apply TablesFacts.lookup_In.
      * right. rewrite dump_fields_eq in Hfs. destruct (mapM (field_entry (JDict d)) (c_fields cd)) as [l|] eqn:E; [|discriminate].
        cbn in Hfs. injection Hfs as <-. apply mapM_ok in E. clear -E Hf Hl Hv.
        induction E as [|g es gs l Hg E IH]; [destruct Hf|]. destruct Hf as [->|Hf]; cbn [concat]; apply in_app_iff; [left|right; auto].
        apply field_entry_dict in Hg. rewrite Hl in Hg. destruct Hg as [_ ->]. destruct v; try (now left). congruence.
Qed.
Lemma dump_only_declared T c cd p d kids e k : well_declared T -> lookup c T = Some cd -> dump T (OObj c p (JDict d) kids) = Ok (JDict e) ->
  lookup k e <> None -> In k (map f_name (c_fields cd)) \/ In k (map ch_name (c_children cd)).
Proof.
  intros Wt Ec H Hk. destruct (dump_entries T c cd p d kids _ Wt Ec H) as (e' & E & _ & X). injection E as <-.
  destruct (lookup k e) as [v|] eqn:El; [|congruence]. apply TablesFacts.lookup_In in El. apply X in El.
  destruct El as [(ch & kid & Hc & <- & _)|(f & Hf & <- & _)]; [right|left]; now apply in_map.
Qed.
Lemma bool_child_dump T c cd j p o ch b' v w : repo_table T -> lookup c T = Some cd -> construct T (JDict j) (BCls c) p [] = Ok o ->
  In ch (c_children cd) -> ch_builder ch = BBoolElse b' -> lookup (ch_name ch) j = Some (JBool v) -> dump T o = Ok w ->
  v = false /\ exists e, w = JDict e /\ lookup (ch_name ch) e = None.
Proof.
  intros R Ec H Hc Hb Hl D. destruct (declared_nodup cd (repo_wd T R c cd Ec)) as (Nf & Nc & Dfc).
  assert (H' := H). rewrite construct_eq in H'. cbn [select bind con_core] in H'. rewrite split_nil in H'. cbn [bind] in H'. rewrite Ec in H'.
  apply bind_ok in H' as (kids & Ek & E). injection E as <-.
  assert (L := con_kids_lookup _ _ _ _ _ _ ch Ek Nc Hc). unfold con_child in L. rewrite ovr_get_nil, ovr_here_nil in L.
  rewrite Hl, Hb in L. cbn in L. injection L as L.
  destruct (dump_entries T c cd p j kids w (repo_wd T R) Ec D) as (e & -> & Ne & X).
  assert (v = false).
  { destruct v; [|reflexivity]. exfalso. rewrite dump_obj_eq, Ec in D. apply bind_ok in D as (ks & Hks & _).
    assert (Y := dump_kids_lookup _ _ _ _ _ Nc Hks Hc). unfold dump_kid in Y. rewrite <- L in Y. cbn in Y. discriminate. }
  subst v. split; [reflexivity|]. exists e. split; [reflexivity|]. destruct (lookup (ch_name ch) e) as [x|] eqn:El; [|reflexivity].
  exfalso. apply TablesFacts.lookup_In in El. apply X in El. destruct El as [(ch' & kid & _ & _ & Hk & Ht & _)|(f & Hf & En & _)].
  - rewrite <- L in Hk. injection Hk as <-. discriminate.
  - apply (Dfc f ch Hf Hc). exact En.
Qed.

(** ** C19, C20 *)
Lemma resolve_addressed T b j ts b' j' base o : repo_table T -> base <> "" -> construct T j b (Some base) [] = Ok o ->
  addresses T b j ts b' j' ->
  jget j ts j' /\ exists o', construct T j' b' (Some (jp_join ts (Some base))) [] = Ok o' /\ within o ts o' /\
                             (~ primitive o' -> resolve T o ts = Ok o').
Proof.
  intros R Hb C A. split; [eapply addresses_jget; eauto|].
  destruct (addresses_within T b j ts b' j' (repo_wd T R) A (Some base) o C) as (o' & C' & W).
  rewrite path_after_base in C' by exact Hb. exists o'. split; [exact C'|]. split; [exact W|]. intros P.
  now destruct (within_resolve T ts (repo_wd T R) j b (Some base) o o' C W P) as (_ & Hr & _).
Qed.
Lemma resolve_field T ts j b base o c cd p d kids f v us w : repo_table T -> construct T j b base [] = Ok o ->
  within o ts (OObj c p (JDict d) kids) -> lookup c T = Some cd -> In f (c_fields cd) -> f_restricted f = false ->
  lookup (f_name f) d = Some v -> jget v us w -> resolve T o (ts ++ f_name f :: us)%list = Ok (OPrim w).
Proof.
  intros R C W Ec Hf Hr Hl J. assert (P : ~ primitive (OObj c p (JDict d) kids)) by (intros (x & E); discriminate).
  destruct (within_resolve T ts (repo_wd T R) j b base o _ C W P) as (_ & Hres & _).
  rewrite (resolve_app _ _ _ _ _ Hres P). cbn [resolve]. rewrite Ec.
  assert (U := repo_unamb T c cd R Ec). destruct (unamb_field _ _ U Hf) as (E1 & E2 & E3 & E4 & E5).
  unfold getattr_. rewrite E2, E3, E4, E5. unfold getattr_plain. rewrite E2, E3, E1. unfold field_get. cbn [py_in py_getitem]. unfold mem.
  rewrite Hl. cbn [bind]. rewrite Hr. cbn [rmap bind]. now rewrite (raw_resolve_jget _ _ _ J).
Qed.
(** below a field, pieces that lead nowhere *)
Lemma resolve_field_gen T ts j b base o c cd p d kids f v us : repo_table T -> construct T j b base [] = Ok o ->
  within o ts (OObj c p (JDict d) kids) -> lookup c T = Some cd -> In f (c_fields cd) -> f_restricted f = false ->
  lookup (f_name f) d = Some v -> resolve T o (ts ++ f_name f :: us)%list = rmap OPrim (raw_resolve v us).
Proof.
  intros R C W Ec Hf Hr Hl. assert (P : ~ primitive (OObj c p (JDict d) kids)) by (intros (x & E); discriminate).
  destruct (within_resolve T ts (repo_wd T R) j b base o _ C W P) as (_ & Hres & _).
  rewrite (resolve_app _ _ _ _ _ Hres P). cbn [resolve]. rewrite Ec.
  assert (U := repo_unamb T c cd R Ec). destruct (unamb_field _ _ U Hf) as (E1 & E2 & E3 & E4 & E5).
  unfold getattr_. rewrite E2, E3, E4, E5. unfold getattr_plain. rewrite E2, E3, E1. unfold field_get. cbn [py_in py_getitem]. unfold mem.
  rewrite Hl. cbn [bind]. rewrite Hr. reflexivity.
Qed.
Lemma raw_resolve_app j ts w us : jget j ts w -> raw_resolve j (ts ++ us)%list = raw_resolve w us.
Proof.
  induction 1 as [j|d k v ts r Hl G IH|l i s v ts r Hi Hn G IH]; cbn [raw_resolve app]; [reflexivity| |].
  - rewrite Hl. exact IH.
  - rewrite (py_int_index _ _ Hi). cbn [bind]. rewrite py_nth_nat, Hn. exact IH.
Qed.
Lemma resolve_field_missing T ts j b base o c cd p d kids f v us w k more : repo_table T -> construct T j b base [] = Ok o ->
  within o ts (OObj c p (JDict d) kids) -> lookup c T = Some cd -> In f (c_fields cd) -> f_restricted f = false ->
  lookup (f_name f) d = Some v -> jget v us w ->
  (forall e, w = JDict e -> lookup k e = None -> resolve T o (ts ++ f_name f :: us ++ k :: more)%list = Err KeyError) /\
  (forall l i, w = JList l -> index_text i k -> (List.length l <= i)%nat -> resolve T o (ts ++ f_name f :: us ++ k :: more)%list = Err IndexError) /\
  ((forall e, w <> JDict e) -> (forall l, w <> JList l) -> resolve T o (ts ++ f_name f :: us ++ k :: more)%list = Ok (OPrim w)).
Proof.
  intros R C W Ec Hf Hr Hl J. rewrite (resolve_field_gen T ts j b base o c cd p d kids f v _ R C W Ec Hf Hr Hl).
  rewrite (raw_resolve_app _ _ _ _ J). split; [|split].
  - intros e -> E. cbn [raw_resolve]. rewrite E. reflexivity.
  - intros l i -> Hi Hlen. cbn [raw_resolve]. rewrite (py_int_index _ _ Hi). cbn [bind]. rewrite py_nth_nat.
    apply nth_error_None in Hlen. rewrite Hlen. reflexivity.
  - intros Hd Hl'. assert (E : forall q, raw_resolve w q = Ok w).
    { induction q as [|x q IH]; [reflexivity|]. cbn [raw_resolve]. destruct w; try exact IH.
      - now destruct (Hl' l).
      - now destruct (Hd d0). }
    now rewrite E.
Qed.
Lemma own_pointer T j b o ts o' : repo_table T -> construct T j b (Some "#") [] = Ok o -> within o ts o' -> ~ primitive o' ->
  exists p, get_path o' = Some p /\ p = jp_join ts (Some "#") /\ jp_split p = "#" :: ts /\ resolve T o ts = Ok o'.
Proof.
  intros R C W P. destruct (within_resolve T ts (repo_wd T R) j b (Some "#") o o' C W P) as (G & Hr & _).
  rewrite path_after_base in G by discriminate. exists (jp_join ts (Some "#")). split; [exact G|]. split; [reflexivity|]. split; [|exact Hr].
  rewrite (compose_split_base ts "#" (jp_join ts (Some "#"))); [reflexivity|discriminate|reflexivity].
Qed.
Lemma string_elements_raise T j b base o ts o1 k s : repo_table T -> construct T j b base [] = Ok o -> within o ts o1 ->
  (match o1 with OList _ _ _ | OMap _ _ _ => True | _ => False end) -> within o1 [k] (OPrim (JStr s)) ->
  resolve T o (ts ++ [k])%list = Err AttributeError.
Proof. intros R C W K E. exact (within_prim_container T (repo_wd T R) ts j b base o o1 k (JStr s) C W K E). Qed.

(** ** C21 *)
Lemma merge_kids_fix cs kids other :
  (forall c, In c cs -> truthy_obj (kid_of (ch_name c) kids) = true \/ truthy_obj (kid_of (ch_name c) other) = false) ->
  merge_kids cs kids other = Ok kids.
Proof.
  induction cs as [|c cs IH]; intros H; [reflexivity|]. unfold merge_kids. cbn [foldM].
  assert (E : (if truthy_obj (kid_of (ch_name c) kids) then Ok kids else
      let o := kid_of (ch_name c) other in
      if truthy_obj o then match o with OPrim _ => Err PyException | _ => Ok (dict_set (ch_name c) o kids) end else Ok kids) = Ok kids).
  { destruct (H c (or_introl eq_refl)) as [-> | E]; [reflexivity|]. cbn zeta. rewrite E. now destruct (truthy_obj (kid_of (ch_name c) kids)). }
  cbn zeta in E. cbn zeta. rewrite E. cbn [bind]. apply IH. intros c' Hc. apply H. now right.
Qed.
Lemma getattr_child T c cd p s kids ch : repo_table T -> lookup c T = Some cd -> In ch (c_children cd) ->
  getattr T (OObj c p s kids) (ch_name ch) = Ok (kid_of (ch_name ch) kids).
Proof.
  intros R Ec Hc. unfold getattr. rewrite Ec. destruct (find_child (ch_name ch) (c_children cd)) as [x|] eqn:E.
  - unfold getattr_. rewrite E. unfold getattr_plain. rewrite E. reflexivity.
  - exfalso. unfold find_child in E. apply (find_none _ _ E) in Hc. now rewrite String.eqb_refl in Hc.
Qed.
Lemma getattr_field T c cd p s kids kids' name f : repo_table T -> lookup c T = Some cd -> names_field cd name f ->
  getattr T (OObj c p s kids) name = getattr T (OObj c p s kids') name.
Proof.
  intros R Ec N. unfold getattr. rewrite Ec. assert (U := repo_unamb T c cd R Ec).
  assert (P : forall g, In g (c_fields cd) -> getattr_plain T cd p s kids (f_name g) = getattr_plain T cd p s kids' (f_name g)).
  { intros g Hg. destruct (unamb_field _ _ U Hg) as (E1 & E2 & E3 & E4 & E5). unfold getattr_plain. now rewrite E2, E3. }
  inversion N as [f' Hf E|a f' Hf Ha]; subst.
  - destruct (unamb_field _ _ U Hf) as (E1 & E2 & E3 & E4 & E5). unfold getattr_. rewrite E2, E3, E4, E5. auto.
  - destruct (unamb_alias _ _ _ U Ha) as (E2 & E3 & E4). unfold getattr_. rewrite E2, E3, E4. auto.
Qed.
Lemma merge_spec T c cd p s kids p2 s2 kids2 m : repo_table T -> lookup c T = Some cd ->
  merge_children T (OObj c p s kids) (OObj c p2 s2 kids2) = Ok m ->
  (forall ch, In ch (c_children cd) -> exists a b, getattr T (OObj c p s kids) (ch_name ch) = Ok a /\
      getattr T (OObj c p2 s2 kids2) (ch_name ch) = Ok b /\
      getattr T m (ch_name ch) = Ok (if truthy_obj a then a else if truthy_obj b then b else a)) /\
  (forall name f, names_field cd name f -> getattr T m name = getattr T (OObj c p s kids) name) /\
  get_path m = p /\
  merge_children T m (OObj c p2 s2 kids2) = Ok m.
Proof.
  intros R Ec H. cbn [merge_children] in H. rewrite Ec in H. apply bind_ok in H as (ks & Hk & E). injection E as <-.
  destruct (declared_nodup cd (repo_wd T R c cd Ec)) as (Nf & Nc & Dfc).
  assert (S := merge_kids_spec _ Nc _ _ _ Hk).
  assert (Sc : forall ch, In ch (c_children cd) -> kid_of (ch_name ch) ks =
      (if truthy_obj (kid_of (ch_name ch) kids) then kid_of (ch_name ch) kids
          else if truthy_obj (kid_of (ch_name ch) kids2) then kid_of (ch_name ch) kids2 else kid_of (ch_name ch) kids)).
  { intros ch Hc. rewrite S. assert (X : existsb (fun c0 => String.eqb (ch_name ch) (ch_name c0)) (c_children cd) = true).
    { apply existsb_exists. exists ch. split; [exact Hc|apply String.eqb_refl]. }
    now rewrite X. }
  split; [|split; [|split]].
  - intros ch Hc. exists (kid_of (ch_name ch) kids), (kid_of (ch_name ch) kids2). rewrite !(getattr_child T c cd) by assumption.
    rewrite (Sc ch Hc). auto.
  - intros name f N. eapply getattr_field; eauto.
  - reflexivity.
  - cbn [merge_children]. rewrite Ec. rewrite merge_kids_fix; [reflexivity|]. intros ch Hc. rewrite (Sc ch Hc).
    destruct (truthy_obj (kid_of (ch_name ch) kids)) eqn:E1; [auto|]. destruct (truthy_obj (kid_of (ch_name ch) kids2)) eqn:E2; auto.
Qed.
Lemma merge_raises T c cd p s kids p2 s2 kids2 : repo_table T -> lookup c T = Some cd ->
  ((exists e, merge_children T (OObj c p s kids) (OObj c p2 s2 kids2) = Err e) <->
   exists ch a j, In ch (c_children cd) /\ getattr T (OObj c p s kids) (ch_name ch) = Ok a /\ truthy_obj a = false /\
                  getattr T (OObj c p2 s2 kids2) (ch_name ch) = Ok (OPrim j) /\ truthy j = true).
Proof.
  intros R Ec. destruct (declared_nodup cd (repo_wd T R c cd Ec)) as (Nf & Nc & Dfc). cbn [merge_children]. rewrite Ec. split.
  - intros (e & H). destruct (merge_kids (c_children cd) kids kids2) as [ks|e'] eqn:E; [discriminate|].
    apply (merge_kids_err _ Nc) in E as (_ & ch & Hc & F1 & F2 & (j & F3)). exists ch, (kid_of (ch_name ch) kids), j.
    rewrite !(getattr_child T c cd) by assumption. rewrite F3 in *. auto.
  - intros (ch & a & j & Hc & G1 & F1 & G2 & F2). rewrite !(getattr_child T c cd) in * by assumption. injection G1 as <-. injection G2 as G2.
    exists PyException. rewrite (proj2 (merge_kids_err _ Nc kids kids2 PyException)); [reflexivity|]. split; [reflexivity|].
    exists ch. rewrite G2. repeat split; auto. eexists; reflexivity.
Qed.
Lemma merge_other_unchanged fuel h a b x : x <> a -> at_ (fst (step fuel h (OpMerge a b))) x = at_ h x.
Proof. intros H. destruct (step_changed fuel h (OpMerge a b) a eq_refl) as ([_ O] & _). now apply O. Qed.

(** ** C22 *)
Lemma compare_reflexive T c j p o base : repo_table T -> wf_json j -> construct T j (BCls c) p [] = Ok o -> readable T o ->
  exists loc, compare T o o base = Ok (true, loc).
Proof.
  intros R W C Rd. apply compare_refl. eapply construct_proper; eauto; [now apply repo_wd|now apply repo_wf_defaults|].
  destruct (construct_cls_obj _ _ _ _ _ C) as (kids & ->). intros (x & E). discriminate.
Qed.
Lemma compare_sound T c c' j j' p p' x y base loc : repo_table T -> wf_json j -> wf_json j' ->
  construct T j (BCls c) p [] = Ok x -> construct T j' (BCls c') p' [] = Ok y -> compare T x y base = Ok (true, loc) ->
  (forall ts x1, within x ts x1 -> ~ primitive x1 -> exists y1, within y ts y1 /\ alike T x1 y1) /\
  (forall ts y1, within y ts y1 -> ~ primitive y1 -> exists x1, within x ts x1 /\ alike T x1 y1).
Proof.
  intros R W W' C C' H.
  assert (Ux : uniform T x) by (eapply construct_uniform; eauto; [now apply repo_wd|now apply repo_uniform]).
  assert (Uy : uniform T y) by (eapply construct_uniform; eauto; [now apply repo_wd|now apply repo_uniform]).
  split; intros ts; apply (compare_true T ts x y base loc H Ux Uy).
Qed.

(** ** C24 *)
Lemma override_spec T j L b p o o' : repo_table T -> well_given L -> construct T j b p [] = Ok o ->
  construct T j b p (override_of L) = Ok o' ->
  (forall us x, In (us, x) L -> place T o us -> within o' us x) /\
  (forall ts v, (forall us x, In (us, x) L -> apart us ts) -> within o ts v <-> within o' ts v) /\
  (forall ts v, (forall us x, In (us, x) L -> ~ prefix us ts) -> within o ts v -> exists v', within o' ts v' /\ same_node v v').
Proof.
  intros R G C C'. destruct (wg_split L G) as (W & A & N). split; [|split].
  - intros us x. now apply (ovr_inside T (repo_wd T R) us L j b p o o' W A N C C' x).
  - intros ts v H. now apply (ovr_outside T (repo_wd T R) ts L j b p o o' W A N C C' H v).
  - intros ts v H. now apply (ovr_nodes T (repo_wd T R) ts L j b p o o' W A N C C' H v).
Qed.
Lemma override_total T j L b p o : repo_table T -> wf_json j -> well_given L -> construct T j b p [] = Ok o ->
  (forall us x, In (us, x) L -> place T o us) -> exists o', construct T j b p (override_of L) = Ok o'.
Proof. intros R Wf G C Pl. destruct (wg_split L G) as (W & A & N). eapply ovr_total; eauto. now apply repo_wd. Qed.

(** ** helpers for examples *)
Lemma readonly_raises o name f v : unambiguous (i_class o) -> names_field (i_class o) name f -> f_readonly f = true ->
  inst_set o name v = Err AttributeError.
Proof. intros U N Ro. rewrite (inst_set_field o name f v U N). now rewrite Ro. Qed.
Lemma reload_dump_weak T c j p p' o w : repo_table T -> construct T j (BCls c) p [] = Ok o -> dump T o = Ok w ->
  match construct T w (BCls c) p' [] with Ok o' => dump T o' = Ok w | Err e => e = FieldNotExist end.
Proof. intros R H D. assert (X := reload_dump T c j p p' o w R H D). destruct (construct T w (BCls c) p' []); tauto. Qed.
Lemma header_content_lost j p o w :
  construct v30_table (JDict j) (BCls "Header") p [] = Ok o -> dump v30_table o = Ok (JDict w) -> lookup "content" w = None.
Proof.
  intros C D. destruct (construct_cls_obj _ _ _ _ _ C) as (kids & ->).
  destruct (lookup "content" w) as [v|] eqn:E; [|reflexivity]. exfalso.
  assert (Hn : lookup "content" w <> None) by congruence.
  destruct (dump_only_declared v30_table "Header" v30_Header p j kids w "content" v30_well_declared eq_refl D Hn) as [H|H];
    vm_compute in H; repeat (destruct H as [H|H]; [discriminate|]); exact H.
Qed.
Lemma object_not_enclosed h n x : encloses h n x -> is_object h x = true -> False.
Proof. induction 1; intros E; [congruence|auto]. Qed.

(** boolean checks of the specification predicates, for concrete witnesses *)
Definition has_refb (j : json) : bool := match j with JDict d => mem "$ref" d | _ => false end.
Fixpoint denotesb (b : builder) (j : json) : option slot_kind :=
  match b with
  | BCls c => Some (IsObject c)
  | BListOf b' => Some (IsList b')
  | BMapOf b' => Some (IsMap b')
  | BStr => Some IsString
  | BRefElse r b' => match j with JDict _ => if has_refb j then Some (IsObject r) else denotesb b' j | _ => None end
  | BBoolElse b' => match j with JBool _ => Some IsBool | _ => denotesb b' j end
  end.
Lemma has_refb_ok d : has_refb (JDict d) = true <-> has_ref (JDict d).
Proof.
  cbn. unfold mem. split.
  - destruct (lookup "$ref" d) as [v|] eqn:E; [|discriminate]. intros _. exists d, v. auto.
  - intros (d' & v & E & H). injection E as <-. now rewrite H.
Qed.
Lemma denotesb_ok b j k : denotesb b j = Some k -> denotes b j k.
Proof.
  induction b as [c|b IH|b IH| |r b IH|b IH]; cbn [denotesb]; intros H; try (injection H as <-; constructor).
  - destruct j as [| | | | |l|d]; try discriminate. destruct (has_refb (JDict d)) eqn:E.
    + injection H as <-. apply dn_ref. now apply has_refb_ok.
    + apply dn_noref; [|auto]. intros Hr. apply has_refb_ok in Hr. congruence.
  - destruct j; try (apply dn_nobool; [discriminate|auto]). injection H as <-. constructor.
Qed.
Definition filledb (b : builder) (j : json) : bool :=
  match j with
  | JList (_ :: _) => true
  | JDict d => match denotesb b j with Some (IsMap _) => match d with [] => false | _ => true end | Some (IsObject _) => true | _ => false end
  | _ => false
  end.
Lemma filledb_ok b j : filledb b j = true -> filled b j.
Proof.
  destruct j as [| | | | |l|d]; cbn [filledb]; try discriminate.
  - destruct l; [discriminate|]. intros _. constructor.
  - destruct (denotesb b (JDict d)) as [[c|b'|b'| |]|] eqn:E; try discriminate; intros H.
    + eapply fl_object. apply denotesb_ok; eauto.
    + eapply fl_map; [apply denotesb_ok; eauto|]. now destruct d.
Qed.
Definition not_null (j : json) : bool := match j with JNull => false | _ => true end.
Fixpoint conformsb (T : ctable) (j : json) (b : builder) (fuel : nat) {struct fuel} : bool :=
  match fuel with
  | O => false
  | S fuel =>
    match j, denotesb b j with
    | JStr _, Some IsString => true
    | JList l, Some (IsList b') => forallb (fun x => conformsb T x b' fuel) l
    | JDict d, Some (IsMap b') => forallb (fun kx => conformsb T (snd kx) b' fuel) d
    | JDict d, Some (IsObject c) =>
        match lookup c T with
        | None => false
        | Some cd =>
            forallb (fun kv => not_null (snd kv) &&
                       (existsb (fun f => String.eqb (f_name f) (fst kv) && negb (f_restricted f)) (c_fields cd)
                        || existsb (fun ch => String.eqb (ch_name ch) (fst kv)) (c_children cd)) &&
                       forallb (fun ch => negb (String.eqb (ch_name ch) (fst kv)) ||
                                  conformsb T (snd kv) (ch_builder ch) fuel && filledb (ch_builder ch) (snd kv)) (c_children cd)) d
            && forallb (fun ch => negb (ch_required ch) || mem (ch_name ch) d) (c_children cd)
        end
    | _, _ => false
    end
  end.
Lemma conformsb_ok T j b fuel : conformsb T j b fuel = true -> conforms T b j.
Proof.
  revert j b. induction fuel as [|fuel IH]; intros j b; cbn [conformsb]; [discriminate|].
  destruct j as [| | | |s|l|d]; try discriminate; destruct (denotesb b _) as [[c|b'|b'| |]|] eqn:E; try discriminate; intros H.
  - apply cf_string. now apply denotesb_ok.
  - rewrite forallb_forall in H. eapply cf_list; [apply denotesb_ok; eauto|]. auto.
  - destruct (lookup c T) as [cd|] eqn:Ec; [|discriminate]. apply andb_true_iff in H as [H1 H2]. rewrite forallb_forall in H1, H2.
    apply (cf_object T b c cd d); [now apply denotesb_ok|exact Ec| | | |].
    + intros k v Hin. specialize (H1 _ Hin). cbn [snd] in H1. intros ->. discriminate H1.
    + intros k v Hin. specialize (H1 _ Hin). apply andb_true_iff in H1 as [H1 _]. apply andb_true_iff in H1 as [_ H1]. apply orb_true_iff in H1 as [H1|H1];
        apply existsb_exists in H1 as (x & Hx & H1).
      * left. apply andb_true_iff in H1 as [H1 H3]. apply String.eqb_eq in H1. apply negb_true_iff in H3. exists x. auto.
      * right. apply String.eqb_eq in H1. exists x. auto.
    + intros ch v Hc Hin. specialize (H1 _ Hin). apply andb_true_iff in H1 as [_ H1]. rewrite forallb_forall in H1. specialize (H1 ch Hc).
      cbn [fst snd] in H1. rewrite String.eqb_refl in H1. cbn in H1. apply andb_true_iff in H1 as [H1 H3]. split; [auto|now apply filledb_ok].
    + intros ch Hc Hr. specialize (H2 ch Hc). rewrite Hr in H2. cbn in H2. unfold mem in H2. destruct (lookup (ch_name ch) d) as [v|] eqn:El; [|discriminate].
      apply TablesFacts.lookup_In in El. apply in_map_iff. exists (ch_name ch, v). auto.
  - rewrite forallb_forall in H. eapply cf_map; [apply denotesb_ok; eauto|]. intros k x Hx. apply IH. apply (H (k, x) Hx).
Qed.
Fixpoint prefixb (us ts : list string) : bool :=
  match us, ts with [], _ => true | u :: us', t :: ts' => String.eqb u t && prefixb us' ts' | _, _ => false end.
Lemma prefixb_ok us ts : prefix us ts -> prefixb us ts = true.
Proof.
  intros (r & ->). induction us as [|u us IH]; [reflexivity|]. cbn. now rewrite String.eqb_refl.
Qed.
Fixpoint plainb_tok (s : string) : bool :=
  match s with EmptyString => true | String c r => negb (Ascii.eqb c "/") && negb (Ascii.eqb c "~") && plainb_tok r end.
Lemma plainb_tok_ok t : plainb_tok t = true -> forall a b, t <> a ++ "/" ++ b /\ t <> a ++ "~" ++ b.
Proof.
  intros H a. revert t H. induction a as [|c a IH]; intros t H b.
  - destruct t as [|x t]; [split; discriminate|]. cbn in H. apply andb_true_iff in H as [H _]. apply andb_true_iff in H as [H1 H2].
    apply negb_true_iff in H1, H2. apply Ascii.eqb_neq in H1, H2. split; intros E; injection E as E _; congruence.
  - destruct t as [|x t]; [split; discriminate|]. cbn in H. apply andb_true_iff in H as [_ H]. destruct (IH t H b) as [E1 E2].
    split; intros E; injection E as _ E; [apply E1|apply E2]; exact E.
Qed.
Definition well_givenb (L : locations) : bool :=
  forallb (fun e => match fst e with [] => false | _ => true end
                    && forallb (fun t => negb (String.eqb t "") && plainb_tok t) (fst e) && truthy_obj (snd e)) L
  && (fix go (L : locations) := match L with
      | [] => true
      | a :: L' => forallb (fun b => negb (prefixb (fst a) (fst b)) && negb (prefixb (fst b) (fst a))) L' && go L'
      end) L.
Lemma well_givenb_ok L : well_givenb L = true -> well_given L.
Proof.
  intros H. apply andb_true_iff in H as [H1 H2]. split.
  - intros us x Hin. rewrite forallb_forall in H1. specialize (H1 _ Hin). apply andb_true_iff in H1 as [H1 H3]. apply andb_true_iff in H1 as [H1 H4].
    cbn [fst snd] in *. split; [now destruct us|]. split; [|exact H3]. intros t Ht. rewrite forallb_forall in H4. specialize (H4 t Ht).
    apply andb_true_iff in H4 as [H4 H5]. split; [intros ->; discriminate H4|now apply plainb_tok_ok].
  - clear H1. induction L as [|a L IH]; [constructor|]. apply andb_true_iff in H2 as [H1 H2]. constructor; [|auto].
    apply Forall_forall. intros b Hb. rewrite forallb_forall in H1. specialize (H1 b Hb). apply andb_true_iff in H1 as [H1 H3].
    apply negb_true_iff in H1, H3. split; intros P; apply prefixb_ok in P; congruence.
Qed.

(** ** C25 *)
Lemma boolean_additional T d v : T = v20_table \/ T = v30_table -> shaped T (BCls "Schema") (JDict d) ->
  shaped T (BCls "Schema") (JDict (dict_set "additionalProperties" (JBool v) d)).
Proof.
  intros HT H.
  assert (G : forall cd, lookup "Schema" T = Some cd ->
     (exists b, forall ch, In ch (c_children cd) -> ch_name ch = "additionalProperties" -> ch_builder ch = BBoolElse b) ->
     shaped T (BCls "Schema") (JDict (dict_set "additionalProperties" (JBool v) d))).
  { intros cd E (b & Hb). inversion H as [| | |c0 cd' d0 E' H1 H2| c0 cd' j E' Hd _| | | |]; subst.
    - rewrite E in E'. injection E' as <-. apply (sh_object T "Schema" cd); [exact E| |].
      + intros ch w Hc. destruct (string_dec (ch_name ch) "additionalProperties") as [En|En].
        * rewrite En, lookup_dict_set_eq. intros X _. injection X as <-. rewrite (Hb ch Hc En). constructor.
        * rewrite lookup_dict_set_ne by congruence. now apply H1.
      + intros ch Hc. destruct (string_dec (ch_name ch) "additionalProperties") as [En|En].
        * rewrite En, lookup_dict_set_eq. discriminate.
        * rewrite lookup_dict_set_ne by congruence. now apply H2.
    - now destruct (Hd d). }
  destruct HT as [-> | ->]; (eapply G; [reflexivity|eexists; intros ch Hc E; cbn in Hc;
    repeat (destruct Hc as [<-|Hc]; [first [discriminate E | reflexivity]|]); destruct Hc]).
Qed.
