(** Facts about assigned references. *)
From Coq Require Import String Ascii List Bool Arith Lia.
From Verif Require Import PyStr PyStrFacts PyVal PyValFacts Jp JpFacts Urls Obj ObjFacts SpecJson SpecObj ShapeFacts DumpFacts ResolveFacts PropertiesObjAux
  Classes_v1_2 Classes_v2_0 Classes_v3_0_0 Store Scan App Main MainFacts SpecTables SpecOpen.
Import ListNotations.
Open Scope string_scope. Open Scope nat_scope.

(** ** dictionaries *)
Lemma graft_kids_entries kids d : graft_kids kids (JDict d) = JDict (graft_entries kids d).
Proof. cbn [graft_kids]. f_equal. induction kids as [|[k e] kids IH]; [reflexivity|]. cbn [fold_right graft_entries fst snd]. rewrite IH. reflexivity. Qed.
Lemma keys_mem {A} k (d d' : list (string * A)) : keys d = keys d' -> mem k d = mem k d'.
Proof.
  unfold mem. revert d'. induction d as [|[k1 v1] d IH]; intros [|[k2 v2] d'] E; try discriminate E; [reflexivity|]. cbn in E. injection E as <- E.
  cbn [lookup]. destruct (String.eqb k k1); [reflexivity|]. exact (IH d' E).
Qed.
Lemma keys_graft es d : keys (graft_entries es d) = keys d.
Proof.
  induction es as [|[k e] es IH]; [reflexivity|]. cbn [graft_entries]. destruct (lookup k d) as [v|] eqn:L; [|exact IH].
  rewrite keys_dict_set. rewrite (keys_mem k _ _ IH). unfold mem. rewrite L. exact IH.
Qed.
Definition opt_graft (e : option obj) (v : json) : json := match e with Some e => graft e v | None => v end.
Lemma lookup_graft es d k : lookup k (graft_entries es d) = option_map (opt_graft (lookup k es)) (lookup k d).
Proof.
  induction es as [|[k0 e] es IH]; [cbn; now destruct (lookup k d)|]. cbn [graft_entries lookup].
  destruct (lookup k0 d) as [v0|] eqn:L0.
  - rewrite lookup_dict_set. rewrite (String.eqb_sym k k0). destruct (String.eqb_spec k0 k) as [->|]; [now rewrite L0|exact IH].
  - rewrite IH. destruct (String.eqb_spec k k0) as [->|]; [now rewrite L0|reflexivity].
Qed.
Lemma dict_pairs {A B} (R : string -> A -> B -> Prop) : forall (d : list (string * A)) (d' : list (string * B)), map fst d = map fst d' -> NoDup (map fst d) ->
  (forall k v v', lookup k d = Some v -> lookup k d' = Some v' -> R k v v') -> Forall2 (fun e e' => fst e = fst e' /\ R (fst e) (snd e) (snd e')) d d'.
Proof.
  induction d as [|[k v] d IH]; intros [|[k' v'] d'] E N H; try discriminate E; [constructor|]. cbn [map fst] in E, N. injection E as <- E. inversion N as [|? ? NI N']; subst.
  constructor.
  - cbn [fst snd]. split; [reflexivity|]. apply H; cbn [lookup]; now rewrite String.eqb_refl.
  - apply IH; [exact E|exact N'|]. intros k1 w w' L L'. apply H; cbn [lookup].
    + destruct (String.eqb_spec k1 k) as [->|]; [|exact L]. exfalso. apply NI. apply PyValFacts.lookup_In in L. now apply (in_map fst) in L.
    + destruct (String.eqb_spec k1 k) as [->|]; [|exact L']. exfalso. apply NI. rewrite E. apply PyValFacts.lookup_In in L'. now apply (in_map fst) in L'.
Qed.
Lemma lookup_map {A B} (f : A -> B) k (d : list (string * A)) : lookup k (map (fun kx => (fst kx, f (snd kx))) d) = option_map f (lookup k d).
Proof. induction d as [|[k' v] d IH]; [reflexivity|]. cbn [map lookup fst snd]. destruct (String.eqb k k'); [reflexivity|exact IH]. Qed.
Lemma lookup_pairs {A B} (R : A -> B -> Prop) : forall (d : list (string * A)) (d' : list (string * B)), Forall2 (fun e e' => fst e = fst e' /\ R (snd e) (snd e')) d d' ->
  forall k v, lookup k d = Some v -> exists v', lookup k d' = Some v' /\ R v v'.
Proof.
  intros d d' F. induction F as [|[k1 v1] [k2 v2] d d' [E H] F IH]; intros k v L; [discriminate L|]. cbn [fst snd] in E, H. subst k2. cbn [lookup] in *.
  destruct (String.eqb k k1); [|exact (IH k v L)]. injection L as <-. eauto.
Qed.

(** ** the document of a rewritten object *)
Definition own_update (u : ref_updates) (p : option string) (d : list (string * json)) : list (string * json) :=
  match p with
  | Some q => match lookup q u, lookup "$ref" d with Some r, Some (JStr _) => dict_set "$ref" (JStr r) d | _, _ => d end
  | None => d
  end.
Lemma own_ref_dict u p d : own_ref u p (JDict d) = JDict (own_update u p d).
Proof. unfold own_ref, own_update. destruct p as [q|]; [|reflexivity]. destruct (lookup q u); [|reflexivity]. destruct (lookup "$ref" d) as [[]|]; reflexivity. Qed.
Lemma own_update_keys u p d : keys (own_update u p d) = keys d.
Proof.
  unfold own_update. destruct p as [q|]; [|reflexivity]. destruct (lookup q u) as [r|]; [|reflexivity]. destruct (lookup "$ref" d) as [[]|] eqn:L; try reflexivity.
  rewrite keys_dict_set. unfold mem. now rewrite L.
Qed.
Lemma own_update_other u p d k : k <> "$ref" -> lookup k (own_update u p d) = lookup k d.
Proof.
  intros N. unfold own_update. destruct p as [q|]; [|reflexivity]. destruct (lookup q u) as [r|]; [|reflexivity]. destruct (lookup "$ref" d) as [[]|]; try reflexivity.
  apply lookup_dict_set_ne. congruence.
Qed.
Lemma own_update_ref u p d : lookup "$ref" (own_update u p d) = lookup "$ref" d \/ exists r r', lookup "$ref" d = Some (JStr r) /\ lookup "$ref" (own_update u p d) = Some (JStr r').
Proof.
  unfold own_update. destruct p as [q|]; [|now left]. destruct (lookup q u) as [r|]; [|now left]. destruct (lookup "$ref" d) as [[]|] eqn:L; try now left.
  right. exists s, r. split; [reflexivity|]. apply lookup_dict_set_eq.
Qed.

(** ** objects that are made of documents *)
Definition like (j j' : json) : Prop :=
  j = j' \/ (exists d d', j = JDict d /\ j' = JDict d' /\ keys d = keys d')
  \/ (exists l l', j = JList l /\ j' = JList l' /\ Forall2 (fun x x' => forall s, json_is_str s x = json_is_str s x') l l').
Lemma like_str j j' s : like j j' -> json_is_str s j = json_is_str s j'.
Proof. intros [->|[(d & d' & -> & -> & _)|(l & l' & -> & -> & _)]]; reflexivity. Qed.
Lemma like_in j j' s : like j j' -> py_in s j' = py_in s j.
Proof.
  intros [->|[(d & d' & -> & -> & E)|(l & l' & -> & -> & F)]]; [reflexivity| |].
  - cbn [py_in]. f_equal. symmetry. now apply keys_mem.
  - cbn [py_in]. f_equal. induction F as [|x x' l l' H F IH]; [reflexivity|]. cbn [existsb]. now rewrite H, IH.
Qed.
Lemma select_like j j' : like j j' -> forall b k, select b j = Ok k -> select b j' = Ok k.
Proof.
  intros L. induction b as [c|b IH|b IH| |r b IH|b IH]; intros k E; cbn [select] in *; auto.
  - rewrite (like_in _ _ _ L). destruct (py_in "$ref" j) as [[]|]; cbn [bind] in *; auto.
  - destruct L as [->|[(d & d' & -> & -> & K)|(l & l' & -> & -> & K)]]; [destruct j'; auto| |]; apply IH; exact E.
Qed.
Lemma like_null j j' : like j j' -> j <> JNull -> j' <> JNull.
Proof. intros [->|[(d & d' & -> & -> & E)|(l & l' & -> & -> & F)]]; congruence. Qed.

Lemma graft_items_nth es : forall l n, length es = length l -> nth_error (graft_items es l) n = match nth_error es n, nth_error l n with Some e, Some v => Some (graft e v) | _, _ => None end.
Proof.
  induction es as [|e es IH]; intros [|v l] n H; try discriminate H; [now destruct n|]. destruct n as [|n]; [reflexivity|]. cbn [graft_items nth_error]. apply IH. now injection H.
Qed.
Lemma graft_items_length es : forall l, length (graft_items es l) = length l.
Proof. induction es as [|e es IH]; intros [|v l]; cbn [graft_items length]; auto. Qed.
Lemma graft_list b p es l : graft (OList b p es) (JList l) = JList (graft_items es l).
Proof. reflexivity. Qed.
Lemma graft_map b p es d : graft (OMap b p es) (JDict d) = JDict (graft_entries es d).
Proof. reflexivity. Qed.

Lemma rmap_some {A} (r : res A) x : rmap Some r = Ok (Some x) -> r = Ok x.
Proof. destruct r; cbn; congruence. Qed.
Lemma rmap_none {A} (r : res A) : rmap Some r = Ok None -> False.
Proof. destruct r; cbn; congruence. Qed.
Section Rewrite.
  Variables (T : ctable) (u : ref_updates).
  Hypothesis WD : well_declared T.
  Hypothesis NOREF : forall c cd ch, lookup c T = Some cd -> In ch (c_children cd) -> ch_name ch <> "$ref".

  Lemma construct_rewrite : forall j, wf_json j -> forall b p o, construct T j b p [] = Ok o ->
    construct T (graft (rewrite_refs u o) j) b p [] = Ok (rewrite_refs u o) /\ same_but_refs j (graft (rewrite_refs u o) j) /\ like j (graft (rewrite_refs u o) j).
  Proof.
    induction j as [j IH] using json_part_ind. intros W b p o C. pose proof C as C0. rewrite construct_eq in C. apply bind_ok in C as (k & K & C).
    assert (same : forall v, o = OPrim v -> construct T (graft (rewrite_refs u o) j) b p [] = Ok (rewrite_refs u o) /\ same_but_refs j (graft (rewrite_refs u o) j) /\ like j (graft (rewrite_refs u o) j)).
    { intros v ->. cbn [rewrite_refs graft]. split; [exact C0|]. split; [constructor|now left]. }
    destruct k as [v|c|b'|b'|]; cbn [con_core] in C.
    - injection C as <-. exact (same _ eq_refl).
    - rewrite split_nil in C. cbn [bind] in C. destruct (lookup c T) as [cd|] eqn:Tc; [|discriminate C]. apply bind_ok in C as (kids & CK & E). injection E as <-.
      assert (ND : NoDup (map ch_name (c_children cd))).
      { pose proof (WD c cd Tc) as D. unfold distinct_names in D. apply NoDup_app_iff_local in D. first [exact (proj1 D)|exact (proj1 (proj2 D))]. }
      rewrite rewrite_obj. set (kids' := map (fun kx => (fst kx, rewrite_refs u (snd kx))) kids).
      assert (Dj : (exists d, j = JDict d) \/ forall d, j <> JDict d) by (destruct j; eauto; right; discriminate).
      destruct Dj as [(d & ->)|Hd].
      + rewrite graft_kids_entries, own_ref_dict. cbn [graft]. set (d' := own_update u p (graft_entries kids' d)).
        apply wf_dict in W as [Nd Wd].
        assert (KD : keys d = keys d') by (unfold d'; now rewrite own_update_keys, keys_graft).
        assert (L : like (JDict d) (JDict d')) by (right; left; eauto).
        assert (LK : forall k, lookup k kids' = option_map (rewrite_refs u) (lookup k kids)) by (intros k; apply lookup_map).
        assert (NR : lookup "$ref" kids = None).
        { apply PyValFacts.lookup_none. intros I. apply (con_kids_keys _ _ _ _ _ _ _ CK) in I. apply in_map_iff in I as (ch & E & I). exact (NOREF _ _ _ Tc I E). }
        assert (LD : forall k, k <> "$ref" -> lookup k d' = option_map (opt_graft (lookup k kids')) (lookup k d)).
        { intros k N. unfold d'. rewrite own_update_other by exact N. apply lookup_graft. }
        assert (KID : forall k x, lookup k kids = Some x -> exists ch v, In ch (c_children cd) /\ ch_name ch = k /\ lookup k d = Some v /\ v <> JNull /\ part v (JDict d) /\ construct T v (ch_builder ch) (sub_path p k) [] = Ok x).
        { intros k x Lx. assert (I : In k (keys kids)) by (apply PyValFacts.lookup_In in Lx; now apply (in_map fst) in Lx).
          apply (con_kids_keys _ _ _ _ _ _ _ CK) in I. apply in_map_iff in I as (ch & <- & I). pose proof (con_kids_lookup _ _ _ _ _ _ ch CK ND I) as CC. rewrite Lx in CC.
          unfold con_child in CC. rewrite ovr_get_nil, ovr_here_nil in CC. destruct (lookup (ch_name ch) d) as [v|] eqn:Lv; [|destruct (ch_required ch); discriminate CC].
          assert (PV : part v (JDict d)) by (exists (ch_name ch); now apply PyValFacts.lookup_In).
          exists ch, v. destruct v; try discriminate CC; (apply rmap_some in CC; repeat (split; [first [reflexivity|discriminate|assumption]|]); exact CC). }
        split; [|split; [|exact L]].
        * rewrite construct_eq. rewrite (select_like _ _ L _ _ K). cbn [bind con_core]. rewrite split_nil. cbn [bind]. rewrite Tc.
          assert (E : con_kids T p [] (JDict d') (c_children cd) = Ok kids'); [|now rewrite E].
          apply con_kids_ok. apply con_kids_ok in CK as CK'. destruct CK' as (ks & F & Ek). exists (map (option_map (rewrite_refs u)) ks). split.
          -- clear Ek. assert (ALL : forall ch, In ch (c_children cd) -> con_child T p [] (JDict d') ch = rmap (option_map (rewrite_refs u)) (con_child T p [] (JDict d) ch)).
             { intros ch I. pose proof (con_kids_lookup _ _ _ _ _ _ ch CK ND I) as CC. rewrite CC. cbn [rmap].
               unfold con_child in *. rewrite ovr_get_nil, ovr_here_nil in *. rewrite (LD _ (NOREF _ _ _ Tc I)).
               destruct (lookup (ch_name ch) d) as [v|] eqn:Lv; cbn [option_map].
               2:{ destruct (ch_required ch); [discriminate CC|]. injection CC as <-. reflexivity. }
               rewrite LK. destruct (lookup (ch_name ch) kids) as [x|] eqn:Lx; cbn [option_map opt_graft].
               2:{ destruct v; try reflexivity; now apply rmap_none in CC. }
               destruct (KID _ _ Lx) as (ch' & v' & I' & E' & Lv' & Nv & PV & Cx). rewrite Lv in Lv'. injection Lv' as <-.
               assert (ch' = ch) by (apply (NoDup_map_inj_local ch_name (c_children cd)); assumption). subst ch'.
               destruct (IH v PV (wf_part _ _ (proj2 (wf_dict d) (conj Nd Wd)) PV) _ _ _ Cx) as (C' & _ & L').
               pose proof (like_null _ _ L' Nv) as Nv'. rewrite C'. destruct (graft _ v); try reflexivity. congruence. }
             clear -F ALL. induction F as [|ch k cs ks H F IH]; [constructor|]. cbn [map]. constructor.
             ++ rewrite (ALL ch (or_introl eq_refl)), H. reflexivity.
             ++ apply IH. intros ch' I. apply ALL. now right.
          -- unfold kids'. rewrite Ek. clear. generalize (c_children cd). induction ks as [|k ks IH]; intros [|ch cs]; try reflexivity. cbn [combine map concat fst snd]. rewrite map_app. f_equal; [destruct k; reflexivity|apply IH].
        * apply sb_dict. apply (dict_pairs (fun k v v' => same_but_refs v v' \/ (k = "$ref" /\ exists r r', v = JStr r /\ v' = JStr r'))); [exact KD|exact Nd|]. intros k v v' Lv Lv'. destruct (string_dec k "$ref") as [->|N].
          -- destruct (own_update_ref u p (graft_entries kids' d)) as [E|(r & r' & E1 & E2)].
             ++ unfold d' in Lv'. rewrite E, lookup_graft, Lv, LK, NR in Lv'. cbn in Lv'. injection Lv' as <-. left. constructor.
             ++ rewrite lookup_graft, Lv, LK, NR in E1. cbn in E1. injection E1 as ->. unfold d' in Lv'. rewrite E2 in Lv'. injection Lv' as <-. right. split; [reflexivity|eauto].
          -- left. rewrite (LD k N), Lv, LK in Lv'. cbn [option_map] in Lv'. injection Lv' as <-. destruct (lookup k kids) as [x|] eqn:Lx; cbn [option_map opt_graft]; [|constructor].
             destruct (KID _ _ Lx) as (ch' & v' & I' & E' & Lv' & Nv & PV & Cx). rewrite Lv in Lv'. injection Lv' as <-.
             exact (proj1 (proj2 (IH v PV (wf_part _ _ (proj2 (wf_dict d) (conj Nd Wd)) PV) _ _ _ Cx))).
      + assert (kids = []).
        { apply con_kids_ok in CK as (ks & F & ->). clear -F Hd. induction F as [|ch k cs ks H F IH]; [reflexivity|]. cbn [combine map concat fst snd]. rewrite IH, app_nil_r.
          unfold con_child in H. rewrite ovr_get_nil, ovr_here_nil in H. destruct j; try (destruct (absent_child _ ch) as [[]|]; cbn in H; try discriminate H; now injection H as <-). now destruct (Hd d). }
        subst kids. assert (E : graft_kids [] j = j) by (destruct j; try reflexivity). cbn [map] in kids'. subst kids'. rewrite E.
        assert (E' : own_ref u p j = j) by (unfold own_ref; destruct p; [|reflexivity]; destruct j; try reflexivity; now destruct (Hd d)). rewrite E'.
        assert (E2 : graft (OObj c p j []) j = j) by (cbn [graft]; now destruct j). rewrite E2. split; [exact C0|]. split; [constructor|now left].
    - rewrite split_nil in C. cbn [bind] in C. destruct j as [| | | | |l|]; try discriminate C. apply bind_ok in C as (es & CL & E). injection E as <-.
      rewrite rewrite_list, graft_list. set (l' := graft_items (map (rewrite_refs u) es) l). apply con_list_ok in CL as [Ln CL].
      assert (NTH : forall n x e, nth_error l n = Some x -> nth_error es n = Some e -> nth_error l' n = Some (graft (rewrite_refs u e) x) /\
                construct T (graft (rewrite_refs u e) x) b' (sub_path p (nat_dec n)) [] = Ok (rewrite_refs u e) /\ same_but_refs x (graft (rewrite_refs u e) x) /\ like x (graft (rewrite_refs u e) x)).
      { intros n x e X E. split. { unfold l'. rewrite graft_items_nth by now rewrite map_length. rewrite nth_error_map, E, X. reflexivity. }
        assert (I : In x l) by exact (nth_error_In _ _ X). apply (IH x I (proj1 (wf_list l) W x I)). exact (CL n x e X E). }
      assert (LL : length l' = length l) by apply graft_items_length.
      assert (ALL : forall n x x', nth_error l n = Some x -> nth_error l' n = Some x' -> same_but_refs x x' /\ like x x').
      { intros n x x' X X'. destruct (nth_error es n) as [e|] eqn:E.
        - destruct (NTH n x e X E) as (N1 & _ & S1 & L1). rewrite N1 in X'. injection X' as <-. auto.
        - apply nth_error_None in E. assert (n < length l) by (apply nth_error_Some; congruence). lia. }
      assert (L : like (JList l) (JList l')).
      { right. right. exists l, l'. split; [reflexivity|]. split; [reflexivity|]. apply nth_error_Forall2; [now symmetry|]. intros n x x' X X' s. apply like_str. exact (proj2 (ALL n x x' X X')). }
      split; [|split; [|exact L]].
      + rewrite construct_eq, (select_like _ _ L _ _ K). cbn [bind con_core]. rewrite split_nil. cbn [bind].
        assert (E : con_list T b' p [] 0 l' = Ok (map (rewrite_refs u) es)); [|now rewrite E].
        apply con_list_ok. split; [rewrite map_length; congruence|]. intros n x' e' X' E'. rewrite nth_error_map in E'. destruct (nth_error es n) as [e|] eqn:E; [|discriminate E']. injection E' as <-.
        destruct (nth_error l n) as [x|] eqn:X. 2:{ apply nth_error_None in X. assert (n < length l') by (apply nth_error_Some; congruence). lia. }
        destruct (NTH n x e X E) as (N1 & C1 & _). rewrite N1 in X'. injection X' as <-. exact C1.
      + apply sb_list. apply nth_error_Forall2; [now symmetry|]. intros n x x' X X'. exact (proj1 (ALL n x x' X X')).
    - rewrite split_nil in C. cbn [bind] in C. destruct j as [| | | | | |d]; try discriminate C. apply bind_ok in C as (es & CM & E). injection E as <-.
      rewrite rewrite_map, graft_map. set (es' := map (fun kx => (fst kx, rewrite_refs u (snd kx))) es). set (d' := graft_entries es' d). apply con_map_ok in CM. pose proof W as W0. apply wf_dict in W as [Nd Wd].
      assert (KD : keys d = keys d') by (unfold d'; now rewrite keys_graft).
      assert (L : like (JDict d) (JDict d')) by (right; left; eauto).
      assert (KE : map fst d = map fst es) by (clear -CM; induction CM as [|x y d es [H _] F IH]; [reflexivity|]; cbn [map]; congruence).
      assert (NTH : forall k x e, lookup k d = Some x -> lookup k es = Some e -> lookup k d' = Some (graft (rewrite_refs u e) x) /\
                construct T (graft (rewrite_refs u e) x) b' (sub_path p k) [] = Ok (rewrite_refs u e) /\ same_but_refs x (graft (rewrite_refs u e) x)).
      { intros k x e X E. split. { unfold d', es'. rewrite lookup_graft, X, lookup_map, E. reflexivity. }
        assert (I : part x (JDict d)) by (exists k; now apply PyValFacts.lookup_In).
        assert (CX : construct T x b' (sub_path p k) [] = Ok e).
        { clear -CM X E. induction CM as [|[k1 x1] [k2 e2] d es [H1 H2] F IH]; [discriminate X|]. cbn [fst snd] in *. subst k2. cbn [lookup] in *. destruct (String.eqb_spec k k1) as [->|]; [|auto]. now injection X as <-; injection E as <-. }
        destruct (IH x I (wf_part _ _ W0 I) _ _ _ CX) as (A & B & _). auto. }
      assert (HAS : forall k x, lookup k d = Some x -> exists e, lookup k es = Some e).
      { intros k x X. apply lookup_in_map. rewrite <- KE. apply PyValFacts.lookup_In in X. now apply (in_map fst) in X. }
      split; [|split; [|exact L]].
      + rewrite construct_eq, (select_like _ _ L _ _ K). cbn [bind con_core]. rewrite split_nil. cbn [bind].
        assert (E : con_map T b' p [] d' = Ok es'); [|now rewrite E].
        apply con_map_ok. apply (dict_pairs (fun k x e => construct T x b' (sub_path p k) [] = Ok e)).
        * change (map fst d') with (keys d'). rewrite <- KD. unfold es', keys. rewrite KE, map_map. reflexivity.
        * change (map fst d') with (keys d'). rewrite <- KD. exact Nd.
        * intros k v v' Lv Lv'. unfold es' in Lv'. rewrite lookup_map in Lv'. destruct (lookup k es) as [e|] eqn:E; [|discriminate Lv']. injection Lv' as <-.
          destruct (lookup k d) as [x|] eqn:X.
          -- destruct (NTH k x e X E) as (A & B & _). rewrite A in Lv. injection Lv as <-. exact B.
          -- exfalso. unfold d' in Lv. rewrite lookup_graft, X in Lv. discriminate Lv.
      + apply sb_dict. apply (dict_pairs (fun k v v' => same_but_refs v v' \/ (k = "$ref" /\ exists r r', v = JStr r /\ v' = JStr r'))); [exact KD|exact Nd|]. intros k v v' Lv Lv'. left. destruct (HAS k v Lv) as (e & E). destruct (NTH k v e Lv E) as (A & _ & B). rewrite A in Lv'. injection Lv' as <-. exact B.
    - destruct j; try discriminate C. injection C as <-. exact (same _ eq_refl).
  Qed.
End Rewrite.

(** ** arbitrary objects *)
Lemma pairs_map {A B} (f : A -> B) (R : A -> B -> Prop) (l : list (string * A)) : (forall x, In x l -> R (snd x) (f (snd x))) ->
  Forall2 (fun e e' => fst e = fst e' /\ R (snd e) (snd e')) l (map (fun kx => (fst kx, f (snd kx))) l).
Proof. induction l as [|x l IH]; intros H; cbn [map]; constructor; [split; [reflexivity|apply H; now left]|]. apply IH. intros y I. apply H. now right. Qed.
Lemma rewrite_same u o : same_objects o (rewrite_refs u o).
Proof.
  induction o as [j|c p s kids IH|b p es IH|b p es IH] using obj_ind'; rewrite ?rewrite_obj, ?rewrite_list, ?rewrite_map; try rewrite Forall_forall in IH.
  - constructor.
  - constructor; [|now apply pairs_map].
    destruct s as [| | | | | |d]; try (left; cbn [graft_kids]; destruct p; reflexivity).
    right. rewrite graft_kids_entries, own_ref_dict. do 2 eexists. split; [reflexivity|]. split; [reflexivity|]. split.
    + change (keys d = keys (own_update u p (graft_entries (map (fun kx => (fst kx, rewrite_refs u (snd kx))) kids) d))). now rewrite own_update_keys, keys_graft.
    + intros k N L. rewrite own_update_other by exact N. rewrite lookup_graft, lookup_map, L. now destruct (lookup k d).
  - constructor. clear -IH. induction es as [|x es IHe]; cbn [map]; constructor; [apply IH; now left|]. apply IHe. intros y I. apply IH. now right.
  - constructor. now apply pairs_map.
Qed.
Lemma rewrite_rereferenced u o : rereferenced o (rewrite_sobj u o).
Proof. split; [reflexivity|]. split; [reflexivity|]. apply rewrite_same. Qed.
Lemma rewrite_within u root ts x : within root ts x -> within (rewrite_refs u root) ts (rewrite_refs u x).
Proof.
  induction 1 as [o|c p s kids k o ts o' L W IH|b p es i s e ts o' I N W IH|b p es k e ts o' L W IH]; rewrite ?rewrite_obj, ?rewrite_list, ?rewrite_map.
  - constructor.
  - eapply wi_child; [|exact IH]. now rewrite lookup_map, L.
  - eapply wi_index; [exact I| |exact IH]. now rewrite nth_error_map, N.
  - eapply wi_key; [|exact IH]. now rewrite lookup_map, L.
Qed.
