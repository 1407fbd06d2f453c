(** What the [Resolve] scanners look at in an object made from a document. *)
From Coq Require Import String Ascii List Bool Arith Lia DecimalString.
From Verif Require Import PyStr PyVal PyValFacts Jp UrlLib Urls Obj ObjFacts Classes_v2_0 Classes_v3_0_0 SpecJson SpecObj SpecScan TablesFacts DumpFacts ResolveFacts Scan ScanFacts ScanFacts2 ScanFacts3 TraverseFacts
  PropertiesObjAux PropertiesScanAux Store App Main SpecRefs SpecOpen WfFacts RefFacts OpenFacts RewriteFacts2 SpecTables SpecLocal.
Import ListNotations.
Open Scope string_scope. Open Scope nat_scope.

Lemma kid_built T j b p c q s kids cd ch x : well_declared T -> construct T j b p [] = Ok (OObj c q s kids) -> lookup c T = Some cd -> In ch (c_children cd) ->
  lookup (ch_name ch) kids = Some x -> exists v p', construct T v (ch_builder ch) p' [] = Ok x.
Proof.
  intros Wt H L IC LK. rewrite construct_eq in H. apply bind_ok in H as (kd & Hs & H). destruct kd as [v|c'|b'|b'|]; cbn [con_core] in H.
  - discriminate H.
  - rewrite split_nil in H. cbn [bind] in H. destruct (lookup c' T) as [cd'|] eqn:Ec; [|discriminate].
    apply bind_ok in H as (kids' & Ek & E). injection E as <- _ _ <-. rewrite L in Ec. injection Ec as <-.
    destruct (declared_nodup cd (Wt c' cd L)) as (_ & Nc & _). assert (El := con_kids_lookup _ _ _ _ _ _ ch Ek Nc IC). rewrite LK in El.
    unfold con_child in El. rewrite ovr_get_nil, ovr_here_nil in El.
    destruct j as [| | | | |l|d]; try (apply bind_ok in El as (? & _ & El); discriminate).
    destruct (lookup (ch_name ch) d) as [v|] eqn:Ex; [|destruct (ch_required ch); discriminate].
    exists v, (sub_path p (ch_name ch)). destruct v; try discriminate; (destruct (construct _ _ _ _ _); [simpl in El; congruence|discriminate]).
  - rewrite split_nil in H. cbn [bind] in H. destruct j; try discriminate. apply bind_ok in H as (es & Ee & E). discriminate E.
  - rewrite split_nil in H. cbn [bind] in H. destruct j; try discriminate. apply bind_ok in H as (es & Ee & E). discriminate E.
  - destruct j; discriminate H.
Qed.
Lemma list_built T v b p x : construct T v (BListOf b) p [] = Ok x -> exists b' q es, x = OList b' q es /\ forall e, In e es -> exists v' p', construct T v' b p' [] = Ok e.
Proof.
  rewrite construct_eq. cbn [select bind con_core]. rewrite split_nil. cbn [bind]. destruct v as [| | | | |l|]; try discriminate.
  destruct (con_list T b p [] 0 l) as [es|] eqn:E; cbn [bind]; [|discriminate]. intros [= <-]. do 3 eexists. split; [reflexivity|].
  apply con_list_ok in E as [Hl H]. intros e I. apply In_nth_error in I as (i & I).
  destruct (nth_error l i) as [v|] eqn:Ev; [|apply nth_error_None in Ev; assert (nth_error es i <> None) by congruence; apply nth_error_Some in H0; lia].
  exists v, (sub_path p (nat_dec (0 + i))). exact (H i v e Ev I).
Qed.
Lemma map_built T v b p x : construct T v (BMapOf b) p [] = Ok x -> exists b' q es, x = OMap b' q es /\ forall k e, In (k, e) es -> exists v' p', construct T v' b p' [] = Ok e.
Proof.
  rewrite construct_eq. cbn [select bind con_core]. rewrite split_nil. cbn [bind]. destruct v as [| | | | | |d]; try discriminate.
  destruct (con_map T b p [] d) as [es|] eqn:E; cbn [bind]; [|discriminate]. intros [= <-]. do 3 eexists. split; [reflexivity|].
  apply con_map_ok in E. intros k e I. induction E as [|[k1 v1] [k2 y2] l l' [Hk1 Hy] F IHF]; [contradiction|]. destruct I as [I|I]; [|exact (IHF I)].
  injection I as -> ->. cbn [fst snd] in *. eauto.
Qed.

(** the attributes looked at are children of the right kind *)
Definition all_children (cd : classdef) (n : string) (f : builder -> bool) : bool :=
  match attr_key cd n with
  | Some key => existsb (fun ch => String.eqb (ch_name ch) key && f (ch_builder ch)) (c_children cd)
  | None => false
  end.
Definition target_ok (cd : classdef) (t : target) : bool :=
  match t with
  | Self _ => true
  | One n b => all_children cd n (fun b' => builder_eqb b' b || builder_eqb b' (BBoolElse b))
  | Items n b => all_children cd n (fun b' => builder_eqb b' (BListOf b))
  | Values n b => all_children cd n (fun b' => builder_eqb b' (BMapOf b))
  end.
(** the exception: [MediaType.examples] is built as one object, and read as a map *)
Definition is_media (c : string) (t : target) : bool := String.eqb c "MediaType" && match t with Values n _ => String.eqb n "examples" | _ => false end.
Definition targets_ok (V : string) (ts : list (string * list target)) : bool :=
  forallb (fun e => match lookup (fst e) (table_of V) with Some cd => forallb (fun t => target_ok cd t || is_media (fst e) t && key_is cd "examples" "examples") (snd e) | None => false end) ts.
Lemma targets_check : targets_ok "2.0" targets20 = true /\ targets_ok "3.0.0" targets30 = true.
Proof. split; vm_compute; reflexivity. Qed.
Lemma targets_target V c t : V = "2.0" \/ V = "3.0.0" -> In t (targets_of V c) -> exists cd, lookup c (table_of V) = Some cd /\
  (target_ok cd t = true \/ (is_media c t = true /\ key_is cd "examples" "examples" = true)).
Proof.
  intros HV I. unfold targets_of in I. set (ts := if String.eqb V "2.0" then targets20 else targets30) in *.
  assert (OK : targets_ok V ts = true) by (destruct HV as [-> | ->]; apply targets_check).
  destruct (lookup c ts) as [l|] eqn:L; [|contradiction]. apply TablesFacts.lookup_In in L. unfold targets_ok in OK. rewrite forallb_forall in OK. specialize (OK _ L). cbn [fst snd] in OK.
  destruct (lookup c (table_of V)) as [cd|]; [|discriminate OK]. exists cd. split; [reflexivity|]. rewrite forallb_forall in OK. specialize (OK _ I). apply orb_prop in OK as [OK|OK]; [now left|right]. now apply andb_prop in OK.
Qed.

Section Tasks.
  Variable V : string.
  Hypothesis HV : V = "2.0" \/ V = "3.0.0".
  Let T := table_of V.
  Lemma HT : repo_table T. Proof. unfold T. destruct HV as [-> | ->]; constructor. Qed.
  (** what is looked at in place of a [b]: nothing, the object itself, or something made with [b] *)
  Definition looked_at (o : obj) (c : string) (t : target) (b : builder) (x : obj) : Prop :=
    (exists j, x = OPrim j) \/ (t = Self b /\ x = o) \/
    ((exists v p b', construct T v b' p [] = Ok x /\ (b' = b \/ b' = BBoolElse b)) /\ (exists n, t = One n b \/ t = Items n b \/ t = Values n b) /\
     exists ks, within o ks x /\ declared_slot T o ks b /\ forall n, t = Items n b \/ t = Values n b -> exists cd key tok, lookup c T = Some cd /\ attr_key cd n = Some key /\ ks = [key; tok]).
  Lemma attr_value j b p c q s kids n cd f : construct T j b p [] = Ok (OObj c q s kids) -> lookup c T = Some cd -> all_children cd n f = true ->
    exists x, oattr T (OObj c q s kids) n = Ok x /\
      (x = OPrim JNull \/ exists key v p' b', within (OObj c q s kids) [key] x /\ construct T v b' p' [] = Ok x /\ f b' = true /\ attr_key cd n = Some key /\ exists ch, In ch (c_children cd) /\ ch_name ch = key /\ ch_builder ch = b').
  Proof.
    intros C L A. unfold all_children in A. destruct (attr_key cd n) as [key|] eqn:K; [|discriminate A].
    unfold oattr. rewrite L, (attr_key_get _ _ _ _ _ _ _ K). exists (kid_of key kids). split; [reflexivity|]. unfold kid_of. destruct (lookup key kids) as [e|] eqn:LK; [right|now left].
    apply existsb_exists in A as (ch & IC & A). apply andb_prop in A as [E1 E2]. apply String.eqb_eq in E1. subst key.
    destruct (kid_built T j b p c q s kids cd ch e (repo_wd T HT) C L IC LK) as (v & p' & CE). exists (ch_name ch), v, p', (ch_builder ch).
    split; [eapply wi_child; [exact LK|constructor]|]. eauto 8.
  Qed.
  Lemma pick_shape j b p c q s kids t : construct T j b p [] = Ok (OObj c q s kids) -> wf_obj (OObj c q s kids) -> In t (targets_of V c) ->
    (c = "MediaType" -> lookup "examples" kids = None) ->
    exists os b', pick T (OObj c q s kids) t = Ok (os, b') /\ forall x, In x os -> looked_at (OObj c q s kids) c t b' x.
  Proof.
    intros C W IT NM. destruct (targets_target V c t HV IT) as (cd & L & [OK|[IM KI]]); fold T in L.
    2:{ unfold is_media in IM. apply andb_prop in IM as [EC IM]. apply String.eqb_eq in EC. destruct t as [| | |n b']; try discriminate IM. apply String.eqb_eq in IM. subst n.
        cbn [pick]. rewrite (oattr_kid T c cd q s kids _ _ L KI). unfold kid_of. rewrite (NM EC). exists [], b'. split; [reflexivity|contradiction]. }
    destruct t as [b'|n b'|n b'|n b']; cbn [pick target_ok] in *.
    - exists [OObj c q s kids], b'. split; [reflexivity|]. intros x [<-|[]]. right. left. auto.
    - destruct (attr_value j b p c q s kids n cd _ C L OK) as (x & E & D). rewrite E. cbn [bind]. exists [x], b'. split; [reflexivity|]. intros y [<-|[]].
      destruct D as [->|(key & v & p' & b2 & WI & CX & EB & AK & ch & ICH & ECH & EBH)]; [left; eauto|]. right. right. split; [|split; [eauto|exists [key]; split; [exact WI|split; [rewrite <- ECH; eapply ds_child; [exact L|exact ICH|rewrite EBH; apply orb_prop in EB as [EB|EB]; apply builder_eqb_eq in EB; auto]|intros n0 [E0|E0]; discriminate E0]]]]. exists v, p', b2. split; [exact CX|].
      apply orb_prop in EB as [EB|EB]; apply builder_eqb_eq in EB; auto.
    - destruct (attr_value j b p c q s kids n cd _ C L OK) as (x & E & D). rewrite E. cbn [bind].
      destruct D as [->|(key & v & p' & b2 & WI & CX & EB & AK & ch & ICH & ECH & EBH)]; [exists [], b'; split; [reflexivity|contradiction]|].
      apply builder_eqb_eq in EB. subst b2. destruct (list_built T v b' p' x CX) as (b3 & q3 & es & -> & HE).
      assert (P : (if truthy_obj (OList b3 q3 es) then Ok (es, b') else Ok ([], b')) = Ok (es, b') :> res (list obj * builder)) by (destruct es; reflexivity).
      exists es, b'. split; [exact P|]. intros x IX. right. right. split; [destruct (HE x IX) as (v' & p2 & CE); exists v', p2, b'; auto|]. split; [eauto|].
      apply In_nth_error in IX as (i & NI). exists [key; DecimalString.NilZero.string_of_uint (Nat.to_uint i)]. split; [|split; [rewrite <- ECH; eapply ds_element; [exact L|exact ICH|now left]|intros n0 [E0|E0]; [injection E0 as <-; eauto 8|discriminate E0]]]. inversion WI as [|? ? ? ? ? e ? ? LK W'| |]; subst. inversion W'; subst.
      eapply wi_child; [exact LK|]. eapply wi_index; [|exact NI|constructor]. reflexivity.
    - destruct (attr_value j b p c q s kids n cd _ C L OK) as (x & E & D). rewrite E. cbn [bind].
      destruct D as [->|(key & v & p' & b2 & WI & CX & EB & AK & ch & ICH & ECH & EBH)]; [exists [], b'; split; [reflexivity|contradiction]|].
      apply builder_eqb_eq in EB. subst b2. destruct (map_built T v b' p' x CX) as (b3 & q3 & es & -> & HE).
      assert (P : (if truthy_obj (OMap b3 q3 es) then Ok (map snd es, b') else Ok ([], b')) = Ok (map snd es, b') :> res (list obj * builder)) by (destruct es; reflexivity).
      exists (map snd es), b'. split; [exact P|]. intros x IX. right. right. apply in_map_iff in IX as ([k x'] & <- & IX). cbn [snd].
      split; [destruct (HE k x' IX) as (v' & p2 & CE); exists v', p2, b'; auto|]. split; [eauto|]. exists [key; k]. split; [|split; [rewrite <- ECH; eapply ds_element; [exact L|exact ICH|now right]|intros n0 [E0|E0]; [discriminate E0|injection E0 as <-; eauto 8]]].
      inversion WI as [|? ? ? ? ? e ? ? LK W'| |]; subst. inversion W'; subst. eapply wi_child; [exact LK|]. eapply wi_key; [|constructor].
      inversion W as [|? ? ? ? WS WK| |]; subst. specialize (WK _ _ (TablesFacts.lookup_In _ _ _ LK)). inversion WK as [| | |? ? ? ND WE]; subst.
      now apply in_lookup_keys.
  Qed.
  Lemma mapM_total {A B} (f : A -> res B) l : (forall x, In x l -> exists y, f x = Ok y) -> exists ys, mapM f l = Ok ys.
  Proof.
    induction l as [|x l IH]; intros H; [now exists []|]. destruct (H x (or_introl eq_refl)) as (y & E). destruct IH as (ys & EY); [intros; apply H; now right|].
    cbn [mapM]. rewrite E. cbn [bind]. rewrite EY. cbn [bind]. eauto.
  Qed.
  (** all the objects of a document *)
  Lemma tasks_total j c p root : wf_json j -> construct T j (BCls c) p [] = Ok root -> unmixed root -> no_media_examples root ->
    exists r l, default_tree_traversal T (osize root) root [] = Ok r /\ all_tasks V (map snd r) = Ok l /\
      (forall o, In o (map snd r) -> exists ts, within root ts o) /\
      (forall b x, In (b, x) l -> exists ts o cx t, within root ts o /\ In t (targets_of V cx) /\ (exists q s kids, o = OObj cx q s kids) /\ looked_at o cx t b x).
  Proof.
    intros WJ C U NM. assert (Rt := HT). assert (Ho := built_object _ _ _ _ _ C). assert (WR := construct_wf T j WJ _ _ _ C).
    assert (Ht := construct_tidy T (repo_wd T Rt) (repo_plain_names T Rt) (odepth root) j _ _ root (le_n _) WJ C U).
    destruct (traversal_tidy T [] root Ht Ho) as (VL & n & HVL & NV & SV & (V' & EV)).
    assert (SZ : Up12.tree_size root <= osize root) by apply le_n.
    assert (H := tree_size_enough T [] root (osize root) (repo_wd T Rt) SZ).
    set (r := map _ _) in H.
    assert (Er : r = map (fun e => (extend "#" (map key (fst e)), snd e)) VL).
    { assert (X := traversal_enough _ _ _ _ _ H (Nat.max n (osize root)) (Nat.le_max_r _ _)). rewrite (HVL _ (Nat.le_max_l _ _)) in X. congruence. }
    clearbody r.
    assert (WO : forall o, In o (map snd r) -> exists cs, within root (concat cs) o /\ is_object o).
    { intros o IO. subst r. rewrite map_map in IO. cbn [snd] in IO. apply in_map_iff in IO as ([cs o'] & EO & IV). cbn [snd] in EO. subst o'. apply SV in IV.
      destruct (steps_visible T [] root cs o IV Ht Ho) as (W & O & _). eauto. }
    assert (NP : forall c p s k, ~ primitive (OObj c p s k)) by (intros ? ? ? ? (? & [=])).
    assert (PK : forall o, In o (map snd r) -> exists ts cx q s kids, o = OObj cx q s kids /\ within root ts o /\ exists lo, tasks V o = Ok lo /\
       forall b x, In (b, x) lo -> exists t, In t (targets_of V cx) /\ looked_at o cx t b x).
    { intros o IO. destruct (WO o IO) as (cs & W & (cx & q & s & kids & ->)). exists (concat cs), cx, q, s, kids. split; [reflexivity|]. split; [exact W|].
      destruct (within_resolve T _ (repo_wd T Rt) j (BCls c) p root _ C W (NP _ _ _ _)) as (_ & _ & jx & bx & _ & CX).
      assert (PS := fun t IT => pick_shape jx bx _ cx q s kids t CX (wf_within _ _ _ W WR) IT (fun E => NM (concat cs) q s kids (eq_ind cx (fun c => within root (concat cs) (OObj c q s kids)) W _ E))).
      unfold tasks. destruct (mapM_total (fun t => rmap (fun x => map (fun y => (snd x, y)) (fst x)) (pick (table_of V) (OObj cx q s kids) t)) (targets_of V cx)) as (ls & M).
      { intros t IT. destruct (PS t IT) as (os & b' & P & _). fold T. rewrite P. cbn [rmap]. eauto. }
      rewrite M. cbn [rmap]. exists (concat ls). split; [reflexivity|]. intros b x IX.
      destruct (mapM_concat _ _ _ _ M IX) as (t & lt & IT & PT & IY). exists t. split; [exact IT|]. destruct (PS t IT) as (os & b' & P & LA). fold T in PT. rewrite P in PT. cbn [rmap fst snd] in PT. injection PT as <-.
      apply in_map_iff in IY as (y & EY & IY). injection EY as -> ->. exact (LA _ IY). }
    destruct (mapM_total (tasks V) (map snd r)) as (ls & M); [intros o IO; destruct (PK o IO) as (? & ? & ? & ? & ? & _ & _ & lo & E & _); eauto|].
    exists r, (concat ls). split; [exact H|]. split; [unfold all_tasks; rewrite M; reflexivity|]. split; [intros o IO; destruct (WO o IO) as (cs & W & _); eauto|].
    intros b x IX. destruct (mapM_concat _ _ _ _ M IX) as (o & lo & IO & EO & IY). destruct (PK o IO) as (ts & cx & q & s & kids & EQ & W & lo' & E & LA).
    rewrite EO in E. injection E as <-. destruct (LA b x IY) as (t & IT & L). exists ts, o, cx, t. split; [exact W|]. split; [exact IT|]. split; [eauto|exact L].
  Qed.
End Tasks.
