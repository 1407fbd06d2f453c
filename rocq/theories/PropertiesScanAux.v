(** Lemmas used by PropertiesScan. *)
From Coq Require Import String Ascii List Bool Arith Lia.
From Verif Require Import PyStr PyStrFacts PyVal PyValFacts Jp JpFacts SpecJp Obj ObjFacts SpecJson SpecObj DumpFacts ResolveFacts OverrideFacts
  Scan SpecScan Classes_v1_2 Classes_v2_0 Classes_v3_0_0 TablesFacts SpecTables PropertiesObjAux ScanFacts ScanFacts2 ScanFacts3.
Import ListNotations.
Open Scope string_scope. Open Scope nat_scope.

Lemma traversal_terminates T o leaves : exists n r, forall fuel, n <= fuel -> default_tree_traversal T fuel o leaves = Ok r.
Proof. exists (length (visits T leaves (odepth o) o)). eexists. intros fuel Hf. exact (traversal_is_visits T leaves o fuel Hf). Qed.
Lemma traversal_enough T o leaves fuel r : default_tree_traversal T fuel o leaves = Ok r -> forall fuel', fuel <= fuel' -> default_tree_traversal T fuel' o leaves = Ok r.
Proof. intros H fuel' Hf. eapply traverse_fuel; eauto. Qed.

Lemma built_object T j c p o : construct T j (BCls c) p [] = Ok o -> is_object o.
Proof. intros H. destruct (construct_cls_obj _ _ _ _ _ H) as (kids & ->). do 4 eexists; reflexivity. Qed.
Lemma object_nonprim o : is_object o -> ~ primitive o.
Proof. intros (? & ? & ? & ? & ->) (v & E). discriminate. Qed.

Lemma traversal_built T c j root leaves fuel r : repo_table T -> wf_json j -> construct T j (BCls c) (Some "#") [] = Ok root -> unmixed root ->
  default_tree_traversal T fuel root leaves = Ok r ->
  (exists r', r = ("#", root) :: r') /\ NoDup (map fst r) /\ NoDup (map (fun po => get_path (snd po)) r) /\
  (forall o', In o' (map snd r) <-> exists ts, visible leaves root ts o') /\
  (forall p o', In (p, o') r -> exists ts, visible leaves root ts o' /\
     ((forall us k q x y, ts = (us ++ k :: q)%list -> within root us x -> is_container x -> within x [k] y -> is_container y -> within y q o' -> False) ->
      p = jp_join ts (Some "#") /\ get_path o' = Some p)).
Proof.
  intros Rt Wj C U H. assert (Ho := built_object _ _ _ _ _ C).
  assert (Ht := construct_tidy T (repo_wd T Rt) (repo_plain_names T Rt) (odepth root) j _ _ root (le_n _) Wj C U).
  destruct (traversal_tidy T leaves root Ht Ho) as (V & n & HV & NV & SV & (V' & EV)).
  assert (Er : r = map (fun e => (extend "#" (map key (fst e)), snd e)) V).
  { assert (X := traversal_enough _ _ _ _ _ H (Nat.max n fuel) (Nat.le_max_r _ _)). rewrite (HV _ (Nat.le_max_l _ _)) in X. congruence. }
  assert (Ptr : forall cs x, steps T leaves root cs x -> get_path x = Some (jp_join (concat cs) (Some "#"))).
  { intros cs x St. destruct (steps_visible _ _ _ _ _ St Ht Ho) as (W & Ox & _).
    destruct (own_pointer T j (BCls c) root (concat cs) x Rt C W (object_nonprim x Ox)) as (p & G & -> & _). exact G. }
  assert (VV : forall cs x, In (cs, x) V -> visible leaves root (concat cs) x) by (intros cs x Hin; apply SV in Hin; eapply steps_visible; eauto).
  subst r. split; [rewrite EV; cbn; eauto|]. split; [|split; [|split]].
  - rewrite map_map. cbn [fst]. rewrite <- map_map with (g := fun cs => extend "#" (map key cs)).
    apply NoDup_map_inj_on; [exact NV|]. intros a b Ha Hb E. apply in_map_iff in Ha as ([cs x] & <- & Ha). apply in_map_iff in Hb as ([cs' x'] & <- & Hb). cbn [fst] in *.
    apply SV in Ha, Hb. rewrite (extend_app (map key cs)), (extend_app (map key cs')) in E. injection E as E. eapply path_inj; eauto.
  - rewrite map_map. cbn [snd].
    rewrite (map_ext_in _ (fun e => Some (jp_join (concat (fst e)) (Some "#")))) by (intros [cs x] Hin; apply SV in Hin; cbn [fst snd]; auto).
    rewrite <- map_map with (g := fun cs => Some (jp_join (concat cs) (Some "#"))).
    apply NoDup_map_inj_on; [exact NV|]. intros a b Ha Hb E. apply in_map_iff in Ha as ([cs x] & <- & Ha). apply in_map_iff in Hb as ([cs' x'] & <- & Hb). cbn [fst] in *.
    injection E as E. apply jp_join_inj_base in E; [|discriminate]. apply SV in Ha, Hb. eapply steps_concat_inj; eauto.
  - intros o'. rewrite map_map. cbn [snd]. rewrite in_map_iff. split.
    + intros ([cs x] & <- & Hin). eauto.
    + intros (ts & Hv). destruct (visible_steps T leaves (length ts) ts root o' (le_n _) Ht Ho Hv) as (cs & -> & St). exists (cs, o'). split; [reflexivity|now apply SV].
  - intros p o' Hin. apply in_map_iff in Hin as ([cs x] & E & Hin). cbn [fst snd] in E. injection E as <- <-. exists (concat cs). split; [eauto|].
    intros Sh. apply SV in Hin. rewrite (shallow_path T leaves root cs x Hin Ht Ho "#"); [auto|discriminate|exact Sh].
Qed.
Lemma even_v12 : all_builders evenb v12_table = true. Proof. vm_compute. reflexivity. Qed.
Lemma even_v20 : all_builders evenb v20_table = true. Proof. vm_compute. reflexivity. Qed.
Lemma flat_v20 : all_builders flatb v20_table = true. Proof. vm_compute. reflexivity. Qed.
Lemma even_built T c j p root : T = v12_table \/ T = v20_table -> construct T j (BCls c) p [] = Ok root -> unmixed root.
Proof.
  intros [->| ->] C; (eapply even_unmixed; [| | |exact C]; [|first [exact even_v12|exact even_v20]|reflexivity]); apply repo_wd; constructor.
Qed.
Lemma built_once T c j root leaves fuel r : repo_table T -> wf_json j -> construct T j (BCls c) (Some "#") [] = Ok root -> unmixed root ->
  default_tree_traversal T fuel root leaves = Ok r ->
  (exists r', r = ("#", root) :: r') /\ NoDup (map (fun po => get_path (snd po)) r) /\
  (forall o', In o' (map snd r) <-> exists ts, visible leaves root ts o').
Proof. intros. destruct (traversal_built T c j root leaves fuel r) as (? & ? & ? & ? & _); auto. Qed.
Lemma built_once_even T c j root leaves fuel r : T = v12_table \/ T = v20_table -> wf_json j -> construct T j (BCls c) (Some "#") [] = Ok root ->
  default_tree_traversal T fuel root leaves = Ok r ->
  (exists r', r = ("#", root) :: r') /\ NoDup (map (fun po => get_path (snd po)) r) /\
  (forall o', In o' (map snd r) <-> exists ts, visible leaves root ts o').
Proof. intros E W C. eapply built_once; eauto; [destruct E as [->| ->]; constructor|eapply even_built; eauto]. Qed.
Lemma built_paths T c j root leaves fuel r : repo_table T -> wf_json j -> construct T j (BCls c) (Some "#") [] = Ok root -> unmixed root ->
  default_tree_traversal T fuel root leaves = Ok r ->
  NoDup (map fst r) /\
  forall p o', In (p, o') r -> exists ts, visible leaves root ts o' /\ (shallow root ts -> p = jp_join ts (Some "#") /\ get_path o' = Some p).
Proof.
  intros Rt W C U H. destruct (traversal_built T c j root leaves fuel r Rt W C U H) as (_ & N & _ & _ & P). split; [exact N|].
  intros p o' Hin. destruct (P p o' Hin) as (ts & V & X). exists ts. split; [exact V|]. intros Sh. apply X. intros us k q x y E Wx Cx Wy Cy _. eapply Sh; eauto.
Qed.
Lemma v20_paths c j root leaves fuel r : wf_json j -> construct v20_table j (BCls c) (Some "#") [] = Ok root ->
  default_tree_traversal v20_table fuel root leaves = Ok r ->
  NoDup (map fst r) /\
  forall p o', In (p, o') r -> get_path o' = Some p /\ exists ts, visible leaves root ts o' /\ p = jp_join ts (Some "#").
Proof.
  intros W C H. assert (U : unmixed root) by (eapply even_built; eauto).
  destruct (traversal_built v20_table c j root leaves fuel r rt_v20 W C U H) as (_ & N & _ & _ & P). split; [exact N|].
  intros p o' Hin. destruct (P p o' Hin) as (ts & V & X). assert (Hx : is_object o') by apply V.
  destruct X as [E G]; [|split; [exact G|exists ts; split; [exact V|exact E]]].
  intros us k q x y E Wx Cx Wy Cy Wq.
  exact (flat_nested v20_table j (BCls c) (Some "#") root (repo_wd _ rt_v20) flat_v20 eq_refl C us k q x y o' Wx Cx Wy Cy Wq Hx).
Qed.

(** a check for [unmixed] *)
Definition isob (o : obj) : bool := match o with OObj _ _ _ _ => true | _ => false end.
Definition iscb (o : obj) : bool := match o with OList _ _ _ | OMap _ _ _ => true | _ => false end.
Fixpoint unmixedb (o : obj) : bool :=
  match o with
  | OPrim _ => true
  | OObj _ _ _ kids => forallb (fun kv => unmixedb (snd kv)) kids
  | OList _ _ es => negb (existsb isob es && existsb iscb es) && forallb unmixedb es
  | OMap _ _ es => negb (existsb (fun kv => isob (snd kv)) es && existsb (fun kv => iscb (snd kv)) es) && forallb (fun kv => unmixedb (snd kv)) es
  end.
Lemma unmixedb_down o k x : unmixedb o = true -> within o [k] x -> unmixedb x = true.
Proof.
  intros H W. destruct o as [j|c p s ks|b p es|b p es].
  - exfalso. exact (within1_prim _ _ _ W).
  - apply within1_obj in W. apply PyValFacts.lookup_In in W. cbn in H. rewrite forallb_forall in H. exact (H _ W).
  - apply within1_list in W as (i & _ & W). apply nth_error_In in W. cbn in H. apply andb_true_iff in H as [_ H]. rewrite forallb_forall in H. exact (H _ W).
  - apply within1_map in W. apply PyValFacts.lookup_In in W. cbn in H. apply andb_true_iff in H as [_ H]. rewrite forallb_forall in H. exact (H _ W).
Qed.
Lemma isob_ok o : is_object o -> isob o = true. Proof. intros (? & ? & ? & ? & ->). reflexivity. Qed.
Lemma iscb_ok o : is_container o -> iscb o = true. Proof. intros [(? & ? & ? & ->)|(? & ? & ? & ->)]; reflexivity. Qed.
Lemma unmixedb_ok o : unmixedb o = true -> unmixed o.
Proof.
  intros H ts. revert o H. induction ts as [|t ts IH]; intros o H x k k' y z Wx Cx Wy Wz Oy Cz.
  - inversion Wx; subst. destruct Cx as [(b & p & es & ->)|(b & p & es & ->)]; cbn in H; apply andb_true_iff in H as [H _]; apply negb_true_iff, andb_false_iff in H.
    + apply within1_list in Wy as (i & _ & Wy). apply within1_list in Wz as (i' & _ & Wz). apply nth_error_In in Wy, Wz.
      destruct H as [H|H]; apply not_true_iff_false in H; apply H; apply existsb_exists; [exists y|exists z]; auto using isob_ok, iscb_ok.
    + apply within1_map, PyValFacts.lookup_In in Wy. apply within1_map, PyValFacts.lookup_In in Wz.
      destruct H as [H|H]; apply not_true_iff_false in H; apply H; apply existsb_exists; [exists (k, y)|exists (k', z)]; auto using isob_ok, iscb_ok.
  - apply within_cons_inv in Wx as (e & W1 & W2). exact (IH e (unmixedb_down o t e H W1) x k k' y z W2 Cx Wy Wz Oy Cz).
Qed.
