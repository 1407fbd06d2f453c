(** * C80: classes are what the history of their declarations says. *)
From Coq Require Import String List Bool.
From Verif Require Import PyStr PyVal PyValFacts Obj ObjCompare Declare Declarations SpecDeclare DeclareFacts Classes_v1_2 Classes_v2_0 Classes_v3_0_0.
Import ListNotations.
Open Scope string_scope.

(** After any history [h] of class declarations and attached fields that does not raise, the tables
    [__fields__], [__children__] and [__internal__] of a class are what [listed] says: what was attached
    to the class or declared by it, else what its base had when the class was declared. *)
Theorem C80_listed (h : list stmt) (env : classes) (c n : string) (k : cls) (t : kind) :
  Forall dict_names h -> module h = Ok env -> lookup c env = Some k -> lookup n (table_of t k) = listed (rev h) t c n.
Proof. intros F M L. exact (g_tables _ _ (good_module h env F M) c k t n L). Qed.
(** C80: the names of the fields ([get_field_names]) of a class are those of its fields and of its children, every name once *)
Theorem C80_names (h : list stmt) (env : classes) (c : string) (k : cls) : Forall dict_names h -> module h = Ok env -> lookup c env = Some k ->
  NoDup (field_names k) /\ forall n, In n (field_names k) <-> (exists d, listed (rev h) Fields c n = Some d) \/ (exists d, listed (rev h) Children c n = Some d).
Proof.
  intros D M L. split; [apply NoDup_nodup|]. intros n. rewrite <- !(C80_listed h env c n k _ D M L). cbn [table_of].
  assert (Q : forall t : list (string * desc), In n (keys t) <-> exists d, lookup n t = Some d).
  { intros t. destruct (lookup n t) as [d|] eqn:E; [split; [eauto|intros _; apply in_map_iff; exists (n, d); split; [reflexivity|exact (PyValFacts.lookup_In _ _ _ E)]]|]. apply PyValFacts.lookup_none in E. split; [contradiction|intros (d & Z); discriminate]. }
  unfold field_names. rewrite nodup_In, in_app_iff, !Q. reflexivity.
Qed.
(** And reading an attribute finds exactly what [sees] says: the property of the nearest class. *)
Theorem C80_attribute (h : list stmt) (env : classes) (c n : string) (p : prop) :
  Forall dict_names h -> module h = Ok env -> class_attr env c n = Some p <-> sees (rev h) c n p.
Proof. intros F M. exact (attr_sees _ _ (good_module h env F M) n p env [] c eq_refl (fun x => x)). Qed.

(** ** The tables of the model *)
(** [says h T]: for every class of [T] and every name, reading the attribute finds the property that
    the class definition describes and nothing else; the children and fields it lists are those of
    [__children__] and [__fields__]. *)
Definition says (h : list stmt) (T : ctable) : Prop :=
  forall c cd, lookup c T = Some cd ->
    (forall n p, sees h c n p <-> described cd n p) /\
    (forall ch, In ch (c_children cd) <-> exists d, listed h Children c (ch_name ch) = Some d /\ meant Children (ch_name ch) d (PChild (ch_name ch) (Some (ch_builder ch)) (ch_required ch) JNull)) /\
    (forall f, In f (c_fields cd) <-> exists d, listed h Fields c (f_name f) = Some d /\ meant Fields (f_name f) d (PField (f_name f) (f_required f) (f_default f) (f_restricted f) (f_readonly f))).

(** a boolean check, which implies it *)
Definition same_default (a b : json) : bool :=
  match a, b with JNull, JNull => true | JStr x, JStr y => String.eqb x y | JBool x, JBool y => Bool.eqb x y | JList [], JList [] => true | _, _ => false end.
Lemma same_default_ok a b : same_default a b = true -> a = b.
Proof.
  destruct a as [|x| | |x|[|? ?]|], b as [|y| | |y|[|? ?]|]; try discriminate; intros H; cbn [same_default] in H; try reflexivity; [apply Bool.eqb_prop in H; now rewrite H|apply String.eqb_eq in H; now rewrite H].
Qed.
Definition kid_is (n : string) (b : builder) (r : bool) (ch : childdef) : bool := String.eqb (ch_name ch) n && builder_eqb (ch_builder ch) b && Bool.eqb (ch_required ch) r.
Lemma kid_is_ok n b r ch : kid_is n b r ch = true -> ch = mk_child n b r.
Proof.
  destruct ch as [n' b' r']. unfold kid_is. cbn. intros H. apply andb_prop in H as [H H3]. apply andb_prop in H as [H1 H2]. apply String.eqb_eq in H1. apply ObjCompareFacts.builder_eqb_eq in H2. apply Bool.eqb_prop in H3. now subst.
Qed.
Definition field_is (n : string) (r : bool) (d : json) (rs ro : bool) (f : fielddef) : bool :=
  String.eqb (f_name f) n && Bool.eqb (f_required f) r && same_default (f_default f) d && Bool.eqb (f_restricted f) rs && Bool.eqb (f_readonly f) ro.
Lemma field_is_ok n r d rs ro f : field_is n r d rs ro f = true -> f = mk_field n r d rs ro.
Proof.
  destruct f as [n' r' d' rs' ro']. unfold field_is. cbn. intros H. repeat (apply andb_prop in H as [H ?]). apply String.eqb_eq in H.
  repeat match goal with K : Bool.eqb _ _ = true |- _ => apply Bool.eqb_prop in K | K : same_default _ _ = true |- _ => apply same_default_ok in K end. now subst.
Qed.
Definition describedb (cd : classdef) (n : string) (p : prop) : bool :=
  match p with
  | PChild key (Some b) r d => String.eqb key n && same_default d JNull && existsb (kid_is n b r) (c_children cd ++ c_lazy cd)
  | PChild _ None _ _ => false
  | PInternal key d => String.eqb key n && existsb (fun e => String.eqb (fst e) n && same_default (snd e) d) (c_internal cd)
  | PRename key => existsb (fun e => String.eqb (fst e) n && String.eqb (snd e) key) (c_renames cd)
  | PField key r d rs ro => String.eqb key n && existsb (field_is n r d rs ro) (c_fields cd)
  end.
Lemma describedb_ok cd n p : describedb cd n p = true -> described cd n p.
Proof.
  destruct p as [key r d rs ro|key [b|] r d|key d|key]; cbn [describedb described]; intros H; try discriminate H.
  - apply andb_prop in H as [H1 H2]. apply String.eqb_eq in H1. split; [exact H1|]. apply existsb_exists in H2 as (f & I & H2). apply field_is_ok in H2 as ->. exact I.
  - apply andb_prop in H as [H H3]. apply andb_prop in H as [H1 H2]. apply String.eqb_eq in H1. split; [exact H1|]. split; [now apply same_default_ok|]. exists b. split; [reflexivity|].
    apply existsb_exists in H3 as (ch & I & H3). apply kid_is_ok in H3 as ->. exact I.
  - apply andb_prop in H as [H1 H2]. apply String.eqb_eq in H1. split; [exact H1|]. apply existsb_exists in H2 as ((m & e) & I & H2). cbn [fst snd] in H2. apply andb_prop in H2 as [A B]. apply String.eqb_eq in A as ->. apply same_default_ok in B as ->. exact I.
  - apply existsb_exists in H as ((m & e) & I & H2). cbn [fst snd] in H2. apply andb_prop in H2 as [A B]. apply String.eqb_eq in A as ->. apply String.eqb_eq in B as ->. exact I.
Qed.
(** everything a class definition describes *)
Definition described_props (cd : classdef) : list (string * prop) :=
  (map (fun ch => (ch_name ch, PChild (ch_name ch) (Some (ch_builder ch)) (ch_required ch) JNull)) (c_children cd ++ c_lazy cd) ++
   map (fun e => (fst e, PInternal (fst e) (snd e))) (c_internal cd) ++ map (fun e => (fst e, PRename (snd e))) (c_renames cd) ++
   map (fun f => (f_name f, PField (f_name f) (f_required f) (f_default f) (f_restricted f) (f_readonly f))) (c_fields cd))%list.
Lemma described_all cd n p : described cd n p -> In (n, p) (described_props cd).
Proof.
  unfold described_props. destruct p as [key r d rs ro|key b r d|key d|key]; cbn [described]; rewrite !in_app_iff.
  - intros (-> & I). right. right. right. apply in_map_iff. exists (mk_field n r d rs ro). auto.
  - intros (-> & -> & b' & -> & I). left. apply in_map_iff. exists (mk_child n b' r). auto.
  - intros (-> & I). right. left. apply in_map_iff. exists (n, d). auto.
  - intros I. right. right. left. apply in_map_iff. exists (n, key). auto.
Qed.
Definition prop_eqb (p q : prop) : bool :=
  match p, q with
  | PField k r d a b, PField k' r' d' a' b' => String.eqb k k' && Bool.eqb r r' && same_default d d' && Bool.eqb a a' && Bool.eqb b b'
  | PChild k (Some b) r d, PChild k' (Some b') r' d' => String.eqb k k' && builder_eqb b b' && Bool.eqb r r' && same_default d d'
  | PInternal k d, PInternal k' d' => String.eqb k k' && same_default d d'
  | PRename k, PRename k' => String.eqb k k'
  | _, _ => false
  end.
Lemma prop_eqb_ok p q : prop_eqb p q = true -> p = q.
Proof.
  destruct p as [k r d a b|k [b|] r d|k d|k], q as [k' r' d' a' b'|k' [b'|] r' d'|k' d'|k']; try discriminate; cbn [prop_eqb]; intros H; repeat (apply andb_prop in H as [H ?]); apply String.eqb_eq in H; subst;
    repeat match goal with K : Bool.eqb _ _ = true |- _ => apply Bool.eqb_prop in K; subst | K : same_default _ _ = true |- _ => apply same_default_ok in K; subst | K : builder_eqb _ _ = true |- _ => apply ObjCompareFacts.builder_eqb_eq in K; subst end; reflexivity.
Qed.
Definition makes (t : kind) (n : string) (d : desc) : res prop :=
  make (match d_factory d with Some f => f | None => match t with Fields => FField | Children => FChild | Internals => FInternal end end) (key_or (d_key d) n) (d_args d).
Definition lists (t : kind) (k : cls) (n : string) (p : prop) : bool :=
  match lookup n (table_of t k) with Some d => match makes t n d with Ok q => prop_eqb q p | Err _ => false end | None => false end.
Definition check (env : classes) (T : ctable) : bool :=
  let names := flat_map (fun e => keys (k_attrs (snd e))) env in
  forallb (fun e => match lookup (fst e) env with
    | None => false
    | Some k => let cd := snd e in
        forallb (fun np => match class_attr env (fst e) (fst np) with Some p => prop_eqb p (snd np) | None => false end) (described_props cd) &&
        forallb (fun n => match class_attr env (fst e) n with Some p => describedb cd n p | None => true end) names &&
        forallb (fun ch => lists Children k (ch_name ch) (PChild (ch_name ch) (Some (ch_builder ch)) (ch_required ch) JNull)) (c_children cd) &&
        forallb (fun nd => match makes Children (fst nd) (snd nd) with Ok (PChild _ (Some b) r _) => existsb (kid_is (fst nd) b r) (c_children cd) | _ => false end) (k_children k) &&
        forallb (fun f => lists Fields k (f_name f) (PField (f_name f) (f_required f) (f_default f) (f_restricted f) (f_readonly f))) (c_fields cd) &&
        forallb (fun nd => match makes Fields (fst nd) (snd nd) with Ok (PField _ r d rs ro) => existsb (field_is (fst nd) r d rs ro) (c_fields cd) | _ => false end) (k_fields k)
    end) T.
Lemma class_attr_named n p : forall env c, class_attr env c n = Some p -> In n (flat_map (fun e => keys (k_attrs (snd e))) env).
Proof.
  induction env as [|[c1 k1] env IH]; intros c H; [discriminate H|]. cbn [class_attr flat_map snd] in *. apply in_or_app. destruct (String.eqb c1 c); [|right; now apply (IH c)].
  destruct (lookup n (k_attrs k1)) as [q|] eqn:L; [left; apply lookup_In in L; apply (in_map fst) in L; exact L|]. destruct (k_base k1) as [b|]; [right; now apply (IH b)|discriminate H].
Qed.
Lemma dict_lookup {A} (d : list (string * A)) n x : NoDup (keys d) -> In (n, x) d -> lookup n d = Some x.
Proof.
  induction d as [|[m y] d IH]; intros N I; [contradiction|]. inversion N as [|? ? NI N']; subst. cbn [lookup]. destruct I as [[= -> ->]|I]; [now rewrite String.eqb_refl|]. destruct (String.eqb_spec n m) as [->|]; [|auto].
  exfalso. apply NI. apply (in_map fst) in I. exact I.
Qed.
Lemma check_ok h env T : Forall dict_names h -> module h = Ok env -> check env T = true -> says (rev h) T.
Proof.
  intros F M H c cd L. assert (G := good_module h env F M). unfold check in H. rewrite forallb_forall in H. apply lookup_In in L. specialize (H _ L). cbn [fst snd] in H.
  destruct (lookup c env) as [k|] eqn:LK; [|discriminate H]. apply andb_prop in H as [H H6]. apply andb_prop in H as [H H5]. apply andb_prop in H as [H H4]. apply andb_prop in H as [H H3]. apply andb_prop in H as [H1 H2].
  rewrite forallb_forall in H1, H2, H3, H4, H5, H6. split; [|split].
  - intros n p. rewrite <- (C80_attribute h env c n p F M). split.
    + intros A. specialize (H2 _ (class_attr_named _ _ _ _ A)). rewrite A in H2. now apply describedb_ok.
    + intros D. specialize (H1 _ (described_all _ _ _ D)). cbn [fst snd] in H1. destruct (class_attr env c n) as [q|]; [|discriminate H1]. apply prop_eqb_ok in H1 as ->. reflexivity.
  - intros ch. rewrite <- (g_tables _ _ G c k Children (ch_name ch) LK). cbn [table_of]. split.
    + intros I. specialize (H3 _ I). unfold lists in H3. cbn [table_of] in H3. destruct (lookup (ch_name ch) (k_children k)) as [d|]; [|discriminate H3]. exists d. split; [reflexivity|]. unfold meant, makes in *.
      destruct (make _ _ _) as [q|]; [|discriminate H3]. apply prop_eqb_ok in H3 as ->. reflexivity.
    + intros (d & LD & ME). apply lookup_In in LD. specialize (H4 _ LD). cbn [fst snd] in H4. unfold meant, makes in *. rewrite ME in H4. apply existsb_exists in H4 as (ch' & I & H4). apply kid_is_ok in H4. destruct ch. cbn in H4. now subst.
  - intros f. rewrite <- (g_tables _ _ G c k Fields (f_name f) LK). cbn [table_of]. split.
    + intros I. specialize (H5 _ I). unfold lists in H5. cbn [table_of] in H5. destruct (lookup (f_name f) (k_fields k)) as [d|]; [|discriminate H5]. exists d. split; [reflexivity|]. unfold meant, makes in *.
      destruct (make _ _ _) as [q|]; [|discriminate H5]. apply prop_eqb_ok in H5 as ->. reflexivity.
    + intros (d & LD & ME). apply lookup_In in LD. specialize (H6 _ LD). cbn [fst snd] in H6. unfold meant, makes in *. rewrite ME in H6. apply existsb_exists in H6 as (f' & I & H6). apply field_is_ok in H6. destruct f. cbn in H6. now subst.
Qed.
Fixpoint nodupb (l : list string) : bool := match l with [] => true | x :: l' => negb (existsb (String.eqb x) l') && nodupb l' end.
Lemma nodupb_ok l : nodupb l = true -> NoDup l.
Proof.
  induction l as [|x l IH]; [constructor|]. cbn [nodupb]. intros H. apply andb_prop in H as [H1 H2]. constructor; [|auto]. intros I. apply negb_true_iff in H1.
  assert (E : existsb (String.eqb x) l = true) by (apply existsb_exists; exists x; split; [exact I|apply String.eqb_refl]). congruence.
Qed.
Definition dict_namesb (s : stmt) : bool := match s with Declare _ _ f c i => nodupb (keys f) && nodupb (keys c) && nodupb (keys i) | Attach _ _ _ => true end.
Lemma dict_namesb_ok h : forallb dict_namesb h = true -> Forall dict_names h.
Proof.
  intros H. rewrite forallb_forall in H. apply Forall_forall. intros s I. specialize (H _ I). destruct s as [c b f ch i|c n d]; [|exact Logic.I]. cbn [dict_namesb dict_names] in *.
  apply andb_prop in H as [H H3]. apply andb_prop in H as [H1 H2]. auto using nodupb_ok.
Qed.
Definition run_of (h : list stmt) : classes := match module h with Ok env => env | Err _ => [] end.

(** The three modules run without an error, and the tables all other theorems are about are what they
    declare.  Every class that has no table is only a base of others. *)
Theorem C80_tables :
  (says (rev v12_module) v12_table /\ says (rev v20_module) v20_table /\ says (rev v30_module) v30_table) /\
  (forall h T base, In (h, T, base) [(v12_module, v12_table, ["BaseObj_v1_2"]); (v20_module, v20_table, ["BaseObj_v2_0"; "BaseSchema"]); (v30_module, v30_table, ["Base2_v3_0_0"])] ->
     exists env, module h = Ok env /\ forall c, In c (keys env) -> In c (keys T) \/ In c base).
Proof.
  split.
  - split; [|split].
    + apply (check_ok _ (run_of v12_module)); [apply dict_namesb_ok; vm_compute; reflexivity|vm_compute; reflexivity|vm_compute; reflexivity].
    + apply (check_ok _ (run_of v20_module)); [apply dict_namesb_ok; vm_compute; reflexivity|vm_compute; reflexivity|vm_compute; reflexivity].
    + apply (check_ok _ (run_of v30_module)); [apply dict_namesb_ok; vm_compute; reflexivity|vm_compute; reflexivity|vm_compute; reflexivity].
  - assert (Z : forall h (T : ctable) base, forallb (fun c => existsb (String.eqb c) (keys T) || existsb (String.eqb c) base) (keys (run_of h)) = true -> forall c, In c (keys (run_of h)) -> In c (keys T) \/ In c base).
    { intros h T base H c I. rewrite forallb_forall in H. specialize (H _ I). apply orb_prop in H as [H|H]; apply existsb_exists in H as (x & J & H); apply String.eqb_eq in H as ->; auto. }
    intros h T base [[= <- <- <-]|[[= <- <- <-]|[[= <- <- <-]|[]]]]; [exists (run_of v12_module)|exists (run_of v20_module)|exists (run_of v30_module)]; (split; [vm_compute; reflexivity|apply Z; vm_compute; reflexivity]).
Qed.

(** ** What does not hold *)
(** A subclass does not list what is attached to its base later, though the attribute is there: the
    content of a 3.0.0 Header can be read but is not among its children. *)
Theorem C80_header_refuted :
  listed (rev v30_module) Children "Parameter" "content" <> None /\ listed (rev v30_module) Children "Header" "content" = None /\
  sees (rev v30_module) "Header" "content" (PChild "content" (Some (BMapOf (BCls "MediaType"))) false JNull).
Proof.
  split; [vm_compute; discriminate|]. split; [vm_compute; reflexivity|].
  apply (C80_attribute v30_module (run_of v30_module)); [apply dict_namesb_ok; vm_compute; reflexivity|vm_compute; reflexivity|vm_compute; reflexivity].
Qed.
(** The nearest declaration does not always win: a field declared by a class is hidden by a child of
    the same name its base declares. *)
Theorem C80_redeclared_refuted :
  exists h env p, Forall dict_names h /\ module h = Ok env /\ listed (rev h) Fields "D" "x" = Some plain_ /\ sees (rev h) "D" "x" p /\ forall key r d a b, p <> PField key r d a b.
Proof.
  exists [Declare "B" None [] [("x", kid BStr)] []; Declare "D" (Some "B") [("x", plain_)] [] []]. eexists. exists (PChild "x" (Some BStr) false JNull).
  split; [apply dict_namesb_ok; reflexivity|]. split; [reflexivity|]. split; [reflexivity|]. split; [|discriminate].
  eapply C80_attribute; [apply dict_namesb_ok; reflexivity|reflexivity|reflexivity].
Qed.
Print Assumptions C80_listed.
Print Assumptions C80_attribute.
Print Assumptions C80_tables.
Print Assumptions C80_names.
