(** * The classes agree with the specifications. *)
From Coq Require Import String Ascii List Bool Arith.
From Verif Require Import PyStr PyVal PyValFacts Jp Obj ObjFacts ObjCompare ObjCompareFacts ShapeFacts SpecFields Classes_v1_2 Classes_v2_0 Classes_v3_0_0 SpecTables.
Import ListNotations.
Open Scope string_scope.

Definition json_eq_simple (a b : json) : bool :=
  match a, b with
  | JNull, JNull => true
  | JStr x, JStr y => String.eqb x y
  | JList [], JList [] => true
  | _, _ => false
  end.
Lemma json_eq_simple_ok a b : json_eq_simple a b = true -> a = b.
Proof. destruct a as [| | | |s|[|]|]; destruct b as [| | | |s'|[|]|]; cbn; try discriminate; try reflexivity. intros E. apply String.eqb_eq in E. now subst. Qed.

Fixpoint builder_of (t : ftype) : option builder :=
  match t with
  | Any => None
  | Text => Some BStr
  | Object_ n => Some (BCls n)
  | ListOf t => option_map BListOf (builder_of t)
  | MapOf t => option_map BMapOf (builder_of t)
  | OrRef t => option_map (BRefElse "Reference") (builder_of t)
  | OrBool t => option_map BBoolElse (builder_of t)
  end.
Definition builds (t : ftype) (b : builder) : bool := match builder_of t with Some b' => builder_eqb b' b | None => false end.
Definition excepted (U : exceptions) (n k : string) : bool := existsb (fun p => String.eqb n (fst p) && String.eqb k (snd p)) U.
Definition lax (r : need) (required : bool) : bool := match r with Required => true | Optional v => negb required && json_eq_simple v JNull end.

Definition agree_field (U : exceptions) (n : string) (cd : classdef) (e : string * (ftype * need)) : bool :=
  let '(k, (t, r)) := e in
  excepted U n k ||
  match find_child k (c_children cd), find_child k (c_lazy cd) with
  | Some ch, _ => builds t (ch_builder ch) && lax r (ch_required ch)
  | None, Some ch => builds t (ch_builder ch) && lax r (ch_required ch)
  | None, None =>
      match lookup k (c_renames cd), lookup k (c_internal cd), find_field k cd, t with
      | None, None, Some f, Any =>
          negb (f_restricted f) && match r with Required => true | Optional v => negb (f_required f) && json_eq_simple v (f_default f) end
      | _, _, _, _ => false
      end
  end.
Definition agree_child (U : exceptions) (n : string) (fs : fields) (ch : childdef) : bool :=
  excepted U n (ch_name ch) && negb (ch_required ch) ||
  existsb (fun e => String.eqb (fst e) (ch_name ch) && builds (fst (snd e)) (ch_builder ch)
                    && match snd (snd e) with Required => true | Optional _ => negb (ch_required ch) end) fs.
Fixpoint nodupb (l : list string) : bool := match l with [] => true | x :: r => negb (existsb (String.eqb x) r) && nodupb r end.
Definition agree_class (U : exceptions) (T : ctable) (e : string * fields) : bool :=
  match lookup (fst e) T with
  | Some cd => forallb (agree_field U (fst e) cd) (snd e) && forallb (agree_child U (fst e) (snd e)) (c_children cd)
               && nodupb (map ch_name (c_children cd))
  | None => false
  end.
(** the class of references has no children, and [ref] reads the text of the reference *)
Definition agree_ref (T : ctable) : bool :=
  match lookup "Reference" T with
  | Some cd => match c_children cd, c_lazy cd, lookup "ref" (c_renames cd), find_field "$ref" cd with
               | [], [], Some k, Some f => String.eqb k "$ref" && negb (f_restricted f)
               | _, _, _, _ => false
               end
  | None => false
  end.
Fixpoint has_ref (t : ftype) : bool := match t with ListOf t | MapOf t | OrBool t => has_ref t | OrRef _ => true | _ => false end.
Definition agree (S : standard) (U : exceptions) (T : ctable) : bool :=
  forallb (agree_class U T) S && (agree_ref T || forallb (fun e => forallb (fun f => negb (has_ref (fst (snd f)))) (snd e)) S) && nodupb (map fst S).

Lemma version_agrees S U T : version_of S U T -> agree S U T = true.
Proof. intros []; vm_compute; reflexivity. Qed.

Lemma existsb_eqb k l : existsb (String.eqb k) l = true <-> In k l.
Proof.
  rewrite existsb_exists. split.
  - intros (x & H & E). apply String.eqb_eq in E. now subst.
  - intros H. exists k. split; [exact H|apply String.eqb_refl].
Qed.
Lemma nodupb_ok l : nodupb l = true -> NoDup l.
Proof.
  induction l as [|x l IH]; intros H; [constructor|]. cbn [nodupb] in H. apply andb_true_iff in H as [A B]. constructor; [|now apply IH].
  intros C. apply existsb_eqb in C. rewrite C in A. discriminate A.
Qed.
Lemma excepted_ok U n k : excepted U n k = true <-> In (n, k) U.
Proof.
  unfold excepted. rewrite existsb_exists. split.
  - intros ((a, b) & H & E). cbn [fst snd] in E. apply andb_true_iff in E as [A B]. apply String.eqb_eq in A, B. now subst.
  - intros H. exists (n, k). split; [exact H|]. cbn [fst snd]. now rewrite !String.eqb_refl.
Qed.
Lemma builds_ok t b : builds t b = true -> builder_of t = Some b.
Proof. unfold builds. destruct (builder_of t) as [b'|]; [|discriminate]. intros E. apply ObjCompareFacts.builder_eqb_eq in E. now subst. Qed.
Lemma find_child_ok name cs ch : find_child name cs = Some ch -> In ch cs /\ ch_name ch = name.
Proof. unfold find_child. intros H. apply find_some in H as [A B]. apply String.eqb_eq in B. now split. Qed.
Lemma lookup_In_fst {A} k (l : list (string * A)) v : lookup k l = Some v -> In (k, v) l.
Proof.
  induction l as [|(k', x) l IH]; cbn [lookup]; [discriminate|]. destruct (String.eqb k k') eqn:E.
  - intros [= <-]. apply String.eqb_eq in E. subst. now left.
  - intros H. right. now apply IH.
Qed.

Section Agree.
  Variables (S : standard) (U : exceptions) (T : ctable).
  Hypothesis AG : agree S U T = true.

  Let refs_ok (t : ftype) : Prop := agree_ref T = true \/ has_ref t = false.

  Lemma agree_in n fs : In (n, fs) S -> exists cd, lookup n T = Some cd /\
    (forall e, In e fs -> agree_field U n cd e = true) /\ (forall ch, In ch (c_children cd) -> agree_child U n fs ch = true) /\
    NoDup (map ch_name (c_children cd)).
  Proof.
    intros H. unfold agree in AG. apply andb_true_iff in AG as [A _]. apply andb_true_iff in A as [A _].
    rewrite forallb_forall in A. specialize (A _ H). unfold agree_class in A. cbn [fst snd] in A.
    destruct (lookup n T) as [cd|]; [|discriminate A]. apply andb_true_iff in A as [A C]. apply andb_true_iff in A as [A B].
    rewrite forallb_forall in A, B. exists cd. split; [reflexivity|]. split; [exact A|]. split; [exact B|]. now apply nodupb_ok.
  Qed.
  Lemma agree_refs n fs k t r : In (n, fs) S -> In (k, (t, r)) fs -> refs_ok t.
  Proof.
    intros H H1. unfold agree in AG. apply andb_true_iff in AG as [A _]. apply andb_true_iff in A as [_ A].
    apply orb_true_iff in A as [A|A]; [now left|]. right. rewrite forallb_forall in A. specialize (A _ H). rewrite forallb_forall in A.
    specialize (A _ H1). cbn [fst snd] in A. now apply negb_true_iff in A.
  Qed.
  Lemma agree_names n fs fs' : In (n, fs) S -> In (n, fs') S -> fs = fs'.
  Proof.
    intros H H'. unfold agree in AG. apply andb_true_iff in AG as [_ A]. apply nodupb_ok in A. clear -H H' A.
    induction S as [|(m, gs) l IH]; [destruct H|]. inversion A as [|? ? A1 A2]; subst. destruct H as [[= -> ->]|H], H' as [[= E]|H'].
    - exact E.
    - destruct A1. apply (in_map fst) in H'. exact H'.
    - subst. destruct A1. apply (in_map fst) in H. exact H.
    - now apply IH.
  Qed.

  Definition good (j : json) : Prop := forall t b p, builder_of t = Some b -> refs_ok t -> follows S U t j ->
    exists o, construct T j b p [] = Ok o /\ reads S U T t j o.

  Lemma not_mem {A} k (d : list (string * A)) : mem k d = false -> lookup k d = None.
  Proof. unfold mem. now destruct (lookup k d). Qed.

  Lemma good_kid n fs cd d p ch : (forall k v, lookup k d = Some v -> good v) -> In (n, fs) S -> agree_child U n fs ch = true ->
    (forall k t, In (k, (t, Required)) fs -> mem k d = true) ->
    (forall k t r v, In (k, (t, r)) fs -> lookup k d = Some v -> v <> JNull -> follows S U t v) ->
    (forall k, In (n, k) U -> mem k d = false) ->
    In ch (c_children cd) -> exists k, con_child T p [] (JDict d) ch = Ok k.
  Proof.
    intros IH HI AC HR HF HU Hch. unfold con_child. rewrite ovr_get_nil, ovr_here_nil. unfold agree_child in AC. apply orb_true_iff in AC as [Z|Z].
    - apply andb_true_iff in Z as [Z1 Z2]. apply excepted_ok in Z1. specialize (HU _ Z1). apply not_mem in HU.
      rewrite HU. apply negb_true_iff in Z2. rewrite Z2. now exists None.
    - apply existsb_exists in Z as ((k, (t, r)) & Hk & E). cbn [fst snd] in E. apply andb_true_iff in E as [E E3]. apply andb_true_iff in E as [E1 E2].
      apply String.eqb_eq in E1. subst k. apply builds_ok in E2. destruct (lookup (ch_name ch) d) as [v|] eqn:L.
      + assert (V : v = JNull \/ v <> JNull) by (destruct v; (now left) || (right; discriminate)). destruct V as [-> |V]; [now exists None|].
        destruct (IH _ _ L t (ch_builder ch) (sub_path p (ch_name ch)) E2 (agree_refs _ _ _ _ _ HI Hk) (HF _ _ _ _ Hk L V)) as (o & Co & _).
        exists (Some o). destruct v; try (now destruct V); now rewrite Co.
      + destruct (ch_required ch); [|now exists None]. destruct r; [|discriminate E3]. specialize (HR _ _ Hk). unfold mem in HR. now rewrite L in HR.
  Qed.

  Lemma good_object n d p : (forall k v, lookup k d = Some v -> good v) -> follows S U (Object_ n) (JDict d) ->
    exists o, construct T (JDict d) (BCls n) p [] = Ok o /\ reads S U T (Object_ n) (JDict d) o.
  Proof.
    intros IH F. inversion F as [| | | |n0 fs d0 HI HR HF HU| | | |]; subst. destruct (agree_in n fs HI) as (cd & Ec & AF & AC & ND).
    destruct (con_kids_total T p [] (JDict d) (c_children cd)) as (kids & Ek).
    { intros ch Hch. exact (good_kid n fs cd d p ch IH HI (AC ch Hch) HR HF HU Hch). }
    exists (OObj n p (JDict d) kids). split.
    { rewrite construct_eq. cbn [select bind con_core]. rewrite split_nil. cbn [bind]. rewrite Ec, Ek. reflexivity. }
    assert (FIELD : forall k t r, In (k, (t, r)) fs -> ~ In (n, k) U ->
      match lookup k d with
      | Some JNull => getattr T (OObj n p (JDict d) kids) k = Ok (OPrim JNull)
      | Some v => exists x, getattr T (OObj n p (JDict d) kids) k = Ok x /\ reads S U T t v x
      | None => forall v, r = Optional v -> getattr T (OObj n p (JDict d) kids) k = Ok (OPrim v)
      end).
    { intros k t r Hk NU. cbn [getattr]. rewrite Ec. pose proof (AF _ Hk) as A. unfold agree_field in A. apply orb_true_iff in A as [A|A].
      { apply excepted_ok in A. now destruct NU. }
      unfold getattr_. destruct (find_child k (c_children cd)) as [ch|] eqn:F1.
      - apply andb_true_iff in A as [A1 A2]. apply builds_ok in A1. unfold getattr_plain. rewrite F1. destruct (find_child_ok _ _ _ F1) as [Hin <-].
        pose proof (con_kids_lookup T p [] (JDict d) (c_children cd) kids ch Ek ND Hin) as CK. unfold con_child in CK. rewrite ovr_get_nil, ovr_here_nil in CK.
        destruct (lookup (ch_name ch) d) as [v|] eqn:L.
        + assert (V : v = JNull \/ v <> JNull) by (destruct v; (now left) || (right; discriminate)). destruct V as [-> |V].
          * apply (f_equal (fun r => match r with Ok x => x | Err _ => None end)) in CK. now rewrite <- CK.
          * destruct (IH _ _ L t (ch_builder ch) (sub_path p (ch_name ch)) A1 (agree_refs _ _ _ _ _ HI Hk) (HF _ _ _ _ Hk L V)) as (o & Co & Ro).
            assert (CK' : Ok (Some o) = Ok (lookup (ch_name ch) kids)). { rewrite <- CK. destruct v; try (now destruct V); now rewrite Co. }
            apply (f_equal (fun r => match r with Ok x => x | Err _ => None end)) in CK'. rewrite <- CK'.
            destruct v; try (now destruct V); (exists o; split; [reflexivity|exact Ro]).
        + intros v ->. cbn [lax] in A2. apply andb_true_iff in A2 as [A2 A3]. apply json_eq_simple_ok in A3. subst v. apply negb_true_iff in A2. rewrite A2 in CK.
          apply (f_equal (fun r => match r with Ok x => x | Err _ => None end)) in CK. now rewrite <- CK.
      - destruct (find_child k (c_lazy cd)) as [ch|] eqn:F2.
        + apply andb_true_iff in A as [A1 A2]. apply builds_ok in A1. unfold getattr_plain. rewrite F1, F2. cbn [py_in bind py_getitem]. unfold mem.
          destruct (lookup k d) as [v|] eqn:L.
          * assert (V : v = JNull \/ v <> JNull) by (destruct v; (now left) || (right; discriminate)). destruct V as [-> |V]; [reflexivity|].
            destruct (IH _ _ L t (ch_builder ch) (sub_path p k) A1 (agree_refs _ _ _ _ _ HI Hk) (HF _ _ _ _ Hk L V)) as (o & Co & Ro).
            destruct v; try (now destruct V); (exists o; split; [exact Co|exact Ro]).
          * intros v ->. cbn [lax] in A2. apply andb_true_iff in A2 as [A2 A3]. apply json_eq_simple_ok in A3. subst v. apply negb_true_iff in A2. now rewrite A2.
        + destruct (lookup k (c_renames cd)) eqn:F3; [discriminate A|]. destruct (lookup k (c_internal cd)) eqn:F4; [discriminate A|].
          destruct (find_field k cd) as [f|] eqn:F5; [|discriminate A]. destruct t; try discriminate A. apply andb_true_iff in A as [A1 A2]. apply negb_true_iff in A1.
          assert (NF : f_name f = k). { unfold find_field in F5. apply find_some in F5 as [_ F5]. apply String.eqb_eq in F5. now symmetry. }
          unfold getattr_plain. rewrite F1, F2, F5. unfold field_get. rewrite NF. cbn [py_in bind py_getitem]. unfold mem. rewrite A1. destruct (lookup k d) as [v|] eqn:L.
          * destruct v; cbn [rmap bind]; try reflexivity; (eexists; split; [reflexivity|constructor]).
          * intros v ->. apply andb_true_iff in A2 as [A2 A3]. apply negb_true_iff in A2. rewrite A2. apply json_eq_simple_ok in A3. now subst v. }
    apply (rd_object S U T n fs d p kids HI).
    - intros k t r v Hk L V. assert (NU : ~ In (n, k) U). { intros C. specialize (HU _ C). unfold mem in HU. now rewrite L in HU. }
      specialize (FIELD k t r Hk NU). rewrite L in FIELD. destruct v; try (now destruct V); exact FIELD.
    - intros k t r Hk L NU. specialize (FIELD k t r Hk NU). now rewrite L in FIELD.
    - intros k t v Hk L NU. specialize (FIELD k t _ Hk NU). rewrite L in FIELD. now apply FIELD.
  Qed.

  Lemma good_list t b p l i : (forall x, In x l -> good x) -> builder_of t = Some b -> refs_ok t -> (forall x, In x l -> follows S U t x) ->
    exists es, con_list T b p [] i l = Ok es /\ Forall2 (reads S U T t) l es.
  Proof.
    revert i. induction l as [|x l IH]; intros i G B R F.
    - exists []. split; [reflexivity|constructor].
    - destruct (G x (or_introl eq_refl) t b (sub_path p (nat_dec i)) B R (F x (or_introl eq_refl))) as (e & Ce & Re).
      destruct (IH (Datatypes.S i) (fun y Hy => G y (or_intror Hy)) B R (fun y Hy => F y (or_intror Hy))) as (es & Ces & Res).
      exists (e :: es). split; [|now constructor]. rewrite con_list_eq, con_slot_nil, Ce. cbn [bind]. rewrite Ces. reflexivity.
  Qed.
  Lemma good_map t b p d : (forall k x, In (k, x) d -> good x) -> builder_of t = Some b -> refs_ok t -> (forall k x, In (k, x) d -> follows S U t x) ->
    exists es, con_map T b p [] d = Ok es /\ Forall2 (fun kv ke => fst ke = fst kv /\ reads S U T t (snd kv) (snd ke)) d es.
  Proof.
    induction d as [|(k, x) d IH]; intros G B R F.
    - exists []. split; [reflexivity|constructor].
    - destruct (G k x (or_introl eq_refl) t b (sub_path p k) B R (F k x (or_introl eq_refl))) as (e & Ce & Re).
      destruct (IH (fun k' y Hy => G k' y (or_intror Hy)) B R (fun k' y Hy => F k' y (or_intror Hy))) as (es & Ces & Res).
      exists ((k, e) :: es). split; [|constructor; [now split|exact Res]]. rewrite con_map_eq, con_slot_nil, Ce. cbn [bind]. rewrite Ces. reflexivity.
  Qed.

  Lemma ref_object d p v : agree_ref T = true -> lookup "$ref" d = Some v ->
    construct T (JDict d) (BCls "Reference") p [] = Ok (OObj "Reference" p (JDict d) []) /\
    getattr T (OObj "Reference" p (JDict d) []) "ref" = Ok (OPrim v).
  Proof.
    unfold agree_ref. intros A L. cbn [getattr]. rewrite construct_eq. cbn [select bind con_core]. rewrite split_nil. cbn [bind].
    destruct (lookup "Reference" T) as [cd|]; [|discriminate A]. destruct (c_children cd) eqn:E1; [|discriminate A]. destruct (c_lazy cd) eqn:E2; [|discriminate A].
    destruct (lookup "ref" (c_renames cd)) as [k|] eqn:E3; [|discriminate A]. destruct (find_field "$ref" cd) as [f|] eqn:E4; [|discriminate A].
    apply andb_true_iff in A as [A1 A2]. apply String.eqb_eq in A1. subst k. apply negb_true_iff in A2. split; [reflexivity|].
    unfold getattr_. rewrite E1, E2. cbn [find_child find]. rewrite E3. unfold getattr_plain. rewrite E1, E2. cbn [find_child find]. rewrite E4.
    assert (NF : f_name f = "$ref"). { unfold find_field in E4. apply find_some in E4 as [_ F5]. apply String.eqb_eq in F5. now symmetry. }
    unfold field_get. rewrite NF. cbn [py_in bind py_getitem]. unfold mem. rewrite L, A2. reflexivity.
  Qed.

  Lemma all_good j : good j.
  Proof.
    induction j as [j IH] using json_part_ind. intros t. induction t as [| |n|t _|t _|t IHt|t IHt]; intros b p B R F; cbn [builder_of] in B.
    - discriminate B.
    - injection B as <-. inversion F; subst. exists (OPrim (JStr s)). split; [reflexivity|constructor].
    - injection B as <-. assert (D : exists d, j = JDict d) by (inversion F; now eexists). destruct D as (d & ->).
      apply good_object; [|exact F]. intros k v L. apply IH. exists k. now apply lookup_In_fst.
    - destruct (builder_of t) as [b'|] eqn:B'; [|discriminate B]. injection B as <-. inversion F as [| |t0 l HF| | | | | |]; subst.
      destruct (good_list t b' p l 0 (fun x Hx => IH x Hx) B' R HF) as (es & Ces & Res). exists (OList b' p es). split; [|now constructor].
      rewrite construct_eq. cbn [select bind con_core]. rewrite split_nil. cbn [bind]. now rewrite Ces.
    - destruct (builder_of t) as [b'|] eqn:B'; [|discriminate B]. injection B as <-. inversion F as [| | |t0 d HF| | | | |]; subst.
      destruct (good_map t b' p d (fun k x Hx => IH x (ex_intro _ k Hx)) B' R HF) as (es & Ces & Res). exists (OMap b' p es). split; [|now constructor].
      rewrite construct_eq. cbn [select bind con_core]. rewrite split_nil. cbn [bind]. now rewrite Ces.
    - destruct (builder_of t) as [b'|] eqn:B'; [|discriminate B]. injection B as <-. destruct R as [R|R]; [|discriminate R].
      inversion F as [| | | | |t0 d HM|t0 d HM HF| |]; subst.
      + unfold mem in HM. destruct (lookup "$ref" d) as [v|] eqn:L; [|discriminate HM]. destruct (ref_object d p v R L) as [C G].
        exists (OObj "Reference" p (JDict d) []). split; [|now apply rd_ref with v]. rewrite construct_eq. cbn [select py_in bind]. unfold mem. rewrite L. cbn [bind].
        rewrite construct_eq in C. exact C.
      + destruct (IHt b' p eq_refl (or_introl R) HF) as (o & Co & Ro). exists o. split; [|now constructor]. rewrite construct_eq in *. cbn [select py_in bind]. rewrite HM. exact Co.
    - destruct (builder_of t) as [b'|] eqn:B'; [|discriminate B]. injection B as <-. inversion F as [| | | | | | |t0 x|t0 j0 HB HF]; subst.
      + exists (OPrim (JBool x)). split; [reflexivity|constructor].
      + destruct (IHt b' p eq_refl R HF) as (o & Co & Ro). exists o. split; [|now constructor]. rewrite construct_eq in *. cbn [select].
        destruct j; try exact Co. now destruct (HB b).
  Qed.
End Agree.

Theorem version_reads S U T n j p : version_of S U T -> follows S U (Object_ n) j ->
  exists o, construct T j (BCls n) p [] = Ok o /\ reads S U T (Object_ n) j o.
Proof. intros V F. apply (all_good S U T (version_agrees S U T V)); [reflexivity|now right|exact F]. Qed.

(** ** names *)
Definition named_class (T : ctable) (e : string * fields) : bool :=
  match lookup (fst e) T with
  | Some cd => forallb (fun f => let k := fst f in
      String.eqb (python_name k) k || excepted unnamed30 (fst e) k || excepted exceptions30 (fst e) k ||
      match find_child (python_name k) (c_children cd), find_child (python_name k) (c_lazy cd), lookup (python_name k) (c_renames cd) with
      | None, None, Some k' => String.eqb k k' && match lookup k (c_renames cd), lookup k (c_internal cd) with None, None => true | _, _ => false end
      | _, _, _ => false
      end) (snd e)
  | None => false
  end.
Lemma named30 : forallb (named_class v30_table) openapi30 = true.
Proof. vm_compute. reflexivity. Qed.

Theorem named n fs k t r o p j kids : In (n, fs) openapi30 -> In (k, (t, r)) fs -> ~ In (n, k) unnamed30 -> ~ In (n, k) exceptions30 ->
  o = OObj n p j kids -> getattr v30_table o (python_name k) = getattr v30_table o k.
Proof.
  intros H Hk N1 N2 ->. pose proof (proj1 (forallb_forall _ _) named30 _ H) as A. unfold named_class in A. cbn [fst snd] in A. cbn [getattr].
  destruct (lookup n v30_table) as [cd|]; [|discriminate A]. pose proof (proj1 (forallb_forall _ _) A _ Hk) as B. cbn [fst snd] in B.
  apply orb_true_iff in B as [B|B].
  { apply orb_true_iff in B as [B|B]; [apply orb_true_iff in B as [B|B]|].
    - apply String.eqb_eq in B. now rewrite B.
    - apply excepted_ok in B. now destruct N1.
    - apply excepted_ok in B. now destruct N2. }
  unfold getattr_. destruct (find_child (python_name k) (c_children cd)); [discriminate B|]. destruct (find_child (python_name k) (c_lazy cd)); [discriminate B|].
  destruct (lookup (python_name k) (c_renames cd)) as [k'|]; [|discriminate B]. apply andb_true_iff in B as [B1 B2]. apply String.eqb_eq in B1. subst k'.
  destruct (lookup k (c_renames cd)); [discriminate B2|]. destruct (lookup k (c_internal cd)); [discriminate B2|].
  destruct (find_child k (c_children cd)); [reflexivity|]. now destruct (find_child k (c_lazy cd)).
Qed.
