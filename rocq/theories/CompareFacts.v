(** Proofs about [compare_container]. *)
From Coq Require Import String Ascii List Bool Arith ZArith QArith Lia Permutation Sorted Qreduction.
From Verif Require Import PyStr PyStrFacts PyVal PyValFacts Jp CompareContainer SpecJson.
Import ListNotations.
Close Scope Q_scope. Open Scope string_scope. Open Scope nat_scope.

Lemma type_eqb_eq a b : type_eqb a b = true <-> a = b.
Proof. destruct a, b; cbn; split; congruence. Qed.

Lemma in_strs_In k l : in_strs k l = true <-> In k l.
Proof.
  unfold in_strs. rewrite existsb_exists. split.
  - intros (x & Hx & E). apply String.eqb_eq in E. now subst.
  - intros H. exists k. split; [exact H | apply String.eqb_refl].
Qed.

Lemma fold_and_Forall {A} (P : A -> Prop) l : fold_right (fun x Q => P x /\ Q) True l <-> Forall P l.
Proof. induction l as [|x l IH]; simpl; [split; auto|]. rewrite IH. split; [intros []; auto | intros H; inversion H; auto]. Qed.

(** ** sorting gives a permutation *)
Lemma py_insert_perm x l r : py_insert x l = Ok r -> Permutation (x :: l) r.
Proof.
  revert r; induction l as [|y l IH]; intros r H; cbn [py_insert] in H.
  - injection H as <-. constructor. constructor.
  - apply bind_ok in H as (b & _ & H). destruct b; [injection H as <-; reflexivity|].
    apply bind_ok in H as (r' & E & H). injection H as <-.
    rewrite perm_swap. now rewrite (IH _ E).
Qed.

Lemma py_sorted_perm_gen l acc r : foldM (fun acc x => py_insert x acc) l acc = Ok r -> Permutation (acc ++ l)%list r.
Proof.
  revert acc; induction l as [|x l IH]; intros acc H; cbn [foldM] in H.
  - injection H as ->. rewrite app_nil_r. reflexivity.
  - apply bind_ok in H as (a & E & H). apply py_insert_perm in E. apply IH in H.
    rewrite <- H, <- E. rewrite <- Permutation_middle. reflexivity.
Qed.

Lemma py_sorted_perm l r : py_sorted l = Ok r -> Permutation l r.
Proof. intros H. apply py_sorted_perm_gen in H. exact H. Qed.

Lemma Forall2_impl' {A B} (P Q : A -> B -> Prop) l m :
  (forall x y, P x y -> Q x y) -> Forall2 P l m -> Forall2 Q l m.
Proof. intros H; induction 1; constructor; auto. Qed.

(** ** soundness *)
Lemma concat_nil {A} (ls : list (list A)) : List.concat ls = [] -> Forall (fun l => l = []) ls.
Proof. induction ls as [|l ls IH]; simpl; intros H; [constructor|]. apply app_eq_nil in H as [-> H]. constructor; auto. Qed.

Lemma num_number a q : num_value a = Some q <-> number a q.
Proof. destruct a; cbn; split; try discriminate; try tauto; try congruence; intros ->; reflexivity. Qed.

Lemma py_eq_scalar a b : scalar a -> py_eq a b = true -> same_scalar a b.
Proof.
  intros Ha H. unfold same_scalar. destruct a, b; cbn in H; try discriminate; try contradiction; cbn;
    repeat (split; [exact I|]).
  all: try (left; reflexivity).
  all: try (apply String.eqb_eq in H; left; congruence).
  all: right; do 2 eexists; split; [reflexivity|]; split; [reflexivity|]; now apply Qeq_bool_iff.
Qed.

Lemma mapM_Ok_Forall {A B} (f : A -> res B) l ys (P : B -> Prop) :
  mapM f l = Ok ys -> Forall P ys -> Forall (fun x => exists y, f x = Ok y /\ P y) l.
Proof.
  rewrite mapM_ok. induction 1 as [|x y l ys Hxy H IH]; intros HP; [constructor|].
  inversion_clear HP. constructor; eauto.
Qed.

Lemma zip_from_Forall2 {A B} i (l : list A) (m : list B) (P : A -> B -> Prop) :
  length l = length m ->
  Forall (fun t => P (snd (fst t)) (snd t)) (zip_from i l m) -> Forall2 P l m.
Proof.
  revert i m; induction l as [|x l IH]; intros i [|y m] Hl H; try discriminate; [constructor|].
  inversion_clear H. constructor; [assumption|]. eapply IH; eauto.
Qed.

Lemma singular_ok l t : singular l = Ok t -> Forall (fun x => type_of x = t) l.
Proof.
  destruct l as [|x r]; cbn; [discriminate|]. destruct (forallb _ r) eqn:E; [|discriminate].
  intros H. injection H as <-. constructor; [reflexivity|]. rewrite forallb_forall in E.
  apply Forall_forall. intros y Hy. now apply type_eqb_eq, E.
Qed.

Lemma perm_Forall2 {A B} (P : A -> B -> Prop) l l' m' :
  Permutation l l' -> Forall2 P l' m' -> exists m, Permutation m' m /\ Forall2 P l m.
Proof.
  intros H; revert m'; induction H as [|x l l' H IH|x y l|l l' l'' H1 IH1 H2 IH2]; intros m' F.
  - inversion F; subst. exists []. auto.
  - inversion F as [|? y ? m'' Hx Hr]; subst. destruct (IH _ Hr) as (m & Hp & Hf).
    exists (y :: m). split; [now constructor | now constructor].
  - inversion F as [|? a ? m1 Hx Hr]; subst. inversion Hr as [|? b ? m2 Hy Hr2]; subst.
    exists (b :: a :: m2). split; [constructor | now repeat constructor].
  - destruct (IH2 _ F) as (m2 & Hp2 & Hf2). destruct (IH1 _ Hf2) as (m1 & Hp1 & Hf1).
    exists m1. split; [now rewrite Hp2 | exact Hf1].
Qed.

Lemma in_lookup_wf (d : list (string * json)) k x : NoDup (map fst d) -> In (k, x) d -> lookup k d = Some x.
Proof. apply lookup_nodup. Qed.

Lemma filter_negb_nil (l ks : list string) :
  filter (fun k => negb (in_strs k ks)) l = [] -> forall k, In k l -> In k ks.
Proof.
  intros H k Hk. destruct (in_strs k ks) eqn:E; [now apply in_strs_In|].
  exfalso. assert (In k (filter (fun k => negb (in_strs k ks)) l)).
  { apply filter_In. now rewrite E. }
  rewrite H in H0. destruct H0.
Qed.

Lemma compare_sound f : forall base src dst,
  wf_json src -> wf_json dst -> compare_rec f [] [] base src dst = Ok [] -> jequiv src dst.
Proof.
  induction f as [|f IH]; intros base src dst Ws Wd H; [discriminate|].
  destruct src as [|b|z|q|s|l|d].
  - cbn in H. destruct dst; try discriminate. apply je_scalar. split; [exact I|]. split; [exact I|]. now left.
  - apply je_scalar, py_eq_scalar; [exact I|]. cbn [compare_rec] in H. destruct (py_eq (JBool b) dst); congruence.
  - apply je_scalar, py_eq_scalar; [exact I|]. cbn [compare_rec] in H. destruct (py_eq (JInt z) dst); congruence.
  - apply je_scalar, py_eq_scalar; [exact I|]. cbn [compare_rec] in H. destruct (py_eq (JFloat q) dst); congruence.
  - apply je_scalar, py_eq_scalar; [exact I|]. cbn [compare_rec] in H. destruct (py_eq (JStr s) dst); congruence.
  - cbn [compare_rec] in H. destruct dst as [|b|z|q|s|m|e]; try discriminate.
    destruct (Nat.eqb (length l) (length m)) eqn:El; [|discriminate]. apply Nat.eqb_eq in El. cbn [negb] in H.
    destruct l as [|x0 l0] eqn:Hl0; [destruct m; [apply je_list; constructor|discriminate]|].
    rewrite <- Hl0 in *. clear Hl0 x0 l0.
    apply bind_ok in H as (ts & Ets & H). apply bind_ok in H as (td & Etd & H).
    destruct (same_elem_type ts td) eqn:Est; [|discriminate].
    apply bind_ok in H as (lm & Elm & H). apply bind_ok in H as (subs & Esubs & H).
    injection H as H. apply concat_nil in H.
    cbn [wf_json] in Ws, Wd. apply fold_and_Forall in Ws, Wd.
    assert (Hsub : Forall (fun t => wf_json (snd (fst t)) -> wf_json (snd t) -> jequiv (snd (fst t)) (snd t))
                          (zip_from 0 (fst lm) (snd lm))).
    { eapply Forall_impl; [|exact (mapM_Ok_Forall _ _ _ _ Esubs H)].
      intros t (y & Hy & ->) W1 W2. eapply IH; eauto. }
    destruct (type_eqb ts TDict) eqn:Ed.
    + injection Elm as <-. cbn [fst snd] in *. apply je_list.
      assert (F2 : Forall2 (fun x y => wf_json x -> wf_json y -> jequiv x y) l m) by (eapply zip_from_Forall2; eauto).
      clear -F2 Ws Wd. induction F2 as [|x y l m Hxy H IH]; [constructor|].
      inversion_clear Ws. inversion_clear Wd. constructor; auto.
    + apply bind_ok in Elm as (sl & Esl & Elm). apply bind_ok in Elm as (sm & Esm & Elm).
      injection Elm as <-. cbn [fst snd] in *.
      apply py_sorted_perm in Esl, Esm.
      assert (Hlen : length sl = length sm).
      { rewrite <- (Permutation_length Esl), <- (Permutation_length Esm). exact El. }
      assert (F2 : Forall2 (fun x y => wf_json x -> wf_json y -> jequiv x y) sl sm) by (eapply zip_from_Forall2; eauto).
      assert (F2' : Forall2 jequiv sl sm).
      { assert (W1 : Forall wf_json sl) by (rewrite <- Esl; exact Ws).
        assert (W2 : Forall wf_json sm) by (rewrite <- Esm; exact Wd).
        clear -F2 W1 W2. induction F2 as [|x y l m Hxy H IH]; [constructor|].
        inversion_clear W1. inversion_clear W2. constructor; auto. }
      destruct (perm_Forall2 jequiv l sl sm Esl F2') as (m' & Hp & Hf).
      apply je_list_reordered with (m' := m').
      * apply singular_ok in Ets. eapply Forall_impl; [|exact Ets]. intros x Hx Hd.
        destruct x; try contradiction. cbn in Hx. subst ts. discriminate.
      * now rewrite Esm.
      * exact Hf.
  - cbn [compare_rec] in H. destruct dst as [|b|z|q|s|m|e]; try discriminate.
    cbn [visible_keys] in H. apply bind_ok in H as (subs & Esubs & H). injection H as H.
    apply app_eq_nil in H as [Ha H]. apply app_eq_nil in H as [Hr Hc].
    apply map_eq_nil in Ha, Hr. apply concat_nil in Hc.
    cbn [wf_json] in Ws, Wd. destruct Ws as [Nd Ws], Wd as [Ne Wd].
    apply (fold_and_Forall (fun kv : string * json => wf_json (snd kv))) in Ws, Wd.
    pose proof (filter_negb_nil _ _ Ha) as Hde. pose proof (filter_negb_nil _ _ Hr) as Hed.
    unfold visible_keys in *. apply je_dict.
    + intros k. split; [apply Hed | apply Hde].
    + intros k x y Hx Hy. pose proof (mapM_Ok_Forall _ _ _ _ Esubs Hc) as Hf.
      rewrite Forall_forall in Hf. specialize (Hf k).
      assert (Hk : In k (filter (fun k => in_strs k (keys e)) (keys d))).
      { apply filter_In. split; [apply (in_map fst) in Hx; exact Hx|]. apply in_strs_In.
        apply (in_map fst) in Hy. exact Hy. }
      destruct (Hf Hk) as (r & Hr1 & ->).
      rewrite (lookup_nodup k d x Nd Hx), (lookup_nodup k e y Ne Hy) in Hr1.
      eapply IH; [| |exact Hr1].
      * rewrite Forall_forall in Ws. exact (Ws (k, x) Hx).
      * rewrite Forall_forall in Wd. exact (Wd (k, y) Hy).
Qed.

(** ** completeness: sorting is canonical on scalars *)
Inductive rank := RNum (q : Q) | RStr (s : string).
Definition rank_of (j : json) : option rank :=
  match j with
  | JBool b => Some (RNum (if b then 1 else 0)%Q)
  | JInt z => Some (RNum (Qred (inject_Z z)))
  | JFloat q => Some (RNum (Qred q))
  | JStr s => Some (RStr s)
  | _ => None
  end.
Definition rank_lt (a b : rank) : bool :=
  match a, b with
  | RNum p, RNum q => Qltb p q
  | RStr s, RStr t => String.ltb s t
  | RNum _, RStr _ => true
  | RStr _, RNum _ => false
  end.

Lemma Qltb_lt p q : Qltb p q = true <-> (p < q)%Q.
Proof.
  unfold Qltb. rewrite negb_true_iff. split.
  - intros H. apply Qnot_le_lt. intros Hle. apply Qle_bool_iff in Hle. congruence.
  - intros H. destruct (Qle_bool q p) eqn:E; [|reflexivity]. apply Qle_bool_iff in E.
    exfalso. exact (Qlt_not_le _ _ H E).
Qed.

Lemma Qltb_red p q : Qltb (Qred p) (Qred q) = Qltb p q.
Proof.
  apply eq_true_iff_eq. rewrite !Qltb_lt. now rewrite !Qred_correct.
Qed.
Lemma Qred_bool (b : bool) : Qred (if b then 1 else 0)%Q = (if b then 1 else 0)%Q.
Proof. destruct b; reflexivity. Qed.

Lemma rank_kind j r : rank_of j = Some r ->
  match r with RNum p => exists q, num_value j = Some q /\ p = Qred q | RStr s => j = JStr s end.
Proof.
  destruct j as [|[]| | | | |]; intros H; cbn in H; try discriminate; injection H as <-; try reflexivity; eexists; split; reflexivity.
Qed.

Lemma py_lt_rank a b ra rb :
  rank_of a = Some ra -> rank_of b = Some rb ->
  (match ra, rb with RNum _, RNum _ | RStr _, RStr _ => True | _, _ => False end) ->
  py_lt a b = Ok (rank_lt ra rb).
Proof.
  intros Ha Hb Hk. pose proof (rank_kind a ra Ha) as Na. pose proof (rank_kind b rb Hb) as Nb.
  destruct ra as [p|s], rb as [q|t]; cbn in Hk; try contradiction.
  - destruct Na as (p' & Ep & ->), Nb as (q' & Eq & ->). cbn [rank_lt]. rewrite Qltb_red.
    destruct a; try discriminate Ep; cbn [py_lt]; rewrite Ep, Eq; reflexivity.
  - subst. reflexivity.
Qed.

(** canonical ranks *)
Definition canon (r : rank) : Prop := match r with RNum q => Qred q = q | RStr _ => True end.
Lemma rank_canon j r : rank_of j = Some r -> canon r.
Proof.
  destruct j; cbn [rank_of]; intros H; try discriminate; injection H as <-; cbn [canon]; auto.
  - destruct b; reflexivity.
  - apply (Qred_complete (Qred (inject_Z z)) (inject_Z z)). apply Qred_correct.
  - apply (Qred_complete (Qred q) q). apply Qred_correct.
Qed.

Lemma string_ltb_irrefl s : String.ltb s s = false.
Proof.
  unfold String.ltb. assert (E : (s ?= s)%string = Eq).
  { induction s as [|c s IH]; [reflexivity|]. cbn. rewrite IH. unfold Ascii.compare. now rewrite N.compare_refl. }
  now rewrite E.
Qed.

Lemma string_total s t : String.ltb s t = false -> String.ltb t s = false -> s = t.
Proof.
  unfold String.ltb. intros H1 H2. rewrite String.compare_antisym in H2.
  destruct (s ?= t)%string eqn:E; cbn in *; try discriminate.
  now apply String.compare_eq_iff.
Qed.

Lemma string_ltb_trans_ge s t u :
  String.ltb t s = false -> String.ltb u t = false -> String.ltb u s = false.
Proof.
  assert (Hlt : forall a b c, (a ?= b)%string = Lt -> (b ?= c)%string = Lt -> (a ?= c)%string = Lt).
  { intros a; induction a as [|x a IH]; intros [|y b] [|z c] H1 H2; cbn in *; try discriminate; try reflexivity.
    unfold Ascii.compare in *.
    destruct (N_of_ascii x ?= N_of_ascii y)%N eqn:E1; try discriminate;
    destruct (N_of_ascii y ?= N_of_ascii z)%N eqn:E2; try discriminate.
    - apply N.compare_eq_iff in E1, E2. rewrite E1, E2, N.compare_refl. eauto.
    - apply N.compare_eq_iff in E1. rewrite E1, E2. reflexivity.
    - apply N.compare_eq_iff in E2. rewrite <- E2, E1. reflexivity.
    - apply N.compare_lt_iff in E1, E2.
      assert (E : (N_of_ascii x ?= N_of_ascii z)%N = Lt) by (apply N.compare_lt_iff; eapply N.lt_trans; [exact E1|exact E2]). now rewrite E. }
  unfold String.ltb. intros H1 H2.
  destruct (u ?= s)%string eqn:E; try reflexivity. exfalso.
  (* u < s, not (t < s), not (u < t) *)
  destruct (t ?= s)%string eqn:E1; try discriminate.
  - apply String.compare_eq_iff in E1. subst t. rewrite E in H2. discriminate.
  - assert (E1' : (s ?= t)%string = Lt) by (rewrite String.compare_antisym, E1; reflexivity).
    rewrite (Hlt u s t E E1') in H2. discriminate.
Qed.

Definition rank_le (a b : rank) : Prop := rank_lt b a = false.

Lemma rank_le_trans a b c : rank_le a b -> rank_le b c -> rank_le a c.
Proof.
  unfold rank_le. destruct a as [p|s], b as [q|t], c as [r|u]; cbn; try discriminate; auto.
  - intros H1 H2. destruct (Qltb r p) eqn:E; [|reflexivity]. apply Qltb_lt in E.
    assert (~ (q < p)%Q) by (rewrite <- Qltb_lt; congruence).
    assert (~ (r < q)%Q) by (rewrite <- Qltb_lt; congruence).
    exfalso. apply Qnot_lt_le in H, H0. apply (Qlt_not_le _ _ E). eapply Qle_trans; eauto.
  - intros H1 H2. eapply string_ltb_trans_ge; eauto.
Qed.

Lemma rank_le_total a b : rank_lt a b = true -> rank_le a b.
Proof.
  unfold rank_le. destruct a as [p|s], b as [q|t]; cbn; auto; intros H.
  - apply Qltb_lt in H. destruct (Qltb q p) eqn:E; [|reflexivity]. apply Qltb_lt in E.
    exfalso. apply (Qlt_irrefl p). eapply Qlt_trans; eauto.
  - unfold String.ltb in *. rewrite String.compare_antisym. destruct (s ?= t)%string; try discriminate; reflexivity.
Qed.

Lemma rank_le_antisym a b : canon a -> canon b -> rank_le a b -> rank_le b a -> a = b.
Proof.
  unfold rank_le. destruct a as [p|s], b as [q|t]; cbn; try discriminate; intros Ca Cb H1 H2.
  - f_equal. rewrite <- Ca, <- Cb. apply Qred_complete.
    assert (~ (q < p)%Q) by (rewrite <- Qltb_lt; congruence).
    assert (~ (p < q)%Q) by (rewrite <- Qltb_lt; congruence).
    apply Qle_antisym; now apply Qnot_lt_le.
  - f_equal. now apply string_total.
Qed.

(** the kind (numbers or strings) of all elements *)
Definition kind_num (j : json) : Prop := exists q, rank_of j = Some (RNum q).
Definition kind_str (j : json) : Prop := exists s, rank_of j = Some (RStr s).
Definition uniform (l : list json) : Prop := Forall kind_num l \/ Forall kind_str l.

Lemma uniform_pair x y l : uniform l -> In x l -> In y l ->
  exists rx ry, rank_of x = Some rx /\ rank_of y = Some ry /\ py_lt x y = Ok (rank_lt rx ry).
Proof.
  intros [H|H] Hx Hy; rewrite Forall_forall in H; destruct (H x Hx) as [a Ea], (H y Hy) as [b Eb];
    do 2 eexists; (split; [exact Ea | split; [exact Eb|]]); now apply py_lt_rank.
Qed.

Definition jle (x y : json) : Prop :=
  exists rx ry, rank_of x = Some rx /\ rank_of y = Some ry /\ rank_le rx ry.

Lemma jle_trans x y z : jle x y -> jle y z -> jle x z.
Proof.
  intros (a & b & Ha & Hb & H1) (b' & c & Hb' & Hc & H2). rewrite Hb in Hb'. injection Hb' as <-.
  exists a, c. repeat split; auto. eapply rank_le_trans; eauto.
Qed.

Lemma py_insert_sorted x l :
  uniform (x :: l) -> StronglySorted jle l -> exists r, py_insert x l = Ok r /\ StronglySorted jle r.
Proof.
  induction l as [|y l IH]; intros Hu Hs; cbn [py_insert].
  - exists [x]. split; [reflexivity|]. constructor; constructor.
  - destruct (uniform_pair x y _ Hu (or_introl eq_refl) (or_intror (or_introl eq_refl))) as (rx & ry & Ex & Ey & E).
    rewrite E. cbn [bind]. inversion_clear Hs as [|? ? Hs' Hf]. destruct (rank_lt rx ry) eqn:El.
    + exists (x :: y :: l). split; [reflexivity|]. constructor; [constructor; auto|].
      assert (Hxy : jle x y) by (exists rx, ry; repeat split; auto; now apply rank_le_total).
      constructor; [exact Hxy|]. eapply Forall_impl; [|exact Hf]. intros z Hz. eapply jle_trans; eauto.
    + assert (Hyx : jle y x) by (exists ry, rx; repeat split; auto).
      destruct IH as (r & Er & Hr); [|exact Hs'|].
      { destruct Hu as [H|H]; inversion_clear H as [|? ? H1 H2]; inversion_clear H2; [left|right]; constructor; auto. }
      rewrite Er. cbn [bind]. exists (y :: r). split; [reflexivity|]. constructor; [exact Hr|].
      apply py_insert_perm in Er. rewrite <- Er. constructor; auto.
Qed.

Lemma uniform_perm l m : Permutation l m -> uniform l -> uniform m.
Proof. intros H [F|F]; [left|right]; rewrite <- H; exact F. Qed.

Lemma py_sorted_ok_gen l acc :
  uniform (acc ++ l) -> StronglySorted jle acc ->
  exists r, foldM (fun acc x => py_insert x acc) l acc = Ok r /\ StronglySorted jle r.
Proof.
  revert acc; induction l as [|x l IH]; intros acc Hu Hs; cbn [foldM]; [eauto|].
  assert (Hux : uniform (x :: acc)).
  { assert (Hp : Permutation (acc ++ x :: l) ((x :: acc) ++ l)) by (cbn; symmetry; apply Permutation_middle).
    apply (uniform_perm _ _ Hp) in Hu. destruct Hu as [H|H]; apply Forall_app in H as [H _]; [left|right]; exact H. }
  destruct (py_insert_sorted x acc Hux Hs) as (a & Ea & Ha). rewrite Ea. cbn [bind].
  apply IH; [|exact Ha]. apply py_insert_perm in Ea. eapply uniform_perm; [|exact Hu].
  rewrite <- Permutation_middle. change (x :: acc ++ l)%list with ((x :: acc) ++ l)%list. now apply Permutation_app_tail.
Qed.

Lemma py_sorted_ok l : uniform l -> exists r, py_sorted l = Ok r /\ StronglySorted jle r.
Proof. intros H. apply py_sorted_ok_gen; [exact H | constructor]. Qed.

(** two sorted permutations have the same ranks *)
Lemma sorted_ranks l m : Permutation (map rank_of l) (map rank_of m) -> StronglySorted jle l -> StronglySorted jle m ->
  map rank_of l = map rank_of m.
Proof.
  revert m; induction l as [|x l IH]; intros m Hp Hl Hm.
  - apply Permutation_nil in Hp. rewrite Hp. reflexivity.
  - destruct m as [|y m]; [apply Permutation_sym, Permutation_nil in Hp; discriminate|].
    inversion_clear Hl as [|? ? Hl' Fl]. inversion_clear Hm as [|? ? Hm' Fm].
    cbn [map] in *.
    assert (Exy : rank_of x = rank_of y).
    { assert (Hx : In (rank_of x) (rank_of y :: map rank_of m)) by (eapply Permutation_in; [exact Hp | now left]).
      assert (Hy : In (rank_of y) (rank_of x :: map rank_of l)) by (eapply Permutation_in; [apply Permutation_sym; exact Hp | now left]).
      destruct Hx as [Hx|Hx]; [now symmetry|]. destruct Hy as [Hy|Hy]; [assumption|].
      apply in_map_iff in Hx as (x' & Ex & Hx). apply in_map_iff in Hy as (y' & Ey & Hy).
      rewrite Forall_forall in Fl, Fm. destruct (Fm _ Hx) as (a & b & Ea & Eb & H1).
      destruct (Fl _ Hy) as (a' & b' & Ea' & Eb' & H2).
      rewrite Ex in Eb. rewrite Ey in Eb'. rewrite Eb in Ea'. injection Ea' as <-. rewrite Ea in Eb'. injection Eb' as <-.
      rewrite Eb, Ea. f_equal. apply rank_le_antisym; auto; eapply rank_canon; eauto. }
    rewrite Exy in *. apply Permutation_cons_inv in Hp. f_equal. now apply IH.
Qed.

Lemma rank_py_eq x y r : rank_of x = Some r -> rank_of y = Some r -> py_eq x y = true.
Proof.
  intros H1 H2. apply rank_kind in H1, H2. destruct r as [p|s].
  - destruct H1 as (q & E1 & ->), H2 as (q' & E2 & E).
    assert (Hq : Qeq_bool q q' = true).
    { apply Qeq_bool_iff. rewrite <- (Qred_correct q), <- (Qred_correct q'), E. reflexivity. }
    destruct x; try discriminate E1; cbn [py_eq]; rewrite E1, E2; exact Hq.
  - subst. cbn. apply String.eqb_refl.
Qed.

Lemma rank_scalar x r : rank_of x = Some r -> scalar x.
Proof. destruct x; cbn; try discriminate; auto. Qed.

Lemma compare_scalar f inc exc base x y : scalar x -> py_eq x y = true -> compare_rec (S f) inc exc base x y = Ok [].
Proof. intros Hs H. destruct x; try contradiction; cbn [compare_rec]; now rewrite H. Qed.

Lemma jdepth_list x l : In x l -> jdepth x <= fold_right (fun x m => Nat.max (jdepth x) m) 0 l.
Proof. induction l as [|y l IH]; simpl; [tauto|]. intros [->|H]; [lia | specialize (IH H); lia]. Qed.
Lemma jdepth_dict k x (d : list (string * json)) : In (k, x) d -> jdepth x <= fold_right (fun kv m => Nat.max (jdepth (snd kv)) m) 0 d.
Proof. induction d as [|y d IH]; simpl; [tauto|]. intros [->|H]; [simpl; lia | specialize (IH H); lia]. Qed.

Lemma mapM_nil_all {A B} (f : A -> res (list B)) l :
  Forall (fun x => f x = Ok []) l -> exists ys, mapM f l = Ok ys /\ List.concat ys = [].
Proof.
  induction 1 as [|x l Hx Hl (ys & E & Hc)]; [exists []; split; reflexivity|].
  exists ([] :: ys). cbn [mapM]. rewrite Hx. cbn [bind]. rewrite E. split; [reflexivity|exact Hc].
Qed.

Lemma zip_Forall2 {A B} i (l : list A) (m : list B) (P : A -> B -> Prop) :
  Forall2 P l m -> Forall (fun t => P (snd (fst t)) (snd t)) (zip_from i l m).
Proof. intros H; revert i; induction H; intros i; cbn [zip_from]; constructor; cbn; auto. Qed.

Lemma same_type_of x y : same_type x y <-> type_of x = type_of y.
Proof. destruct x, y; cbn; split; try tauto; try discriminate; reflexivity. Qed.

Lemma singular_hom l : l <> [] -> (forall x y, In x l -> In y l -> same_type x y) ->
  exists t, singular l = Ok t /\ Forall (fun x => type_of x = t) l.
Proof.
  destruct l as [|x r]; [congruence|]. intros _ H. exists (type_of x). cbn [singular].
  assert (E : forallb (fun y => type_eqb (type_of y) (type_of x)) r = true).
  { apply forallb_forall. intros y Hy. apply type_eqb_eq. apply same_type_of. apply H; simpl; auto. }
  rewrite E. split; [reflexivity|]. constructor; [reflexivity|].
  apply Forall_forall. intros y Hy. apply same_type_of. apply H; simpl; auto.
Qed.

Lemma orderable_uniform l : (forall x y, In x l -> In y l -> same_type x y) ->
  Forall orderable l -> Forall (fun x => ~ dictionary x) l -> uniform l.
Proof.
  intros Hh Ho Hd. destruct l as [|x r]; [left; constructor|].
  inversion_clear Ho as [|? ? Hx _]. inversion_clear Hd as [|? ? Hdx _].
  assert (Hall : forall y, In y (x :: r) -> type_of y = type_of x).
  { intros y Hy. apply same_type_of. apply Hh; simpl; auto. }
  destruct x; cbn in Hx; try contradiction.
  - left. apply Forall_forall. intros y Hy. specialize (Hall y Hy). destruct y; try discriminate. eexists. reflexivity.
  - left. apply Forall_forall. intros y Hy. specialize (Hall y Hy). destruct y; try discriminate. eexists. reflexivity.
  - left. apply Forall_forall. intros y Hy. specialize (Hall y Hy). destruct y; try discriminate. eexists. reflexivity.
  - right. apply Forall_forall. intros y Hy. specialize (Hall y Hy). destruct y; try discriminate. eexists. reflexivity.
Qed.

Lemma reordered_type x y : reordered x y -> type_of x = type_of y.
Proof. destruct 1; reflexivity. Qed.

Lemma sorted_scalar_lists l m : uniform l -> Permutation l m ->
  exists sl sm, py_sorted l = Ok sl /\ py_sorted m = Ok sm /\
    Forall2 (fun x y => scalar x /\ py_eq x y = true) sl sm.
Proof.
  intros Hu Hp. destruct (py_sorted_ok l Hu) as (sl & El & Sl).
  destruct (py_sorted_ok m (uniform_perm _ _ Hp Hu)) as (sm & Em & Sm).
  exists sl, sm. repeat split; auto.
  assert (Hps : Permutation sl sm).
  { rewrite <- (py_sorted_perm _ _ El), <- (py_sorted_perm _ _ Em). exact Hp. }
  assert (Er : map rank_of sl = map rank_of sm) by (apply sorted_ranks; auto; now apply Permutation_map).
  assert (Hul : uniform sl) by (eapply uniform_perm; [apply (py_sorted_perm _ _ El) | exact Hu]).
  assert (Hr : Forall (fun x => exists r, rank_of x = Some r) sl).
  { destruct Hul as [H|H]; (eapply Forall_impl; [|exact H]); intros x [q Hq]; eauto. }
  clear -Er Hr. revert sm Er; induction sl as [|x sl IH]; intros [|y sm] Er; try discriminate; [constructor|].
  cbn [map] in Er. injection Er as E1 E2. inversion_clear Hr as [|? ? [r Hx] Hr']. constructor; [|auto].
  split; [eapply rank_scalar; eauto|]. eapply rank_py_eq; [exact Hx | congruence].
Qed.

Lemma visible_all d : visible_keys [] [] d = keys d.
Proof. reflexivity. Qed.

Lemma filter_all_in (l ks : list string) : (forall k, In k l -> In k ks) -> filter (fun k => negb (in_strs k ks)) l = [].
Proof.
  induction l as [|x l IH]; intros H; [reflexivity|]. cbn [filter].
  rewrite (proj2 (in_strs_In x ks)) by (apply H; now left). cbn [negb]. apply IH. intros; apply H; now right.
Qed.

Lemma compare_complete f : forall base src dst,
  wf_json src -> wf_json dst -> homogeneous src -> reordered src dst -> jdepth src < f ->
  compare_rec f [] [] base src dst = Ok [].
Proof.
  induction f as [|f IH]; intros base src dst Ws Wd Hh Hr Hd; [lia|].
  destruct Hr as [a Ha|d e e' Hp Hf|l m Hf|l m Hs Hp].
  - apply compare_scalar; [exact Ha|]. destruct a; try contradiction; cbn; try reflexivity;
      try apply String.eqb_refl; apply Qeq_bool_iff; reflexivity.
  - cbn [compare_rec]. rewrite !visible_all.
    cbn [wf_json] in Ws, Wd. destruct Ws as [Nd Ws], Wd as [Ne Wd].
    apply (fold_and_Forall (fun kv : string * json => wf_json (snd kv))) in Ws, Wd.
    cbn [homogeneous] in Hh. apply (fold_and_Forall (fun kv : string * json => homogeneous (snd kv))) in Hh.
    assert (Hk : map fst d = map fst e') by (clear -Hf; induction Hf as [|x y d e' [H _] HF IH]; cbn; congruence).
    assert (Hkk : forall k, In k (keys d) <-> In k (keys e)).
    { intros k. unfold keys. rewrite Hk. split; apply Permutation_in; apply Permutation_map; [now symmetry|exact Hp]. }
    rewrite !filter_all_in by (intros k; apply Hkk). cbn [map app].
    destruct (mapM_nil_all (fun k => match lookup k d, lookup k e with
                                 | Some x, Some y => compare_rec f [] [] (jp_join [k] (Some base)) x y
                                 | _, _ => Err KeyError
                                 end) (filter (fun k => in_strs k (keys e)) (keys d))) as (ys & E & Hc).
    { apply Forall_forall. intros k Hkf. apply filter_In in Hkf as [Hkd _].
      apply in_map_iff in Hkd as ([k' x] & <- & Hx). cbn [fst].
      rewrite (lookup_nodup k' d x Nd Hx).
      assert (Hy : exists y, In (k', y) e' /\ reordered x y).
      { clear -Hf Hx. induction Hf as [|[k1 x1] [k2 y2] d e' [H1 H2] HF IH]; [destruct Hx|].
        destruct Hx as [Hx|Hx]; [injection Hx as -> ->; cbn in *; subst; exists y2; split; [now left|exact H2]|].
        destruct (IH Hx) as (y & Hy & Hr). exists y. split; [now right|exact Hr]. }
      destruct Hy as (y & Hy & Hr).
      assert (Hye : In (k', y) e) by (eapply Permutation_in; [symmetry; exact Hp | exact Hy]).
      rewrite (lookup_nodup k' e y Ne Hye).
      rewrite Forall_forall in Ws, Wd, Hh. apply IH; [exact (Ws _ Hx) | exact (Wd _ Hye) | exact (Hh _ Hx) | exact Hr |].
      cbn [jdepth] in Hd. pose proof (jdepth_dict k' x d Hx). lia. }
    rewrite E. cbn [bind]. now rewrite Hc.
  - cbn [compare_rec]. cbn [wf_json] in Ws, Wd. apply fold_and_Forall in Ws, Wd.
    cbn [homogeneous] in Hh. destruct Hh as (Hst & Hord & Hh). apply fold_and_Forall in Hh.
    assert (El : length l = length m) by (clear -Hf; induction Hf; cbn; congruence).
    rewrite El, Nat.eqb_refl. cbn [negb]. destruct l as [|x0 l0] eqn:El0; [reflexivity|]. rewrite <- El0 in *.
    assert (Hlne : l <> []) by (rewrite El0; discriminate). clear El0 x0 l0.
    destruct (singular_hom l Hlne Hst) as (t & Et & Ft). rewrite Et. cbn [bind].
    assert (Ftm : Forall (fun x => type_of x = t) m).
    { clear -Hf Ft. induction Hf as [|x y l m H HF IH]; [constructor|]. inversion_clear Ft.
      constructor; [rewrite <- (reordered_type _ _ H); assumption | auto]. }
    assert (Hmne : m <> []) by (destruct m; [destruct l; [congruence|discriminate]|discriminate]).
    destruct (singular_hom m Hmne) as (t' & Et' & Ft').
    { intros x y Hx Hy. rewrite Forall_forall in Ftm. apply same_type_of. rewrite (Ftm x Hx), (Ftm y Hy). reflexivity. }
    assert (t' = t). { destruct m as [|y m]; [congruence|]. inversion Ftm; inversion Ft'; subst. congruence. } subst t'.
    rewrite Et'. cbn [bind]. assert (Ese : same_elem_type t t = true) by (destruct t; reflexivity). rewrite Ese.
    assert (Hdep : forall x, In x l -> jdepth x < f).
    { intros x Hx. cbn [jdepth] in Hd. pose proof (jdepth_list x l Hx). lia. }
    assert (Hdirect : Forall2 (fun x y => forall b, compare_rec f [] [] b x y = Ok []) l m).
    { clear -Hf IH Ws Wd Hh Hdep. induction Hf as [|x y l m H HF IHF]; [constructor|].
      inversion_clear Ws. inversion_clear Wd. inversion_clear Hh.
      constructor; [intros b; apply IH; auto; apply Hdep; now left | apply IHF; auto; intros; apply Hdep; now right]. }
    assert (Hfin : forall sl sm, Forall2 (fun x y => forall b, compare_rec f [] [] b x y = Ok []) sl sm ->
              (subs <- mapM (fun t => compare_rec f [] [] (jp_join [nat_dec (fst (fst t))] (Some base)) (snd (fst t)) (snd t)) (zip_from 0 sl sm) ;; Ok (List.concat subs)) = Ok []).
    { intros sl sm HF. apply (zip_Forall2 0) in HF.
      destruct (mapM_nil_all (fun t => compare_rec f [] [] (jp_join [nat_dec (fst (fst t))] (Some base)) (snd (fst t)) (snd t)) (zip_from 0 sl sm)) as (ys & E & Hc).
      - eapply Forall_impl; [|exact HF]. intros tt Htt. apply Htt.
      - rewrite E. cbn [bind]. now rewrite Hc. }
    destruct (type_eqb t TDict) eqn:Etd; cbn [bind]; [apply Hfin; exact Hdirect|].
    destruct (Nat.ltb 1 (length l)) eqn:E1.
    + apply Nat.ltb_lt in E1. specialize (Hord E1).
      assert (Hu : uniform l).
      { apply orderable_uniform; auto. eapply Forall_impl; [|exact Ft]. intros x Hx Hdx. destruct x; try contradiction.
        cbn in Hx. subst t. discriminate. }
      (* orderable, non dict: all scalars, so m = l *)
      assert (Hml : m = l).
      { assert (Hsc : Forall scalar l).
        { destruct Hu as [H|H]; (eapply Forall_impl; [|exact H]); intros x [q Hq]; eapply rank_scalar; eauto. }
        clear -Hf Hsc. induction Hf as [|x y l m H HF IHF]; [reflexivity|]. inversion_clear Hsc.
        f_equal; [|auto]. destruct H; try contradiction; reflexivity. }
      subst m. destruct (sorted_scalar_lists l l Hu (Permutation_refl l)) as (sl & sm & E2 & E3 & HF).
      rewrite E2. cbn [bind]. rewrite E2 in E3. injection E3 as <-. cbn [fst snd]. apply Hfin.
      assert (Hdf : 0 < f). { cbn [jdepth] in Hd. lia. }
      eapply Forall2_impl'; [|exact HF]. intros x y [Hx Hy] b. destruct f; [lia|]. now apply compare_scalar.
    + apply Nat.ltb_ge in E1. destruct l as [|x [|x2 l]]; [congruence| |cbn in E1; lia].
      destruct m as [|y [|y2 m]]; try discriminate El. cbn [py_sorted foldM py_insert bind fst snd]. apply Hfin. exact Hdirect.
  - cbn [compare_rec]. cbn [homogeneous] in Hh. destruct Hh as (Hst & Hord & Hh).
    assert (El : length l = length m) by now apply Permutation_length.
    rewrite El, Nat.eqb_refl. cbn [negb]. destruct l as [|x0 l0] eqn:El0; [reflexivity|]. rewrite <- El0 in *.
    assert (Hlne : l <> []) by (rewrite El0; discriminate). clear El0 x0 l0.
    destruct (singular_hom l Hlne Hst) as (t & Et & Ft). rewrite Et. cbn [bind].
    assert (Ftm : Forall (fun x => type_of x = t) m) by (rewrite <- Hp; exact Ft).
    assert (Hmne : m <> []) by (destruct m; [destruct l; [congruence|discriminate]|discriminate]).
    destruct (singular_hom m Hmne) as (t' & Et' & Ft').
    { intros x y Hx Hy. rewrite Forall_forall in Ftm. apply same_type_of. rewrite (Ftm x Hx), (Ftm y Hy). reflexivity. }
    assert (t' = t). { destruct m as [|y m]; [congruence|]. inversion Ftm; inversion Ft'; subst. congruence. } subst t'.
    rewrite Et'. cbn [bind]. assert (Ese : same_elem_type t t = true) by (destruct t; reflexivity). rewrite Ese.
    assert (Hdf : 0 < f). { cbn [jdepth] in Hd. lia. }
    assert (Hnd : type_eqb t TDict = false).
    { destruct l as [|x l]; [congruence|]. inversion Hs; inversion Ft; subst. destruct x; try contradiction; reflexivity. }
    rewrite Hnd.
    assert (Hfin : forall sl sm, Forall2 (fun x y => scalar x /\ py_eq x y = true) sl sm ->
              (subs <- mapM (fun t => compare_rec f [] [] (jp_join [nat_dec (fst (fst t))] (Some base)) (snd (fst t)) (snd t)) (zip_from 0 sl sm) ;; Ok (List.concat subs)) = Ok []).
    { intros sl sm HF. apply (zip_Forall2 0) in HF.
      destruct (mapM_nil_all (fun t => compare_rec f [] [] (jp_join [nat_dec (fst (fst t))] (Some base)) (snd (fst t)) (snd t)) (zip_from 0 sl sm)) as (ys & E & Hc).
      - eapply Forall_impl; [|exact HF]. intros tt [Hx Hy]. destruct f; [lia|]. now apply compare_scalar.
      - rewrite E. cbn [bind]. now rewrite Hc. }
    destruct (Nat.ltb 1 (length l)) eqn:E1.
    + apply Nat.ltb_lt in E1. specialize (Hord E1).
      assert (Hu : uniform l).
      { apply orderable_uniform; auto. eapply Forall_impl; [|exact Hs]. intros x Hx Hdx. destruct x; contradiction. }
      destruct (sorted_scalar_lists l m Hu Hp) as (sl & sm & E2 & E3 & HF).
      rewrite E2. cbn [bind]. rewrite E3. cbn [bind fst snd]. apply Hfin. exact HF.
    + apply Nat.ltb_ge in E1. destruct l as [|x [|x2 l]]; [congruence| |cbn in E1; lia].
      apply Permutation_length_1_inv in Hp. subst m. cbn [py_sorted foldM py_insert bind fst snd]. apply Hfin.
      constructor; [|constructor]. inversion_clear Hs. split; [assumption|].
      destruct x; try contradiction; cbn; try reflexivity; try apply String.eqb_refl; apply Qeq_bool_iff; reflexivity.
Qed.
