(** Facts about [fix_keys]. *)
From Coq Require Import String Ascii List Bool Arith ZArith Lia.
From Verif Require Import PyStr PyStrFacts PyVal PyValFacts NatDecFacts Jp Obj YamlFix.
Import ListNotations.
Open Scope string_scope.

Lemma ykey_eqb_eq a b : ykey_eqb a b = true <-> a = b.
Proof.
  destruct a, b; cbn [ykey_eqb]; try (split; [discriminate|intros [=]]).
  - rewrite String.eqb_eq. split; [now intros ->|now intros [= ->]].
  - rewrite Z.eqb_eq. split; [now intros ->|now intros [= ->]].
  - rewrite Bool.eqb_true_iff. split; [now intros ->|now intros [= ->]].
  - tauto.
Qed.
Lemma ykey_eqb_refl a : ykey_eqb a a = true. Proof. now apply ykey_eqb_eq. Qed.
Lemma ykey_dec (a b : ykey) : {a = b} + {a <> b}.
Proof. destruct (ykey_eqb a b) eqn:E; [left; now apply ykey_eqb_eq|right; intros ->; rewrite ykey_eqb_refl in E; discriminate]. Qed.
Lemma yset_new k o m : ~ In k (map fst m) -> yset k o m = (m ++ [(k, o)])%list.
Proof.
  induction m as [|[k' o'] m IH]; intros N; [reflexivity|]. cbn [yset app]. destruct (ykey_eqb k k') eqn:E.
  - apply ykey_eqb_eq in E. subst. exfalso. apply N. now left.
  - rewrite IH; [reflexivity|]. intros X. apply N. now right.
Qed.
Lemma yset_keys k o m k' : In k' (map fst (yset k o m)) <-> k' = k \/ In k' (map fst m).
Proof.
  induction m as [|[k1 o1] m IH]; cbn [yset map fst In]; [intuition congruence|]. destruct (ykey_eqb k k1) eqn:E; cbn [map fst In].
  - apply ykey_eqb_eq in E. subst. intuition congruence.
  - rewrite IH. intuition congruence.
Qed.
Lemma yset_nodup k o m : NoDup (map fst m) -> NoDup (map fst (yset k o m)).
Proof.
  induction m as [|[k1 o1] m IH]; intros N; [constructor; [intros []|constructor]|]. cbn [yset]. cbn [map fst] in N. apply NoDup_cons_iff in N. destruct N as [N1 N2].
  destruct (ykey_eqb k k1) eqn:E; cbn [map fst].
  - now constructor.
  - constructor; [|now apply IH]. intros X. apply yset_keys in X. destruct X as [->|X]; [now rewrite ykey_eqb_refl in E|contradiction].
Qed.
Lemma yset_lookup k o m k' : ylookup k' (yset k o m) = if ykey_eqb k' k then Some o else ylookup k' m.
Proof.
  induction m as [|[k1 o1] m IH]; cbn [yset ylookup].
  - reflexivity.
  - destruct (ykey_eqb k k1) eqn:E; cbn [ylookup].
    + apply ykey_eqb_eq in E. subst. destruct (ykey_eqb k' k1); reflexivity.
    + rewrite IH. destruct (ykey_eqb k' k1) eqn:E1; [|reflexivity]. apply ykey_eqb_eq in E1. subst. destruct (ykey_eqb k1 k) eqn:E2; [|reflexivity].
      apply ykey_eqb_eq in E2. subst. rewrite ykey_eqb_refl in E. discriminate.
Qed.
Definition step_fix (acc : ymap) (kv : ykey * obj) : ymap := yset (text_key (fst kv)) (snd kv) acc.
Lemma fold_fix_nodup m : forall acc, NoDup (map fst acc) -> NoDup (map fst (fold_left step_fix m acc)).
Proof. induction m as [|kv m IH]; intros acc N; [exact N|]. cbn [fold_left]. apply IH. now apply yset_nodup. Qed.
Lemma fold_fix_keys m k : forall acc, In k (map fst (fold_left step_fix m acc)) <-> In k (map fst acc) \/ In k (map (fun kv => text_key (fst kv)) m).
Proof.
  induction m as [|kv m IH]; intros acc; cbn [fold_left map In]; [tauto|]. rewrite IH. unfold step_fix at 1. rewrite yset_keys. intuition congruence.
Qed.
Lemma fold_fix_plain m : forall acc, NoDup (map fst acc ++ map (fun kv => text_key (fst kv)) m)%list ->
  fold_left step_fix m acc = (acc ++ map (fun kv => (text_key (fst kv), snd kv)) m)%list.
Proof.
  induction m as [|[k o] m IH]; intros acc N; cbn [fold_left map]; [now rewrite app_nil_r|]. cbn [map fst] in N.
  assert (NI : ~ In (text_key k) (map fst acc)) by (intros X; apply NoDup_remove_2 in N; apply N; apply in_or_app; now left).
  unfold step_fix at 2. cbn [fst snd]. rewrite (yset_new _ _ _ NI). rewrite IH.
  - rewrite <- app_assoc. reflexivity.
  - rewrite map_app. cbn [map fst]. rewrite <- app_assoc. exact N.
Qed.
Lemma fold_fix_lookup m k : forall acc, ylookup k (fold_left step_fix m acc) =
  match ylookup k (rev (map (fun kv => (text_key (fst kv), snd kv)) m)) with Some o => Some o | None => ylookup k acc end.
Proof.
  assert (AP : forall a b : ymap, ylookup k (a ++ b)%list = match ylookup k a with Some o => Some o | None => ylookup k b end).
  { induction a as [|[k1 o1] a IH]; intros b; [reflexivity|]. cbn [app ylookup]. destruct (ykey_eqb k k1); [reflexivity|apply IH]. }
  induction m as [|[k1 o1] m IH]; intros acc; [reflexivity|]. cbn [fold_left map rev]. rewrite IH, AP. destruct (ylookup k (rev _)); [reflexivity|].
  unfold step_fix. rewrite yset_lookup. cbn [ylookup fst snd]. destruct (ykey_eqb k (text_key k1)); reflexivity.
Qed.
Lemma fix_keys_fold m : fix_keys m = fold_left step_fix m []. Proof. reflexivity. Qed.
Lemma text_twice k : text_key (text_key k) = text_key k. Proof. now destruct k. Qed.
Lemma fix_strings m k o : In (k, o) (fix_keys m) -> (exists s, k = KStr s) \/ k = KNull.
Proof.
  intros I. apply (in_map fst) in I. cbn [fst] in I. rewrite fix_keys_fold in I. apply fold_fix_keys in I. destruct I as [[]|I].
  apply in_map_iff in I. destruct I as ([k' o'] & <- & _). destruct k'; cbn; eauto.
Qed.
Lemma fix_kept m : NoDup (map (fun kv => text_key (fst kv)) m) -> fix_keys m = map (fun kv => (text_key (fst kv), snd kv)) m.
Proof. intros N. rewrite fix_keys_fold, fold_fix_plain; [reflexivity|exact N]. Qed.
Lemma fix_last before k o after : (forall k' o', In (k', o') after -> text_key k' <> text_key k) ->
  ylookup (text_key k) (fix_keys (before ++ (k, o) :: after)%list) = Some o.
Proof.
  intros N. rewrite fix_keys_fold, fold_left_app. cbn [fold_left]. rewrite fold_fix_lookup.
  assert (Z : ylookup (text_key k) (rev (map (fun kv => (text_key (fst kv), snd kv)) after)) = None).
  { assert (G : forall l : ymap, (forall k' o', In (k', o') l -> k' <> text_key k) -> ylookup (text_key k) l = None).
    { induction l as [|[k1 o1] l IH]; intros H; [reflexivity|]. cbn [ylookup]. destruct (ykey_eqb (text_key k) k1) eqn:E.
      - apply ykey_eqb_eq in E. exfalso. apply (H k1 o1 (or_introl eq_refl)). now symmetry.
      - apply IH. intros k' o' I. apply (H k' o'). now right. }
    apply G. intros k' o' I. apply in_rev in I. apply in_map_iff in I. destruct I as ([k1 o1] & [= <- <-] & I). exact (N k1 o1 I). }
  rewrite Z. unfold step_fix. rewrite yset_lookup. cbn [fst snd]. now rewrite ykey_eqb_refl.
Qed.
Lemma ylookup_in k m o : ylookup k m = Some o -> In (k, o) m.
Proof.
  induction m as [|[k1 o1] m IH]; [discriminate|]. cbn [ylookup]. destruct (ykey_eqb k k1) eqn:E.
  - apply ykey_eqb_eq in E. subst. intros [= ->]. now left.
  - intros H. right. exact (IH H).
Qed.
Lemma fix_only m k o : ylookup k (fix_keys m) = Some o -> exists k0, In (k0, o) m /\ text_key k0 = k.
Proof.
  rewrite fix_keys_fold, fold_fix_lookup. destruct (ylookup k (rev _)) as [x|] eqn:E; [|discriminate]. intros [= ->]. apply ylookup_in, in_rev, in_map_iff in E.
  destruct E as ([k0 o0] & [= <- <-] & I). now exists k0.
Qed.
Lemma fix_plain_keys m : NoDup (map fst m) -> (forall k o, In (k, o) m -> text_key k = k) -> fix_keys m = m.
Proof.
  intros N T. assert (E : map (fun kv => (text_key (fst kv), snd kv)) m = m).
  { clear N. induction m as [|[k o] m IH]; [reflexivity|]. cbn [map fst snd]. rewrite (T k o (or_introl eq_refl)). rewrite IH; [reflexivity|]. intros k' o' I. apply (T k' o'). now right. }
  rewrite fix_kept; [exact E|]. rewrite <- E in N. rewrite map_map in N. exact N.
Qed.
Lemma fix_twice m : fix_keys (fix_keys m) = fix_keys m.
Proof.
  apply fix_plain_keys.
  - rewrite fix_keys_fold. apply fold_fix_nodup. constructor.
  - intros k o I. destruct (fix_strings m k o I) as [(s & ->)| ->]; reflexivity.
Qed.
(** *** the text of a number *)
Lemma nat_dec_head n : exists k r, k < 10 /\ nat_dec n = String (digit k) r.
Proof. apply nat_dec_aux_head. lia. Qed.
Lemma z_dec_inj a b : z_dec a = z_dec b -> a = b.
Proof.
  unfold z_dec. destruct (Z.ltb_spec a 0), (Z.ltb_spec b 0); intros H1.
  - cbn [String.append] in H1. injection H1 as H1. apply nat_dec_inj in H1. lia.
  - exfalso. destruct (nat_dec_head (Z.to_nat b)) as (k & r & K & E). rewrite E in H1. cbn [String.append] in H1. injection H1 as H1 _.
    assert (X : forallb (fun k => negb (Ascii.eqb "-" (digit k))) (seq 0 10) = true) by reflexivity. rewrite forallb_forall in X.
    specialize (X k ltac:(apply in_seq; lia)). rewrite <- H1 in X. discriminate X.
  - exfalso. destruct (nat_dec_head (Z.to_nat a)) as (k & r & K & E). rewrite E in H1. cbn [String.append] in H1. injection H1 as H1 _.
    assert (X : forallb (fun k => negb (Ascii.eqb "-" (digit k))) (seq 0 10) = true) by reflexivity. rewrite forallb_forall in X.
    specialize (X k ltac:(apply in_seq; lia)). rewrite H1 in X. discriminate X.
  - apply nat_dec_inj in H1. lia.
Qed.
Lemma z_dec_head z : exists c r, z_dec z = String c r /\ c <> "T"%char /\ c <> "F"%char.
Proof.
  unfold z_dec. destruct (Z.ltb z 0); [eexists; eexists; split; [reflexivity|split; discriminate]|].
  destruct (nat_dec_head (Z.to_nat z)) as (k & r & K & E). exists (digit k), r. split; [exact E|].
  assert (X : forallb (fun k => negb (Ascii.eqb (digit k) "T") && negb (Ascii.eqb (digit k) "F")) (seq 0 10) = true) by reflexivity. rewrite forallb_forall in X.
  specialize (X k ltac:(apply in_seq; lia)). split; intros Y; rewrite Y in X; discriminate X.
Qed.
Lemma text_clash k1 k2 : text_key k1 = text_key k2 -> k1 = k2 \/ (exists s, k1 = KStr s /\ text_key k2 = KStr s) \/ (exists s, k2 = KStr s /\ text_key k1 = KStr s).
Proof.
  intros H. destruct k1 as [s1|z1|b1|], k2 as [s2|z2|b2|]; cbn [text_key] in H |- *; try (now left); try discriminate H.
  - right; left. exists s1. split; [reflexivity|now symmetry].
  - right; left. exists s1. split; [reflexivity|now symmetry].
  - right; right. exists s2. split; [reflexivity|exact H].
  - left. injection H as H. now apply z_dec_inj in H as ->.
  - exfalso. injection H as H. destruct (z_dec_head z1) as (c & r & E & C1 & C2). rewrite E in H. destruct b2; injection H as H _; congruence.
  - right; right. exists s2. split; [reflexivity|exact H].
  - exfalso. injection H as H. destruct (z_dec_head z2) as (c & r & E & C1 & C2). rewrite E in H. destruct b1; injection H as H _; congruence.
  - left. destruct b1, b2; [reflexivity|discriminate H|discriminate H|reflexivity].
Qed.
Lemma py_int_z_dec z : py_int (z_dec z) = Ok z.
Proof.
  unfold z_dec. destruct (Z.ltb_spec z 0).
  - assert (H' := digits_aux (S (Z.to_nat (- z))) (Z.to_nat (- z)) EmptyString ltac:(lia)). fold (nat_dec (Z.to_nat (- z))) in H'.
    destruct (nat_dec_head (Z.to_nat (- z))) as (k & r & Hk & E). rewrite E in *.
    assert (P : py_int ("-" ++ String (digit k) r) = match digits_val (String (digit k) r) 0%Z with Some x => Ok (- x)%Z | None => Err ValueError end).
    { clear H' E. cbn [String.append]. unfold py_int. destruct (digits_val (String (digit k) r) 0%Z); reflexivity. }
    rewrite P, H'. cbn [digits_val]. f_equal. lia.
  - rewrite py_int_nat_dec. f_equal. lia.
Qed.
(** *** the order of the scans *)
Lemma first_scans_spec r : (forall p m, r = Some (p, m) -> NoDup (map fst m)) ->
  ((exists p m k o, r = Some (p, m) /\ In (k, o) m /\ (forall s, k <> KStr s)) /\ first_scans r = Err AttributeError) \/
  ((forall p m k o, r = Some (p, m) -> In (k, o) m -> exists s, k = KStr s) /\ first_scans r = Ok r).
Proof.
  intros N. unfold first_scans. destruct r as [[p m]|]; [|right; split; [discriminate|reflexivity]].
  specialize (N p m eq_refl). cbn [fix_op].
  assert (D : ((exists k o, In (k, o) m /\ (forall s, k <> KStr s)) /\ response_children m = Err AttributeError) \/
              ((forall k o, In (k, o) m -> exists s, k = KStr s) /\ exists l, response_children m = Ok l)).
  { clear N. unfold response_children. induction m as [|[k o] m IH]; [right; split; [intros k o []|now exists []]|]. cbn [mapM fst snd].
    destruct k as [s|z|b|]; cbn [bind].
    - destruct IH as [[(k & o' & I & X) E]|[A (l & E)]]; rewrite E; cbn [bind].
      + left. split; [|reflexivity]. exists k, o'. split; [now right|exact X].
      + right. split; [|eauto]. intros k o' [[= <- _]|I]; [eauto|eauto].
    - left. split; [|reflexivity]. exists (KInt z), o. split; [now left|discriminate].
    - left. split; [|reflexivity]. exists (KBool b), o. split; [now left|discriminate].
    - left. split; [|reflexivity]. exists KNull, o. split; [now left|discriminate]. }
  destruct D as [[(k & o & I & X) E]|[A (l & E)]]; rewrite E; cbn [bind].
  - left. split; [|reflexivity]. now exists p, m, k, o.
  - right. split; [intros p' m' k o [= <- <-] I; exact (A k o I)|]. f_equal. f_equal. f_equal. apply fix_plain_keys; [exact N|].
    intros k o I. destruct (A k o I) as (s & ->). reflexivity.
Qed.
