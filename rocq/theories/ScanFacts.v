(** Lemmas about traversal and dispatch (C26-C28). *)
From Coq Require Import String Ascii List Bool Arith Lia.
From Verif Require Import PyStr PyStrFacts PyVal PyValFacts Jp JpFacts NatDecFacts Obj ObjFacts SpecJson SpecObj DumpFacts ResolveFacts
  Scan SpecScan TablesFacts.
Import ListNotations.
Open Scope string_scope. Open Scope nat_scope.

(** ** lists *)
Lemma NoDup_app_join_local {A} (l m : list A) : NoDup l -> NoDup m -> (forall x, In x l -> ~ In x m) -> NoDup (l ++ m).
Proof.
  induction l as [|x l IH]; intros Nl Nm D; [exact Nm|]. apply NoDup_cons_iff in Nl as [Ni Nl]. cbn. constructor.
  - rewrite in_app_iff. intros [H|H]; [auto|]. apply (D x (or_introl eq_refl) H).
  - apply IH; auto. intros y Hy. apply D. now right.
Qed.
Lemma NoDup_app_l {A} (l m : list A) : NoDup (l ++ m) -> NoDup l.
Proof. intros H. now apply NoDup_app_iff_local in H as (H & _). Qed.
Lemma NoDup_map_inj_on {A B} (f : A -> B) l : NoDup l -> (forall a b, In a l -> In b l -> f a = f b -> a = b) -> NoDup (map f l).
Proof.
  induction l as [|x l IH]; intros N H; [constructor|]. apply NoDup_cons_iff in N as [Ni N]. cbn. constructor.
  - intros Hin. apply in_map_iff in Hin as (y & E & Hy). apply Ni. rewrite (H x y); [exact Hy|now left|now right|congruence].
  - apply IH; auto. intros a b Ha Hb. apply H; now right.
Qed.
Lemma NoDup_map_inj_intro {A B} (f : A -> B) l : (forall a b, f a = f b -> a = b) -> NoDup l -> NoDup (map f l).
Proof. intros H N. apply NoDup_map_inj_on; auto. Qed.
Lemma fold_left_map_local {A B C} (f : A -> B -> A) (g : C -> B) l a : fold_left f (map g l) a = fold_left (fun a c => f a (g c)) l a.
Proof. revert a. induction l; intros; cbn; auto. Qed.

(** ** slots and depth *)
Fixpoint indexed (i : nat) (es : list obj) : list (string * obj) :=
  match es with [] => [] | e :: es' => (nat_dec i, e) :: indexed (S i) es' end.
Definition slots (T : ctable) (o : obj) : list (string * obj) :=
  match o with
  | OPrim _ => []
  | OObj c _ _ kids =>
      match lookup c T with
      | None => []
      | Some cd => flat_map (fun ch => match lookup (ch_name ch) kids with Some x => [(ch_name ch, x)] | None => [] end) (c_children cd)
      end
  | OList _ _ es => indexed 0 es
  | OMap _ _ es => es
  end.
Fixpoint odepth (o : obj) : nat :=
  match o with
  | OPrim _ => 0
  | OObj _ _ _ kids => S (fold_right (fun kv n => Nat.max (odepth (snd kv)) n) 0 kids)
  | OList _ _ es => S (fold_right (fun e n => Nat.max (odepth e) n) 0 es)
  | OMap _ _ es => S (fold_right (fun kv n => Nat.max (odepth (snd kv)) n) 0 es)
  end.
Lemma depth_pairs (d : list (string * obj)) k x : In (k, x) d -> odepth x <= fold_right (fun kv n => Nat.max (odepth (snd kv)) n) 0 d.
Proof. induction d as [|[k' y] d IH]; cbn; [tauto|]. intros [E|E]; [injection E as -> ->; lia|]. specialize (IH E). lia. Qed.
Lemma depth_list (l : list obj) x : In x l -> odepth x <= fold_right (fun e n => Nat.max (odepth e) n) 0 l.
Proof. induction l as [|y l IH]; cbn; [tauto|]. intros [->|E]; [lia|]. specialize (IH E). lia. Qed.
Lemma indexed_in i es k x : In (k, x) (indexed i es) <-> exists n, k = nat_dec (i + n) /\ nth_error es n = Some x.
Proof.
  revert i. induction es as [|e es IH]; intros i; cbn [indexed In].
  - split; [tauto|]. intros ([|n] & _ & E); discriminate.
  - rewrite IH. split.
    + intros [E|(n & -> & E)].
      * injection E as E1 E2. exists 0. rewrite Nat.add_0_r. subst. split; reflexivity.
      * exists (S n). rewrite <- plus_n_Sm. split; [reflexivity|exact E].
    + intros ([|n] & -> & E); cbn [nth_error] in E.
      * injection E as ->. left. now rewrite Nat.add_0_r.
      * right. exists n. rewrite <- plus_n_Sm. split; [reflexivity|exact E].
Qed.
Lemma slots_depth T o k x : In (k, x) (slots T o) -> odepth x < odepth o.
Proof.
  destruct o as [j|c p s kids|b p es|b p es]; cbn [slots odepth]; intros H; [destruct H|..]; apply le_n_S.
  - destruct (lookup c T) as [cd|]; [|destruct H]. apply in_flat_map in H as (ch & _ & H).
    destruct (lookup (ch_name ch) kids) as [y|] eqn:E; [|destruct H]. destruct H as [H|[]]. injection H as <- <-.
    apply PyValFacts.lookup_In in E. eapply depth_pairs; eauto.
  - apply indexed_in in H as (n & _ & H). apply nth_error_In in H. now apply depth_list.
  - eapply depth_pairs; eauto.
Qed.

(** ** the listing over slots *)
Definition add_slot (gc : obj -> list (string * obj)) (acc : list (string * obj)) (kv : string * obj) : list (string * obj) :=
  match snd kv with
  | OPrim _ => acc
  | OObj _ _ _ _ => dict_set (fst kv) (snd kv) acc
  | e => fold_left (fun acc i => dict_set (jp_join [fst kv; fst i] None) (snd i) acc) (gc e) acc
  end.
Definition add_one (gc : obj -> list (string * obj)) (k : string) (e : obj) (acc : list (string * obj)) : list (string * obj) :=
  match e with
  | OPrim _ => acc
  | OObj _ _ _ _ => dict_set k e acc
  | _ => fold_left (fun acc i => dict_set (jp_join [k; fst i] None) (snd i) acc) (gc e) acc
  end.
Lemma add_slot_one gc acc k e : add_slot gc acc (k, e) = add_one gc k e acc. Proof. destruct e; reflexivity. Qed.
Lemma slots_children gc (kids : list (string * obj)) (cs : list childdef) : forall acc,
  fold_left (fun acc ch => (fix find (kids : list (string * obj)) : list (string * obj) :=
                    match kids with
                    | [] => acc
                    | (k, o') :: kids' =>
                        if String.eqb (ch_name ch) k then
                          match o' with
                          | OPrim _ => acc
                          | OObj _ _ _ _ => dict_set k o' acc
                          | _ => fold_left (fun acc kv => dict_set (jp_join [ch_name ch; fst kv] None) (snd kv) acc) (gc o') acc
                          end
                        else find kids'
                    end) kids) cs acc
  = fold_left (add_slot gc) (flat_map (fun ch => match lookup (ch_name ch) kids with Some x => [(ch_name ch, x)] | None => [] end) cs) acc.
Proof.
  induction cs as [|ch cs IH]; intros acc; [reflexivity|]. cbn [flat_map]. rewrite fold_left_app, <- IH. cbn [fold_left]. f_equal.
  clear IH. induction kids as [|[k x] kids IHk]; [reflexivity|]. cbn [lookup].
  destruct (String.eqb_spec (ch_name ch) k) as [<-|]; [|exact IHk]. cbn [fold_left]. rewrite add_slot_one. destruct x; reflexivity.
Qed.
Lemma slots_elements gc es : forall acc i,
  (fix go (i : nat) (es : list obj) (acc : list (string * obj)) : list (string * obj) :=
           match es with
           | [] => acc
           | e :: es' =>
               go (S i) es'
                 (match e with
                  | OPrim _ => acc
                  | OObj _ _ _ _ => dict_set (nat_dec i) e acc
                  | _ => fold_left (fun acc kv => dict_set (jp_join [nat_dec i; fst kv] None) (snd kv) acc) (gc e) acc
                  end)
           end) i es acc = fold_left (add_slot gc) (indexed i es) acc.
Proof.
  induction es as [|e es IH]; intros acc i; [reflexivity|]. cbn [indexed fold_left]. rewrite <- IH, add_slot_one. destruct e; reflexivity.
Qed.
Lemma slots_entries gc es : forall acc,
  (fix go (es : list (string * obj)) (acc : list (string * obj)) : list (string * obj) :=
           match es with
           | [] => acc
           | (k, e) :: es' =>
               go es'
                 (match e with
                  | OPrim _ => acc
                  | OObj _ _ _ _ => dict_set k e acc
                  | _ => fold_left (fun acc kv => dict_set (jp_join [k; fst kv] None) (snd kv) acc) (gc e) acc
                  end)
           end) es acc = fold_left (add_slot gc) es acc.
Proof.
  induction es as [|[k e] es IH]; intros acc; [reflexivity|]. cbn [fold_left]. rewrite <- IH, add_slot_one. destruct e; reflexivity.
Qed.
Lemma get_children_slots T o : get_children T o = fold_left (add_slot (get_children T)) (slots T o) [].
Proof.
  destruct o as [j|c p s kids|b p es|b p es]; [reflexivity|..]; cbn [slots].
  - cbn [get_children]. destruct (lookup c T) as [cd|]; [|reflexivity]. apply (slots_children (get_children T)).
  - apply (slots_elements (get_children T)).
  - apply (slots_entries (get_children T)).
Qed.

Lemma fold_set_in {A B} (f : B -> string) (g : B -> A) l acc kv :
  In kv (fold_left (fun acc i => dict_set (f i) (g i) acc) l acc) -> In kv acc \/ exists i, In i l /\ snd kv = g i.
Proof.
  revert acc. induction l as [|i l IH]; intros acc H; cbn in H; [auto|]. apply IH in H as [H|(i' & Hi & E)]; [|right; exists i'; cbn; auto].
  apply in_dict_set in H as [->|H]; [|auto]. right. exists i. cbn. auto.
Qed.
Lemma get_children_depth T n : forall o, odepth o <= n -> forall k x, In (k, x) (get_children T o) -> odepth x < odepth o.
Proof.
  induction n as [|n IH]; intros o Hn k x.
  - destruct o; cbn in Hn; try lia. intros [].
  - rewrite get_children_slots. assert (D := slots_depth T o). revert D. generalize (slots T o) as l.
    assert (G : forall l acc, (forall k e, In (k, e) l -> odepth e < odepth o) -> (forall k x, In (k, x) acc -> odepth x < odepth o) ->
                forall k x, In (k, x) (fold_left (add_slot (get_children T)) l acc) -> odepth x < odepth o).
    { induction l as [|[k' e] l IHl]; intros acc Hl Ha k0 x0 H; cbn in H; [eauto|].
      eapply IHl; [| |exact H]; [intros; eapply Hl; right; eauto|]. intros k1 x1 H1. unfold add_slot in H1. cbn [fst snd] in H1.
      assert (De : odepth e < odepth o) by (eapply Hl; left; reflexivity).
      destruct e as [j|c p s ks|b p es|b p es]; [eauto| | |].
      - apply in_dict_set in H1 as [E|H1]; [injection E as -> ->; exact De|eauto].
      - apply fold_set_in in H1 as [H1|([k2 x2] & Hi & E)]; [eauto|]. cbn [snd] in E. subst x2.
        assert (odepth x1 < odepth (OList b p es)) by (eapply IH; [|exact Hi]; lia). lia.
      - apply fold_set_in in H1 as [H1|([k2 x2] & Hi & E)]; [eauto|]. cbn [snd] in E. subst x2.
        assert (odepth x1 < odepth (OMap b p es)) by (eapply IH; [|exact Hi]; lia). lia. }
    intros l D. apply G; [exact D|intros ? ? []].
Qed.

(** ** the traversal *)
Definition extend (path : string) (ks : list string) : string := fold_left (fun p k => join "/" [p; k]) ks path.
Fixpoint visits (T : ctable) (leaves : list string) (d : nat) (o : obj) : list (list string * obj) :=
  ([], o) ::
  match d with
  | O => []
  | S d' => if is_leaf leaves o then []
            else flat_map (fun kx => map (fun e => (fst kx :: fst e, snd e)) (visits T leaves d' (snd kx))) (rev (get_children T o))
  end.
Lemma visits_eq T leaves d o : visits T leaves (S d) o = ([], o) :: (if is_leaf leaves o then []
            else flat_map (fun kx => map (fun e => (fst kx :: fst e, snd e)) (visits T leaves d (snd kx))) (rev (get_children T o))).
Proof. reflexivity. Qed.
Definition shown (path : string) (e : list string * obj) : string * obj := (extend path (fst e), snd e).
Lemma odepth_zero_children T o : odepth o = 0 -> get_children T o = [].
Proof. destruct o; cbn; [reflexivity|discriminate..]. Qed.
Lemma traverse_visits T leaves d : forall o, odepth o <= d -> forall path rest f,
  traverse T (length (visits T leaves d o) + f) leaves ((path, o) :: rest) =
  rmap (app (map (shown path) (visits T leaves d o))) (traverse T f leaves rest).
Proof.
  induction d as [|d IH]; intros o Ho path rest f.
  - cbn [visits length Nat.add]. cbn [traverse]. unfold pushed. rewrite (odepth_zero_children T o) by lia. cbn [map rev].
    assert (E : (if is_leaf leaves o then [] else []) = @nil (string * obj)) by (destruct (is_leaf leaves o); reflexivity).
    rewrite E. cbn [rev app]. destruct (traverse T f leaves rest); reflexivity.
  - rewrite visits_eq. cbn [length Nat.add]. cbn [traverse]. unfold pushed. destruct (is_leaf leaves o) eqn:El.
    + cbn [rev app length Nat.add map]. destruct (traverse T f leaves rest); reflexivity.
    + rewrite <- map_rev.
      assert (G : forall l, (forall k x, In (k, x) l -> odepth x <= d) ->
        traverse T (length (flat_map (fun kx => map (fun e => (fst kx :: fst e, snd e)) (visits T leaves d (snd kx))) l) + f) leaves
           (map (fun i => (join "/" [path; fst i], snd i)) l ++ rest) =
        rmap (app (map (shown path) (flat_map (fun kx => map (fun e => (fst kx :: fst e, snd e)) (visits T leaves d (snd kx))) l))) (traverse T f leaves rest)).
      { induction l as [|[k x] l IHl]; intros Hl.
        - cbn. destruct (traverse T f leaves rest); reflexivity.
        - cbn [flat_map map app fst snd]. rewrite app_length, map_length, <- Nat.add_assoc.
          rewrite IH by (eapply Hl; left; reflexivity). rewrite IHl by (intros; eapply Hl; right; eauto).
          rewrite map_app, map_map. destruct (traverse T f leaves rest); [|reflexivity]. cbn . rewrite app_assoc. reflexivity. }
      rewrite G.
      * destruct (traverse T f leaves rest); reflexivity.
      * intros k x Hin. apply in_rev in Hin. assert (odepth x < odepth o) by (eapply (get_children_depth T (S d)); eauto). lia.
Qed.
Lemma traverse_fuel T leaves n f stack r : traverse T n leaves stack = Ok r -> n <= f -> traverse T f leaves stack = Ok r.
Proof.
  revert f stack r. induction n as [|n IH]; intros f stack r H Hn.
  - destruct stack as [|[p o] stack]; cbn in *; [destruct f; exact H|discriminate].
  - destruct stack as [|[p o] stack]; [destruct f; exact H|]. destruct f as [|f]; [lia|]. cbn [traverse] in *.
    apply bind_ok in H as (r' & H & E). rewrite (IH f _ r' H) by lia. exact E.
Qed.
Lemma traversal_is_visits T leaves o f : length (visits T leaves (odepth o) o) <= f ->
  default_tree_traversal T f o leaves = Ok (map (shown "#") (visits T leaves (odepth o) o)).
Proof.
  intros Hf. unfold default_tree_traversal. eapply traverse_fuel; [|exact Hf].
  assert (X := traverse_visits T leaves (odepth o) o (le_n _) "#" [] 0). rewrite Nat.add_0_r in X. rewrite X. cbn. now rewrite app_nil_r.
Qed.

(** ** tidy trees *)
Inductive tidy (T : ctable) : obj -> Prop :=
| td o : NoDup (map fst (slots T o)) ->
    (forall k e, In (k, e) (slots T o) -> tidy T e) ->
    (forall k e, within o [k] e <-> In (k, e) (slots T o)) ->
    (is_object o -> forall k e, In (k, e) (slots T o) -> jp_encode k = k /\ contains_char "/" k = false) ->
    (is_container o -> forall k e k' e', In (k, e) (slots T o) -> In (k', e') (slots T o) -> is_object e -> is_container e' -> False) ->
    tidy T o.

Inductive nearest (T : ctable) : obj -> list string -> obj -> Prop :=
| ne_obj o k e : In (k, e) (slots T o) -> is_object e -> nearest T o [k] e
| ne_cont o k e ts x : In (k, e) (slots T o) -> is_container e -> nearest T e ts x -> nearest T o (k :: ts) x.
Fixpoint key (ts : list string) : string :=
  match ts with [] => "" | [k] => k | k :: ts' => jp_join [k; key ts'] None end.
Lemma key_cons k ts : ts <> [] -> key (k :: ts) = jp_join [k; key ts] None.
Proof. destruct ts; [congruence|reflexivity]. Qed.
Lemma nearest_ne T o ts x : nearest T o ts x -> ts <> []. Proof. intros H; inversion H; discriminate. Qed.
Lemma not_both o : is_object o -> is_container o -> False.
Proof. intros (c & p & s & k & ->) [(b & q & es & E)|(b & q & es & E)]; discriminate. Qed.
Lemma nearest_object T o ts x : nearest T o ts x -> is_object x. Proof. induction 1; auto. Qed.
Lemma slots_fun T o k e e' : tidy T o -> In (k, e) (slots T o) -> In (k, e') (slots T o) -> e = e'.
Proof.
  intros Ht H H'. inversion Ht as [? N _ _ _ _]; subst. apply (PyValFacts.lookup_nodup k _ e N) in H. apply (PyValFacts.lookup_nodup k _ e' N) in H'. congruence.
Qed.
Lemma tidy_slot T o k e : tidy T o -> In (k, e) (slots T o) -> tidy T e.
Proof. intros Ht. inversion Ht; subst; eauto. Qed.
Lemma nearest_tidy T o ts x : nearest T o ts x -> tidy T o -> tidy T x.
Proof. induction 1; intros Ht; eauto using tidy_slot. Qed.

Lemma fold_set_fresh {B} (f : B -> string * obj) l acc : NoDup (map fst acc ++ map (fun i => fst (f i)) l) ->
  fold_left (fun acc i => dict_set (fst (f i)) (snd (f i)) acc) l acc = (acc ++ map f l)%list.
Proof.
  revert acc. induction l as [|i l IH]; intros acc N; cbn [fold_left map]; [now rewrite app_nil_r|].
  assert (Hn : ~ In (fst (f i)) (map fst acc)).
  { intros Hin. cbn in N. apply NoDup_remove_2 in N. apply N. rewrite in_app_iff. auto. }
  rewrite dict_set_fresh by (now apply lookup_none). rewrite IH.
  - rewrite <- app_assoc. cbn. now destruct (f i).
  - rewrite map_app, <- app_assoc. cbn [map app]. cbn [map] in N. exact N.
Qed.

Definition keyed (e : list string * obj) : string * obj := (key (fst e), snd e).
Lemma jp_join2_inj a b c d : jp_join [a; b] None = jp_join [c; d] None -> a = c /\ b = d.
Proof. intros H. apply jp_join_inj_nobase in H as [H|[[H _]|[H _]]]; [injection H; auto|discriminate|discriminate]. Qed.
Lemma jp_join2_slash a b : contains_char "/" (jp_join [a; b] None) = true.
Proof. rewrite jp_join_none. cbn. rewrite contains_char_app. cbn. now rewrite orb_true_r. Qed.

(** keys of two nearest objects *)
Lemma tidy_plain T o k e : tidy T o -> is_object o -> In (k, e) (slots T o) -> jp_encode k = k /\ contains_char "/" k = false.
Proof. intros Ht. destruct Ht as [o _ _ _ P _]. intros Ho. apply P. exact Ho. Qed.
Lemma tidy_mix T o k e k' e' : tidy T o -> is_container o -> In (k, e) (slots T o) -> In (k', e') (slots T o) -> is_object e -> is_container e' -> False.
Proof. intros Ht. destruct Ht as [o _ _ _ _ M]. intros Ho. apply M. exact Ho. Qed.
Lemma slots_kind T o k e : In (k, e) (slots T o) -> is_object o \/ is_container o.
Proof.
  destruct o as [j|c p s kids|b p es|b p es]; intros H; [destruct H|left; do 4 eexists; reflexivity|right; left|right; right]; do 3 eexists; reflexivity.
Qed.
Lemma key_clash T o k e k' e' us : tidy T o -> In (k, e) (slots T o) -> is_object e -> In (k', e') (slots T o) -> is_container e' ->
  k = jp_join [k'; us] None -> False.
Proof.
  intros Ht Hk He Hk' He' E. destruct (slots_kind _ _ _ _ Hk) as [Ho|Ho].
  - destruct (tidy_plain _ _ _ _ Ht Ho Hk) as [_ Hs]. rewrite E, jp_join2_slash in Hs. discriminate.
  - exact (tidy_mix T o k e k' e' Ht Ho Hk Hk' He He').
Qed.
Lemma key_inj T o ts x ts' x' : nearest T o ts x -> nearest T o ts' x' -> tidy T o -> key ts = key ts' -> ts = ts'.
Proof.
  intros H. revert ts' x'. induction H as [o k e Hk He|o k e ts x Hk He H IH]; intros ts' x' H' Ht E.
  - destruct H' as [o k' e' Hk' He'|o k' e' us x' Hk' He' H2]; [cbn in E; congruence|]. exfalso.
    assert (Ne := nearest_ne _ _ _ _ H2). rewrite (key_cons k' us Ne) in E. exact (key_clash T o k e k' e' _ Ht Hk He Hk' He' E).
  - assert (Ne1 := nearest_ne _ _ _ _ H). rewrite (key_cons k ts Ne1) in E.
    destruct H' as [o k' e' Hk' He'|o k' e' us x' Hk' He' H2].
    + exfalso. symmetry in E. exact (key_clash T o k' e' k e _ Ht Hk' He' Hk He E).
    + assert (Ne2 := nearest_ne _ _ _ _ H2). rewrite (key_cons k' us Ne2) in E. apply jp_join2_inj in E as [-> E].
      assert (e = e') by (eapply slots_fun; eauto). subst e'. f_equal. eapply IH; eauto using tidy_slot.
Qed.
(** two nearest locations, one above the other, are the same *)
Lemma nearest_prefix T o ts x ts' x' r r' : nearest T o ts x -> nearest T o ts' x' -> tidy T o -> (ts ++ r = ts' ++ r')%list -> ts = ts' /\ x = x'.
Proof.
  intros H. revert ts' x'. induction H as [o k e Hk He|o k e ts x Hk He H IH]; intros ts' x' H' Ht E;
    inversion H' as [? k' e' Hk' He'|? k' e' us ? Hk' He' H2]; subst; cbn in E; injection E as -> E.
  - split; [reflexivity|]. eapply slots_fun; eauto.
  - exfalso. assert (e = e') by (eapply slots_fun; eauto). subst. eapply not_both; eauto.
  - exfalso. assert (e = x') by (eapply slots_fun; eauto). subst. eapply not_both; eauto.
  - assert (e = e') by (eapply slots_fun; eauto). subst e'. destruct (IH us x' H2) as [-> ->]; eauto using tidy_slot.
Qed.

Lemma children_listed T n : forall o, odepth o <= n -> tidy T o -> exists L,
  get_children T o = map keyed L /\ NoDup (map fst L) /\ (forall ts x, In (ts, x) L <-> nearest T o ts x).
Proof.
  induction n as [|n IH]; intros o Hn Ht.
  - exists []. destruct o; cbn in Hn; try lia. split; [reflexivity|]. split; [constructor|]. intros ts x. split; [intros []|].
    intros H; inversion H as [? ? ? Hk|? ? ? ? ? Hk]; destruct Hk.
  - (* the listing as a list of locations *)
    assert (Hex : forall l, (forall k e, In (k, e) l -> In (k, e) (slots T o)) -> NoDup (map fst l) -> exists L,
      NoDup (map fst L) /\ (forall ts x, In (ts, x) L <-> exists k e, In (k, e) l /\
          ((ts = [k] /\ x = e /\ is_object e) \/ (exists us, ts = k :: us /\ is_container e /\ nearest T e us x)))
      /\ forall acc, NoDup (map fst acc ++ map (fun e => key (fst e)) L) -> fold_left (add_slot (get_children T)) l acc = (acc ++ map keyed L)%list).
    { induction l as [|[k e] l IHl]; intros Hl Nl.
      - exists []. split; [constructor|]. split; [|intros acc _; cbn; now rewrite app_nil_r]. intros ts x. split; [intros []|]. intros (k & e & [] & _).
      - cbn [map fst] in Nl. apply NoDup_cons_iff in Nl as [Nk Nl]. destruct IHl as (L & NL & SL & FL); auto.
        { intros; apply Hl; now right. }
        assert (Hke : In (k, e) (slots T o)) by (apply Hl; now left).
        assert (Hde : odepth e < odepth o) by (eapply slots_depth; eauto).
        assert (Hfresh : forall us, ~ In (k :: us) (map fst L)).
        { intros us Hin. apply in_map_iff in Hin as ([ts x] & E & Hin). cbn in E. subst ts. apply SL in Hin as (k' & e' & Hin & Hor).
          apply Nk. assert (k' = k) by (destruct Hor as [(E & _)|(us' & E & _)]; injection E; auto). subst k'. apply in_map_iff. exists (k, e'). auto. }
        destruct e as [j|c p s ks|b p es|b p es].
        + exists L. split; [exact NL|]. split.
          * intros ts x. rewrite SL. split; intros (k' & e' & Hin & Hor).
            -- exists k', e'. split; [now right|exact Hor].
            -- destruct Hin as [E|Hin]; [|exists k', e'; auto]. injection E as <- <-. exfalso. destruct Hor as [(_ & _ & (? & ? & ? & ? & E))|(us & _ & [(? & ? & ? & E)|(? & ? & ? & E)] & _)]; discriminate.
          * exact FL.
        + exists (([k], OObj c p s ks) :: L). split; [cbn; constructor; auto|]. split.
          * intros ts x. cbn [In]. rewrite SL. split.
            -- intros [E|(k' & e' & Hin & Hor)]; [injection E as <- <-; exists k, (OObj c p s ks); split; [now left|left; repeat split; do 4 eexists; reflexivity]|].
               exists k', e'. split; [now right|exact Hor].
            -- intros (k' & e' & [E|Hin] & Hor); [|right; exists k', e'; auto]. injection E as <- <-. destruct Hor as [(-> & -> & _)|(us & _ & [(? & ? & ? & E)|(? & ? & ? & E)] & _)]; [now left|discriminate|discriminate].
          * intros acc Na. cbn [fold_left]. unfold add_slot at 2. cbn [fst snd]. cbn [map fst key] in Na. rewrite dict_set_fresh.
            -- rewrite FL; [rewrite <- app_assoc; reflexivity|]. rewrite map_app, <- app_assoc. exact Na.
            -- apply lookup_none. intros Hin. apply NoDup_remove_2 in Na. apply Na. rewrite in_app_iff. auto.
        + destruct (IH (OList b p es)) as (Le & Ge & Ne & Se); [lia|eapply tidy_slot; eauto|].
          exists (map (fun q => (k :: fst q, snd q)) Le ++ L)%list. split; [|split].
          * rewrite map_app, map_map. cbn [fst]. apply NoDup_app_join_local.
            -- rewrite <- map_map with (g := cons k). apply NoDup_map_inj_intro; [intros a a' E; injection E; auto|exact Ne].
            -- exact NL.
            -- intros ts Hin. apply in_map_iff in Hin as (q & <- & _). apply Hfresh.
          * intros ts x. rewrite in_app_iff, SL, in_map_iff. split.
            -- intros [([us y] & E & Hin)|(k' & e' & Hin & Hor)].
               ++ cbn in E. injection E as <- <-. exists k, (OList b p es). split; [now left|]. right. exists us. split; [reflexivity|]. split; [left; do 3 eexists; reflexivity|now apply Se].
               ++ exists k', e'. split; [now right|exact Hor].
            -- intros (k' & e' & [E|Hin] & Hor); [|right; exists k', e'; auto]. injection E as <- <-. left.
               destruct Hor as [(_ & _ & (? & ? & ? & ? & E))|(us & -> & _ & H)]; [discriminate|]. exists (us, x). split; [reflexivity|now apply Se].
          * intros acc Na. cbn [fold_left]. unfold add_slot at 2. cbn [fst snd]. rewrite Ge.
            assert (Hkey : forall q, In q Le -> key (k :: fst q) = jp_join [k; key (fst q)] None).
            { intros [us y] Hq. apply key_cons. apply Se in Hq. eapply nearest_ne; eauto. }
            assert (E1 : fold_left (fun acc i => dict_set (jp_join [k; fst i] None) (snd i) acc) (map keyed Le) acc
                         = (acc ++ map keyed (map (fun q => (k :: fst q, snd q)) Le))%list).
            { rewrite fold_left_map_local. cbn [keyed fst snd].
              rewrite map_map. cbn [keyed].
              rewrite (fold_set_fresh (fun q => (jp_join [k; key (fst q)] None, snd q))).
              - f_equal. apply map_ext_in. intros q Hq. unfold keyed. cbn [fst snd]. now rewrite Hkey.
              - cbn [fst]. rewrite map_app, app_assoc in Na. apply NoDup_app_l in Na. rewrite map_map in Na. cbn [fst] in Na.
                rewrite (map_ext_in (fun x => key (k :: fst x)) (fun i => jp_join [k; key (fst i)] None) Le Hkey) in Na. exact Na. }
            rewrite E1, FL.
            -- rewrite map_app, app_assoc. reflexivity.
            -- rewrite map_app, !map_map, <- app_assoc. rewrite map_app, map_map in Na. exact Na.
        + destruct (IH (OMap b p es)) as (Le & Ge & Ne & Se); [lia|eapply tidy_slot; eauto|].
          exists (map (fun q => (k :: fst q, snd q)) Le ++ L)%list. split; [|split].
          * rewrite map_app, map_map. cbn [fst]. apply NoDup_app_join_local.
            -- rewrite <- map_map with (g := cons k). apply NoDup_map_inj_intro; [intros a a' E; injection E; auto|exact Ne].
            -- exact NL.
            -- intros ts Hin. apply in_map_iff in Hin as (q & <- & _). apply Hfresh.
          * intros ts x. rewrite in_app_iff, SL, in_map_iff. split.
            -- intros [([us y] & E & Hin)|(k' & e' & Hin & Hor)].
               ++ cbn in E. injection E as <- <-. exists k, (OMap b p es). split; [now left|]. right. exists us. split; [reflexivity|]. split; [right; do 3 eexists; reflexivity|now apply Se].
               ++ exists k', e'. split; [now right|exact Hor].
            -- intros (k' & e' & [E|Hin] & Hor); [|right; exists k', e'; auto]. injection E as <- <-. left.
               destruct Hor as [(_ & _ & (? & ? & ? & ? & E))|(us & -> & _ & H)]; [discriminate|]. exists (us, x). split; [reflexivity|now apply Se].
          * intros acc Na. cbn [fold_left]. unfold add_slot at 2. cbn [fst snd]. rewrite Ge.
            assert (Hkey : forall q, In q Le -> key (k :: fst q) = jp_join [k; key (fst q)] None).
            { intros [us y] Hq. apply key_cons. apply Se in Hq. eapply nearest_ne; eauto. }
            assert (E1 : fold_left (fun acc i => dict_set (jp_join [k; fst i] None) (snd i) acc) (map keyed Le) acc
                         = (acc ++ map keyed (map (fun q => (k :: fst q, snd q)) Le))%list).
            { rewrite fold_left_map_local. cbn [keyed fst snd].
              rewrite map_map. cbn [keyed].
              rewrite (fold_set_fresh (fun q => (jp_join [k; key (fst q)] None, snd q))).
              - f_equal. apply map_ext_in. intros q Hq. unfold keyed. cbn [fst snd]. now rewrite Hkey.
              - cbn [fst]. rewrite map_app, app_assoc in Na. apply NoDup_app_l in Na. rewrite map_map in Na. cbn [fst] in Na.
                rewrite (map_ext_in (fun x => key (k :: fst x)) (fun i => jp_join [k; key (fst i)] None) Le Hkey) in Na. exact Na. }
            rewrite E1, FL.
            -- rewrite map_app, app_assoc. reflexivity.
            -- rewrite map_app, !map_map, <- app_assoc. rewrite map_app, map_map in Na. exact Na. }
    destruct (Hex (slots T o)) as (L & NL & SL & FL); [auto|inversion Ht; assumption|].
    assert (SL' : forall ts x, In (ts, x) L <-> nearest T o ts x).
    { intros ts x. rewrite SL. split.
      - intros (k & e & Hin & [(-> & -> & He)|(us & -> & He & H)]); [now apply ne_obj|eapply ne_cont; eauto].
      - intros H; inversion H; subst; [exists k, x; split; [assumption|left; auto]|exists k, e; split; [assumption|right; exists ts0; auto]]. }
    exists L. split; [|split; [exact NL|exact SL']]. rewrite get_children_slots, FL; [reflexivity|]. cbn [map app].
    rewrite <- map_map. apply NoDup_map_inj_on; [exact NL|]. intros a a' Ha Ha' E.
    apply in_map_iff in Ha as ([ts x] & <- & Ha). apply in_map_iff in Ha' as ([ts' x'] & <- & Ha'). cbn [fst] in *.
    apply SL' in Ha, Ha'. eapply key_inj; eauto.
Qed.
