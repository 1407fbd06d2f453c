(** Lemmas about the children cache (C23). *)
From Coq Require Import String Ascii List Bool Arith Lia.
From Verif Require Import PyStr PyVal PyValFacts Jp Cache SpecCache.
Import ListNotations.
Open Scope string_scope.

Scheme lists_mut := Induction for lists Sort Prop
  with gathers_mut := Induction for gathers Sort Prop.

Lemma at_put_eq h a n m : at_ h a = Some m -> at_ (put h a n) a = Some n.
Proof. unfold at_. revert a. induction h as [|x h IH]; intros [|a] H; cbn in *; try discriminate; auto. Qed.
Lemma at_put_ne h a n b : a <> b -> at_ (put h a n) b = at_ h b.
Proof. unfold at_. revert a b. induction h as [|x h IH]; intros [|a] [|b] H; cbn in *; try congruence; auto. Qed.

(** ** contents *)
Definition content (n : node) := (n_kind n, n_elems n).
Definition same_at (h h' : heap) (a : addr) : Prop := option_map content (at_ h a) = option_map content (at_ h' a).
Definition same_content (h h' : heap) : Prop := forall a, same_at h h' a.
Lemma same_slots n n' : content n = content n' -> slots n = slots n'.
Proof. unfold content, slots. intros E. injection E as -> ->. reflexivity. Qed.
Definition same_kinds (h h' : heap) : Prop := forall a, option_map n_kind (at_ h a) = option_map n_kind (at_ h' a).
Lemma same_kinds_object h h' a : same_kinds h h' -> is_object h a = is_object h' a.
Proof.
  intros S. specialize (S a). unfold is_object. destruct (at_ h a), (at_ h' a); cbn in S; try discriminate; try reflexivity.
  injection S as ->. reflexivity.
Qed.
Lemma content_kinds h h' : same_content h h' -> same_kinds h h'.
Proof. intros S a. specialize (S a). unfold same_at in S. destruct (at_ h a), (at_ h' a); cbn in *; try discriminate; [unfold content in S; injection S as S1 S2; congruence|reflexivity]. Qed.
Lemma same_content_refl h : same_content h h. Proof. intros a. reflexivity. Qed.
Lemma same_content_sym h h' : same_content h h' -> same_content h' h. Proof. intros S a. symmetry. apply S. Qed.
Lemma same_content_trans h1 h2 h3 : same_content h1 h2 -> same_content h2 h3 -> same_content h1 h3.
Proof. intros S T a. unfold same_at. rewrite (S a). apply T. Qed.
Lemma set_cache_content h a c : same_content h (set_cache h a c).
Proof.
  intros b. unfold set_cache, same_at. destruct (at_ h a) as [n|] eqn:E; [|reflexivity]. destruct (Nat.eq_dec a b) as [<-|Hne].
  - rewrite (at_put_eq _ _ _ _ E), E. reflexivity.
  - now rewrite at_put_ne.
Qed.
Lemma at_set_cache_eq h a c n : at_ h a = Some n -> at_ (set_cache h a c) a = Some (mk_node (n_kind n) (n_elems n) c).
Proof. intros E. unfold set_cache. rewrite E. eapply at_put_eq; eauto. Qed.
Lemma at_set_cache_ne h a c b : a <> b -> at_ (set_cache h a c) b = at_ h b.
Proof. intros H. unfold set_cache. destruct (at_ h a); [now apply at_put_ne|reflexivity]. Qed.
Lemma at_set_elems_eq h a es n : at_ h a = Some n -> at_ (set_elems h a es) a = Some (mk_node (n_kind n) es (n_cache n)).
Proof. intros E. unfold set_elems. rewrite E. eapply at_put_eq; eauto. Qed.
Lemma at_set_elems_ne h a es b : a <> b -> at_ (set_elems h a es) b = at_ h b.
Proof. intros H. unfold set_elems. destruct (at_ h a); [now apply at_put_ne|reflexivity]. Qed.

(** [h'] is [h] except at [x] *)
Definition only_at (x : addr) (h h' : heap) : Prop := same_kinds h h' /\ forall a, a <> x -> at_ h' a = at_ h a.

Lemma lists_content h h' a r : same_content h h' -> lists h a r -> lists h' a r.
Proof.
  intros S H. revert a r H.
  apply (lists_mut h (fun a r _ => lists h' a r) (fun l acc r _ => gathers h' l acc r)).
  - intros a n r E _ IH. assert (Sa := S a). unfold same_at in Sa. rewrite E in Sa. destruct (at_ h' a) as [n'|] eqn:E'; [|discriminate].
    cbn in Sa. assert (C : content n = content n') by congruence. econstructor; eauto. now rewrite <- (same_slots _ _ C).
  - intros; constructor.
  - intros; constructor; assumption.
  - intros. apply ga_object; [|assumption]. rewrite <- (same_kinds_object h h'); [assumption|now apply content_kinds].
  - intros. eapply ga_nested; eauto. rewrite <- (same_kinds_object h h'); [assumption|now apply content_kinds].
Qed.
Lemma encloses_content h h' n x : same_content h h' -> encloses h n x -> encloses h' n x.
Proof.
  intros S H. assert (K := content_kinds _ _ S). induction H as [n nd k x E Hi Ho|n nd k y x E Hi Ho H IH].
  - assert (Sa := S n). unfold same_at in Sa. rewrite E in Sa. destruct (at_ h' n) as [n'|] eqn:E'; [|discriminate].
    cbn in Sa. assert (C : content nd = content n') by congruence. rewrite (same_slots _ _ C) in Hi.
    eapply en_child; eauto. now rewrite <- (same_kinds_object h h').
  - assert (Sa := S n). unfold same_at in Sa. rewrite E in Sa. destruct (at_ h' n) as [n'|] eqn:E'; [|discriminate].
    cbn in Sa. assert (C : content nd = content n') by congruence. rewrite (same_slots _ _ C) in Hi.
    eapply en_nested; eauto. now rewrite <- (same_kinds_object h h').
Qed.

(** a change elsewhere does not alter a listing *)
Lemma lists_elsewhere x h h' a r : only_at x h h' -> lists h a r -> a <> x -> ~ encloses h a x -> lists h' a r.
Proof.
  intros [K O] H. revert a r H.
  apply (lists_mut h (fun a r _ => a <> x -> ~ encloses h a x -> lists h' a r)
           (fun l acc r _ => (forall k b, In (k, VRef b) l -> is_object h b = false -> b <> x /\ ~ encloses h b x) -> gathers h' l acc r)).
  - intros a n r E _ IH Hne Hen. apply (li_node h' a n r); [rewrite O; auto|]. apply IH. intros k b Hin Hb. split.
    + intros ->. apply Hen. eapply en_child; eauto.
    + intros He. apply Hen. eapply en_nested; eauto.
  - intros; constructor.
  - intros k t l acc r _ IH H. constructor. apply IH. intros k0 b0 Hi Hb0; apply (H k0 b0 (or_intror Hi) Hb0).
  - intros k b l acc r Ho _ IH H. apply ga_object; [now rewrite <- (same_kinds_object h h')|]. apply IH. intros k0 b0 Hi Hb0; apply (H k0 b0 (or_intror Hi) Hb0).
  - intros k b l acc sub r Ho _ IH1 _ IH2 H. destruct (H k b (or_introl eq_refl) Ho) as [H1 H2].
    apply ga_nested with (sub := sub); [now rewrite <- (same_kinds_object h h')|now apply IH1|].
    apply IH2. intros k0 b0 Hi Hb0; apply (H k0 b0 (or_intror Hi) Hb0).
Qed.

(** ** listing *)
Definition coherent (seen : addr -> Prop) (h : heap) : Prop :=
  forall a n, at_ h a = Some n -> n_cache n <> [] -> seen a /\ lists h a (n_cache n).
Lemma coherent_weaken (P Q : addr -> Prop) h : (forall a, P a -> Q a) -> coherent P h -> coherent Q h.
Proof. intros W C a n E Hn. destruct (C a n E Hn). auto. Qed.

Lemma get_children_spec fuel : forall h a r h' seen, get_children fuel h a = Ok (r, h') -> coherent seen h ->
  lists h a r /\ same_content h h' /\ coherent (fun n => seen n \/ n = a \/ encloses h a n) h'
  /\ (r <> [] -> exists n, at_ h' a = Some n /\ n_cache n = r).
Proof.
  induction fuel as [|f IH]; intros h a r h' seen H C; [discriminate|]. cbn [get_children] in H.
  destruct (at_ h a) as [n|] eqn:E; [|discriminate].
  destruct (n_cache n) as [|c0 c] eqn:Ec.
  2: { injection H as <- <-. destruct (C a n E) as [Sa La]; [congruence|]. rewrite Ec in La. split; [exact La|]. split; [apply same_content_refl|].
       split; [eapply coherent_weaken; [|exact C]; auto|]. intros _. exists n. auto. }
  apply bind_ok in H as ([r1 h1] & Hf & H). injection H as <- <-. cbn [fst snd].
  assert (G : forall l acc hx, same_content h hx -> coherent (fun m => seen m \/ encloses h a m) hx ->
     (forall k b, In (k, VRef b) l -> is_object h b = false -> encloses h a b /\ forall m, encloses h b m -> encloses h a m) ->
     foldM (fun (acc : listing * heap) kv =>
                            match snd kv with
                            | VPrim _ => Ok acc
                            | VRef b =>
                                if is_object (snd acc) b then Ok (dict_set (fst kv) b (fst acc), snd acc)
                                else s <- get_children f (snd acc) b ;;
                                     Ok (add_nested (fst kv) (fst s) (fst acc), snd s)
                            end) l (acc, hx) = Ok (r1, h1) ->
     gathers h l acc r1 /\ same_content h h1 /\ coherent (fun m => seen m \/ encloses h a m) h1).
  { induction l as [|[k [t|b]] l IHl]; intros acc hx Sx Cx Hl Hg; cbn [foldM fst snd] in Hg.
    - injection Hg as <- <-. split; [constructor|auto].
    - cbn [bind] in Hg. destruct (IHl acc hx Sx Cx) as (G1 & G2 & G3); auto.
      { intros k0 b0 Hi Hb0; apply (Hl k0 b0 (or_intror Hi) Hb0). }
      split; [now constructor|auto].
    - assert (Eo : is_object hx b = is_object h b) by (symmetry; apply same_kinds_object, content_kinds, Sx).
      rewrite Eo in Hg. destruct (is_object h b) eqn:Ob; cbn [bind] in Hg.
      + destruct (IHl (dict_set k b acc) hx Sx Cx) as (G1 & G2 & G3); auto.
        { intros k0 b0 Hi Hb0; apply (Hl k0 b0 (or_intror Hi) Hb0). }
        split; [now constructor|auto].
      + apply bind_ok in Hg as (s & Hs & Hg). apply bind_ok in Hs as ([sub h2] & Hs & E'). injection E' as <-. cbn [fst snd] in Hg.
        destruct (IH _ _ _ _ _ Hs Cx) as (Ls & S2 & C2 & _).
        assert (Sx2 : same_content h h2) by (eapply same_content_trans; eauto).
        destruct (Hl k b (or_introl eq_refl) Ob) as [He Hen].
        destruct (IHl (add_nested k sub acc) h2 Sx2) as (G1 & G2 & G3); auto.
        { eapply coherent_weaken; [|exact C2]. cbn. intros m [[Hm|Hm]|[->|Hm]]; auto. right. apply Hen.
          eapply encloses_content; [apply same_content_sym, Sx|exact Hm]. }
        { intros k0 b0 Hi Hb0; apply (Hl k0 b0 (or_intror Hi) Hb0). }
        split; [|auto]. apply ga_nested with (sub := sub); [exact Ob| |exact G1].
        eapply lists_content; [apply same_content_sym, Sx|exact Ls]. }
  destruct (G (slots n) [] h (same_content_refl h)) as (G1 & G2 & G3); auto.
  { eapply coherent_weaken; [|exact C]. auto. }
  { intros k b Hin Hb. split; [eapply en_child; eauto|]. intros m Hm. eapply en_nested; eauto. }
  assert (La : lists h a r1) by (econstructor; eauto).
  split; [exact La|]. split; [eapply same_content_trans; [exact G2|apply set_cache_content]|].
  assert (exists n1, at_ h1 a = Some n1) as (n1 & E1).
  { assert (Sa := G2 a). unfold same_at in Sa. rewrite E in Sa. destruct (at_ h1 a); [eauto|discriminate]. }
  split.
  - intros b m Eb Hm. destruct (Nat.eq_dec a b) as [<-|Hne].
    + rewrite (at_set_cache_eq _ _ _ _ E1) in Eb. injection Eb as <-. cbn [n_cache] in *. split; [auto|].
      eapply lists_content; [|exact La]. eapply same_content_trans; [exact G2|apply set_cache_content].
    + rewrite at_set_cache_ne in Eb by assumption. destruct (G3 b m Eb Hm) as [[Hs|Hs] Lb]; (split; [auto|]);
        (eapply lists_content; [apply set_cache_content|exact Lb]).
  - intros _. rewrite (at_set_cache_eq _ _ _ _ E1). eexists. split; [reflexivity|reflexivity].
Qed.

(** ** changes *)
Definition changed_at (x : addr) (through : Prop) (h h' : heap) : Prop :=
  only_at x h h' /\ (forall n n', at_ h x = Some n -> at_ h' x = Some n' -> n_cache n' = [] \/ n_cache n' = n_cache n) /\
  (through -> forall n', at_ h' x = Some n' -> n_cache n' = []).
Lemma coherent_change x (through : Prop) seen h h' : changed_at x through h h' -> coherent seen h ->
  (forall n, encloses h n x -> ~ seen n) -> (through \/ ~ seen x) ->
  coherent (fun n => seen n /\ ~ (through /\ x = n)) h'.
Proof.
  intros ([K O] & Hc & Ht) C He Hx a n' E Hn. destruct (Nat.eq_dec a x) as [->|Hne].
  - exfalso. assert (exists n, at_ h x = Some n) as (n & En).
    { specialize (K x). rewrite E in K. destruct (at_ h x); [eauto|discriminate]. }
    destruct (Hc n n' En E) as [Hz|Hz]; [auto|]. destruct Hx as [Hx|Hx]; [apply Hn, (Ht Hx n' E)|].
    destruct (C x n En) as [Hs _]; [congruence|auto].
  - rewrite O in E by assumption. destruct (C a n' E Hn) as [Hs La]. split; [split; [exact Hs|intros [_ ->]; auto]|].
    eapply lists_elsewhere; eauto; [split; assumption|intros Hen; exact (He a Hen Hs)].
Qed.

Lemma same_kinds_refl h : same_kinds h h. Proof. intros a. reflexivity. Qed.
Lemma same_kinds_trans h1 h2 h3 : same_kinds h1 h2 -> same_kinds h2 h3 -> same_kinds h1 h3.
Proof. intros S T a. rewrite (S a). apply T. Qed.
Lemma set_elems_kinds h a es : same_kinds h (set_elems h a es).
Proof.
  intros b. unfold set_elems. destruct (at_ h a) as [n|] eqn:E; [|reflexivity]. destruct (Nat.eq_dec a b) as [<-|Hne].
  - now rewrite (at_put_eq _ _ _ _ E), E.
  - now rewrite at_put_ne.
Qed.
Lemma set_cache_kinds h a c : same_kinds h (set_cache h a c).
Proof. apply content_kinds, set_cache_content. Qed.

Lemma changed_refl x h : changed_at x False h h.
Proof. split; [split; [apply same_kinds_refl|reflexivity]|]. split; [intros n n' E E'; right; congruence|tauto]. Qed.
Lemma changed_set_inv x h es n : at_ h x = Some n -> changed_at x True h (invalidate (set_elems h x es) x).
Proof.
  intros E. unfold invalidate. assert (E1 := at_set_elems_eq h x es n E). assert (E2 := at_set_cache_eq _ x [] _ E1). split; [split|split].
  - eapply same_kinds_trans; [apply set_elems_kinds|apply set_cache_kinds].
  - intros a Ha. rewrite at_set_cache_ne, at_set_elems_ne by congruence. reflexivity.
  - intros m m' _ Em'. rewrite E2 in Em'. injection Em' as <-. now left.
  - intros _ m' Em'. rewrite E2 in Em'. now injection Em' as <-.
Qed.
Lemma changed_inv_set x h es n : at_ h x = Some n -> changed_at x True h (set_elems (invalidate h x) x es).
Proof.
  intros E. unfold invalidate. assert (E1 := at_set_cache_eq h x [] n E). assert (E2 := at_set_elems_eq _ x es _ E1). split; [split|split].
  - eapply same_kinds_trans; [apply set_cache_kinds|apply set_elems_kinds].
  - intros a Ha. rewrite at_set_elems_ne, at_set_cache_ne by congruence. reflexivity.
  - intros m m' _ Em'. rewrite E2 in Em'. injection Em' as <-. now left.
  - intros _ m' Em'. rewrite E2 in Em'. now injection Em' as <-.
Qed.
Lemma changed_set x h es n : at_ h x = Some n -> changed_at x False h (set_elems h x es).
Proof.
  intros E. assert (E1 := at_set_elems_eq h x es n E). split; [split|split].
  - apply set_elems_kinds.
  - intros a Ha. now rewrite at_set_elems_ne by congruence.
  - intros m m' Em Em'. rewrite E1 in Em'. injection Em' as <-. cbn. right. congruence.
  - tauto.
Qed.
Lemma merge_loop_changed h a b names h' ok : merge_loop h a b names = (h', ok) -> changed_at a False h h'.
Proof.
  revert h. induction names as [|k names IH]; intros h H; cbn [merge_loop] in H; [injection H as <- <-; apply changed_refl|].
  destruct (truthy_value h (child_of h a k)); [auto|]. destruct (child_of h b k) as [[|]|c]; [injection H as <- <-; apply changed_refl|auto|].
  destruct (truthy_value h (VRef c)); [|auto].
  destruct (at_ h a) as [n|] eqn:E.
  - specialize (IH _ H). destruct IH as ([K O] & Hc & _). destruct (changed_set a h (dict_set k (VRef c) (n_elems n)) n E) as ([K' O'] & Hc' & _).
    split; [split|split; [|tauto]].
    + eapply same_kinds_trans; eauto.
    + intros y Hy. rewrite O, O'; auto.
    + intros m m' Em Em'. assert (E1 := at_set_elems_eq h a (dict_set k (VRef c) (n_elems n)) n E).
      destruct (Hc _ m' E1 Em') as [|Hx]; [auto|]. cbn in Hx. right. congruence.
  - assert (X : set_elems h a (dict_set k (VRef c) []) = h) by (unfold set_elems; now rewrite E). rewrite X in H. auto.
Qed.
Lemma merge_changed h a b names h' : merge_loop h a b names = (h', true) -> changed_at a True h (invalidate h' a).
Proof.
  intros H. destruct (merge_loop_changed _ _ _ _ _ _ H) as ([K O] & Hc & _). unfold invalidate.
  split; [split|split].
  - eapply same_kinds_trans; [exact K|apply set_cache_kinds].
  - intros y Hy. rewrite at_set_cache_ne by congruence. auto.
  - intros m m' Em Em'. left. destruct (at_ h' a) as [n|] eqn:E.
    + rewrite (at_set_cache_eq _ _ _ _ E) in Em'. now injection Em' as <-.
    + specialize (K a). rewrite Em, E in K. discriminate.
  - intros _ m' Em'. destruct (at_ h' a) as [n|] eqn:E.
    + rewrite (at_set_cache_eq _ _ _ _ E) in Em'. now injection Em' as <-.
    + unfold set_cache in Em'. rewrite E in Em'. congruence.
Qed.

Definition through (o : op) (r : res listing) : Prop :=
  match o, r with OpAssign _ _ _, _ => False | _, Ok _ => True | _, Err _ => False end.
Lemma changed_weaken x (P Q : Prop) h h' : (Q -> P) -> changed_at x P h h' -> changed_at x Q h h'.
Proof. intros W (A & B & D). split; [exact A|]. split; [exact B|auto]. Qed.
Lemma step_changed fuel h o x : target o = Some x -> changed_at x (through o (snd (step fuel h o))) h (fst (step fuel h o)).
Proof.
  assert (Z : forall (P : Prop) h, ~ P -> changed_at x P h h).
  { intros P h0 NP. eapply changed_weaken; [|apply changed_refl]. tauto. }
  destruct o as [a|a k b|a k b|a v|a vs|a k v|a b]; cbn [target step]; intros E; try discriminate; injection E as ->;
    destruct (at_ h x) as [n|] eqn:En; cbn [fst snd through]; try (apply Z; tauto); destruct (n_kind n) as [names| |]; cbn [fst snd through]; try (apply Z; tauto).
  - destruct (existsb _ names); cbn [fst snd through]; [|apply Z; tauto]. eapply changed_weaken; [|eapply changed_set_inv; eauto]. tauto.
  - destruct (existsb _ names); cbn [fst snd through]; [|apply Z; tauto]. eapply changed_weaken; [|eapply changed_set; eauto]. tauto.
  - eapply changed_weaken; [|eapply changed_inv_set; eauto]. tauto.
  - eapply changed_weaken; [|eapply changed_inv_set; eauto]. tauto.
  - eapply changed_weaken; [|eapply changed_inv_set; eauto]. tauto.
  - destruct (merge_loop h x b names) as [h' ok] eqn:Em. destruct ok; cbn [fst snd through].
    + eapply changed_weaken; [|eapply merge_changed; eauto]. tauto.
    + eapply changed_weaken; [|eapply merge_loop_changed; eauto]. tauto.
Qed.
Lemma through_dec o r : through o r \/ ~ through o r.
Proof. destruct o, r; cbn; tauto. Qed.

Lemma disciplined_coherent fuel os : forall h seen, coherent seen h -> disciplined fuel h seen os -> exists seen', coherent seen' (run fuel h os).
Proof.
  induction os as [|o os IH]; intros h seen C D; [cbn; eauto|]. cbn [run].
  destruct (target o) as [x|] eqn:Et.
  - assert (D' : (forall y n, target o = Some y -> encloses h n y -> ~ seen n) /\
          (forall y, target o = Some y -> ~ through o (snd (step fuel h o)) -> ~ seen y) /\
          disciplined fuel (fst (step fuel h o)) (fun n => seen n /\ ~ (through o (snd (step fuel h o)) /\ target o = Some n)) os).
    { cbn [disciplined] in D. destruct (step fuel h o) as [h' r] eqn:Es. cbn [fst snd]. destruct o; try discriminate; exact D. }
    destruct D' as (D1 & D2 & D3). eapply IH; [|exact D3].
    assert (X := step_changed fuel h o x Et).
    eapply coherent_weaken; [|eapply (coherent_change x _ seen _ _ X C)].
    + intros n [Hs Hn]. split; [exact Hs|]. intros [Ht E]. apply Hn. split; [exact Ht|congruence].
    + intros n He. eapply D1; eauto.
    + destruct (through_dec o (snd (step fuel h o))) as [Ht|Ht]; [auto|]. right. eapply D2; eauto.
  - destruct o as [a| | | | | |]; try discriminate. cbn [disciplined step] in *.
    destruct (get_children fuel h a) as [[r h']|e] eqn:Eg; cbn [fst].
    + destruct (get_children_spec _ _ _ _ _ _ Eg C) as (_ & _ & C' & _). eapply IH; eauto.
    + eapply IH; [|exact D]. eapply coherent_weaken; [|exact C]. auto.
Qed.

(** listing is exact after a disciplined history *)
Lemma listing_exact fuel h os a : (forall x n, at_ h x = Some n -> n_cache n = []) -> disciplined fuel h (fun _ => False) os ->
  forall h' r, step fuel (run fuel h os) (OpChildren a) = (h', Ok r) -> lists (run fuel h os) a r.
Proof.
  intros H0 D h' r H. assert (C : coherent (fun _ => False) h) by (intros x n E Hn; exfalso; apply Hn; eauto).
  destruct (disciplined_coherent fuel os h _ C D) as (seen & C'). cbn [step] in H.
  destruct (get_children fuel (run fuel h os) a) as [[r0 h0]|] eqn:Eg; [|discriminate]. injection H as <- <-.
  now destruct (get_children_spec _ _ _ _ _ _ Eg C').
Qed.

(** ** staleness: a non-empty listing is repeated until the object itself is changed *)
Definition cached (h : heap) (a : addr) (r : listing) : Prop := exists n, at_ h a = Some n /\ n_cache n = r.
Lemma get_children_keeps fuel : forall h a r h' x c, get_children fuel h a = Ok (r, h') -> c <> [] -> cached h x c -> cached h' x c.
Proof.
  induction fuel as [|f IH]; intros h a r h' x c H Hc (m & Em & Hm); [discriminate|]. cbn [get_children] in H.
  destruct (at_ h a) as [n|] eqn:E; [|discriminate]. destruct (n_cache n) as [|c0 cs] eqn:Ec; [|injection H as _ <-; exists m; auto].
  apply bind_ok in H as ([r1 h1] & Hf & H). injection H as <- <-. cbn [fst snd].
  assert (G : forall l acc hx, cached hx x c -> foldM (fun (acc : listing * heap) kv =>
                            match snd kv with
                            | VPrim _ => Ok acc
                            | VRef b =>
                                if is_object (snd acc) b then Ok (dict_set (fst kv) b (fst acc), snd acc)
                                else s <- get_children f (snd acc) b ;;
                                     Ok (add_nested (fst kv) (fst s) (fst acc), snd s)
                            end) l (acc, hx) = Ok (r1, h1) -> cached h1 x c).
  { induction l as [|[k [t|b]] l IHl]; intros acc hx Cx Hg; cbn [foldM fst snd] in Hg.
    - injection Hg as <- <-. exact Cx.
    - cbn [bind] in Hg. eauto.
    - destruct (is_object hx b); cbn [bind] in Hg; [eauto|].
      apply bind_ok in Hg as (s & Hs & Hg). apply bind_ok in Hs as ([sub h2] & Hs & E'). injection E' as <-. cbn [fst snd] in Hg. eauto. }
  destruct (G (slots n) [] h) as (m1 & E1 & Hm1); [exists m; auto|exact Hf|].
  destruct (Nat.eq_dec a x) as [<-|Hne]; [rewrite E in Em; injection Em as <-; congruence|].
  exists m1. rewrite at_set_cache_ne by assumption. auto.
Qed.
Lemma step_keeps fuel h o x c : c <> [] -> target o <> Some x -> cached h x c -> cached (fst (step fuel h o)) x c.
Proof.
  intros Hc Ht Cx. destruct (target o) as [y|] eqn:Ey.
  - destruct (step_changed fuel h o y Ey) as ([_ O] & _). destruct Cx as (n & E & En). exists n. rewrite O; [auto|congruence].
  - destruct o as [a| | | | | |]; try discriminate. cbn [step]. destruct (get_children fuel h a) as [[r h']|] eqn:Eg; [|exact Cx].
    cbn [fst]. eapply get_children_keeps; eauto.
Qed.
Lemma listing_repeated fuel h a h1 r os : r <> [] -> step fuel h (OpChildren a) = (h1, Ok r) ->
  (forall o, In o os -> target o <> Some a) ->
  snd (step fuel (run fuel h1 os) (OpChildren a)) = Ok r.
Proof.
  intros Hr H Ho. cbn [step] in H. destruct (get_children fuel h a) as [[r0 h0]|] eqn:Eg; [|discriminate]. injection H as <- <-.
  destruct fuel as [|f]; [discriminate|].
  assert (C : cached h0 a r0).
  { cbn [get_children] in Eg. destruct (at_ h a) as [n|] eqn:E; [|discriminate]. destruct (n_cache n) as [|c0 cs] eqn:Ec.
    - apply bind_ok in Eg as ([r1 h2] & Hf & Eg). injection Eg as <- <-. cbn [fst snd] in *.
      assert (exists m, at_ h2 a = Some m) as (m & Em).
      { clear -Hf E. assert (G : forall l acc hx, (exists m, at_ hx a = Some m) -> foldM (fun (acc : listing * heap) kv =>
                            match snd kv with
                            | VPrim _ => Ok acc
                            | VRef b =>
                                if is_object (snd acc) b then Ok (dict_set (fst kv) b (fst acc), snd acc)
                                else s <- get_children f (snd acc) b ;;
                                     Ok (add_nested (fst kv) (fst s) (fst acc), snd s)
                            end) l (acc, hx) = Ok (r1, h2) -> exists m, at_ h2 a = Some m).
        { assert (GK : forall fuel h b r h', get_children fuel h b = Ok (r, h') -> (exists m, at_ h a = Some m) -> exists m, at_ h' a = Some m).
          { induction fuel as [|fu IHf]; intros hh b r hh' Hg (m & Em); [discriminate|]. cbn [get_children] in Hg.
            destruct (at_ hh b) as [nb|] eqn:Eb; [|discriminate]. destruct (n_cache nb); [|injection Hg as _ <-; eauto].
            apply bind_ok in Hg as ([r3 h3] & Hf3 & Hg). injection Hg as <- <-. cbn [fst snd].
            assert (exists m, at_ h3 a = Some m) as (m3 & E3).
            { revert Hf3. assert (X : exists m, at_ hh a = Some m) by eauto. revert X. generalize (@nil (string * addr)) as acc. generalize hh. clear Em Eb.
              induction (slots nb) as [|[k [t|b']] l IHl]; intros hx acc X Hf3; cbn [foldM fst snd] in Hf3.
              - injection Hf3 as <- <-. exact X.
              - cbn [bind] in Hf3. eauto.
              - destruct (is_object hx b'); cbn [bind] in Hf3; [eauto|].
                apply bind_ok in Hf3 as (s & Hs & Hf3). apply bind_ok in Hs as ([sub h5] & Hs & E'). injection E' as <-. cbn [fst snd] in Hf3. eauto. }
            destruct (Nat.eq_dec b a) as [->|Hne].
            - rewrite (at_set_cache_eq _ _ _ _ E3). eauto.
            - rewrite at_set_cache_ne by assumption. eauto. }
          induction l as [|[k [t|b]] l IHl]; intros acc hx X Hg; cbn [foldM fst snd] in Hg.
          - injection Hg as <- <-. exact X.
          - cbn [bind] in Hg. eauto.
          - destruct (is_object hx b); cbn [bind] in Hg; [eauto|].
            apply bind_ok in Hg as (s & Hs & Hg). apply bind_ok in Hs as ([sub h5] & Hs & E'). injection E' as <-. cbn [fst snd] in Hg. eauto. }
        eapply G; eauto. }
      exists (mk_node (n_kind m) (n_elems m) r1). rewrite (at_set_cache_eq _ _ _ _ Em). auto.
    - injection Eg as <- <-. exists n. auto. }
  assert (C' : cached (run (S f) h0 os) a r0).
  { clear Eg. revert h0 C. induction os as [|o os IH]; intros h0 C; [exact C|]. cbn [run]. apply IH.
    - intros o' Ho'. apply Ho. now right.
    - apply step_keeps; auto. apply Ho. now left. }
  destruct C' as (n & En & Hn). cbn [step get_children]. rewrite En, Hn. destruct r0; [congruence|]. reflexivity.
Qed.
