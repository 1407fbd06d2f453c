(** Lemmas about traversal: what is visited, and under which paths (C26, C27). *)
From Coq Require Import String Ascii List Bool Arith Lia.
From Verif Require Import PyStr PyStrFacts PyVal PyValFacts Jp JpFacts SpecJp NatDecFacts Obj ObjFacts SpecJson SpecObj DumpFacts ResolveFacts OverrideFacts
  Scan SpecScan TablesFacts SpecTables PropertiesObjAux ScanFacts.
Import ListNotations.
Open Scope string_scope. Open Scope nat_scope.

(** ** chains of nearest objects *)
Inductive steps (T : ctable) (leaves : list string) : obj -> list (list string) -> obj -> Prop :=
| st_here o : steps T leaves o [] o
| st_down o c y cs x : is_leaf leaves o = false -> nearest T o c y -> steps T leaves y cs x -> steps T leaves o (c :: cs) x.

Definition located (e : list (list string) * obj) : list string * obj := (map key (fst e), snd e).
Lemma visits_listed T leaves d : forall o, odepth o <= d -> tidy T o -> exists V,
  visits T leaves d o = map located V /\ NoDup (map fst V) /\ (forall cs x, In (cs, x) V <-> steps T leaves o cs x).
Proof.
  induction d as [|d IH]; intros o Hd Ht.
  - exists [([], o)]. split; [reflexivity|]. split; [cbn; constructor; [intros []|constructor]|]. intros cs x. split.
    + intros [E|[]]. injection E as <- <-. constructor.
    + intros H. inversion H as [|? c y cs' x' _ Hn _]; subst; [now left|]. exfalso.
      destruct o; cbn in Hd; try lia. inversion Hn as [? ? ? Hk|? ? ? ? ? Hk]; destruct Hk.
  - rewrite visits_eq. destruct (is_leaf leaves o) eqn:El.
    + exists [([], o)]. split; [reflexivity|]. split; [cbn; constructor; [intros []|constructor]|]. intros cs x. split.
      * intros [E|[]]. injection E as <- <-. constructor.
      * intros H. inversion H as [|? c y cs' x' Hf _ _]; subst; [now left|congruence].
    + destruct (children_listed T (odepth o) o (le_n _) Ht) as (L & GL & NL & SL). rewrite GL, <- map_rev.
      assert (G : forall l, (forall q, In q l -> nearest T o (fst q) (snd q)) -> NoDup (map fst l) -> exists V,
        flat_map (fun kx => map (fun e => (fst kx :: fst e, snd e)) (visits T leaves d (snd kx))) (map keyed l) = map located V /\
        NoDup (map fst V) /\ forall cs x, In (cs, x) V <-> exists c y cs', In (c, y) l /\ cs = c :: cs' /\ steps T leaves y cs' x).
      { induction l as [|[c y] l IHl]; intros Hl Nl.
        - exists []. split; [reflexivity|]. split; [constructor|]. intros cs x. split; [intros []|]. intros (? & ? & ? & [] & _).
        - cbn [map fst] in Nl. apply NoDup_cons_iff in Nl as [Nc Nl]. destruct IHl as (V & EV & NV & SV); [intros; apply Hl; now right|exact Nl|].
          assert (Hn := Hl (c, y) (or_introl eq_refl)). cbn [fst snd] in Hn.
          assert (Hdy : odepth y < odepth o).
          { eapply (get_children_depth T (odepth o)); [lia|]. rewrite GL. apply in_map_iff. exists (c, y). split; [reflexivity|]. now apply SL. }
          destruct (IH y) as (W & EW & NW & SW); [lia|exact (nearest_tidy _ _ _ _ Hn Ht)|].
          exists (map (fun e => (c :: fst e, snd e)) W ++ V)%list. split; [|split].
          + cbn [map flat_map keyed fst snd]. rewrite EV, EW, map_app, !map_map. f_equal. 
          + rewrite map_app, map_map. cbn [fst]. apply NoDup_app_join_local.
            * rewrite <- map_map with (g := cons c). apply NoDup_map_inj_intro; [intros a b E; injection E; auto|exact NW].
            * exact NV.
            * intros cs Hin Hin'. apply in_map_iff in Hin as (q & <- & _). apply in_map_iff in Hin' as ([cs x] & E & Hin'). cbn in E. subst cs.
              apply SV in Hin' as (c' & y' & cs' & Hin' & E & _). injection E as <- _. apply Nc. apply in_map_iff. exists (c, y'). auto.
          + intros cs x. rewrite in_app_iff, SV, in_map_iff. split.
            * intros [([cs' x'] & E & Hin)|(c' & y' & cs' & Hin & R)].
              -- cbn in E. injection E as <- <-. exists c, y, cs'. split; [now left|]. split; [reflexivity|now apply SW].
              -- exists c', y', cs'. split; [now right|exact R].
            * intros (c' & y' & cs' & [E|Hin] & -> & St).
              -- injection E as <- <-. left. exists (cs', x). split; [reflexivity|now apply SW].
              -- right. exists c', y', cs'. auto. }
      destruct (G (rev L)) as (V & EV & NV & SV).
      { intros [c y] Hq. apply in_rev in Hq. now apply SL. }
      { rewrite map_rev. now apply NoDup_rev. }
      exists (([], o) :: V). split; [cbn [map]; now rewrite <- EV|]. split.
      * cbn [map fst]. constructor; [|exact NV]. intros Hin. apply in_map_iff in Hin as ([cs x] & E & Hin). cbn in E. subst cs.
        apply SV in Hin as (? & ? & ? & _ & E & _). discriminate.
      * intros cs x. cbn [In]. rewrite SV. split.
        -- intros [E|(c & y & cs' & Hin & -> & St)]; [injection E as <- <-; constructor|]. apply in_rev, SL in Hin. econstructor; eauto.
        -- intros St. inversion St as [|? c y cs' x' _ Hn St']; subst; [now left|]. right. exists c, y, cs'. rewrite <- in_rev, SL. auto.
Qed.

(** ** chains and locations *)
Lemma tidy_within T o k e : tidy T o -> within o [k] e <-> In (k, e) (slots T o).
Proof. intros Ht. destruct Ht as [o _ _ W _ _]. apply W. Qed.
Lemma nearest_within T o ts x : nearest T o ts x -> tidy T o -> within o ts x.
Proof.
  induction 1 as [o k e Hk He|o k e ts x Hk He H IH]; intros Ht.
  - now apply (tidy_within T).
  - apply (within_app o [k] e); [now apply (tidy_within T)|]. apply IH. eapply tidy_slot; eauto.
Qed.
Lemma near_split T ts : forall o x, within o ts x -> is_object x -> ts <> [] -> tidy T o ->
  exists c r y, ts = (c ++ r)%list /\ nearest T o c y /\ within y r x.
Proof.
  induction ts as [|k ts IH]; intros o x W Hx Hne Ht; [congruence|].
  apply within_cons_inv in W as (e & W1 & W2). apply (tidy_within T) in W1; [|exact Ht]. destruct e as [j|c p s ks|b p es|b p es].
  - inversion W2; subst. destruct Hx as (? & ? & ? & ? & E). discriminate.
  - exists [k], ts, (OObj c p s ks). split; [reflexivity|]. split; [apply ne_obj; [exact W1|do 4 eexists; reflexivity]|exact W2].
  - assert (Hc : is_container (OList b p es)) by (left; do 3 eexists; reflexivity).
    destruct (IH (OList b p es) x W2 Hx) as (c & r & y & -> & Hn & Wy).
    + intros ->. inversion W2; subst. exact (not_both _ Hx Hc).
    + eapply tidy_slot; eauto.
    + exists (k :: c), r, y. split; [reflexivity|]. split; [eapply ne_cont; eauto|exact Wy].
  - assert (Hc : is_container (OMap b p es)) by (right; do 3 eexists; reflexivity).
    destruct (IH (OMap b p es) x W2 Hx) as (c & r & y & -> & Hn & Wy).
    + intros ->. inversion W2; subst. exact (not_both _ Hx Hc).
    + eapply tidy_slot; eauto.
    + exists (k :: c), r, y. split; [reflexivity|]. split; [eapply ne_cont; eauto|exact Wy].
Qed.
(** strictly inside a nearest location there is a container *)
Lemma nearest_inside T o ts x us r z : nearest T o ts x -> tidy T o -> ts = (us ++ r)%list -> us <> [] -> r <> [] -> within o us z -> is_container z.
Proof.
  intros H. revert us. induction H as [o k e Hk He|o k e ts x Hk He H IH]; intros us Ht E Hu Hr W.
  - destruct us as [|u us]; [congruence|]. cbn in E. injection E as _ E. destruct us; [|discriminate]. cbn in E. congruence.
  - destruct us as [|u us]; [congruence|]. cbn in E. injection E as <- E. apply within_cons_inv in W as (e' & W1 & W2).
    apply (tidy_within T) in W1; [|exact Ht]. assert (e' = e) by (eapply slots_fun; eauto). subst e'.
    destruct us as [|u us]; [inversion W2; subst; exact He|]. eapply (IH (u :: us)); eauto; [eapply tidy_slot; eauto|discriminate].
Qed.
Lemma is_leaf_in leaves c p s ks : is_leaf leaves (OObj c p s ks) = true <-> In c leaves.
Proof.
  cbn. rewrite existsb_exists. split; [intros (x & Hx & E); apply String.eqb_eq in E; now subst|]. intros H. exists c. split; [exact H|apply String.eqb_refl].
Qed.
Lemma steps_object T leaves o cs x : steps T leaves o cs x -> is_object o -> is_object x.
Proof. induction 1 as [|o c y cs x Hl Hn St IH]; auto. intros _. apply IH. eapply nearest_object; eauto. Qed.
Lemma app_prefix_cases {A} (a b us r : list A) : (a ++ b = us ++ r)%list -> (exists m, us = a ++ m /\ b = m ++ r)%list \/ (exists m, m <> [] /\ a = us ++ m /\ r = m ++ b)%list.
Proof.
  revert us. induction a as [|x a IH]; intros us E.
  - left. exists us. auto.
  - destruct us as [|u us]; [right; exists (x :: a); cbn in *; split; [discriminate|]; split; [reflexivity|]; congruence|].
    cbn in E. injection E as <- E. destruct (IH us E) as [(m & -> & ->)|(m & Hm & -> & ->)]; [left|right]; exists m; auto.
Qed.
Lemma steps_visible T leaves o cs x : steps T leaves o cs x -> tidy T o -> is_object o -> visible leaves o (concat cs) x.
Proof.
  induction 1 as [o|o c y cs x Hl Hn St IH]; intros Ht Ho.
  - split; [constructor|]. split; [exact Ho|]. intros us r c p s ks E Hr. cbn in E. symmetry in E. apply app_eq_nil in E as [_ E]. congruence.
  - assert (Ty := nearest_tidy _ _ _ _ Hn Ht). assert (Oy := nearest_object _ _ _ _ Hn). destruct (IH Ty Oy) as (W & Ox & V).
    assert (Wc := nearest_within _ _ _ _ Hn Ht). split; [cbn; eapply within_app; eauto|]. split; [exact Ox|].
    intros us r c' p s ks E Hr Wu Hin. cbn [concat] in E. apply app_prefix_cases in E as [(m & -> & E)|(m & Hm & Ec & E)].
    + assert (exists z, within o c z /\ within z m (OObj c' p s ks)) as (z & Wz & Wm).
      { clear -Wu. revert o Wu. induction c as [|k c IH]; intros o W; [exists o; split; [constructor|exact W]|]. cbn in W. apply within_cons_inv in W as (e & W1 & W2).
        destruct (IH e W2) as (z & Wz & Wm). exists z. split; [|exact Wm]. apply (within_app o [k] e); assumption. }
      assert (z = y) by (eapply within_fun; eauto). subst z. exact (V m r c' p s ks E Hr Wm Hin).
    + destruct us as [|u us].
      * inversion Wu; subst. apply is_leaf_in with (p := p) (s := s) (ks := ks) in Hin. congruence.
      * assert (Hc : is_container (OObj c' p s ks)) by (eapply nearest_inside; [exact Hn|exact Ht|exact Ec|discriminate|exact Hm|exact Wu]).
        eapply not_both; [|exact Hc]. do 4 eexists; reflexivity.
Qed.
Lemma visible_steps T leaves n : forall ts o x, length ts <= n -> tidy T o -> is_object o -> visible leaves o ts x -> exists cs, ts = concat cs /\ steps T leaves o cs x.
Proof.
  induction n as [|n IH]; intros ts o x Hn Ht Ho (W & Hx & V).
  - destruct ts; [|cbn in Hn; lia]. inversion W; subst. exists []. split; [reflexivity|constructor].
  - destruct ts as [|t ts]; [inversion W; subst; exists []; split; [reflexivity|constructor]|].
    destruct (near_split T (t :: ts) o x W Hx) as (c & r & y & E & Hy & Wy); [discriminate|exact Ht|].
    assert (Hl : is_leaf leaves o = false).
    { destruct Ho as (c0 & p0 & s0 & k0 & ->). destruct (is_leaf leaves (OObj c0 p0 s0 k0)) eqn:El; [|reflexivity]. apply is_leaf_in in El. exfalso.
      apply (V [] (t :: ts) c0 p0 s0 k0); [reflexivity|discriminate|constructor|exact El]. }
    assert (Nc := nearest_ne _ _ _ _ Hy).
    destruct (IH r y x) as (cs & -> & St).
    + assert (L : length (t :: ts) = length (c ++ r)) by now rewrite E. rewrite app_length in L. destruct c; [congruence|]. cbn in *. lia.
    + eapply nearest_tidy; eauto.
    + eapply nearest_object; eauto.
    + split; [exact Wy|]. split; [exact Hx|]. intros us r' c' p s ks Er Hr Wu. eapply (V (c ++ us)%list r'); [rewrite E, Er; apply app_assoc|exact Hr|].
      eapply within_app; [|exact Wu]. eapply nearest_within; eauto.
    + exists (c :: cs). split; [exact E|]. econstructor; eauto.
Qed.
Lemma steps_concat_inj T leaves o cs x : steps T leaves o cs x -> tidy T o -> forall cs' x', steps T leaves o cs' x' -> concat cs = concat cs' -> cs = cs'.
Proof.
  induction 1 as [o|o c y cs x Hl Hn St IH]; intros Ht cs' x' St' E.
  - destruct St' as [|o c y cs x Hl Hn St']; [reflexivity|]. exfalso. cbn in E. symmetry in E. apply app_eq_nil in E as [E _]. exact (nearest_ne _ _ _ _ Hn E).
  - destruct St' as [|o c' y' cs' x' Hl' Hn' St'].
    + exfalso. cbn in E. apply app_eq_nil in E as [E _]. exact (nearest_ne _ _ _ _ Hn E).
    + cbn in E. destruct (nearest_prefix _ _ _ _ _ _ _ _ Hn Hn' Ht E) as [-> ->]. f_equal. apply app_inv_head in E.
      eapply IH; eauto. eapply nearest_tidy; eauto.
Qed.

(** ** the traversal of a tidy tree *)
Lemma traversal_tidy T leaves o : tidy T o -> is_object o -> exists V n,
  (forall fuel, n <= fuel -> default_tree_traversal T fuel o leaves = Ok (map (fun e => (extend "#" (map key (fst e)), snd e)) V)) /\
  NoDup (map fst V) /\ (forall cs x, In (cs, x) V <-> steps T leaves o cs x) /\ exists V', V = ([], o) :: V'.
Proof.
  intros Ht Ho. destruct (visits_listed T leaves (odepth o) o (le_n _) Ht) as (V & EV & NV & SV).
  exists V, (length (visits T leaves (odepth o) o)). split; [|split; [exact NV|split; [exact SV|]]].
  - intros fuel Hf. rewrite (traversal_is_visits T leaves o fuel Hf), EV, map_map. reflexivity.
  - destruct V as [|[cs x] V]; [destruct (odepth o); discriminate|]. exists V. f_equal.
    assert (E : exists tl, visits T leaves (odepth o) o = ([], o) :: tl) by (destruct (odepth o); cbn [visits]; eauto).
    destruct E as (tl & E). rewrite E in EV. cbn [map located fst snd] in EV. injection EV as E1 -> _. destruct cs; [reflexivity|discriminate].
Qed.

(** ** paths *)
Lemma jp_join2 a b : jp_join [a; b] None = (jp_encode a ++ String "/" (jp_encode b))%string.
Proof. rewrite jp_join_none. reflexivity. Qed.
Definition tails_ok (r : string) : Prop := r = "" \/ exists r', r = String "/" r'.
Lemma noslash_cut a : forall a' r r', contains_char "/" a = false -> contains_char "/" a' = false -> tails_ok r -> tails_ok r' ->
  (a ++ r)%string = (a' ++ r')%string -> a = a' /\ r = r'.
Proof.
  induction a as [|c a IH]; intros [|c' a'] r r' Ha Ha' Hr Hr' E; cbn in *.
  - auto.
  - exfalso. destruct Hr as [->|(x & ->)]; [discriminate|]. injection E as <- _. cbn in Ha'. discriminate.
  - exfalso. destruct Hr' as [->|(x & ->)]; [discriminate|]. injection E as -> _. cbn in Ha. discriminate.
  - injection E as <- E. apply orb_false_iff in Ha as [_ Ha]. apply orb_false_iff in Ha' as [_ Ha']. destruct (IH a' r r') as [-> ->]; auto.
Qed.
Lemma join2 a b : join "/" [a; b] = (a ++ String "/" b)%string.
Proof. reflexivity. Qed.
Lemma extend_app ks : forall path, extend path ks = (path ++ extend "" ks)%string.
Proof.
  induction ks as [|k ks IH]; intros path; [cbn; now rewrite sapp_nil_r|].
  unfold extend in *. cbn [fold_left]. rewrite (IH (join "/" [path; k])), (IH (join "/" [""; k])), !join2, !sapp_assoc. reflexivity.
Qed.
Lemma extend_cons k ks : extend "" (k :: ks) = String "/" (k ++ extend "" ks)%string.
Proof. change (extend "" (k :: ks)) with (extend (join "/" [""; k]) ks). now rewrite extend_app, join2. Qed.
Lemma extend_tails ks : tails_ok (extend "" ks).
Proof. destruct ks; [now left|]. right. rewrite extend_cons. eauto. Qed.
Lemma key_from_object T o c x : nearest T o c x -> tidy T o -> is_object o -> exists k,
  contains_char "/" k = false /\ jp_encode k = k /\ ((c = [k] /\ key c = k) \/ exists ts, c = k :: ts /\ ts <> [] /\ key c = (k ++ String "/" (jp_encode (key ts)))%string).
Proof.
  intros Hn Ht Ho. destruct Hn as [o k e Hk He|o k e ts x Hk He Hn].
  - destruct (tidy_plain _ _ _ _ Ht Ho Hk) as [Pe Ps]. exists k. split; [exact Ps|]. split; [exact Pe|]. left. auto.
  - destruct (tidy_plain _ _ _ _ Ht Ho Hk) as [Pe Ps]. exists k. split; [exact Ps|]. split; [exact Pe|]. right. exists ts.
    assert (Ne := nearest_ne _ _ _ _ Hn). split; [reflexivity|]. split; [exact Ne|]. rewrite key_cons by exact Ne. rewrite jp_join2. now rewrite Pe.
Qed.
Lemma path_inj T leaves o cs x : steps T leaves o cs x -> tidy T o -> is_object o -> forall cs' x', steps T leaves o cs' x' ->
  extend "" (map key cs) = extend "" (map key cs') -> cs = cs'.
Proof.
  induction 1 as [o|o c y cs x Hl Hn St IH]; intros Ht Ho cs' x' St' E.
  - destruct St' as [|o c y cs x Hl Hn St']; [reflexivity|]. cbn [map] in E. rewrite extend_cons in E. discriminate.
  - destruct St' as [|o c' y' cs' x' Hl' Hn' St']; [cbn [map] in E; rewrite extend_cons in E; discriminate|].
    cbn [map] in E. rewrite !extend_cons in E. injection E as E.
    assert (Hcc : c = c' /\ extend "" (map key cs) = extend "" (map key cs')).
    { assert (Tl := extend_tails (map key cs)). assert (Tl' := extend_tails (map key cs')).
      destruct Hn as [o k e Hk He|o k e ts x0 Hk He Hn], Hn' as [o k' e' Hk' He'|o k' e' ts' x0' Hk' He' Hn'];
      destruct (tidy_plain _ _ _ _ Ht Ho Hk) as [Pe Ps]; destruct (tidy_plain _ _ _ _ Ht Ho Hk') as [Pe' Ps'].
      - cbn [key] in E. destruct (noslash_cut k k' _ _ Ps Ps' Tl Tl' E) as [-> E2]. auto.
      - exfalso. rewrite (key_cons k' ts') in E by (eapply nearest_ne; eauto). rewrite jp_join2 in E. cbn [key] in E. rewrite Pe' in E.
        rewrite sapp_assoc in E. cbn [String.append] in E. apply noslash_cut in E as [-> _]; [|assumption..|right; eauto].
        assert (e = e') by (eapply slots_fun; eauto). subst. exact (not_both _ He He').
      - exfalso. rewrite (key_cons k ts) in E by (eapply nearest_ne; eauto). rewrite jp_join2 in E. cbn [key] in E. rewrite Pe in E.
        rewrite sapp_assoc in E. cbn [String.append] in E. apply noslash_cut in E as [-> _]; [|assumption..|right; eauto|assumption].
        assert (e = e') by (eapply slots_fun; eauto). subst. exact (not_both _ He' He).
      - assert (N1 := nearest_ne _ _ _ _ Hn). assert (N2 := nearest_ne _ _ _ _ Hn').
        rewrite (key_cons k ts N1), (key_cons k' ts' N2), !jp_join2 in E. rewrite Pe, Pe', !sapp_assoc in E. cbn [String.append] in E.
        apply noslash_cut in E as [-> E]; [|assumption..|right; eauto|right; eauto]. injection E as E.
        apply noslash_cut in E as [E1 E2]; [|apply jp_encode_noslash|apply jp_encode_noslash|assumption..].
        assert (e = e') by (eapply slots_fun; eauto). subst e'. apply jp_encode_inj in E1. split; [|exact E2]. f_equal. eapply key_inj; eauto. eapply tidy_slot; eauto. }
    destruct Hcc as [-> E2]. f_equal.
    destruct (nearest_prefix T o c' y c' y' [] [] Hn Hn' Ht eq_refl) as [_ <-].
    eapply IH; eauto; [eapply nearest_tidy; eauto|eapply nearest_object; eauto].
Qed.
