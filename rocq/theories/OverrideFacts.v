(** Lemmas about construction with overrides (C24). *)
From Coq Require Import String Ascii List Bool Arith ZArith Lia.
From Verif Require Import PyStr PyStrFacts PyVal PyValFacts Jp JpFacts Obj ObjFacts ShapeFacts DumpFacts ResolveFacts
  SpecJson SpecObj SpecOverride NatDecFacts.
Import ListNotations.
Open Scope string_scope. Open Scope nat_scope.

Definition tails (key : string) (L : locations) : locations :=
  fold_right (fun e acc => match fst e with t :: ts => if String.eqb key t then (ts, snd e) :: acc else acc | [] => acc end) [] L.
Lemma tails_in key L ts x : In (ts, x) (tails key L) <-> In (key :: ts, x) L.
Proof.
  induction L as [|[us y] L IH]; cbn; [tauto|]. destruct us as [|t us]; cbn.
  - rewrite IH. split; [auto|intros [E|]; [discriminate|auto]].
  - destruct (String.eqb_spec key t) as [->|Hne]; cbn; rewrite IH.
    + split; (intros [E|]; [left; congruence|auto]).
    + split; [auto|intros [E|]; [congruence|auto]].
Qed.

Lemma concat_join l : String.concat "/" l = join "/" l.
Proof. induction l as [|x l IH]; [reflexivity|]. destruct l as [|y l]; [reflexivity|]. rewrite join_cons, <- IH. reflexivity. Qed.

Lemma plain_facts t : plain_token t -> t <> "" /\ contains_char "/" t = false /\ contains_char "~" t = false.
Proof.
  intros [Hn H]. split; [exact Hn|]. split.
  - destruct (contains_char "/" t) eqn:E; [|reflexivity]. apply contains_char_In in E as (a & b & ->). exfalso. apply (proj1 (H a b)). reflexivity.
  - destruct (contains_char "~" t) eqn:E; [|reflexivity]. apply contains_char_In in E as (a & b & ->). exfalso. apply (proj2 (H a b)). reflexivity.
Qed.
Lemma dec1_none s : contains_char "~" s = false -> jp_decode s = s.
Proof.
  rewrite jp_decode_dec1. induction s as [|x s IH]; intros H; [reflexivity|]. cbn [contains_char] in H.
  apply orb_false_iff in H as [Hx H]. destruct s as [|y s]; [reflexivity|]. rewrite dec1_cons. 
  destruct (Ascii.eqb_spec x "~") as [->|]; [discriminate|]. cbn [andb]. f_equal. exact (IH H).
Qed.
Lemma join_notilde l : (forall t, In t l -> plain_token t) -> contains_char "~" (join "/" l) = false.
Proof.
  induction l as [|x l IH]; intros H; [reflexivity|]. destruct l as [|y l].
  - cbn. apply plain_facts, H. now left.
  - rewrite join_cons, !contains_char_app. rewrite IH by (intros; apply H; now right).
    destruct (plain_facts x (H x (or_introl eq_refl))) as (_ & _ & ->). reflexivity.
Qed.
Lemma split_first t ts : plain_token t -> (forall u, In u ts -> plain_token u) ->
  jp_split_max (Some (String.concat "/" (t :: ts))) (Some 1) =
  match ts with [] => [t] | _ => [t; String.concat "/" ts] end.
Proof.
  intros Ht Hts. rewrite !concat_join. destruct (plain_facts t Ht) as (Hn & Hs & Hd).
  assert (Hne : join "/" (t :: ts) <> "").
  { destruct ts; [exact Hn|]. rewrite join_cons. intros E. apply sapp_eq_nil in E as [E _]. auto. }
  rewrite (jp_split_max1 _ Hne). destruct ts as [|u ts].
  - assert (E : find_char "/" t = None) by (now apply find_char_none).
    change (join "/" [t]) with t in *. rewrite E. rewrite dec1_none by assumption. reflexivity.
  - rewrite join_cons. change ("/" ++ join "/" (u :: ts)) with (String "/" (join "/" (u :: ts))).
    rewrite find_char_app_first by assumption. rewrite stake_app_length.
    rewrite dec1_none by assumption. f_equal. f_equal.
    replace (S (String.length t)) with (String.length t + 1) by lia.
    rewrite <- sdrop_sdrop, sdrop_app_length. cbn [sdrop]. rewrite dec1_none; [reflexivity|].
    now apply join_notilde.
Qed.

(** ** the first level of an override map *)
Definition wg_tokens (L : locations) : Prop :=
  forall us x, In (us, x) L -> (forall t, In t us -> plain_token t) /\ truthy_obj x = true.
Definition wg_apart (L : locations) : Prop := ForallOrdPairs (fun a b => apart (fst a) (fst b)) L.
Definition nonempty_locs (L : locations) : Prop := forall us x, In (us, x) L -> us <> [].

Lemma apart_tail k a b : apart (k :: a) (k :: b) -> apart a b.
Proof. intros [H1 H2]. split; intros (r & E); [apply H1|apply H2]; exists r; cbn; congruence. Qed.
Lemma tails_wg key L : wg_tokens L -> wg_apart L -> wg_tokens (tails key L) /\ wg_apart (tails key L).
Proof.
  intros W A. split.
  - intros us x H. apply tails_in in H. destruct (W _ _ H) as [Ht Hx]. split; [intros; apply Ht; now right|exact Hx].
  - clear W. induction A as [|[us x] L F A IH]; [constructor|]. cbn [tails fold_right fst].
    destruct us as [|t us]; [exact IH|]. destruct (String.eqb_spec key t) as [->|]; [|exact IH].
    constructor; [|exact IH]. rewrite Forall_forall in *. intros [vs y] Hy. apply tails_in in Hy. specialize (F _ Hy). cbn [fst snd] in *.
    now apply apart_tail in F.
Qed.

Lemma concat_inj us vs : (forall t, In t us -> plain_token t) -> (forall t, In t vs -> plain_token t) ->
  String.concat "/" us = String.concat "/" vs -> us = vs.
Proof.
  rewrite (concat_join us), (concat_join vs). revert vs. induction us as [|u us IH]; intros [|v vs] Hu Hv E.
  - reflexivity.
  - exfalso. destruct (plain_facts v (Hv v (or_introl eq_refl))) as (Hn & _ & _). destruct vs; [cbn in E; congruence|].
    rewrite join_cons in E. symmetry in E. apply sapp_eq_nil in E as [E _]. auto.
  - exfalso. destruct (plain_facts u (Hu u (or_introl eq_refl))) as (Hn & _ & _). destruct us; [cbn in E; congruence|].
    rewrite join_cons in E. apply sapp_eq_nil in E as [E _]. auto.
  - assert (S : split_char "/" (join "/" (u :: us)) = u :: us).
    { apply (split_join "/"); [discriminate|]. apply Forall_forall. intros t Ht. apply plain_facts. auto. }
    assert (S' : split_char "/" (join "/" (v :: vs)) = v :: vs).
    { apply (split_join "/"); [discriminate|]. apply Forall_forall. intros t Ht. apply plain_facts. auto. }
    rewrite E in S. congruence.
Qed.

Lemma split_override_gen L : wg_tokens L -> wg_apart L -> nonempty_locs L -> forall m,
  (forall key us x, In (key :: us, x) L -> forall rest, In rest (keys (ovr_get key m)) -> rest <> String.concat "/" us) ->
  exists m', foldM (fun m kv =>
           match jp_split_max (Some (fst kv)) (Some 1) with
           | [] => Err PyException
           | [t] => Ok (ovr_insert t "" (snd kv) m)
           | t :: t' :: _ => Ok (ovr_insert t t' (snd kv) m)
           end) (override_of L) m = Ok m' /\
   forall key, ovr_get key m' = (ovr_get key m ++ override_of (tails key L))%list.
Proof.
  induction L as [|[us x] L IH]; intros W A N m Hm.
  - exists m. split; [reflexivity|]. intros key. cbn. now rewrite app_nil_r.
  - assert (Nu := N us x (or_introl eq_refl)). destruct us as [|t us]; [congruence|].
    destruct (W _ _ (or_introl eq_refl)) as [Pt Tx].
    assert (S := split_first t us (Pt t (or_introl eq_refl)) (fun u Hu => Pt u (or_intror Hu))).
    cbn [override_of map foldM fst snd]. fold (override_of L). rewrite S.
    set (rest := String.concat "/" us).
    assert (Step : (match match us with [] => [t] | _ => [t; rest] end with
           | [] => Err PyException
           | [t] => Ok (ovr_insert t "" x m)
           | t :: t' :: _ => Ok (ovr_insert t t' x m)
           end) = Ok (ovr_insert t rest x m)) by (unfold rest; destruct us; reflexivity).
    rewrite Step. cbn [bind].
    assert (Fr : lookup rest (ovr_get t m) = None).
    { apply lookup_none. intros Hin. exact (Hm t us x (or_introl eq_refl) rest Hin eq_refl). }
    assert (G : forall key, ovr_get key (ovr_insert t rest x m) =
                if String.eqb key t then (ovr_get t m ++ [(rest, x)])%list else ovr_get key m).
    { intros key. unfold ovr_insert. unfold ovr_get at 1. rewrite lookup_dict_set. destruct (String.eqb key t) eqn:E; [|reflexivity].
      fold (ovr_get t m). now rewrite dict_set_fresh. }
    inversion A as [|? ? Fa A']; subst.
    destruct (IH (fun a b H => W a b (or_intror H)) A' (fun a b H => N a b (or_intror H)) (ovr_insert t rest x m)) as (m' & Em & Hg).
    { intros key vs y Hy r Hr. rewrite G in Hr. destruct (String.eqb_spec key t) as [->|Hne].
      - unfold keys in Hr. rewrite map_app, in_app_iff in Hr. destruct Hr as [Hr|[<-|[]]].
        + apply (Hm t vs y (or_intror Hy) r Hr).
        + cbn [fst]. unfold rest. intros E. apply concat_inj in E.
          * subst vs. rewrite Forall_forall in Fa. destruct (Fa _ Hy) as [Fa' _]. apply Fa'. exists []. cbn. now rewrite app_nil_r.
          * intros; apply Pt; now right.
          * intros u Hu. apply (proj1 (W _ _ (or_intror Hy))). now right.
      - apply (Hm key vs y (or_intror Hy) r Hr). }
    exists m'. split; [exact Em|]. intros key. rewrite Hg, G. cbn [tails fold_right fst snd]. fold (tails key L).
    destruct (String.eqb_spec key t) as [->|]; [|reflexivity]. cbn [override_of map]. rewrite <- app_assoc. reflexivity.
Qed.
Lemma split_override_tails L : wg_tokens L -> wg_apart L -> nonempty_locs L ->
  exists m, split_override (override_of L) = Ok m /\ forall key, ovr_get key m = override_of (tails key L).
Proof.
  intros W A N. destruct (split_override_gen L W A N []) as (m & E & G).
  - intros key us x _ rest [].
  - exists m. split; [exact E|exact G].
Qed.

(** what a slot is given: nothing, exactly an object, or overrides further down *)
Lemma here_some key L x : wg_tokens L -> wg_apart L -> In ([key], x) L -> ovr_here (override_of (tails key L)) = Some x.
Proof.
  intros W A H. destruct (tails_wg key L W A) as [W' A']. assert (Hin : In ([], x) (tails key L)) by now apply tails_in.
  assert (E : tails key L = [([], x)]).
  { clear -A' Hin. destruct (tails key L) as [|[us y] T]; [destruct Hin|]. inversion A' as [|? ? F A'']; subst. rewrite Forall_forall in F.
    destruct Hin as [E|Hin].
    - injection E as -> ->. destruct T as [|e T]; [reflexivity|]. exfalso. destruct (F e (or_introl eq_refl)) as [F1 _]. apply F1. exists (fst e). reflexivity.
    - exfalso. destruct (F _ Hin) as [_ F1]. apply F1. exists us. reflexivity. }
  rewrite E. cbn. destruct (W _ _ H) as [_ ->]. reflexivity.
Qed.
Lemma here_none key L : wg_tokens L -> wg_apart L -> (forall x, ~ In ([key], x) L) ->
  ovr_here (override_of (tails key L)) = None /\ nonempty_locs (tails key L).
Proof.
  intros W A H. destruct (tails_wg key L W A) as [W' A'].
  assert (N : nonempty_locs (tails key L)).
  { intros us x Hin ->. apply tails_in in Hin. exact (H x Hin). }
  split; [|exact N]. unfold ovr_here. assert (E : lookup "" (override_of (tails key L)) = None); [|now rewrite E].
  apply lookup_none. intros Hin. unfold keys, override_of in Hin. rewrite map_map in Hin. apply in_map_iff in Hin as ([us x] & E & Hin).
  cbn [fst] in E. assert (us = []) as ->; [|exact (N _ _ Hin eq_refl)].
  apply concat_inj; [apply (proj1 (W' _ _ Hin))|intros t []|exact E].
Qed.
Lemma here_dec key (L : locations) : (exists x, In ([key], x) L) \/ (forall x, ~ In ([key], x) L).
Proof.
  induction L as [|[us y] L IH]; [right; intros x []|]. destruct IH as [(x & H)|H]; [left; exists x; now right|].
  destruct us as [|t [|]]; try (right; intros x [E|E]; [discriminate|exact (H x E)]).
  destruct (String.eqb_spec key t) as [->|]; [left; exists y; now left|right; intros x [E|E]; [congruence|exact (H x E)]].
Qed.

(** ** one level of construction with and without overrides *)
Lemma con_list_gen tbl b path m i l es : con_list tbl b path m i l = Ok es ->
  length es = length l /\ forall n x, nth_error l n = Some x -> exists e, nth_error es n = Some e /\ con_slot tbl b path m (nat_dec (i + n)) x = Ok e.
Proof.
  revert i es. induction l as [|x l IH]; intros i es H; rewrite con_list_eq in H.
  - injection H as <-. split; [reflexivity|]. intros [|n] y; discriminate.
  - apply bind_ok in H as (e & He & H). apply bind_ok in H as (es' & H & E). injection E as <-. apply IH in H as [Hl Hn].
    split; [cbn; congruence|]. intros [|n] y Hy; cbn in Hy.
    + injection Hy as <-. exists e. rewrite Nat.add_0_r. auto.
    + rewrite <- plus_n_Sm. apply (Hn n y Hy).
Qed.
Lemma con_map_gen tbl b path m d es : con_map tbl b path m d = Ok es ->
  map fst es = map fst d /\ forall k, match lookup k d with
                                    | Some x => exists e, lookup k es = Some e /\ con_slot tbl b path m k x = Ok e
                                    | None => lookup k es = None
                                    end.
Proof.
  revert es. induction d as [|[k0 x] d IH]; intros es H; rewrite con_map_eq in H.
  - injection H as <-. split; reflexivity.
  - apply bind_ok in H as (e & He & H). apply bind_ok in H as (es' & H & E). injection E as <-. apply IH in H as [Hk Hn].
    split; [cbn; congruence|]. intros k. cbn [lookup]. destruct (String.eqb_spec k k0) as [->|]; [eauto|apply Hn].
Qed.

Lemma within1_obj c p s ks k o : within (OObj c p s ks) [k] o <-> lookup k ks = Some o.
Proof. split; [intros W; inversion W as [|? ? ? ? ? ? ? ? ? W'| |]; subst; inversion W'; subst; assumption|intros; econstructor; [eassumption|constructor]]. Qed.
Lemma within1_list b p es k o : within (OList b p es) [k] o <-> exists i, index_text i k /\ nth_error es i = Some o.
Proof. split; [intros W; inversion W as [| |? ? ? i ? ? ? ? Hi Hn W'|]; subst; inversion W'; subst; eauto|intros (i & ? & ?); econstructor; eauto; constructor]. Qed.
Lemma within1_map b p es k o : within (OMap b p es) [k] o <-> lookup k es = Some o.
Proof. split; [intros W; inversion W as [| | |? ? ? ? ? ? ? ? W']; subst; inversion W'; subst; assumption|intros; econstructor; eauto; constructor]. Qed.
Lemma within1_prim j k o : ~ within (OPrim j) [k] o.
Proof. intros W. inversion W. Qed.
Lemma index_text_inj i i' s : index_text i s -> index_text i' s -> i = i'.
Proof. rewrite !index_text_nat_dec. intros -> E. now apply nat_dec_inj in E. Qed.

Definition declares (tbl : ctable) (o : obj) (k : string) : Prop :=
  exists c cd p s kids ch, o = OObj c p s kids /\ lookup c tbl = Some cd /\ In ch (c_children cd) /\ ch_name ch = k.

Lemma level tbl j b p L o o' : well_declared tbl -> wg_tokens L -> wg_apart L -> nonempty_locs L ->
  construct tbl j b p [] = Ok o -> construct tbl j b p (override_of L) = Ok o' ->
  same_node o o' /\
  forall t,
  (forall x, In ([t], x) L -> (exists o1, within o [t] o1) \/ declares tbl o t -> within o' [t] x) /\
  ((forall x, ~ In ([t], x) L) ->
   (forall o1, within o [t] o1 -> exists j1 b1 o1', construct tbl j1 b1 (sub_path p t) [] = Ok o1 /\ within o' [t] o1'
        /\ construct tbl j1 b1 (sub_path p t) (override_of (tails t L)) = Ok o1') /\
   (forall o1', within o' [t] o1' -> exists o1, within o [t] o1)).
Proof.
  intros Wt W A N C C'. rewrite construct_eq in C, C'. apply bind_ok in C as (k & Hs & C). rewrite Hs in C'. cbn [bind] in C'.
  destruct (split_override_tails L W A N) as (m & Sm & Gm).
  destruct k as [w|c|b'|b'|]; cbn [con_core] in C, C'.
  - injection C as <-. injection C' as <-. split; [constructor|]. intros t.
    split; [intros x _ [(o1 & H)|(? & ? & ? & ? & ? & ? & E & _)]; [exfalso; exact (within1_prim _ _ _ H)|discriminate]|].
    intros _. split; intros o1 H; exfalso; exact (within1_prim _ _ _ H).
  - rewrite split_nil in C. rewrite Sm in C'. cbn [bind] in C, C'. destruct (lookup c tbl) as [cd|] eqn:Ec; [|discriminate].
    apply bind_ok in C as (kids & Ek & E). injection E as <-. apply bind_ok in C' as (kids' & Ek' & E). injection E as <-.
    split; [constructor|]. destruct (declared_nodup cd (Wt c cd Ec)) as (_ & Nc & _). intros t.
    assert (Decl : forall kk o1, con_kids tbl p [] j (c_children cd) = Ok kk \/ con_kids tbl p m j (c_children cd) = Ok kk -> lookup t kk = Some o1 ->
              exists ch, In ch (c_children cd) /\ ch_name ch = t).
    { intros kk o1 Hkk Hl. assert (Hk : In t (map ch_name (c_children cd))).
      { destruct Hkk as [Hkk|Hkk]; (eapply con_kids_keys; [exact Hkk|apply lookup_some_in; eauto]). }
      apply in_map_iff in Hk as (ch & E & Hc). eauto. }
    split.
    + intros x Hx Hd.
      assert (exists ch, In ch (c_children cd) /\ ch_name ch = t) as (ch & Hc & Et).
      { destruct Hd as [(o1 & H)|(c2 & cd2 & p2 & s2 & k2 & ch & E & Ec2 & Hc & Et)].
        - apply within1_obj in H. exact (Decl kids o1 (or_introl Ek) H).
        - injection E as <- _ _ _. rewrite Ec in Ec2. injection Ec2 as <-. eauto. }
      apply within1_obj. assert (El := con_kids_lookup _ _ _ _ _ _ ch Ek' Nc Hc). unfold con_child in El.
      rewrite Gm, Et, (here_some t L x W A Hx) in El. congruence.
    + intros Hno. destruct (here_none t L W A Hno) as [Hh Hne]. split.
      * intros o1 H. apply within1_obj in H. destruct (Decl _ _ (or_introl Ek) H) as (ch & Hc & Et).
        assert (El := con_kids_lookup _ _ _ _ _ _ ch Ek Nc Hc). assert (El' := con_kids_lookup _ _ _ _ _ _ ch Ek' Nc Hc).
        rewrite Et, H in El. rewrite Et in El'. unfold con_child in El, El'. rewrite ovr_get_nil, ovr_here_nil in El. rewrite Gm, Et, Hh in El'.
        destruct j as [| | | | |l|d]; try (apply bind_ok in El as (? & _ & El); discriminate). rewrite Et in El.
        destruct (lookup t d) as [v|] eqn:Ev; [|destruct (ch_required ch); discriminate].
        exists v, (ch_builder ch).
        assert (Cx : construct tbl v (ch_builder ch) (sub_path p t) [] = Ok o1).
        { destruct v; try discriminate; (destruct (construct _ _ _ _ _) as [o2|]; [simpl in El; congruence|discriminate]). }
        assert (exists o1', construct tbl v (ch_builder ch) (sub_path p t) (override_of (tails t L)) = Ok o1' /\ lookup t kids' = Some o1') as (o1' & Cx' & Hl').
        { destruct v; try discriminate; (destruct (construct tbl _ (ch_builder ch) (sub_path p t) (override_of (tails t L))) as [o2|]; [simpl in El'; exists o2; split; [reflexivity|congruence]|discriminate]). }
        exists o1'. rewrite within1_obj. auto.
      * intros o1' H. apply within1_obj in H. destruct (Decl _ _ (or_intror Ek') H) as (ch & Hc & Et).
        assert (El := con_kids_lookup _ _ _ _ _ _ ch Ek Nc Hc). assert (El' := con_kids_lookup _ _ _ _ _ _ ch Ek' Nc Hc).
        rewrite Et, H in El'. rewrite Et in El. unfold con_child in El, El'. rewrite ovr_get_nil, ovr_here_nil in El. rewrite Gm, Et, Hh in El'.
        destruct j as [| | | | |l|d]; try (apply bind_ok in El' as (? & _ & El'); discriminate). rewrite Et in El.
        destruct (lookup t d) as [v|] eqn:Ev; [|destruct (ch_required ch); discriminate].
        assert (exists o1, lookup t kids = Some o1) as (o1 & Hl).
        { destruct v; try discriminate; (destruct (construct tbl _ (ch_builder ch) (sub_path p t) []) as [o2|]; [simpl in El; exists o2; congruence|discriminate]). }
        exists o1. now apply within1_obj.
  - rewrite split_nil in C. rewrite Sm in C'. cbn [bind] in C, C'. destruct j as [| | | | |l|d]; try discriminate.
    apply bind_ok in C as (es & Ee & E). injection E as <-. apply bind_ok in C' as (es' & Ee' & E). injection E as <-.
    apply con_list_gen in Ee as [Hl Hn], Ee' as [Hl' Hn']. split; [constructor; congruence|]. intros t.
    assert (At : forall (es0 : list obj) i (o1 : obj), length es0 = length l -> nth_error es0 i = Some o1 -> exists v, nth_error l i = Some v).
    { intros es0 i o1 Hlen Hi. destruct (nth_error l i) as [v|] eqn:Ev; [eauto|]. apply nth_error_None in Ev.
      assert (nth_error es0 i <> None) as Hx by congruence. apply nth_error_Some in Hx. lia. }
    split.
    + intros x Hx [(o1 & H)|(? & ? & ? & ? & ? & ? & E & _)]; [|discriminate]. apply within1_list in H as (i & Hi & H).
      destruct (At _ _ _ Hl H) as (v & Ev). destruct (Hn' i v Ev) as (e' & He' & Cs). apply within1_list. exists i. split; [exact Hi|].
      apply index_text_nat_dec in Hi as ->. unfold con_slot in Cs. cbn [Nat.add] in Cs. rewrite Gm, (here_some _ L x W A Hx) in Cs. congruence.
    + intros Hno. destruct (here_none t L W A Hno) as [Hh Hne]. split.
      * intros o1 H. apply within1_list in H as (i & Hi & H). destruct (At _ _ _ Hl H) as (v & Ev).
        destruct (Hn i v Ev) as (e & He & Cs). destruct (Hn' i v Ev) as (e' & He' & Cs').
        assert (Et := proj1 (index_text_nat_dec i t) Hi). unfold con_slot in Cs, Cs'. cbn [Nat.add] in Cs, Cs'. rewrite <- Et in Cs, Cs'.
        rewrite ovr_get_nil, ovr_here_nil in Cs. rewrite Gm, Hh in Cs'. exists v, b', e'. rewrite within1_list.
        assert (e = o1) by congruence. subst e. eauto.
      * intros o1' H. apply within1_list in H as (i & Hi & H). destruct (At _ _ _ Hl' H) as (v & Ev).
        destruct (Hn i v Ev) as (e & He & _). exists e. apply within1_list. eauto.
  - rewrite split_nil in C. rewrite Sm in C'. cbn [bind] in C, C'. destruct j as [| | | | |l|d]; try discriminate.
    apply bind_ok in C as (es & Ee & E). injection E as <-. apply bind_ok in C' as (es' & Ee' & E). injection E as <-.
    apply con_map_gen in Ee as [Hl Hn], Ee' as [Hl' Hn']. split; [constructor; congruence|]. intros t. specialize (Hn t). specialize (Hn' t).
    destruct (lookup t d) as [v|] eqn:Ev.
    + destruct Hn as (e & He & Cs), Hn' as (e' & He' & Cs'). split.
      * intros x Hx _. unfold con_slot in Cs'. rewrite Gm, (here_some t L x W A Hx) in Cs'. apply within1_map. congruence.
      * intros Hno. destruct (here_none t L W A Hno) as [Hh Hne]. unfold con_slot in Cs, Cs'. rewrite ovr_get_nil, ovr_here_nil in Cs. rewrite Gm, Hh in Cs'.
        split; [|intros o1' _; exists e; now apply within1_map].
        intros o1 H. apply within1_map in H. assert (o1 = e) by congruence. subst o1. exists v, b', e'. rewrite within1_map. auto.
    + split.
      * intros x Hx [(o1 & H)|(? & ? & ? & ? & ? & ? & E & _)]; [|discriminate]. apply within1_map in H. congruence.
      * intros _. split; intros o1 H; apply within1_map in H; congruence.
  - destruct (override_of L) as [|e l] eqn:EL; [|discriminate]. destruct j; try discriminate. injection C as <-. injection C' as <-.
    split; [constructor|]. intros t.
    split; [intros x _ [(o1 & H)|(? & ? & ? & ? & ? & ? & E & _)]; [exfalso; exact (within1_prim _ _ _ H)|discriminate]|].
    intros _. split; intros o1 H; exfalso; exact (within1_prim _ _ _ H).
Qed.

(** ** whole trees *)
Lemma within_fun o ts : forall a b, within o ts a -> within o ts b -> a = b.
Proof.
  revert o. induction ts as [|t ts IH]; intros o a b Wa Wb.
  - inversion Wa; inversion Wb; subst; reflexivity.
  - inversion Wa as [|? ? ? ? ? ? ? ? Hl W'|? ? ? i ? ? ? ? Hi Hn W'|? ? ? ? ? ? ? Hl W']; subst;
      inversion Wb as [|? ? ? ? ? ? ? ? Hl2 W2|? ? ? i2 ? ? ? ? Hi2 Hn2 W2|? ? ? ? ? ? ? Hl2 W2]; subst.
    + rewrite Hl in Hl2. injection Hl2 as <-. eauto.
    + rewrite (index_text_inj _ _ _ Hi Hi2) in Hn. rewrite Hn in Hn2. injection Hn2 as <-. eauto.
    + rewrite Hl in Hl2. injection Hl2 as <-. eauto.
Qed.
Lemma wg_split L : well_given L -> wg_tokens L /\ wg_apart L /\ nonempty_locs L.
Proof. intros [H A]. split; [|split; [exact A|]]; intros us x Hin; destruct (H us x Hin) as (? & ? & ?); auto. Qed.
Lemma prefix_cons t us ts : prefix (t :: us) (t :: ts) <-> prefix us ts.
Proof. split; intros (r & E); exists r; cbn in *; congruence. Qed.
Lemma apart_empty us : ~ apart us [].
Proof. intros [_ H]. apply H. exists us. reflexivity. Qed.
Lemma tails_apart t ts L : (forall us x, In (us, x) L -> apart us (t :: ts)) -> forall us x, In (us, x) (tails t L) -> apart us ts.
Proof. intros H us x Hin. apply tails_in in Hin. apply H in Hin. now apply apart_tail in Hin. Qed.

Section Tree.
  Context (tbl : ctable) (Wt : well_declared tbl).
  (** nodes above or beside the overrides *)
  Lemma ovr_nodes ts : forall L j b p o o', wg_tokens L -> wg_apart L -> nonempty_locs L ->
    construct tbl j b p [] = Ok o -> construct tbl j b p (override_of L) = Ok o' ->
    (forall us x, In (us, x) L -> ~ prefix us ts) -> forall v, within o ts v -> exists v', within o' ts v' /\ same_node v v'.
  Proof.
    induction ts as [|t ts IH]; intros L j b p o o' W A N C C' Hp v Wv; destruct (level tbl j b p L o o' Wt W A N C C') as [Sn Lv].
    - inversion Wv; subst. exists o'. split; [constructor|exact Sn].
    - apply within_cons_inv in Wv as (o1 & W1 & W2). destruct (Lv t) as [_ Lt].
      assert (Hno : forall x, ~ In ([t], x) L) by (intros x Hx; apply (Hp _ _ Hx); exists ts; reflexivity).
      destruct (Lt Hno) as [Ld _]. destruct (Ld o1 W1) as (j1 & b1 & o1' & C1 & W1' & C1').
      destruct (tails_wg t L W A) as [Wt' At']. destruct (here_none t L W A Hno) as [_ Nt'].
      destruct (IH (tails t L) j1 b1 _ o1 o1' Wt' At' Nt' C1 C1') with (v := v) as (v' & Wv' & S'); [|exact W2|].
      + intros us x Hin Hpre. apply tails_in in Hin. apply (Hp _ _ Hin). now apply prefix_cons.
      + exists v'. split; [exact (within_app _ _ _ _ _ W1' Wv')|exact S'].
  Qed.
  (** places beside all overrides are unchanged *)
  Lemma ovr_outside ts : forall L j b p o o', wg_tokens L -> wg_apart L -> nonempty_locs L ->
    construct tbl j b p [] = Ok o -> construct tbl j b p (override_of L) = Ok o' ->
    (forall us x, In (us, x) L -> apart us ts) -> forall v, within o ts v <-> within o' ts v.
  Proof.
    induction ts as [|t ts IH]; intros L j b p o o' W A N C C' Hp v.
    - destruct L as [|[us x] L]; [|exfalso; exact (apart_empty us (Hp _ _ (or_introl eq_refl)))].
      cbn in C'. rewrite C in C'. injection C' as <-. tauto.
    - destruct (level tbl j b p L o o' Wt W A N C C') as [Sn Lv]. destruct (Lv t) as [_ Lt].
      assert (Hno : forall x, ~ In ([t], x) L) by (intros x Hx; apply (proj1 (Hp _ _ Hx)); exists ts; reflexivity).
      destruct (Lt Hno) as [Ld Lu]. destruct (tails_wg t L W A) as [Wt' At']. destruct (here_none t L W A Hno) as [_ Nt'].
      split; intros Wv; apply within_cons_inv in Wv as (o1 & W1 & W2).
      + destruct (Ld o1 W1) as (j1 & b1 & o1' & C1 & W1' & C1').
        apply (within_app _ [t] _ ts _ W1'). apply (IH (tails t L) j1 b1 _ o1 o1' Wt' At' Nt' C1 C1'); [apply tails_apart; exact Hp|exact W2].
      + destruct (Lu o1 W1) as (o0 & W0). destruct (Ld o0 W0) as (j1 & b1 & o1' & C1 & W1' & C1').
        assert (o1' = o1) by (eapply within_fun; eauto). subst o1'.
        apply (within_app _ [t] _ ts _ W0). apply (IH (tails t L) j1 b1 _ o0 o1 Wt' At' Nt' C1 C1'); [apply tails_apart; exact Hp|exact W2].
  Qed.
  (** the given objects are put at their places *)
  Lemma ovr_inside us : forall L j b p o o', wg_tokens L -> wg_apart L -> nonempty_locs L ->
    construct tbl j b p [] = Ok o -> construct tbl j b p (override_of L) = Ok o' ->
    forall x, In (us, x) L -> place tbl o us -> within o' us x.
  Proof.
    induction us as [|t us IH]; intros L j b p o o' W A N C C' x Hx Pl; [exfalso; exact (N _ _ Hx eq_refl)|].
    destruct (level tbl j b p L o o' Wt W A N C C') as [Sn Lv]. destruct (Lv t) as [Lh Lt].
    destruct us as [|u us].
    - apply Lh; [exact Hx|]. inversion Pl as [? y Wy|vs c cd q s kids ch Wy Ec Hc E]; subst.
      + apply within_cons_inv in Wy as (o1 & W1 & _). eauto.
      + destruct vs as [|v vs]; cbn in E; [|destruct vs; discriminate]. injection E as E. inversion Wy; subst. right. unfold declares. eauto 12.
    - assert (Hno : forall y, ~ In ([t], y) L).
      { intros y Hy. clear -A Hx Hy. induction A as [|e L F A IHA]; [destruct Hx|]. rewrite Forall_forall in F.
        destruct Hx as [->|Hx], Hy as [Ey|Hy]; [discriminate| | |auto].
        - destruct (F _ Hy) as [_ H]. apply H. exists (u :: us). reflexivity.
        - subst e. destruct (F _ Hx) as [H _]. apply H. exists (u :: us). reflexivity. }
      destruct (Lt Hno) as [Ld _]. destruct (tails_wg t L W A) as [Wt' At']. destruct (here_none t L W A Hno) as [_ Nt'].
      assert (exists o1, within o [t] o1 /\ place tbl o1 (u :: us)) as (o1 & W1 & P1).
      { inversion Pl as [? y Wy|vs c cd q s kids ch Wy Ec Hc E]; subst.
        - apply within_cons_inv in Wy as (o1 & W1 & W2). exists o1. split; [exact W1|]. econstructor; eauto.
        - destruct vs as [|v vs]; cbn in E; [discriminate|]. injection E as -> E.
          apply within_cons_inv in Wy as (o1 & W1 & W2). exists o1. split; [exact W1|]. rewrite <- E. eapply pl_child; eauto. }
      destruct (Ld o1 W1) as (j1 & b1 & o1' & C1 & W1' & C1').
      apply (within_app _ [t] _ (u :: us) _ W1').
      eapply (IH (tails t L) j1 b1 _ o1 o1'); eauto. now apply tails_in.
  Qed.
End Tree.

(** overrides at existing places never make construction fail *)
Lemma place_down tbl o t us o1 : place tbl o (t :: us) -> us <> [] -> within o [t] o1 -> place tbl o1 us.
Proof.
  intros Pl Hn W1. inversion Pl as [? y Wy|vs c cd q s kids ch Wy Ec Hc E]; subst.
  - apply within_cons_inv in Wy as (o2 & W2 & W3). rewrite (within_fun _ _ _ _ W1 W2). econstructor; eauto.
  - destruct vs as [|v vs]; cbn in E; [congruence|]. injection E as -> E. apply within_cons_inv in Wy as (o2 & W2 & W3).
    rewrite (within_fun _ _ _ _ W1 W2). rewrite <- E. eapply pl_child; eauto.
Qed.
Lemma con_list_total_gen tbl b path m i l :
  (forall n x, nth_error l n = Some x -> exists e, con_slot tbl b path m (nat_dec (i + n)) x = Ok e) -> exists es, con_list tbl b path m i l = Ok es.
Proof.
  revert i. induction l as [|x l IH]; intros i H; rewrite con_list_eq; [eauto|].
  destruct (H 0 x eq_refl) as (e & E). rewrite Nat.add_0_r in E. rewrite E. cbn [bind].
  destruct (IH (S i)) as (es & ->); [|cbn; eauto]. intros n y Hy. destruct (H (S n) y Hy) as (e' & E'). rewrite <- plus_n_Sm in E'. eauto.
Qed.
Lemma con_map_total_gen tbl b path m d :
  (forall k x, In (k, x) d -> exists e, con_slot tbl b path m k x = Ok e) -> exists es, con_map tbl b path m d = Ok es.
Proof.
  induction d as [|[k x] d IH]; intros H; rewrite con_map_eq; [eauto|]. destruct (H k x (or_introl eq_refl)) as (e & ->). cbn [bind].
  destruct IH as (es & ->); [|cbn; eauto]. intros; apply H; now right.
Qed.
Lemma ovr_total tbl : well_declared tbl -> forall j L b p o, wf_json j -> wg_tokens L -> wg_apart L -> nonempty_locs L ->
  construct tbl j b p [] = Ok o -> (forall us x, In (us, x) L -> place tbl o us) ->
  exists o', construct tbl j b p (override_of L) = Ok o'.
Proof.
  intros Wt j. induction j as [j IH] using json_part_ind. intros L b p o Wf W A N C Pl.
  rewrite construct_eq in C. rewrite construct_eq. apply bind_ok in C as (k & Hs & C). rewrite Hs. cbn [bind].
  destruct (split_override_tails L W A N) as (m & Sm & Gm).
  assert (Sub : forall x b1 p1 t o1, part x j -> construct tbl x b1 p1 [] = Ok o1 -> within o [t] o1 -> ovr_here (ovr_get t m) = None ->
            exists e, construct tbl x b1 p1 (ovr_get t m) = Ok e).
  { intros x b1 p1 t o1 Hx C1 W1 Hh. rewrite Gm. destruct (tails_wg t L W A) as [Wt' At'].
    destruct (here_dec t L) as [(y & Hy)|Hno]; [rewrite Gm, (here_some t L y W A Hy) in Hh; discriminate|].
    destruct (here_none t L W A Hno) as [_ Nt']. eapply IH; eauto using wf_part.
    intros us y Hy. eapply place_down; [|eapply Nt'; eauto|exact W1]. apply tails_in in Hy. eapply Pl; eauto. }
  destruct k as [w|c|b'|b'|]; cbn [con_core] in *.
  - eauto.
  - rewrite Sm. rewrite split_nil in C. cbn [bind] in *. destruct (lookup c tbl) as [cd|] eqn:Ec; [|discriminate].
    apply bind_ok in C as (kids & Ek & E). injection E as <-. destruct (declared_nodup cd (Wt c cd Ec)) as (_ & Nc & _).
    destruct (con_kids_total tbl p m j (c_children cd)) as (kids' & ->); [|cbn; eauto].
    intros ch Hc. assert (El := con_kids_lookup _ _ _ _ _ _ ch Ek Nc Hc). unfold con_child in *. rewrite ovr_get_nil, ovr_here_nil in El.
    destruct (ovr_here (ovr_get (ch_name ch) m)) as [e|] eqn:Eh; [eauto|].
    destruct j as [| | | | |l|d]; try (apply bind_ok in El as (? & -> & _); cbn; eauto).
    destruct (lookup (ch_name ch) d) as [v|] eqn:Ev; [|eauto].
    assert (P : part v (JDict d)) by (apply lookup_In in Ev; cbn; eauto).
    destruct v; eauto;
      (destruct (construct tbl _ (ch_builder ch) (sub_path p (ch_name ch)) []) as [o1|] eqn:C1; [|discriminate]; cbn in El;
       destruct (Sub _ _ _ _ _ P C1 (proj2 (within1_obj c p (JDict d) kids (ch_name ch) o1) ltac:(congruence)) Eh) as (e & ->); cbn; eauto).
  - rewrite Sm. rewrite split_nil in C. cbn [bind] in *. destruct j as [| | | | |l|d]; try discriminate.
    apply bind_ok in C as (es & Ee & E). injection E as <-. apply con_list_gen in Ee as [Hl Hn].
    destruct (con_list_total_gen tbl b' p m 0 l) as (es' & ->); [|cbn; eauto].
    intros n x Hx. destruct (Hn n x Hx) as (e & He & Cs). unfold con_slot in *. rewrite ovr_get_nil, ovr_here_nil in Cs.
    destruct (ovr_here (ovr_get (nat_dec (0 + n)) m)) eqn:Eh; [eauto|].
    eapply (Sub x b' _ _ e); [cbn; now apply nth_error_In in Hx|exact Cs| |exact Eh].
    apply within1_list. exists n. split; [now apply index_text_nat_dec|exact He].
  - rewrite Sm. rewrite split_nil in C. cbn [bind] in *. destruct j as [| | | | |l|d]; try discriminate.
    apply bind_ok in C as (es & Ee & E). injection E as <-. apply con_map_gen in Ee as [Hl Hn].
    destruct (con_map_total_gen tbl b' p m d) as (es' & ->); [|cbn; eauto].
    intros k x Hx. specialize (Hn k). rewrite wf_dict in Wf. rewrite (lookup_nodup k d x (proj1 Wf) Hx) in Hn.
    destruct Hn as (e & He & Cs). unfold con_slot in *. rewrite ovr_get_nil, ovr_here_nil in Cs.
    destruct (ovr_here (ovr_get k m)) eqn:Eh; [eauto|].
    eapply (Sub x b' _ _ e); [cbn; eauto|exact Cs| |exact Eh]. now apply within1_map.
  - destruct j; try discriminate. injection C as <-. destruct L as [|[us x] L]; [cbn; eauto|]. exfalso.
    specialize (Pl us x (or_introl eq_refl)). assert (Nu := N us x (or_introl eq_refl)).
    inversion Pl as [? y Wy|vs c cd q s' kids ch Wy Ec Hc E]; subst; inversion Wy; subst; auto.
Qed.
