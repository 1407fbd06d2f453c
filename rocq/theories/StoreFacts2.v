(** Proofs about the object store: isolation, collecting, relocation of a store, newest version. *)
From Coq Require Import String Ascii List Bool Arith Lia.
From Verif Require Import PyStr PyStrFacts PyVal PyValFacts Jp JpFacts Store SpecStore StoreFacts.
Import ListNotations.
Open Scope string_scope. Open Scope nat_scope.

Lemma lookup_const {A} (x : A) v vs : In v vs -> lookup v (map (fun w => (w, x)) vs) = Some x.
Proof. induction vs as [|w vs IH]; intros []; cbn; [subst; now rewrite String.eqb_refl|]. destruct (String.eqb v w); auto. Qed.
Section Objs.
  Context {O : Type}.
  Variable is_base : O -> bool.
  Notation run_op := (run_op is_base).
  Notation run_ops := (run_ops is_base).
  Notation touches := (touches is_base).
  Notation live := (live is_base).

  (** ** isolation *)
  Lemma run_op_other_url (s : store O) p u : about u p = false -> lookup u (s_objs (run_op s p)) = lookup u (s_objs s).
  Proof.
    destruct p as [o u' jp v|u' jp v r|u' t rs]; cbn [about Store.run_op]; intros H.
    - unfold store_set. destruct (is_base o); [|reflexivity]. cbn [s_objs]. rewrite ds_lookup. now rewrite H.
    - unfold store_get_under. destruct (r && negb (truthy_str jp)); [reflexivity|]. destruct (lookup u' (s_objs s)) as [[|? ?]|]; [reflexivity| |reflexivity].
      destruct r; [|reflexivity]. cbn [fst s_objs]. rewrite ds_lookup. now rewrite H.
    - unfold store_update_routes. now destruct (lookup t _).
  Qed.
  Lemma run_op_same_url (s s' : store O) p u : about u p = true -> lookup u (s_objs s) = lookup u (s_objs s') ->
    lookup u (s_objs (run_op s p)) = lookup u (s_objs (run_op s' p)).
  Proof.
    destruct p as [o u' jp v|u' jp v r|u' t rs]; cbn [about Store.run_op]; intros H E; [| |discriminate]; apply String.eqb_eq in H; subst u'.
    - unfold store_set. destruct (is_base o); [|exact E]. cbn [s_objs]. rewrite !ds_lookup. rewrite String.eqb_refl. unfold sub. now rewrite E.
    - unfold store_get_under. destruct (r && negb (truthy_str jp)); [exact E|]. rewrite E. destruct (lookup u (s_objs s')) as [[|? ?]|] eqn:E'; cbn [fst]; [congruence| |congruence].
      destruct r; [|congruence]. cbn [s_objs]. rewrite !ds_lookup. now rewrite String.eqb_refl.
  Qed.
  Lemma run_filter_url ps u : forall s s' : store O, lookup u (s_objs s) = lookup u (s_objs s') ->
    lookup u (s_objs (fold_left run_op ps s)) = lookup u (s_objs (fold_left run_op (filter (about u) ps) s')).
  Proof.
    induction ps as [|p ps IH]; intros s s' E; [exact E|]. cbn [fold_left filter]. destruct (about u p) eqn:A.
    - cbn [fold_left]. apply IH. now apply run_op_same_url.
    - apply IH. now rewrite run_op_other_url.
  Qed.
  Lemma get_other_urls (resolve_o : O -> list string -> res O) vs ps u jp v : store_get resolve_o (run_ops vs ps) u jp v = store_get resolve_o (run_ops vs (filter (about u) ps)) u jp v.
  Proof. unfold Store.store_get, sub, Store.run_ops. now rewrite (run_filter_url ps u (new_store vs) (new_store vs) eq_refl). Qed.

  Lemma touches_about p u jp v : touches p u jp v -> about_version u v p = true.
  Proof.
    destruct p as [o u' q v'|u' q v' []|u' t rs]; cbn; try tauto.
    - intros (-> & _ & -> & _). now rewrite !String.eqb_refl.
    - intros (-> & -> & _). now rewrite !String.eqb_refl.
  Qed.
  Lemma touches_dec p u jp v : {touches p u jp v} + {~ touches p u jp v}.
  Proof.
    destruct p as [o u' q v'|u' q v' []|u' t rs]; cbn [SpecStore.touches]; [| |now right|now right].
    - destruct (string_dec u' u) as [->|]; [|right; tauto]. destruct (string_dec q jp) as [->|]; [|right; tauto]. destruct (string_dec v' v) as [->|]; [|right; tauto].
      destruct (is_base o); [left; auto|right; intros (_ & _ & _ & ?); discriminate].
    - destruct (string_dec u' u) as [->|]; [|right; tauto]. destruct (string_dec v' v) as [->|]; [|right; tauto]. destruct (string_dec q "") as [->|]; [right; tauto|].
      destruct (startswith q jp) eqn:E; [left; repeat split; auto; now apply prefix_startswith|right; apply prefix_startswith_false in E; tauto].
  Qed.
  Lemma live_filter ps u jp v o (f : store_op O -> bool) : (forall p, touches p u jp v -> f p = true) ->
    live (filter f ps) u jp v o <-> live ps u jp v o.
  Proof.
    intros Hf. induction ps as [|p ps IH] using rev_ind; [reflexivity|]. rewrite filter_app. cbn [filter]. destruct (f p) eqn:E.
    - rewrite !live_snoc. now rewrite IH.
    - rewrite app_nil_r, live_snoc, IH. split; [|intros [[-> B]|[H _]]; [|exact H]].
      + intros H. right. split; [exact H|]. intros T. apply Hf in T. congruence.
      + rewrite Hf in E; [discriminate|]. cbn. auto.
  Qed.
  Lemma get_other_versions (resolve_o : O -> list string -> res O) vs ps u jp v :
    (forall p p' o o', live ps u p v o -> live ps u p' v o' -> prefix_of p jp -> prefix_of p' jp -> p = p') ->
    store_get resolve_o (run_ops vs ps) u jp v = store_get resolve_o (run_ops vs (filter (about_version u v) ps)) u jp v.
  Proof.
    intros U. set (qs := filter (about_version u v) ps).
    assert (E : forall p o, live qs u p v o <-> live ps u p v o) by (intros p o; apply live_filter; intros q; apply touches_about).
    destruct (first_match jp v (sub u (s_objs (run_ops vs ps)))) as [[p o]|] eqn:F.
    - apply first_match_some in F as [[rest ->] L]; [|apply good_sub, run_ops_good]. apply live_sub in L.
      rewrite (get_only is_base resolve_o vs ps u p rest v o L), (get_only is_base resolve_o vs qs u p rest v o); [reflexivity|now apply E| |].
      + intros p' o' L' P. apply E in L'. apply (U p' p o' o); auto. now exists rest.
      + intros p' o' L' P. apply (U p' p o' o); auto. now exists rest.
    - assert (N : forall p o, live ps u p v o -> ~ prefix_of p jp).
      { intros p o L P. apply live_sub with (vs := vs) in L. now apply (first_match_none _ _ _ F p o P) in L. }
      rewrite (get_none is_base resolve_o vs ps u jp v N), (get_none is_base resolve_o vs qs u jp v); [reflexivity|]. intros p o L. apply E in L. now apply N with o.
  Qed.
  Lemma get_none_iff (resolve_o : O -> list string -> res O) vs ps u jp v : (forall o ts, exists r, resolve_o o ts = Ok r) ->
    (store_get resolve_o (run_ops vs ps) u jp v = Ok None <-> forall p o, live ps u p v o -> ~ prefix_of p jp).
  Proof.
    intros T. split; [|apply get_none]. intros H p o L P.
    destruct (get_some is_base resolve_o vs ps u jp v) as (p' & o' & rest & _ & _ & E); [eauto|]. rewrite E in H.
    destruct (T o' (tl (jp_split rest))) as [r Hr]. rewrite Hr in H. discriminate.
  Qed.
  Lemma live_set ps u p v o o' : is_base o' = true -> (live (ps ++ [SetOp o' u p v])%list u p v o <-> o = o').
  Proof.
    intros B. rewrite live_snoc. split.
    - intros [[[= ->] _]|[_ N]]; [reflexivity|]. exfalso. apply N. cbn. auto.
    - intros ->. auto.
  Qed.
  Lemma live_set_other ps u p v u' p' v' o o' : (u', p', v') <> (u, p, v) -> (live (ps ++ [SetOp o' u p v])%list u' p' v' o <-> live ps u' p' v' o).
  Proof.
    intros N. rewrite live_snoc. cbn [SpecStore.touches]. split.
    - intros [[[= -> -> -> ->] _]|[H _]]; [congruence|exact H].
    - intros H. right. split; [exact H|]. intros (-> & -> & -> & _). congruence.
  Qed.

  (** ** collecting *)
  Definition put_under (jp v : string) (ret : list (string * O)) (pc : string * list (string * O)) : list (string * O) :=
    if startswith jp (fst pc) then
      match lookup v (snd pc) with
      | Some o => dict_set (sdrop (String.length jp + 1) (fst pc)) o ret
      | None => ret
      end
    else ret.
  Lemma under_fold jp v uc : under jp v uc = fold_left (put_under jp v) uc [].
  Proof. reflexivity. Qed.
  Lemma under_in jp v uc ret k o : lookup k (fold_left (put_under jp v) uc ret) = Some o ->
    (exists p pc, In (p, pc) uc /\ prefix_of jp p /\ lookup v pc = Some o /\ k = sdrop (String.length jp + 1) p) \/ lookup k ret = Some o.
  Proof.
    revert ret; induction uc as [|[p pc] uc IH]; intros ret H; [now right|]. cbn [fold_left] in H. apply IH in H as [(q & qc & H1 & H2)|H].
    - left. exists q, qc. split; [now right|exact H2].
    - unfold put_under in H. cbn [fst snd] in H. destruct (startswith jp p) eqn:P; [|now right]. destruct (lookup v pc) as [o'|] eqn:L; [|now right].
      rewrite ds_lookup in H. destruct (String.eqb_spec (sdrop (String.length jp + 1) p) k) as [<-|]; [|now right]. injection H as ->.
      left. exists p, pc. split; [now left|]. split; [now apply prefix_startswith|]. auto.
  Qed.
  Lemma under_keep jp v uc ret k : (exists o, lookup k ret = Some o) -> exists o, lookup k (fold_left (put_under jp v) uc ret) = Some o.
  Proof.
    revert ret; induction uc as [|[p pc] uc IH]; intros ret H; [exact H|]. cbn [fold_left]. apply IH. unfold put_under. cbn [fst snd].
    destruct (startswith jp p); [|exact H]. destruct (lookup v pc) as [o'|]; [|exact H]. rewrite ds_lookup. destruct (String.eqb _ k); eauto.
  Qed.
  Lemma under_all jp v uc p pc o : In (p, pc) uc -> prefix_of jp p -> lookup v pc = Some o ->
    forall ret, exists o', lookup (sdrop (String.length jp + 1) p) (fold_left (put_under jp v) uc ret) = Some o'.
  Proof.
    induction uc as [|[q qc] uc IH]; intros H P L ret; [destruct H|]. cbn [fold_left]. destruct H as [[= -> ->]|H]; [|now apply IH].
    apply under_keep. unfold put_under. cbn [fst snd]. apply prefix_startswith in P. rewrite P, L. rewrite ds_lookup, String.eqb_refl. eauto.
  Qed.
  Lemma live_in vs ps u p v o : live ps u p v o <->
    exists pc, In (p, pc) (sub u (s_objs (run_ops vs ps))) /\ lookup v pc = Some o.
  Proof.
    rewrite <- (live_sub is_base vs ps u p v o). assert (G := good_sub (run_ops vs ps) u (run_ops_good is_base vs ps)). destruct G as [N _]. split.
    - intros H. unfold sub at 1 in H. destruct (lookup p (sub u (s_objs (run_ops vs ps)))) as [pc|] eqn:L; [|discriminate]. exists pc. split; [now apply lookup_In|exact H].
    - intros (pc & H & L). unfold sub at 1. now rewrite (lookup_nodup _ _ _ N H).
  Qed.
  (** nothing was ever stored for the url *)
  Lemma cache_none vs ps u : (forall o jp v, is_base o = true -> ~ In (SetOp o u jp v) ps) -> sub u (s_objs (run_ops vs ps)) = [].
  Proof.
    intros H. induction ps as [|p ps IH] using rev_ind; [reflexivity|]. rewrite run_ops_snoc.
    assert (E : sub u (s_objs (run_ops vs ps)) = []). { apply IH. intros o jp v B Hi. apply (H o jp v B). apply in_or_app. now left. }
    destruct p as [o u' jp v|u' jp v r|u' t rs]; cbn [Store.run_op].
    - unfold store_set. destruct (is_base o) eqn:B; [|exact E]. cbn [s_objs]. unfold sub at 1. rewrite ds_lookup. destruct (String.eqb_spec u' u) as [->|]; [|exact E].
      exfalso. apply (H o jp v B). apply in_or_app. right. now left.
    - unfold store_get_under. destruct (r && negb (truthy_str jp)); [exact E|]. destruct (lookup u' (s_objs (run_ops vs ps))) as [[|pc uc]|] eqn:L; [exact E| |exact E].
      destruct r; [|exact E]. cbn [fst s_objs]. unfold sub at 1. rewrite ds_lookup. destruct (String.eqb_spec u' u) as [->|]; [|exact E].
      unfold sub in E. rewrite L in E. discriminate.
    - unfold store_update_routes. now destruct (lookup t _).
  Qed.
  Lemma cache_some vs ps u o jp v : is_base o = true -> In (SetOp o u jp v) ps -> sub u (s_objs (run_ops vs ps)) <> [].
  Proof.
    intros B. assert (K : forall p s, sub u (s_objs s) <> [] -> sub u (s_objs (run_op s p)) <> []).
    { intros p s Hn. destruct p as [o' u' jp' v'|u' jp' v' r|u' t rs]; cbn [Store.run_op].
      - unfold store_set. destruct (is_base o'); [|exact Hn]. cbn [s_objs]. unfold sub at 1. rewrite ds_lookup. destruct (String.eqb_spec u' u) as [->|]; [|exact Hn].
        destruct (sub u (s_objs s)) as [|[q qc] d]; cbn; [discriminate|]. destruct (jp' =? q)%string; discriminate.
      - unfold store_get_under. destruct (r && negb (truthy_str jp')); [exact Hn|]. destruct (lookup u' (s_objs s)) as [[|pc uc]|] eqn:L; [exact Hn| |exact Hn].
        destruct r; [|exact Hn]. cbn [fst s_objs]. unfold sub at 1. rewrite ds_lookup. destruct (String.eqb_spec u' u) as [->|]; [|exact Hn]. discriminate.
      - unfold store_update_routes. now destruct (lookup t _). }
    induction ps as [|p ps IH] using rev_ind; [intros []|]. intros H. rewrite run_ops_snoc. apply in_app_or in H as [H|[->|[]]]; [now apply K, IH|].
    cbn [Store.run_op]. unfold store_set. rewrite B. cbn [s_objs]. unfold sub at 1. rewrite ds_lookup, String.eqb_refl.
    destruct (sub u (s_objs (run_ops vs ps))) as [|[q qc] d]; cbn; [discriminate|]. destruct (jp =? q)%string; discriminate.
  Qed.
  Lemma get_under_sub (s : store O) u jp v r : (r = true -> jp <> "") ->
    snd (store_get_under s u jp v r) = Ok (match sub u (s_objs s) with [] => None | uc => Some (under jp v uc) end).
  Proof.
    intros H. unfold store_get_under. assert (E : r && negb (truthy_str jp) = false).
    { destruct r; [|reflexivity]. cbn [andb]. apply negb_false_iff, truthy_str_true. now apply H. }
    rewrite E. unfold sub. destruct (lookup u (s_objs s)) as [[|? ?]|]; reflexivity.
  Qed.
  Lemma under_none vs ps u jp v r : (r = true -> jp <> "") ->
    (snd (store_get_under (run_ops vs ps) u jp v r) = Ok None <-> forall o jp' v', is_base o = true -> ~ In (SetOp o u jp' v') ps).
  Proof.
    intros H. rewrite get_under_sub by exact H. split.
    - intros E o jp' v' B Hi. apply (cache_some vs) in Hi; [|exact B]. destruct (sub u _) as [|x y]; [congruence|]. inversion E.
    - intros N. now rewrite (cache_none vs ps u N).
  Qed.
  Lemma under_found vs ps u jp v r ret : (r = true -> jp <> "") ->
    snd (store_get_under (run_ops vs ps) u jp v r) = Ok (Some ret) ->
    (forall k o, lookup k ret = Some o -> exists p, live ps u p v o /\ prefix_of jp p /\ k = sdrop (String.length jp + 1) p) /\
    (forall p o, live ps u p v o -> prefix_of jp p -> exists o', lookup (sdrop (String.length jp + 1) p) ret = Some o').
  Proof.
    intros H. rewrite get_under_sub by exact H. intros E. assert (E' : ret = under jp v (sub u (s_objs (run_ops vs ps)))).
    { destruct (sub u _) as [|x y] eqn:Es; [discriminate|]. now injection E as <-. }
    subst ret. rewrite under_fold. split.
    - intros k o L. apply under_in in L as [(p & pc & H1 & H2 & H3 & H4)|L]; [|discriminate]. exists p. split; [|auto]. apply (live_in vs). eauto.
    - intros p o L P. apply (live_in vs) in L as (pc & H1 & H2). now apply under_all with pc o.
  Qed.
  Lemma under_exact vs ps u jp v r ret : (r = true -> jp <> "") ->
    (forall p p' o o', live ps u p v o -> live ps u p' v o' -> prefix_of jp p -> prefix_of jp p' ->
       sdrop (String.length jp + 1) p = sdrop (String.length jp + 1) p' -> p = p') ->
    snd (store_get_under (run_ops vs ps) u jp v r) = Ok (Some ret) ->
    forall k o, lookup k ret = Some o <-> exists p, live ps u p v o /\ prefix_of jp p /\ k = sdrop (String.length jp + 1) p.
  Proof.
    intros H I E k o. destruct (under_found vs ps u jp v r ret H E) as [H1 H2]. split; [apply H1|].
    intros (p & L & P & ->). destruct (H2 p o L P) as [o' L']. destruct (H1 _ _ L') as (p' & L2 & P2 & E2).
    assert (p = p') by (apply (I p p' o o'); auto). subst p'. rewrite (live_fun is_base ps u p v o o' L L2). exact L'.
  Qed.
  Lemma under_keys vs ps u jp v r ret : (r = true -> jp <> "") ->
    (forall p o, live ps u p v o -> prefix_of jp p -> exists k, p = (jp ++ "/" ++ k)%string) ->
    snd (store_get_under (run_ops vs ps) u jp v r) = Ok (Some ret) ->
    forall k o, lookup k ret = Some o <-> live ps u (jp ++ "/" ++ k)%string v o.
  Proof.
    intros H B E k o. assert (D : forall x, sdrop (String.length jp + 1) (jp ++ "/" ++ x)%string = x).
    { intros x. rewrite <- sapp_assoc. apply sdrop_join_app. rewrite slength_app. reflexivity. }
    rewrite (under_exact vs ps u jp v r ret H); [| |exact E].
    - split.
      + intros (p & L & P & ->). destruct (B p o L P) as [k' ->]. now rewrite D.
      + intros L. exists (jp ++ "/" ++ k)%string. split; [exact L|]. split; [now exists ("/" ++ k)%string|]. now rewrite D.
    - intros p p' o1 o2 L1 L2 P1 P2. destruct (B p o1 L1 P1) as [k1 ->], (B p' o2 L2 P2) as [k2 ->]. rewrite !D. now intros ->.
  Qed.
  Lemma entry_after_under vs ps u jp v u' p' v' o : jp <> "" ->
    (entry (fst (store_get_under (run_ops vs ps) u jp v true)) u' p' v' = Some o <->
     live ps u' p' v' o /\ ~ (u' = u /\ v' = v /\ prefix_of jp p')).
  Proof.
    intros H. change (fst (store_get_under (run_ops vs ps) u jp v true)) with (run_op (run_ops vs ps) (UnderOp u jp v true)).
    rewrite <- run_ops_snoc, entry_live, live_snoc. cbn [SpecStore.touches]. split.
    - intros [[[=] _]|[L N]]. split; [exact L|]. intros (-> & -> & P). apply N. auto.
    - intros [L N]. right. split; [exact L|]. intros (-> & -> & _ & P). apply N. auto.
  Qed.
  Lemma under_no_remove (s : store O) u jp v : fst (store_get_under s u jp v false) = s.
  Proof. unfold store_get_under. cbn [andb]. destruct (lookup u (s_objs s)) as [[|? ?]|]; reflexivity. Qed.

  (** ** relocation of a store *)
  Lemma routes_keys vs ps u ur : NoDup vs -> lookup u (s_routes (run_ops vs ps)) = Some ur -> keys ur = vs.
  Proof.
    intros N. assert (V : s_versions (run_ops vs ps) = vs).
    { induction ps as [|p ps IH] using rev_ind; [reflexivity|]. rewrite run_ops_snoc. destruct p as [o u' jp v|u' jp v r|u' t rs]; cbn [Store.run_op].
      - unfold store_set. now destruct (is_base o).
      - unfold store_get_under. destruct (r && _); [exact IH|]. destruct (lookup u' _) as [[|? ?]|]; [exact IH| |exact IH]. now destruct r.
      - unfold store_update_routes. now destruct (lookup t _). }
    revert ur; induction ps as [|p ps IH] using rev_ind; intros ur; [discriminate|].
    rewrite run_ops_snoc in *. destruct p as [o u' jp v|u' jp v r|u' t rs]; cbn [Store.run_op] in *.
    - unfold store_set in *. destruct (is_base o); cbn [s_routes s_versions] in *; now apply IH.
    - unfold store_get_under in *. destruct (r && _); [now apply IH|]. destruct (lookup u' (s_objs _)) as [[|? ?]|]; [now apply IH| |now apply IH].
      destruct r; cbn [fst s_routes s_versions] in *; now apply IH.
    - unfold store_update_routes in *.
      set (ur0 := match lookup u' (s_routes (run_ops vs ps)) with Some ur => ur | None => _ end) in *.
      assert (V' : s_versions (run_ops vs ps) = vs) by (destruct (lookup t ur0); exact V).
      assert (K0 : u' = u -> keys ur0 = vs).
      { intros ->. unfold ur0. destruct (lookup u (s_routes (run_ops vs ps))) as [ur1|] eqn:L; [now apply IH|]. rewrite V'. clear -N.
        assert (G : forall (l : list string) (d : list (string * routes)), NoDup (keys d ++ l) -> keys (dict_update d (map (fun v => (v, [])) l)) = (keys d ++ l)%list).
        { induction l as [|x l IH]; intros d H; [now rewrite app_nil_r|]. cbn [map]. unfold dict_update. cbn [fold_left fst snd]. change (fold_left _ (map _ l) ?d') with (dict_update d' (map (fun v => (v, @nil (string * target))) l)).
          assert (F : mem x d = false). { apply mem_false. intros Hi. apply NoDup_remove_2 in H. apply H, in_or_app. now left. }
          rewrite IH; rewrite keys_dict_set, F; [now rewrite <- app_assoc|rewrite <- app_assoc; exact H]. }
        apply (G vs []). exact N. }
      destruct (lookup t ur0) as [m|] eqn:Lt; cbn [fst s_routes] in *.
      + rewrite ds_lookup. destruct (String.eqb_spec u' u) as [Eu|]; [|now apply IH]. intros [= <-]. rewrite keys_dict_set.
        assert (M : mem t ur0 = true) by (unfold mem; now rewrite Lt). rewrite M. now apply K0.
      + rewrite ds_lookup. destruct (String.eqb_spec u' u) as [Eu|]; [|now apply IH]. intros [= <-]. now apply K0.
  Qed.
  Lemma relocate_some (s : store O) u ur jp a b : lookup u (s_routes s) = Some ur -> In b (keys ur) -> b <> "" ->
    store_relocate s u jp a (Some b) = (f <- strict_version a ;; t <- strict_version b ;; relocate_loop f t ur jp).
  Proof.
    intros L H Hb. unfold store_relocate. rewrite L. apply truthy_str_true in Hb. rewrite Hb. apply mem_true in H. now rewrite H.
  Qed.
  Lemma version_nonempty v x : strict_version v = Ok x -> v <> "".
  Proof. intros H ->. discriminate. Qed.
  Lemma relocate_no_routes (s : store O) u jp a b : lookup u (s_routes s) = None -> store_relocate s u jp a b = Ok jp.
  Proof. intros H. unfold store_relocate. now rewrite H. Qed.
  Lemma relocate_compose vs ps u jp a b c : ascending vs -> In b vs -> In c vs -> version_le a b -> version_le b c ->
    store_relocate (run_ops vs ps) u jp a (Some c) =
    (jp' <- store_relocate (run_ops vs ps) u jp a (Some b) ;; store_relocate (run_ops vs ps) u jp' b (Some c)).
  Proof.
    intros A Hb Hc (x & y & Hx & Hy & Lxy) (y' & z & Hy' & Hz & Lyz). assert (y' = y) by congruence. subst y'.
    destruct (lookup u (s_routes (run_ops vs ps))) as [ur|] eqn:L.
    - assert (K := routes_keys vs ps u ur (ascending_nodup _ A) L).
      rewrite (relocate_some _ u ur jp a c L), (relocate_some _ u ur jp a b L) by (rewrite ?K; eauto using version_nonempty).
      rewrite Hx, Hy, Hz. cbn [bind]. rewrite (relocate_loop_compose x y z) by (rewrite ?K; assumption).
      destruct (relocate_loop x y ur jp) as [r|e]; [|reflexivity]. cbn [bind].
      rewrite (relocate_some _ u ur r b c L) by (rewrite ?K; eauto using version_nonempty). now rewrite Hy, Hz.
    - rewrite (relocate_no_routes _ u jp a (Some c) L), (relocate_no_routes _ u jp a (Some b) L). cbn [bind]. now rewrite (relocate_no_routes _ u jp b (Some c) L).
  Qed.
  Lemma relocate_back vs ps u jp a b : ascending vs -> In b vs -> version_le b a -> store_relocate (run_ops vs ps) u jp a (Some b) = Ok jp.
  Proof.
    intros A Hb (y & x & Hy & Hx & L). destruct (lookup u (s_routes (run_ops vs ps))) as [ur|] eqn:E.
    - assert (K := routes_keys vs ps u ur (ascending_nodup _ A) E).
      rewrite (relocate_some _ u ur jp a b E) by (rewrite ?K; eauto using version_nonempty). rewrite Hx, Hy. cbn [bind].
      apply relocate_loop_back; [now rewrite K|exact L].
    - now apply relocate_no_routes.
  Qed.
  Lemma relocate_total vs ps u jp a b : ascending vs -> In b vs -> version_le a b -> exists r, store_relocate (run_ops vs ps) u jp a (Some b) = Ok r.
  Proof.
    intros A Hb (x & y & Hx & Hy & L). destruct (lookup u (s_routes (run_ops vs ps))) as [ur|] eqn:E.
    - assert (K := routes_keys vs ps u ur (ascending_nodup _ A) E).
      rewrite (relocate_some _ u ur jp a b E) by (rewrite ?K; eauto using version_nonempty). rewrite Hx, Hy. cbn [bind].
      apply relocate_loop_total. now rewrite K.
    - exists jp. now apply relocate_no_routes.
  Qed.
  Lemma relocate_unknown vs ps u jp a b rs t : NoDup vs -> In (RoutesOp u t rs) ps -> ~ In b vs -> b <> "" ->
    store_relocate (run_ops vs ps) u jp a (Some b) = Err PyException.
  Proof.
    intros N Hi Hb Hne. assert (E : exists ur, lookup u (s_routes (run_ops vs ps)) = Some ur).
    { assert (K : forall p s, (exists ur, lookup u (s_routes s) = Some ur) -> exists ur, lookup u (s_routes (run_op s p)) = Some ur).
      { intros p s Hs. destruct p as [o' u' jp' v'|u' jp' v' r|u' t' rs']; cbn [Store.run_op].
        - unfold store_set. now destruct (is_base o').
        - unfold store_get_under. destruct (r && _); [exact Hs|]. destruct (lookup u' _) as [[|? ?]|]; [exact Hs| |exact Hs]. now destruct r.
        - unfold store_update_routes. destruct (lookup t' _); cbn [fst s_routes]; rewrite ds_lookup; destruct (u' =? u)%string; eauto. }
      clear -K Hi. induction ps as [|p ps IH] using rev_ind; [destruct Hi|]. rewrite run_ops_snoc. apply in_app_or in Hi as [Hi|[->|[]]]; [now apply K, IH|].
      cbn [Store.run_op]. unfold store_update_routes. destruct (lookup t _); cbn [fst s_routes]; rewrite ds_lookup, String.eqb_refl; eauto. }
    destruct E as [ur E]. assert (K := routes_keys vs ps u ur N E). unfold store_relocate. rewrite E. apply truthy_str_true in Hne. rewrite Hne.
    assert (M : mem b ur = false) by (apply mem_false; now rewrite K). now rewrite M.
  Qed.
  Lemma relocate_default (s : store O) u jp a : store_relocate s u jp a None = store_relocate s u jp a (Some "3.0.0").
  Proof. reflexivity. Qed.
  Lemma routes_state vs ps u : NoDup vs ->
    (lookup u (s_routes (run_ops vs ps)) = None /\ (forall t rs, ~ In (RoutesOp u t rs) ps)) \/
    (exists ur, lookup u (s_routes (run_ops vs ps)) = Some ur /\ (exists t rs, In (RoutesOp u t rs) ps) /\
       forall v, In v vs -> lookup v ur = Some (routes_given ps u v)).
  Proof.
    intros N. induction ps as [|p ps IH] using rev_ind; [left; split; [reflexivity|intros ? ? []]|].
    rewrite run_ops_snoc. assert (K := fun ur => routes_keys vs ps u ur N).
    assert (Q : forall t rs u', In (RoutesOp u' t rs) (ps ++ [p])%list <-> In (RoutesOp u' t rs) ps \/ p = RoutesOp u' t rs).
    { intros t rs u'. rewrite in_app_iff. cbn. intuition. }
    assert (V : s_versions (run_ops vs ps) = vs).
    { clear. induction ps as [|p ps IH] using rev_ind; [reflexivity|]. rewrite run_ops_snoc. destruct p as [o u' jp v|u' jp v r|u' t rs]; cbn [Store.run_op].
      - unfold store_set. now destruct (is_base o).
      - unfold store_get_under. destruct (r && _); [exact IH|]. destruct (lookup u' _) as [[|? ?]|]; [exact IH| |exact IH]. now destruct r.
      - unfold store_update_routes. now destruct (lookup t _). }
    assert (Skip : s_routes (run_op (run_ops vs ps) p) = s_routes (run_ops vs ps) -> (forall u' t rs, p <> RoutesOp u' t rs) -> (lookup u (s_routes (run_op (run_ops vs ps) p)) = None /\ (forall t rs, ~ In (RoutesOp u t rs) (ps ++ [p])%list)) \/
      (exists ur, lookup u (s_routes (run_op (run_ops vs ps) p)) = Some ur /\ (exists t rs, In (RoutesOp u t rs) (ps ++ [p])%list) /\ forall v, In v vs -> lookup v ur = Some (routes_given (ps ++ [p]) u v))).
    { intros -> Hn. destruct IH as [[L H]|(ur & L & (t & rs & H1) & H2)].
      - left. split; [exact L|]. intros t rs Hi. apply Q in Hi as [Hi|Hi]; [now apply (H t rs)|now apply (Hn u t rs)].
      - right. exists ur. split; [exact L|]. split; [exists t, rs; apply Q; now left|]. intros v Hv. rewrite (H2 v Hv). f_equal. unfold routes_given. rewrite fold_left_app. cbn [fold_left].
        destruct p; try reflexivity. now destruct (Hn url to_spec rs0). }
    destruct p as [o u' jp v|u' jp v r|u' t rs].
    - apply Skip; [|discriminate]. cbn [Store.run_op]. unfold store_set. now destruct (is_base o).
    - apply Skip; [|discriminate]. cbn [Store.run_op]. unfold store_get_under. destruct (r && _); [reflexivity|]. destruct (lookup u' _) as [[|? ?]|]; [reflexivity| |reflexivity]. now destruct r.
    - clear Skip. cbn [Store.run_op]. unfold store_update_routes.
      set (ur0 := match lookup u' (s_routes (run_ops vs ps)) with Some ur => ur | None => _ end).
      assert (E0 : u' = u -> forall v, In v vs -> lookup v ur0 = Some (routes_given ps u v)).
      { intros ->. unfold ur0. destruct IH as [[L H]|(ur & L & _ & H2)]; rewrite L; [|exact H2]. intros v Hv. rewrite V.
        assert (Z : routes_given ps u v = []).
        { unfold routes_given. clear -H. assert (G : forall acc, fold_left (fun acc p => match p with RoutesOp u0 t rs => if String.eqb u0 u && String.eqb t v then dict_update acc rs else acc | _ => acc end) ps acc = acc).
          { induction ps as [|p ps IH]; intros acc; [reflexivity|]. cbn [fold_left]. rewrite IH; [|intros t rs Hi; apply (H t rs); now right].
            destruct p as [| |u0 t rs]; try reflexivity. destruct (String.eqb_spec u0 u) as [->|]; [|reflexivity]. exfalso. apply (H t rs). now left. }
          apply G. }
        rewrite Z. rewrite dict_update_lookup.
        - rewrite lookup_const by exact Hv. reflexivity.
        - unfold keys. rewrite map_map. cbn. now rewrite map_id. }
      assert (G : forall v, routes_given (ps ++ [RoutesOp u' t rs]) u v = if String.eqb u' u && String.eqb t v then dict_update (routes_given ps u v) rs else routes_given ps u v).
      { intros v. unfold routes_given. now rewrite fold_left_app. }
      destruct (String.eqb_spec u' u) as [Eu|Hu].
      + right. subst u'. specialize (E0 eq_refl). destruct (lookup t ur0) as [m|] eqn:Lt; cbn [fst s_routes]; rewrite ds_lookup, String.eqb_refl.
        * eexists. split; [reflexivity|]. split; [exists t, rs; apply Q; now right|]. intros v Hv. rewrite ds_lookup, G. cbn [andb].
          destruct (String.eqb_spec t v) as [->|]; [|now apply E0]. rewrite (E0 v Hv) in Lt. injection Lt as <-. reflexivity.
        * eexists. split; [reflexivity|]. split; [exists t, rs; apply Q; now right|]. intros v Hv. rewrite G. cbn [andb].
          destruct (String.eqb_spec t v) as [->|]; [|now apply E0]. rewrite (E0 v Hv) in Lt. discriminate.
      + destruct IH as [[L H]|(ur & L & (t' & rs' & H1) & H2)].
        * left. split; [|intros t2 rs2 Hi; apply Q in Hi as [Hi|[= -> -> ->]]; [now apply (H t2 rs2)|congruence]].
          destruct (lookup t ur0); cbn [fst s_routes]; rewrite ds_lookup; apply String.eqb_neq in Hu; now rewrite Hu.
        * right. exists ur. split; [destruct (lookup t ur0); cbn [fst s_routes]; rewrite ds_lookup; apply String.eqb_neq in Hu; now rewrite Hu|].
          split; [exists t', rs'; apply Q; now left|]. intros v Hv. rewrite G. cbn [andb]. now apply H2.
  Qed.
  Lemma relocate_no_calls vs ps u jp a b : (forall t rs, ~ In (RoutesOp u t rs) ps) -> store_relocate (run_ops vs ps) u jp a b = Ok jp.
  Proof.
    intros H. apply relocate_no_routes. induction ps as [|p ps IH] using rev_ind; [reflexivity|]. rewrite run_ops_snoc.
    assert (E : lookup u (s_routes (run_ops vs ps)) = None). { apply IH. intros t rs Hi. apply (H t rs), in_or_app. now left. }
    destruct p as [o u' jp' v|u' jp' v r|u' t rs]; cbn [Store.run_op].
    - unfold store_set. now destruct (is_base o).
    - unfold store_get_under. destruct (r && _); [exact E|]. destruct (lookup u' _) as [[|? ?]|]; [exact E| |exact E]. now destruct r.
    - assert (Hu : u' <> u). { intros ->. apply (H t rs), in_or_app. right. now left. } apply String.eqb_neq in Hu.
      unfold store_update_routes. destruct (lookup t _); cbn [fst s_routes]; rewrite ds_lookup; now rewrite Hu.
  Qed.
  (** a single step *)
  Lemma relocate_loop_skip from to rs rs' cur x : (forall v, In v (keys rs) -> exists y, strict_version v = Ok y /\ ver_ltb from y = false) -> from = x ->
    relocate_loop from to (rs ++ rs')%list cur = relocate_loop from to rs' cur.
  Proof.
    intros H _. induction rs as [|[v m] rs IH]; [reflexivity|]. cbn [app relocate_loop]. destruct (H v) as (y & -> & L); [now left|]. cbn [bind]. rewrite L. cbn [negb].
    apply IH. intros w Hw. apply H. now right.
  Qed.
  Lemma relocate_step vs ps u jp a b : ascending vs -> In a vs -> In b vs -> version_lt a b ->
    (forall w, In w vs -> version_lt a w -> version_le b w) -> (exists t rs, In (RoutesOp u t rs) ps) ->
    store_relocate (run_ops vs ps) u jp a (Some b) = patch_jp jp (routes_given ps u b).
  Proof.
    intros A Ha Hb Lab Nx (t & rs & Hi). assert (N := ascending_nodup _ A).
    destruct (routes_state vs ps u N) as [[_ H]|(ur & L & _ & Hr)]; [now destruct (H t rs)|].
    assert (K := routes_keys vs ps u ur N L). destruct Lab as (x & y & Hx & Hy & Lxy).
    rewrite (relocate_some _ u ur jp a b L) by (rewrite ?K; eauto using version_nonempty). rewrite Hx, Hy. cbn [bind].
    assert (Lb := Hr b Hb). apply lookup_In in Lb. destruct (in_split _ _ Lb) as (r1 & r2 & ->).
    unfold keys in K. rewrite map_app in K. cbn [map fst] in K. rewrite <- K in A.
    rewrite (relocate_loop_skip x y r1 _ jp x); [| |reflexivity].
    - cbn [relocate_loop]. rewrite Hy. cbn [bind]. rewrite Lxy, ver_ltb_irrefl. cbn [negb].
      destruct (patch_jp_total jp (routes_given ps u b)) as [r Er]. rewrite Er. cbn [bind].
      assert (A2 : ascending (b :: keys r2)).
      { clear -A. induction (map fst r1) as [|z l IH]; [exact A|]. apply IH. now apply ascending_tail with z. }
      destruct r2 as [|[w m] r2]; [reflexivity|]. cbn [relocate_loop]. destruct (ascending_lt _ _ A2 w) as (y' & z & Y & Z & Lyz); [now left|].
      assert (y' = y) by congruence. subst y'. rewrite Z. cbn [bind]. rewrite (ver_ltb_trans _ _ _ Lxy Lyz), Lyz. reflexivity.
    - intros v Hv. assert (Lvb : version_lt v b).
      { clear -A Hv. unfold keys in Hv. induction (map fst r1) as [|z l IH]; [destruct Hv|]. destruct Hv as [<-|Hv]; [|apply IH; [now apply ascending_tail with z|exact Hv]].
        apply (ascending_lt _ _ A). apply in_or_app. right. now left. }
      destruct Lvb as (xv & y' & Xv & Y & Lv). assert (y' = y) by congruence. subst y'. exists xv. split; [exact Xv|].
      destruct (ver_ltb x xv) eqn:E; [|reflexivity]. exfalso.
      destruct (Nx v) as (y1 & x1 & Y1 & X1 & G).
      + rewrite <- K. apply in_or_app. now left.
      + exists x, xv. auto.
      + assert (y1 = y) by congruence. assert (x1 = xv) by congruence. subst. congruence.
  Qed.
End Objs.
