(** Proofs about the object store and relocation ([Store]). *)
From Coq Require Import String Ascii List Bool Arith Lia.
From Verif Require Import PyStr PyStrFacts PyVal PyValFacts Jp JpFacts Store SpecStore.
Import ListNotations.
Open Scope string_scope. Open Scope nat_scope.

Lemma prefix_startswith p s : startswith p s = true <-> prefix_of p s.
Proof. apply startswith_spec. Qed.
Lemma prefix_startswith_false p s : startswith p s = false <-> ~ prefix_of p s.
Proof. rewrite <- prefix_startswith. destruct (startswith p s); intuition congruence. Qed.

(** ** relocation: the inner loop *)
Section Best.
  Variable s : string.
  Lemma best_none m acc : best s m acc = None -> acc = None /\ forall k t, In (k, t) m -> ~ prefix_of k s.
  Proof.
    revert acc; induction m as [|[k t] m IH]; intros acc; cbn [best].
    - intros ->. split; [reflexivity|]. intros ? ? [].
    - intros H. apply IH in H as [H1 H2]. destruct (startswith k s) eqn:E.
      + destruct acc as [[k0 t0]|]; [|discriminate]. destruct (negb (truthy_str k0) || _); discriminate.
      + split; [exact H1|]. intros k' t' [H|H]; [|eauto]. injection H as <- <-. now apply prefix_startswith_false.
  Qed.
  Lemma best_some m acc k t : best s m acc = Some (k, t) ->
    (acc = Some (k, t) \/ (In (k, t) m /\ prefix_of k s)) /\
    (forall k' t', In (k', t') m -> prefix_of k' s -> String.length k' <= String.length k) /\
    (forall k' t', acc = Some (k', t') -> String.length k' <= String.length k).
  Proof.
    revert acc; induction m as [|[k0 t0] m IH]; intros acc; cbn [best].
    - intros ->. split; [auto|]. split; [intros ? ? []|]. intros ? ? [= -> ->]. lia.
    - intros H. apply IH in H as (H1 & H2 & H3). clear IH. destruct (startswith k0 s) eqn:E.
      + apply prefix_startswith in E. destruct acc as [[k1 t1]|].
        * destruct (negb (truthy_str k1) || (String.length k1 <? String.length k0)) eqn:B.
          -- assert (L : String.length k1 <= String.length k0).
             { apply orb_true_iff in B as [B|B]; [|apply Nat.ltb_lt in B; lia].
               apply negb_true_iff, truthy_str_false in B. subst. cbn; lia. }
             specialize (H3 _ _ eq_refl). split; [|split].
             ++ right. destruct H1 as [[= <- <-]|[H1 H1']]; [split; [now left|exact E]|split; [now right|exact H1']].
             ++ intros k' t' [[= <- <-]|Hi] P; [exact H3|eauto].
             ++ intros k' t' [= <- <-]. lia.
          -- apply orb_false_iff in B as [_ B]. apply Nat.ltb_ge in B. specialize (H3 _ _ eq_refl). split; [|split].
             ++ destruct H1 as [H1|[H1 H1']]; [now left|]. right; split; [now right|exact H1'].
             ++ intros k' t' [[= <- <-]|Hi] P; [lia|eauto].
             ++ intros k' t' [= <- <-]. exact H3.
        * specialize (H3 _ _ eq_refl). split; [|split].
          -- right. destruct H1 as [[= <- <-]|[H1 H1']]; [split; [now left|exact E]|split; [now right|exact H1']].
          -- intros k' t' [[= <- <-]|Hi] P; [exact H3|eauto].
          -- discriminate.
      + split; [|split].
        * destruct H1 as [H1|[H1 H1']]; [now left|]. right; split; [now right|exact H1'].
        * intros k' t' [[= <- <-]|Hi] P; [|eauto]. apply prefix_startswith_false in E. now destruct (E P).
        * exact H3.
  Qed.
  Lemma best_longest m k t : NoDup (keys m) -> best s m None = Some (k, t) -> longest m s k t.
  Proof.
    intros N H. apply best_some in H as ([H|[H P]] & H2 & _); [discriminate|]. split; [now apply lookup_nodup|]. split; [exact P|].
    intros k' t' L P'. apply (H2 k' t'); [now apply lookup_In|exact P'].
  Qed.
  Lemma best_no_match m : NoDup (keys m) -> best s m None = None -> no_match m s.
  Proof. intros N H k t L. apply best_none in H as [_ H]. apply (H k t). now apply lookup_In. Qed.
End Best.

Lemma prefix_same_length a b s : prefix_of a s -> prefix_of b s -> String.length a = String.length b -> a = b.
Proof. intros A B. apply prefix_startswith in A, B. now apply startswith_same_length with (s := s). Qed.
Lemma longest_unique m s k t k' t' : longest m s k t -> longest m s k' t' -> k = k' /\ t = t'.
Proof.
  intros (L & P & M) (L' & P' & M'). assert (E : k = k').
  { apply (prefix_same_length _ _ s P P'). specialize (M _ _ L' P'). specialize (M' _ _ L P). lia. }
  subst. split; congruence.
Qed.
Lemma without_slash_fun s r : without_slash s r <-> r = if startswith "/" s then sdrop 1 s else s.
Proof.
  unfold without_slash. split.
  - intros [->|[-> N]]; [reflexivity|]. destruct r as [|c r]; [reflexivity|]. cbn [startswith]. destruct (Ascii.eqb_spec "/" c) as [<-|]; [|reflexivity].
    now destruct (N r).
  - destruct s as [|c s]; cbn [startswith sdrop]; [intros ->; right; split; [reflexivity|discriminate]|].
    destruct (Ascii.eqb_spec "/" c) as [<-|Hn]; intros ->; [now left|right; split; [reflexivity|]]. intros q [= -> _]. now apply Hn.
Qed.

(** depths *)
Lemma depth_in m k t : In (k, t) m -> target_depth t < target_depth (RMap m).
Proof.
  cbn [target_depth]. induction m as [|[k0 t0] m IH]; intros H; [destruct H|]. cbn [fold_right snd]. destruct H as [[= <- <-]|H]; [lia|].
  specialize (IH H). lia.
Qed.
Lemma best_in s m k t : best s m None = Some (k, t) -> In (k, t) m.
Proof. intros H. apply best_some in H as ([H|[H _]] & _); [discriminate|exact H]. Qed.

(** the keys glued together *)
Definition glue (fixed k : string) : string := (fixed ++ (if truthy_str fixed then "/" else "") ++ k)%string.
Fixpoint glue_all (fixed : string) (ks : list string) : string :=
  match ks with [] => fixed | k :: ks' => glue_all (glue fixed k) ks' end.

Lemma patch_loop_total fuel m fixed s : target_depth (RMap m) <= fuel -> exists r, patch_loop fuel m fixed s = Ok r.
Proof.
  revert m fixed s; induction fuel as [|f IH]; intros m fixed s D; cbn [patch_loop].
  - cbn in D. lia.
  - destruct (best s m None) as [[k t]|] eqn:B; [|eauto]. destruct (falsy_target t); [eauto|]. destruct t as [|m']; [eauto|].
    apply IH. apply best_in, depth_in in B. lia.
Qed.
Lemma patch_jp_total jp m : exists r, patch_jp jp m = Ok r.
Proof.
  unfold patch_jp. destruct (patch_loop_total (target_depth (RMap m)) m "" jp) as [r ->]; [lia|]. cbn [bind].
  destruct r as [[[f k] t]|]; eauto.
Qed.

Lemma patch_loop_spec fuel m fixed s : wf_routes m -> target_depth (RMap m) <= fuel ->
  (stays m s /\ patch_loop fuel m fixed s = Ok None) \/
  (exists ks t, leads m s ks t /\ ks <> [] /\
    patch_loop fuel m fixed s = Ok (Some (glue_all fixed (removelast ks), last ks "", t))).
Proof.
  revert m fixed s; induction fuel as [|f IH]; intros m fixed s W D; cbn [patch_loop]; [cbn in D; lia|].
  inversion W as [? N Wm]; subst. destruct (best s m None) as [[k t]|] eqn:B.
  - pose proof (best_in _ _ _ _ B) as Hin. apply best_longest in B; [|exact N]. destruct (falsy_target t) eqn:F.
    + left. split; [|reflexivity]. destruct t as [[|c s0]|[|? ?]]; cbn in F; try discriminate.
      * now apply sy_empty with k.
      * destruct B as (L & (rest & E) & M). eapply sy_map; [split; [exact L|split; [now exists rest|exact M]]|exact E| |apply sy_none; intros ? ? ?; discriminate].
        apply without_slash_fun. reflexivity.
    + destruct t as [t|m'].
      * right. exists [k], t. split; [apply ld_text; [exact B|destruct t; [discriminate|discriminate]]|]. split; [discriminate|]. reflexivity.
      * assert (L := B). destruct L as (L & (rest & E) & M). assert (D' := depth_in _ _ _ Hin).
        assert (Er : sdrop (String.length k) s = rest) by (subst s; apply sdrop_app_length). rewrite Er.
        set (s' := if startswith "/" rest then sdrop 1 rest else rest).
        assert (Ws : without_slash rest s') by now apply without_slash_fun.
        destruct (IH m' (glue fixed k) s' (Wm _ _ Hin)) as [[S P]|(ks & t & Ld & Hne & P)]; [lia| |].
        -- left. split; [|exact P]. now apply sy_map with k m' rest s'.
        -- right. exists (k :: ks), t. split; [now apply ld_map with m' rest s'|]. split; [discriminate|].
           destruct ks as [|k2 ks]; [congruence|]. exact P.
  - left. split; [|reflexivity]. now apply sy_none, best_no_match.
Qed.

Lemma leads_unique m s ks t : leads m s ks t -> forall ks' t', leads m s ks' t' -> ks = ks' /\ t = t'.
Proof.
  induction 1 as [m s k t L Ht|m s k m' rest s' ks t L E Ws Hl IH]; intros ks1 t1 H1; inversion H1 as [? ? k2 t2 L2 Ht2|? ? k2 m2 rest2 s2 ks2 t2 L2 E2 Ws2 Hl2]; subst.
  - destruct (longest_unique _ _ _ _ _ _ L L2) as [-> [= ->]]. auto.
  - destruct (longest_unique _ _ _ _ _ _ L L2) as [_ [=]].
  - destruct (longest_unique _ _ _ _ _ _ L L2) as [_ [=]].
  - destruct (longest_unique _ _ _ _ _ _ L L2) as [-> [= ->]]. apply sapp_inv_head in E2. subst rest2.
    apply without_slash_fun in Ws, Ws2. subst s' s2. destruct (IH _ _ Hl2) as [-> ->]. auto.
Qed.
Lemma stays_not_leads m s : stays m s -> forall ks t, ~ leads m s ks t.
Proof.
  induction 1 as [m s N|m s k L|m s k m' rest s' L E Ws Hs IH]; intros ks t Hl; inversion Hl as [? ? k2 t2 L2 Ht2|? ? k2 m2 rest2 s2 ks2 t2 L2 E2 Ws2 Hl2]; subst.
  - destruct L2 as (L2 & P & _). now apply (N _ _ L2).
  - destruct L2 as (L2 & P & _). now apply (N _ _ L2).
  - destruct (longest_unique _ _ _ _ _ _ L L2) as [_ [=]]. congruence.
  - destruct (longest_unique _ _ _ _ _ _ L L2) as [_ [=]].
  - destruct (longest_unique _ _ _ _ _ _ L L2) as [_ [=]].
  - destruct (longest_unique _ _ _ _ _ _ L L2) as [-> [= ->]]. apply sapp_inv_head in E2. subst rest2.
    apply without_slash_fun in Ws, Ws2. subst s' s2. now apply (IH ks2 t).
Qed.

Lemma patch_jp_stays jp m : wf_routes m -> stays m jp -> patch_jp jp m = Ok jp.
Proof.
  intros W S. unfold patch_jp. destruct (patch_loop_spec (target_depth (RMap m)) m "" jp W) as [[_ ->]|(ks & t & L & _)]; [lia|reflexivity|].
  now destruct (stays_not_leads _ _ S ks t).
Qed.
(** what is put behind the new pointer *)
Definition attach (new remain : string) : string :=
  if truthy_str remain then (new ++ (if endswith "/" new || startswith "/" remain then "" else "/") ++ remain)%string else new.
Lemma patch_jp_leads jp m ks t : wf_routes m -> leads m jp ks t ->
  patch_jp jp m = Ok (let fixed := glue_all "" (removelast ks) in
                      attach (if startswith "#" t then t else (fixed ++ "/" ++ t)%string)
                             (sdrop (String.length (fixed ++ last ks "") + 1) jp)).
Proof.
  intros W L. unfold patch_jp. destruct (patch_loop_spec (target_depth (RMap m)) m "" jp W) as [[S _]|(ks' & t' & L' & _ & ->)]; [lia| |].
  - now destruct (stays_not_leads _ _ S ks t).
  - destruct (leads_unique _ _ _ _ L _ _ L') as [<- <-]. reflexivity.
Qed.

(** with non-empty keys, each followed by a slash *)
Lemma glue_all_join fixed ks : fixed <> "" -> glue_all fixed ks = join "/" (fixed :: ks).
Proof.
  revert fixed; induction ks as [|k ks IH]; intros fixed H; cbn [glue_all]; [reflexivity|].
  unfold glue. assert (T : truthy_str fixed = true) by now apply truthy_str_true. rewrite T. rewrite IH.
  - change (join "/" (fixed :: k :: ks)) with (fixed ++ "/" ++ join "/" (k :: ks))%string.
    destruct ks as [|k2 ks]; [reflexivity|]. rewrite !join_cons. now rewrite !sapp_assoc.
  - destruct fixed; [congruence|discriminate].
Qed.
Lemma glue_all_join0 ks : Forall (fun k => k <> "") ks -> glue_all "" ks = join "/" ks.
Proof. intros F. destruct ks as [|k ks]; [reflexivity|]. inversion F; subst. cbn [glue_all glue]. unfold glue. cbn [truthy_str String.append]. now apply glue_all_join. Qed.
Lemma sdrop_join_app x t n : n = String.length x -> sdrop n (x ++ t)%string = t.
Proof. intros ->. apply sdrop_app_length. Qed.
Lemma Forall_removelast {A} (P : A -> Prop) l : Forall P l -> Forall P (removelast l).
Proof. induction l as [|a [|b l] IH]; intros F; cbn [removelast]; [constructor|constructor|]. inversion F; subst. constructor; [assumption|now apply IH]. Qed.
Lemma join_snoc ks k : ks <> [] -> join "/" (ks ++ [k])%list = (join "/" ks ++ "/" ++ k)%string.
Proof. intros H. rewrite join_app; [reflexivity|exact H|discriminate]. Qed.

Lemma endswith_last c s : endswith (String c "") s = last_is c s.
Proof. apply eq_true_iff_eq. rewrite endswith_spec, last_is_spec. reflexivity. Qed.
Lemma last_is_app c a t : t <> "" -> last_is c (a ++ t)%string = last_is c t.
Proof.
  intros H. induction a as [|x a IH]; [reflexivity|]. cbn [String.append last_is]. destruct (a ++ t)%string eqn:E; [|exact IH].
  apply sapp_eq_nil in E as [_ E]. congruence.
Qed.
Lemma leads_nonempty m s ks t : leads m s ks t -> t <> "" /\ ks <> [].
Proof. induction 1 as [|? ? ? ? ? ? ? ? ? ? ? ? [IH _]]; split; auto; discriminate. Qed.
Lemma removelast_last_split (ks : list string) : ks <> [] -> ks = (removelast ks ++ [last ks ""])%list.
Proof. intros H. now apply app_removelast_last. Qed.
Lemma patch_jp_boundary m ks tail t : wf_routes m -> Forall (fun k => k <> "") ks -> token_tail tail ->
  leads m (join "/" ks ++ tail)%string ks t -> endswith "/" t = false ->
  patch_jp (join "/" ks ++ tail)%string m = Ok ((if startswith "#" t then t else (join "/" (removelast ks) ++ "/" ++ t)%string) ++ tail)%string.
Proof.
  intros W F Tt L Et. rewrite (patch_jp_leads _ _ _ _ W L). cbn zeta. f_equal.
  destruct (leads_nonempty _ _ _ _ L) as [Ht Hne]. rewrite (glue_all_join0 (removelast ks)) by now apply Forall_removelast.
  set (new := if startswith "#" t then t else _).
  assert (En : endswith "/" new = false).
  { unfold new. destruct (startswith "#" t); [exact Et|]. rewrite endswith_last in *. rewrite last_is_app by discriminate.
    now rewrite (last_is_app _ "/" t Ht). }
  assert (Hs := removelast_last_split ks Hne). unfold attach. rewrite En. cbn [orb].
  destruct (removelast ks) as [|k0 rk] eqn:Er.
  - (* one key *)
    assert (Ej : join "/" ks = last ks "") by (rewrite Hs at 1; reflexivity).
    cbn [join String.concat String.append]. change (String.concat "/" ks) with (join "/" ks). rewrite Ej.
    assert (Ed : sdrop (String.length (last ks "") + 1) (last ks "" ++ tail)%string = sdrop 1 tail).
    { rewrite sdrop_app_ge by lia. f_equal. lia. }
    rewrite Ed. destruct Tt as [->|(c & r & -> & Hc)].
    + cbn. now rewrite sapp_nil_r.
    + cbn [sdrop truthy_str startswith]. rewrite (ascii_eqb_neq _ _ (not_eq_sym Hc)). reflexivity.
  - assert (Ej : join "/" ks = (join "/" (k0 :: rk) ++ "/" ++ last ks "")%string) by (rewrite Hs at 1; apply join_snoc; discriminate).
    rewrite Ej.
    assert (Ed : sdrop (String.length (join "/" (k0 :: rk) ++ last ks "") + 1) ((join "/" (k0 :: rk) ++ "/" ++ last ks "") ++ tail)%string = tail).
    { apply sdrop_join_app. rewrite !slength_app. cbn. lia. }
    rewrite Ed. destruct Tt as [->|(c & r & -> & Hc)].
    + cbn. now rewrite sapp_nil_r.
    + reflexivity.
Qed.

(** behind more than one key the tail may be any that starts with a slash *)
Lemma patch_jp_deep m ks tail t : wf_routes m -> Forall (fun k => k <> "") ks -> removelast ks <> [] -> tail = "" \/ startswith "/" tail = true ->
  leads m (join "/" ks ++ tail)%string ks t -> endswith "/" t = false ->
  patch_jp (join "/" ks ++ tail)%string m = Ok ((if startswith "#" t then t else (join "/" (removelast ks) ++ "/" ++ t)%string) ++ tail)%string.
Proof.
  intros W F Hr Tt L Et. rewrite (patch_jp_leads _ _ _ _ W L). cbn zeta. f_equal.
  destruct (leads_nonempty _ _ _ _ L) as [Ht Hne]. rewrite (glue_all_join0 (removelast ks)) by now apply Forall_removelast.
  set (new := if startswith "#" t then t else _).
  assert (Hs := removelast_last_split ks Hne). unfold attach.
  destruct (removelast ks) as [|k0 rk] eqn:Er; [congruence|].
  assert (Ej : join "/" ks = (join "/" (k0 :: rk) ++ "/" ++ last ks "")%string) by (rewrite Hs at 1; apply join_snoc; discriminate).
  rewrite Ej.
  assert (Ed : sdrop (String.length (join "/" (k0 :: rk) ++ last ks "") + 1) ((join "/" (k0 :: rk) ++ "/" ++ last ks "") ++ tail)%string = tail).
  { apply sdrop_join_app. rewrite !slength_app. cbn. lia. }
  rewrite Ed. destruct Tt as [->|St].
  - cbn. now rewrite sapp_nil_r.
  - rewrite St, orb_true_r. destruct tail; [discriminate|reflexivity].
Qed.

(** the last key is the empty default *)
Lemma patch_jp_default m ks tail t : wf_routes m -> Forall (fun k => k <> "") ks -> ks <> [] -> token_tail tail ->
  leads m (join "/" ks ++ tail)%string (ks ++ [""])%list t -> endswith "/" t = false ->
  patch_jp (join "/" ks ++ tail)%string m = Ok ((if startswith "#" t then t else (join "/" ks ++ "/" ++ t)%string) ++ tail)%string.
Proof.
  intros W F Hne Tt L Et. rewrite (patch_jp_leads _ _ _ _ W L). cbn zeta. f_equal.
  destruct (leads_nonempty _ _ _ _ L) as [Ht _]. rewrite removelast_last, last_last. rewrite (glue_all_join0 ks) by assumption.
  set (new := if startswith "#" t then t else _).
  assert (En : endswith "/" new = false).
  { unfold new. destruct (startswith "#" t); [exact Et|]. rewrite endswith_last in *. rewrite last_is_app by discriminate.
    now rewrite (last_is_app _ "/" t Ht). }
  unfold attach. rewrite En. cbn [orb]. rewrite sapp_nil_r.
  assert (Ed : sdrop (String.length (join "/" ks) + 1) (join "/" ks ++ tail)%string = sdrop 1 tail).
  { rewrite sdrop_app_ge by lia. f_equal. lia. }
  rewrite Ed. destruct Tt as [->|(c & r & -> & Hc)].
  - cbn. now rewrite sapp_nil_r.
  - cbn [sdrop truthy_str startswith]. rewrite (ascii_eqb_neq _ _ (not_eq_sym Hc)). reflexivity.
Qed.

(** ** order of the entries *)
Lemma longest_same m m' s k t : (forall k, lookup k m = None <-> lookup k m' = None) -> longest m s k t ->
  exists t', lookup k m' = Some t' /\ longest m' s k t'.
Proof.
  intros E (L & P & M). destruct (lookup k m') as [t'|] eqn:L'; [|apply E in L'; congruence].
  exists t'. split; [reflexivity|]. split; [exact L'|]. split; [exact P|]. intros k2 t2 L2 P2.
  destruct (lookup k2 m) as [t3|] eqn:L3; [eauto|]. apply E in L3. congruence.
Qed.
Lemma leads_same m s ks t : leads m s ks t -> forall m', same_routes m m' -> leads m' s ks t.
Proof.
  induction 1 as [m s k t L Ht|m s k m1 rest s' ks t L E Ws Hl IH]; intros m' S; inversion S as [|? ? S1 S2]; subst.
  - destruct (longest_same _ _ _ _ _ S1 L) as (t' & L' & L2). assert (Q := S2 _ _ _ (proj1 L) L'). inversion Q; subst. now apply ld_text.
  - destruct (longest_same _ _ _ _ _ S1 L) as (t' & L' & L2). assert (Q := S2 _ _ _ (proj1 L) L'). inversion Q as [|? m2]; subst.
    apply ld_map with m2 rest s'; auto.
Qed.
Lemma stays_same m s : stays m s -> forall m', same_routes m m' -> stays m' s.
Proof.
  induction 1 as [m s N|m s k L|m s k m1 rest s' L E Ws Hs IH]; intros m' S; inversion S as [|? ? S1 S2]; subst.
  - apply sy_none. intros k t L P. destruct (lookup k m) as [t'|] eqn:L'; [now apply (N _ _ L')|]. apply S1 in L'. congruence.
  - destruct (longest_same _ _ _ _ _ S1 L) as (t' & L' & L2). assert (Q := S2 _ _ _ (proj1 L) L'). inversion Q; subst. now apply sy_empty with k.
  - destruct (longest_same _ _ _ _ _ S1 L) as (t' & L' & L2). assert (Q := S2 _ _ _ (proj1 L) L'). inversion Q as [|? m2]; subst.
    apply sy_map with k m2 rest s'; auto.
Qed.
Lemma leads_or_stays m s : wf_routes m -> stays m s \/ exists ks t, leads m s ks t.
Proof. intros W. destruct (patch_loop_spec (target_depth (RMap m)) m "" s W) as [[S _]|(ks & t & L & _)]; [lia|auto|eauto]. Qed.
Lemma patch_jp_same jp m m' : wf_routes m -> wf_routes m' -> same_routes m m' -> patch_jp jp m = patch_jp jp m'.
Proof.
  intros W W' S. destruct (leads_or_stays m jp W) as [H|(ks & t & H)].
  - rewrite (patch_jp_stays _ _ W H). symmetry. apply patch_jp_stays; [exact W'|]. now apply (stays_same _ _ H).
  - rewrite (patch_jp_leads _ _ _ _ W H). symmetry. apply patch_jp_leads; [exact W'|]. now apply (leads_same _ _ _ _ H).
Qed.

(** ** the order of versions *)
Lemma ver_ltb_irrefl a : ver_ltb a a = false.
Proof. induction a as [|x a IH]; [reflexivity|]. cbn [ver_ltb]. rewrite Nat.ltb_irrefl, Nat.eqb_refl, IH. reflexivity. Qed.
Lemma ver_ltb_cons x a y b : ver_ltb (x :: a) (y :: b) = true <-> x < y \/ (x = y /\ ver_ltb a b = true).
Proof. cbn [ver_ltb]. rewrite orb_true_iff, andb_true_iff, Nat.ltb_lt, Nat.eqb_eq. reflexivity. Qed.
Lemma ver_ltb_trans a b c : ver_ltb a b = true -> ver_ltb b c = true -> ver_ltb a c = true.
Proof.
  revert b c; induction a as [|x a IH]; intros [|y b] [|z c] H1 H2; try discriminate; try reflexivity.
  apply ver_ltb_cons in H1, H2. apply ver_ltb_cons. destruct H1 as [H1|[-> H1]], H2 as [H2|[-> H2]]; try (left; lia).
  right. split; [reflexivity|eauto].
Qed.
Lemma ver_total a b : ver_ltb a b = false -> ver_ltb b a = false -> a = b.
Proof.
  revert b; induction a as [|x a IH]; intros [|y b] H1 H2; try discriminate; [reflexivity|].
  cbn [ver_ltb] in H1, H2. apply orb_false_iff in H1 as [H1 H1'], H2 as [H2 H2']. apply Nat.ltb_ge in H1, H2. assert (x = y) by lia. subst.
  rewrite Nat.eqb_refl in *. cbn [andb] in *. f_equal. auto.
Qed.
Lemma ver_le_lt_trans a b c : ver_ltb b a = false -> ver_ltb b c = true -> ver_ltb a c = true.
Proof.
  intros H1 H2. destruct (ver_ltb a b) eqn:E; [now apply ver_ltb_trans with b|]. now rewrite (ver_total _ _ E H1).
Qed.
Lemma ver_lt_le_trans a b c : ver_ltb a b = true -> ver_ltb c b = false -> ver_ltb a c = true.
Proof.
  intros H1 H2. destruct (ver_ltb b c) eqn:E; [now apply ver_ltb_trans with b|]. now rewrite (ver_total _ _ H2 E).
Qed.
Lemma ver_lt_asym a b : ver_ltb a b = true -> ver_ltb b a = false.
Proof. intros H. destruct (ver_ltb b a) eqn:E; [|reflexivity]. rewrite <- (ver_ltb_irrefl a). symmetry. now apply ver_ltb_trans with b. Qed.

Lemma ascending_tail v vs : ascending (v :: vs) -> ascending vs.
Proof. inversion 1; subst; [constructor|assumption]. Qed.
Lemma ascending_head v vs : ascending (v :: vs) -> exists x, strict_version v = Ok x.
Proof. inversion 1 as [|? x H1|? w vs' (x & y & H1 & H2 & H3)]; subst; eauto. Qed.
Lemma ascending_lt v vs : ascending (v :: vs) -> forall w, In w vs -> version_lt v w.
Proof.
  revert v; induction vs as [|w vs IH]; intros v A u Hu; [destruct Hu|]. inversion A as [| |? ? ? L A']; subst. destruct Hu as [<-|Hu]; [exact L|].
  destruct L as (x & y & H1 & H2 & H3). destruct (IH _ A' u Hu) as (y' & z & H4 & H5 & H6).
  assert (y' = y) by congruence. subst y'. exists x, z. repeat split; auto. now apply ver_ltb_trans with y.
Qed.
Lemma ascending_valid vs w : ascending vs -> In w vs -> exists x, strict_version w = Ok x.
Proof.
  induction vs as [|v vs IH]; intros A H; [destruct H|]. destruct H as [<-|H]; [now apply ascending_head with vs|]. apply IH; [now apply ascending_tail with v|exact H].
Qed.
Lemma ascending_nodup vs : ascending vs -> NoDup vs.
Proof.
  induction vs as [|v vs IH]; intros A; constructor; [|apply IH; now apply ascending_tail with v].
  intros H. destruct (ascending_lt _ _ A _ H) as (x & y & H1 & H2 & H3). assert (x = y) by congruence. subst. now rewrite ver_ltb_irrefl in H3.
Qed.

(** ** relocation over versions *)
Lemma relocate_loop_total from to rs cur : ascending (keys rs) -> exists r, relocate_loop from to rs cur = Ok r.
Proof.
  revert cur; induction rs as [|[v m] rs IH]; intros cur A; cbn [relocate_loop]; [eauto|]. cbn [keys map fst] in A.
  destruct (ascending_head _ _ A) as [x ->]. cbn [bind]. destruct (negb (ver_ltb from x)); [apply IH; now apply ascending_tail with v|].
  destruct (ver_ltb to x); [eauto|]. destruct (patch_jp_total cur m) as [r ->]. cbn [bind]. apply IH. now apply ascending_tail with v.
Qed.
Lemma relocate_beyond from to v x rs cur : ascending (v :: keys rs) -> strict_version v = Ok x -> ver_ltb to x = true ->
  relocate_loop from to rs cur = Ok cur.
Proof.
  intros A H L. assert (G : forall w, In w (keys rs) -> exists y, strict_version w = Ok y /\ ver_ltb to y = true).
  { intros w Hw. destruct (ascending_lt _ _ A _ Hw) as (x' & y & H1 & H2 & H3). assert (x' = x) by congruence. subst.
    exists y. split; [exact H2|]. now apply ver_ltb_trans with x. }
  clear -G. induction rs as [|[w m] rs IH]; [reflexivity|]. cbn [relocate_loop]. destruct (G w) as (y & Hy & Ly); [now left|]. rewrite Hy. cbn [bind].
  rewrite Ly. destruct (negb (ver_ltb from y)); [|reflexivity]. apply IH. intros u Hu. apply G. now right.
Qed.
Lemma relocate_loop_compose a b c rs cur : ascending (keys rs) -> ver_ltb b a = false -> ver_ltb c b = false ->
  relocate_loop a c rs cur = (cur' <- relocate_loop a b rs cur ;; relocate_loop b c rs cur').
Proof.
  revert cur; induction rs as [|[v m] rs IH]; intros cur A Hab Hbc; [reflexivity|]. cbn [keys map fst] in A.
  cbn [relocate_loop]. destruct (ascending_head _ _ A) as [x Hx]. rewrite Hx. cbn [bind].
  assert (A' := ascending_tail _ _ A). destruct (ver_ltb a x) eqn:Ea; cbn [negb].
  - destruct (ver_ltb b x) eqn:Eb; cbn [negb bind].
    + (* the first leg has ended *)
      destruct (ver_ltb c x) eqn:Ec; [reflexivity|]. destruct (patch_jp_total cur m) as [r ->]. cbn [bind].
      rewrite IH by assumption. now rewrite (relocate_beyond a b v x rs r A Hx Eb).
    + (* in the first leg *)
      assert (Ec : ver_ltb c x = false).
      { destruct (ver_ltb c x) eqn:E; [|reflexivity]. rewrite <- Eb. symmetry. now apply ver_le_lt_trans with c. }
      rewrite Ec. destruct (patch_jp_total cur m) as [r ->]. cbn [bind]. rewrite IH by assumption.
      destruct (relocate_loop a b rs r) as [r'|e]; [|reflexivity]. reflexivity.
  - (* not yet *)
    assert (Eb : ver_ltb b x = false).
    { destruct (ver_ltb b x) eqn:E; [|reflexivity]. rewrite <- Ea. symmetry. now apply ver_le_lt_trans with b. }
    rewrite IH by assumption. destruct (relocate_loop a b rs cur) as [r|e]; [|reflexivity]. cbn [bind]. now rewrite Eb.
Qed.
Lemma relocate_loop_back a b rs cur : ascending (keys rs) -> ver_ltb a b = false -> relocate_loop a b rs cur = Ok cur.
Proof.
  intros A L. induction rs as [|[v m] rs IH]; [reflexivity|]. cbn [keys map fst] in A. cbn [relocate_loop]. destruct (ascending_head _ _ A) as [x Hx]. rewrite Hx. cbn [bind].
  destruct (ver_ltb a x) eqn:Ea; cbn [negb]; [|apply IH; now apply ascending_tail with v].
  destruct (ver_ltb b x) eqn:Eb; [reflexivity|]. exfalso. rewrite (ver_lt_le_trans _ _ _ Ea Eb) in L. discriminate.
Qed.

Lemma ds_lookup {A} k k' (v : A) d : lookup k' (dict_set k v d) = if String.eqb k k' then Some v else lookup k' d.
Proof. rewrite lookup_dict_set. now rewrite String.eqb_sym. Qed.
Lemma dd_lookup {A} k k' (d : list (string * A)) : NoDup (keys d) -> lookup k' (dict_del k d) = if String.eqb k k' then None else lookup k' d.
Proof. intros N. rewrite lookup_dict_del by exact N. now rewrite String.eqb_sym. Qed.

(** ** the cached objects *)
Section Objs.
  Context {O : Type}.
  Variable is_base : O -> bool.
  Notation run_op := (run_op is_base).
  Notation run_ops := (run_ops is_base).
  Notation store_set := (store_set is_base).

  Definition good_cache (uc : list (string * list (string * O))) : Prop :=
    NoDup (keys uc) /\ forall p pc, In (p, pc) uc -> NoDup (keys pc).
  Definition good (s : store O) : Prop := NoDup (keys (s_objs s)) /\ forall u uc, In (u, uc) (s_objs s) -> good_cache uc.

  Lemma good_lookup s u uc : good s -> lookup u (s_objs s) = Some uc -> good_cache uc.
  Proof. intros [_ G] L. apply (G u). now apply lookup_In. Qed.
  Lemma good_sub s u : good s -> good_cache (sub u (s_objs s)).
  Proof. intros G. unfold sub. destruct (lookup u (s_objs s)) eqn:E; [now apply good_lookup with s u|]. split; [constructor|intros ? ? []]. Qed.
  Lemma good_path uc p : good_cache uc -> NoDup (keys (sub p uc)).
  Proof. intros [_ G]. unfold sub. destruct (lookup p uc) eqn:E; [apply (G p); now apply lookup_In|constructor]. Qed.
  Lemma good_dict_set s u uc : good s -> good_cache uc -> good (mk_store (dict_set u uc (s_objs s)) (s_routes s) (s_versions s)).
  Proof.
    intros [N G] C. split; cbn [s_objs]; [now apply nodup_dict_set|]. intros u' uc' H. apply in_dict_set in H as [[= -> ->]|H]; [exact C|eauto].
  Qed.
  Lemma removed_good jp v uc : good_cache uc -> good_cache (removed jp v uc).
  Proof.
    intros [N G]. split.
    - unfold removed, keys. rewrite map_map. erewrite map_ext; [exact N|]. intros [p pc]. cbn. now destruct (startswith jp p).
    - intros p pc H. unfold removed in H. apply in_map_iff in H as ([p0 pc0] & E & H). cbn in E. destruct (startswith jp p0); injection E as <- <-; [apply nodup_dict_del|]; eauto.
  Qed.
  Lemma run_op_good s p : good s -> good (run_op s p).
  Proof.
    intros G. destruct p as [o u jp v|u jp v r|u t rs]; cbn [Store.run_op].
    - unfold Store.store_set. destruct (is_base o); [|exact G]. apply good_dict_set; [exact G|]. destruct (good_sub s u G) as [N C]. split; [now apply nodup_dict_set|].
      intros p pc H. apply in_dict_set in H as [[= -> ->]|H]; [|eauto]. apply nodup_dict_set. apply good_path. now apply good_sub.
    - unfold store_get_under. destruct (r && negb (truthy_str jp)); [exact G|]. destruct (lookup u (s_objs s)) as [[|pc uc]|] eqn:E; [exact G| |exact G].
      cbn [fst]. destruct r; [|exact G]. apply good_dict_set; [exact G|]. apply removed_good. now apply good_lookup with s u.
    - unfold store_update_routes. destruct (lookup t _); exact G.
  Qed.
  Lemma run_ops_good vs ps : good (run_ops vs ps).
  Proof.
    unfold Store.run_ops. assert (G : good (new_store vs)) by (split; [constructor|intros ? ? []]).
    revert G. generalize (@new_store O vs). induction ps as [|p ps IH]; intros s G; [exact G|]. cbn [fold_left]. apply IH. now apply run_op_good.
  Qed.

  (** the effect of one call on one entry *)
  Lemma entry_sub (s : store O) u jp v : entry s u jp v = lookup v (sub jp (sub u (s_objs s))).
  Proof. unfold entry, sub. destruct (lookup u (s_objs s)) as [uc|]; [|reflexivity]. now destruct (lookup jp uc). Qed.
  Lemma entry_set (s : store O) o u jp v u' jp' v' : is_base o = true ->
    entry (run_op s (SetOp o u jp v)) u' jp' v' = if String.eqb u u' && String.eqb jp jp' && String.eqb v v' then Some o else entry s u' jp' v'.
  Proof.
    intros B. cbn [Store.run_op]. unfold Store.store_set. rewrite B. rewrite !entry_sub. cbn [s_objs]. unfold sub at 2. rewrite ds_lookup.
    destruct (String.eqb_spec u u') as [->|Hu]; cbn [andb]; [|reflexivity]. unfold sub at 1. rewrite ds_lookup.
    destruct (String.eqb_spec jp jp') as [->|Hj]; cbn [andb]; [|reflexivity]. rewrite ds_lookup. reflexivity.
  Qed.
  Lemma lookup_removed jp v (uc : list (string * list (string * O))) p : lookup p (removed jp v uc) = option_map (fun pc => if startswith jp p then dict_del v pc else pc) (lookup p uc).
  Proof.
    unfold removed. induction uc as [|[p0 pc] uc IH]; [reflexivity|]. cbn [map fst snd lookup]. destruct (startswith jp p0) eqn:E; cbn [lookup]; destruct (String.eqb_spec p p0) as [->|]; try exact IH; cbn [option_map]; now rewrite E.
  Qed.
  Lemma entry_remove (s : store O) u jp v u' jp' v' : good s ->
    entry (run_op s (UnderOp u jp v true)) u' jp' v' =
    if truthy_str jp && String.eqb u u' && startswith jp jp' && String.eqb v v' then None else entry s u' jp' v'.
  Proof.
    intros G. cbn [Store.run_op]. unfold store_get_under. cbn [andb]. destruct (truthy_str jp) eqn:T; cbn [negb andb fst]; [|reflexivity].
    destruct (lookup u (s_objs s)) as [uc|] eqn:L.
    - assert (C := good_lookup _ _ _ G L). assert (E : forall a b : store O, fst (match uc with [] => (s, Ok None) | _ :: _ => (mk_store (dict_set u (removed jp v uc) (s_objs s)) (s_routes s) (s_versions s), Ok (Some (under jp v uc))) end) =
        match uc with [] => s | _ :: _ => mk_store (dict_set u (removed jp v uc) (s_objs s)) (s_routes s) (s_versions s) end) by (now destruct uc).
      rewrite E by exact s. clear E. assert (R : entry (match uc with [] => s | _ :: _ => mk_store (dict_set u (removed jp v uc) (s_objs s)) (s_routes s) (s_versions s) end) u' jp' v' =
        entry (mk_store (dict_set u (removed jp v uc) (s_objs s)) (s_routes s) (s_versions s)) u' jp' v').
      { destruct uc; [|reflexivity]. rewrite !entry_sub. cbn [s_objs]. unfold sub at 2 4. rewrite ds_lookup. destruct (String.eqb_spec u u') as [->|]; [|reflexivity]. now rewrite L. }
      rewrite R. clear R. rewrite !entry_sub. cbn [s_objs]. unfold sub at 2. rewrite ds_lookup.
      destruct (String.eqb_spec u u') as [<-|Hu]; cbn [andb]; [|reflexivity]. unfold sub at 3. rewrite L. unfold sub. rewrite lookup_removed.
      destruct (lookup jp' uc) as [pc|] eqn:Lp; cbn [option_map]; [|cbn [lookup]; destruct (startswith jp jp'), (String.eqb v v'); reflexivity].
      destruct (startswith jp jp'); cbn [andb]; [|reflexivity]. rewrite dd_lookup; [|destruct C as [_ C]; apply (C jp'); now apply lookup_In].
      reflexivity.
    - destruct (String.eqb_spec u u') as [<-|]; cbn [andb fst]; [|reflexivity]. assert (E : entry s u jp' v' = None) by (unfold entry; now rewrite L). rewrite E. destruct (startswith jp jp'), (String.eqb v v'); reflexivity.
  Qed.
  Lemma entry_other (s : store O) p : match p with SetOp o _ _ _ => is_base o = false | UnderOp _ _ _ r => r = false | RoutesOp _ _ _ => True end ->
    s_objs (run_op s p) = s_objs s.
  Proof.
    destruct p as [o u jp v|u jp v r|u t rs]; cbn [Store.run_op].
    - unfold Store.store_set. now intros ->.
    - intros ->. unfold store_get_under. cbn [andb]. destruct (lookup u (s_objs s)) as [[|]|]; reflexivity.
    - intros _. unfold store_update_routes. destruct (lookup t _); reflexivity.
  Qed.

  Notation touches := (touches is_base).
  Notation live := (live is_base).
  Lemma live_snoc ps p u jp v o : live (ps ++ [p])%list u jp v o <->
    (p = SetOp o u jp v /\ is_base o = true) \/ (live ps u jp v o /\ ~ touches p u jp v).
  Proof.
    split.
    - intros (b & a & E & B & H). destruct a as [|x a] using rev_ind.
      + apply app_inj_tail in E as [-> ->]. auto.
      + clear IHa. replace (b ++ SetOp o u jp v :: a ++ [x])%list with ((b ++ SetOp o u jp v :: a) ++ [x])%list in E by (now rewrite <- app_assoc).
        apply app_inj_tail in E as [-> ->]. right. split; [|apply H, in_or_app; right; now left]. exists b, a. split; [reflexivity|]. split; [exact B|]. intros q Hq. apply H, in_or_app. now left.
    - intros [[-> B]|[(b & a & -> & B & H) N]].
      + exists ps, []. split; [reflexivity|]. split; [exact B|]. intros ? [].
      + exists b, (a ++ [p])%list. split; [now rewrite <- app_assoc|]. split; [exact B|]. intros q Hq. apply in_app_or in Hq as [Hq|[<-|[]]]; auto.
  Qed.
  Lemma run_ops_snoc vs ps p : run_ops vs (ps ++ [p])%list = run_op (run_ops vs ps) p.
  Proof. unfold Store.run_ops. now rewrite fold_left_app. Qed.
  Lemma entry_live vs ps u jp v o : entry (run_ops vs ps) u jp v = Some o <-> live ps u jp v o.
  Proof.
    revert o; induction ps as [|p ps IH] using rev_ind; intros o.
    - split; [discriminate|]. intros (b & a & E & _). now destruct b.
    - rewrite run_ops_snoc, live_snoc, <- IH. destruct p as [o' u' jp' v'|u' jp' v' r|u' t rs].
      + destruct (is_base o') eqn:B.
        * rewrite (entry_set _ _ _ _ _ _ _ _ B). cbn [SpecStore.touches].
          destruct (String.eqb_spec u' u) as [->|Hu]; cbn [andb]; [|split; [intros H; right; split; [exact H|tauto]|intros [[[= -> -> -> ->] _]|[H _]]; [congruence|exact H]]].
          destruct (String.eqb_spec jp' jp) as [->|Hj]; cbn [andb]; [|split; [intros H; right; split; [exact H|tauto]|intros [[[= -> -> ->] _]|[H _]]; [congruence|exact H]]].
          destruct (String.eqb_spec v' v) as [->|Hv]; cbn [andb]; [|split; [intros H; right; split; [exact H|tauto]|intros [[[= -> ->] _]|[H _]]; [congruence|exact H]]].
          split; [intros [= ->]; now left|]. intros [[[= ->] _]|[_ N]]; [reflexivity|tauto].
        * unfold entry. rewrite entry_other by exact B. cbn [SpecStore.touches]. split; [intros H; right; split; [exact H|intros (_ & _ & _ & ?); congruence]|].
          intros [[[= -> -> -> ->] ?]|[H _]]; [congruence|exact H].
      + destruct r.
        * rewrite entry_remove by apply run_ops_good. cbn [SpecStore.touches].
          destruct (truthy_str jp') eqn:T; cbn [andb].
          -- apply truthy_str_true in T.
             destruct (String.eqb_spec u' u) as [->|Hu]; cbn [andb]; [|split; [intros H; right; split; [exact H|tauto]|intros [[[=] _]|[H _]]; exact H]].
             destruct (startswith jp' jp) eqn:P; cbn [andb].
             ++ apply prefix_startswith in P. destruct (String.eqb_spec v' v) as [->|Hv]; [|split; [intros H; right; split; [exact H|tauto]|intros [[[=] _]|[H _]]; exact H]].
                split; [discriminate|]. intros [[[=] _]|[_ N]]. tauto.
             ++ apply prefix_startswith_false in P. split; [intros H; right; split; [exact H|tauto]|intros [[[=] _]|[H _]]; exact H].
          -- apply truthy_str_false in T. split; [intros H; right; split; [exact H|tauto]|intros [[[=] _]|[H _]]; exact H].
        * unfold entry. rewrite entry_other by reflexivity. split; [intros H; right; split; [exact H|intros []]|intros [[[=] _]|[H _]]; exact H].
      + unfold entry. rewrite entry_other by exact I. split; [intros H; right; split; [exact H|intros []]|intros [[[=] _]|[H _]]; exact H].
  Qed.

  (** ** get *)
  Lemma first_match_some jp v uc p o : good_cache uc -> first_match jp v uc = Some (p, o) -> prefix_of p jp /\ lookup v (sub p uc) = Some o.
  Proof.
    intros [N _]. induction uc as [|[q pc] uc IH]; [discriminate|]. cbn [first_match]. inversion N as [|? ? Hn N']; subst.
    assert (K : first_match jp v uc = Some (p, o) -> prefix_of p jp /\ lookup v (sub p ((q, pc) :: uc)) = Some o).
    { intros H. destruct (IH N' H) as [P L]. split; [exact P|]. unfold sub in *. cbn [lookup]. destruct (String.eqb_spec p q) as [->|]; [|exact L].
      apply lookup_none in Hn. now rewrite Hn in L. }
    destruct (startswith q jp) eqn:E; [|exact K]. destruct (lookup v pc) as [o'|] eqn:L; [|exact K]. intros [= <- <-].
    split; [now apply prefix_startswith|]. unfold sub. cbn [lookup]. now rewrite String.eqb_refl.
  Qed.
  Lemma first_match_none jp v (uc : list (string * list (string * O))) : first_match jp v uc = None -> forall p o, prefix_of p jp -> lookup v (sub p uc) <> Some o.
  Proof.
    induction uc as [|[q pc] uc IH]; intros H p o P; [discriminate|]. cbn [first_match] in H. unfold sub. cbn [lookup].
    destruct (String.eqb_spec p q) as [->|Hn].
    - apply prefix_startswith in P. rewrite P in H. now destruct (lookup v pc).
    - apply IH; [|exact P]. destruct (startswith q jp); [|exact H]. destruct (lookup v pc); [discriminate|exact H].
  Qed.
  Lemma live_sub vs ps u p v o : lookup v (sub p (sub u (s_objs (run_ops vs ps)))) = Some o <-> live ps u p v o.
  Proof. rewrite <- entry_sub. apply entry_live. Qed.
  Lemma live_fun ps u p v o o' : live ps u p v o -> live ps u p v o' -> o = o'.
  Proof. intros H H'. apply entry_live with (vs := []) in H, H'. congruence. Qed.
  Variable resolve_o : O -> list string -> res O.
  Notation store_get := (store_get resolve_o).
  Lemma get_none vs ps u jp v : (forall p o, live ps u p v o -> ~ prefix_of p jp) -> store_get (run_ops vs ps) u jp v = Ok None.
  Proof.
    intros H. unfold Store.store_get. destruct (first_match _ _ _) as [[p o]|] eqn:E; [|reflexivity].
    apply first_match_some in E as [P L]; [|apply good_sub, run_ops_good]. apply live_sub in L. now destruct (H _ _ L P).
  Qed.
  Lemma get_some vs ps u jp v : (exists p o, live ps u p v o /\ prefix_of p jp) ->
    exists p o rest, live ps u p v o /\ jp = (p ++ rest)%string /\
                     store_get (run_ops vs ps) u jp v = rmap Some (resolve_o o (tl (jp_split rest))).
  Proof.
    intros (p0 & o0 & L0 & P0). unfold Store.store_get. destruct (first_match _ _ _) as [[p o]|] eqn:E.
    - apply first_match_some in E as [[rest P] L]; [|apply good_sub, run_ops_good]. apply live_sub in L. exists p, o, rest. split; [exact L|]. split; [exact P|].
      subst jp. now rewrite sdrop_app_length.
    - apply live_sub with (vs := vs) in L0. now apply (first_match_none _ _ _ E p0 o0 P0) in L0.
  Qed.
  Lemma get_only vs ps u p rest v o : live ps u p v o ->
    (forall p' o', live ps u p' v o' -> prefix_of p' (p ++ rest) -> p' = p) ->
    store_get (run_ops vs ps) u (p ++ rest)%string v = rmap Some (resolve_o o (tl (jp_split rest))).
  Proof.
    intros L U. destruct (get_some vs ps u (p ++ rest)%string v) as (p' & o' & rest' & L' & E & ->); [exists p, o; split; [exact L|now exists rest]|].
    assert (p' = p) by (apply (U p' o' L'); now exists rest'). subst p'. apply sapp_inv_head in E. subst rest'. now rewrite (live_fun _ _ _ _ _ _ L L').
  Qed.
  Lemma tl_jp_split ts : ts <> [] -> tl (jp_split (String "/" (join "/" (map jp_encode ts)))) = ts.
  Proof.
    intros H. unfold jp_split, jp_split_max. change (String "/" (join "/" (map jp_encode ts))) with ("" ++ String "/" (join "/" (map jp_encode ts)))%string.
    cbn [String.append split_char Ascii.eqb]. cbn [map tl]. rewrite split_join.
    - apply map_decode_encode.
    - intros E. apply map_eq_nil in E. contradiction.
    - apply Forall_forall. intros x Hx. apply in_map_iff in Hx as (y & <- & _). apply jp_encode_noslash.
  Qed.
  Lemma get_pointer vs ps u p ts v o : p <> "" -> live ps u p v o ->
    (forall p' o', live ps u p' v o' -> prefix_of p' (jp_join ts (Some p)) -> p' = p) ->
    store_get (run_ops vs ps) u (jp_join ts (Some p)) v = rmap Some (resolve_o o ts).
  Proof.
    intros Hp L U. rewrite (jp_join_base ts p Hp) in *. destruct ts as [|t ts].
    - assert (R := get_only vs ps u p "" v o L). rewrite sapp_nil_r in R. rewrite R by exact U. reflexivity.
    - change ("/" ++ join "/" (map jp_encode (t :: ts)))%string with (String "/" (join "/" (map jp_encode (t :: ts)))) in *.
      rewrite (get_only vs ps u p _ v o L U). now rewrite tl_jp_split by discriminate.
  Qed.
End Objs.
