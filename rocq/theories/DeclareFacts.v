(** Histories of class declarations. *)
From Coq Require Import String List Bool.
From Verif Require Import PyStr PyVal PyValFacts Obj Declare SpecDeclare StoreFacts WfFacts.
Import ListNotations.
Open Scope string_scope.

Lemma from_parent_lookup own parent n : lookup n (from_parent own parent) = match lookup n own with Some d => Some d | None => lookup n parent end.
Proof.
  unfold from_parent. rewrite lookup_app. destruct (lookup n own) as [d|] eqn:L; [reflexivity|].
  induction parent as [|[m e] parent IH]; [reflexivity|]. cbn [filter fst]. destruct (mem m own) eqn:M; cbn [negb lookup].
  - destruct (String.eqb_spec n m) as [->|]; [|exact IH]. unfold mem in M. rewrite L in M. discriminate M.
  - destruct (String.eqb_spec n m) as [->|]; [reflexivity|exact IH].
Qed.
Lemma from_parent_nodup own parent : NoDup (keys own) -> NoDup (keys parent) -> NoDup (keys (from_parent own parent)).
Proof.
  intros NO NP. unfold from_parent, keys. rewrite map_app. apply WfFacts.nodup_join; [exact NO| |].
  - clear NO. induction parent as [|[m e] parent IH]; [constructor|]. inversion NP as [|? ? NI NP']; subst. cbn [filter fst]. destruct (negb (mem m own)); [|auto]. cbn [map fst]. constructor; [|auto].
    intros I. apply NI. apply in_map_iff in I as (x & E & I). apply filter_In in I as [I _]. apply in_map_iff. exists x. auto.
  - intros x I J. apply in_map_iff in J as ((m & e) & E & J). cbn [fst] in E. subst m. apply filter_In in J as [_ J]. cbn [fst] in J. apply negb_true_iff, mem_false in J. contradiction.
Qed.
Lemma update_to_lookup f : forall spec spc spc', update_to f spec spc = Ok spc' -> NoDup (keys spec) -> forall n,
  match lookup n spec with
  | Some d => exists p, make (given (d_factory d) f) (key_or (d_key d) n) (d_args d) = Ok p /\ lookup n spc' = Some p
  | None => lookup n spc' = lookup n spc
  end.
Proof.
  unfold update_to. induction spec as [|[m d] spec IH]; intros spc spc' H ND n; [injection H as <-; reflexivity|]. inversion ND as [|? ? NI ND']; subst. cbn [foldM fst snd] in H.
  destruct (make _ _ _) as [p|] eqn:M in H; [|discriminate H]. cbn [bind] in H. specialize (IH _ _ H ND' n). cbn [lookup]. destruct (String.eqb_spec n m) as [->|NE].
  - assert (L : lookup m spec = None) by (apply PyValFacts.lookup_none; exact NI). rewrite L in IH. exists p. split; [exact M|]. rewrite IH. apply lookup_dict_set_eq.
  - destruct (lookup n spec); [exact IH|]. rewrite IH. apply lookup_dict_set_ne. congruence.
Qed.

(** what holds of the classes after the history [h], newest statement first *)
Record Good (h : list stmt) (env : classes) : Prop := {
  g_nodup : NoDup (keys env);
  g_base : forall c k, lookup c env = Some k -> k_base k = based h c;
  g_tables : forall c k t n, lookup c env = Some k -> lookup n (table_of t k) = listed h t c n;
  g_names : forall c k t, lookup c env = Some k -> NoDup (keys (table_of t k));
  g_own : forall c k n p, lookup c env = Some k -> (lookup n (k_attrs k) = Some p <-> own h c n p);
  g_none : forall c, lookup c env = None -> based h c = None /\ (forall t n, listed h t c n = None) /\ forall n p, ~ own h c n p;
  g_order : forall pre c k post b, env = (pre ++ (c, k) :: post)%list -> k_base k = Some b -> In b (keys post) }.
Lemma good_empty : Good [] [].
Proof. split; try discriminate; [constructor|now intros; repeat split|]. intros [|? ?]; discriminate. Qed.

Lemma good_declare h env env' c0 base f ch i : Good h env -> dict_names (Declare c0 base f ch i) -> declare env c0 base f ch i = Ok env' -> Good (Declare c0 base f ch i :: h) env'.
Proof.
  intros G (NF & NC & NI) H. unfold declare in H. destruct (mem c0 env) eqn:M; [discriminate H|]. apply mem_false in M. assert (M' := M). apply PyValFacts.lookup_none in M'.
  set (parent := match base with None => mk_cls None [] [] [] [] | Some b => match lookup b env with Some k => k | None => mk_cls None [] [] [] [] end end).
  assert (P : (forall t n, lookup n (table_of t parent) = match base with Some b => listed h t b n | None => None end) /\ (forall t, NoDup (keys (table_of t parent))) /\ (forall b, base = Some b -> In b (keys env)) /\
      exists fs cs is_ s1 s2 s3, fs = from_parent f (k_fields parent) /\ cs = from_parent ch (k_children parent) /\ is_ = from_parent i (k_internal parent) /\
        update_to FField fs [] = Ok s1 /\ update_to FInternal is_ s1 = Ok s2 /\ update_to FChild cs s2 = Ok s3 /\ env' = (c0, mk_cls base fs cs is_ s3) :: env).
  { assert (U : exists fs cs is_ s1 s2 s3, fs = from_parent f (k_fields parent) /\ cs = from_parent ch (k_children parent) /\ is_ = from_parent i (k_internal parent) /\
        update_to FField fs [] = Ok s1 /\ update_to FInternal is_ s1 = Ok s2 /\ update_to FChild cs s2 = Ok s3 /\ env' = (c0, mk_cls base fs cs is_ s3) :: env).
    { assert (H' : (spc <- update_to FField (from_parent f (k_fields parent)) [] ;; spc <- update_to FInternal (from_parent i (k_internal parent)) spc ;; spc <- update_to FChild (from_parent ch (k_children parent)) spc ;;
        Ok ((c0, mk_cls base (from_parent f (k_fields parent)) (from_parent ch (k_children parent)) (from_parent i (k_internal parent)) spc) :: env)) = Ok env').
      { rewrite <- H. unfold parent. destruct base as [b|]; [destruct (lookup b env); [reflexivity|discriminate H]|reflexivity]. }
      destruct (update_to FField _ []) as [s1|] eqn:E1; [|discriminate H']. cbn [bind] in H'. destruct (update_to FInternal _ s1) as [s2|] eqn:E2; [|discriminate H']. cbn [bind] in H'.
      destruct (update_to FChild _ s2) as [s3|] eqn:E3; [|discriminate H']. cbn [bind] in H'. injection H' as <-. do 6 eexists. repeat (split; [first [reflexivity|eassumption]|]). reflexivity. }
    unfold parent in *. destruct base as [b|].
    - destruct (lookup b env) as [k|] eqn:L; [|discriminate H]. split; [intros t n; exact (g_tables _ _ G b k t n L)|]. split; [intros t; exact (g_names _ _ G b k t L)|].
      split; [|exact U]. intros b' [= <-]. apply lookup_In in L. apply (in_map fst) in L. exact L.
    - split; [now intros []|]. split; [intros []; constructor|]. split; [discriminate|exact U]. }
  clear H. clearbody parent. destruct P as (PT & PN & PB & fs & cs & is_ & s1 & s2 & s3 & EF & EC & EI & U1 & U2 & U3 & ->).
  set (K := mk_cls base fs cs is_ s3).
  assert (KT : forall t n, lookup n (table_of t K) = listed (Declare c0 base f ch i :: h) t c0 n).
  { intros t n. cbn [listed]. rewrite String.eqb_refl. destruct t; cbn [table_of K k_fields k_children k_internal]; rewrite ?EF, ?EC, ?EI, from_parent_lookup.
    - destruct (lookup n f); [reflexivity|]. change (lookup n (k_fields parent)) with (lookup n (table_of Fields parent)). rewrite (PT Fields n). now destruct base.
    - destruct (lookup n ch); [reflexivity|]. change (lookup n (k_children parent)) with (lookup n (table_of Children parent)). rewrite (PT Children n). now destruct base.
    - destruct (lookup n i); [reflexivity|]. change (lookup n (k_internal parent)) with (lookup n (table_of Internals parent)). rewrite (PT Internals n). now destruct base. }
  assert (KN : forall t, NoDup (keys (table_of t K))).
  { intros []; cbn [table_of K k_fields k_children k_internal]; rewrite ?EF, ?EC, ?EI; apply from_parent_nodup; auto; [exact (PN Fields)|exact (PN Children)|exact (PN Internals)]. }
  split.
  - cbn [keys map fst]. constructor; [exact M|exact (g_nodup _ _ G)].
  - intros c k L. cbn [lookup based] in *. rewrite String.eqb_sym in L. destruct (String.eqb_spec c0 c) as [<-|]; [now injection L as <-|exact (g_base _ _ G _ _ L)].
  - intros c k t n L. cbn [lookup] in L. rewrite String.eqb_sym in L. destruct (String.eqb_spec c0 c) as [<-|NE]; [injection L as <-; apply KT|]. cbn [listed]. apply String.eqb_neq in NE. rewrite NE. exact (g_tables _ _ G _ _ _ _ L).
  - intros c k t L. cbn [lookup] in L. rewrite String.eqb_sym in L. destruct (String.eqb_spec c0 c) as [<-|NE]; [injection L as <-; apply KN|exact (g_names _ _ G _ _ _ L)].
  - intros c k n p L. cbn [lookup] in L. rewrite String.eqb_sym in L. destruct (String.eqb_spec c0 c) as [<-|NE].
    2:{ cbn [own]. apply String.eqb_neq in NE. rewrite NE. exact (g_own _ _ G _ _ _ _ L). }
    injection L as <-. cbn [k_attrs K]. unfold own. fold own. rewrite String.eqb_refl.
    rewrite <- (KT Children n), <- (KT Internals n), <- (KT Fields n). cbn [table_of K k_children k_internal k_fields].
    assert (A1 := update_to_lookup _ _ _ _ U1 (KN Fields) n). assert (A2 := update_to_lookup _ _ _ _ U2 (KN Internals) n). assert (A3 := update_to_lookup _ _ _ _ U3 (KN Children) n). unfold meant.
    destruct (lookup n cs) as [d|]; [destruct A3 as (q & A & ->); unfold given in A; rewrite A; split; congruence|]. rewrite A3.
    destruct (lookup n is_) as [d|]; [destruct A2 as (q & A & ->); unfold given in A; rewrite A; split; congruence|]. rewrite A2.
    destruct (lookup n fs) as [d|]; [destruct A1 as (q & A & ->); unfold given in A; rewrite A; split; congruence|]. rewrite A1. split; [discriminate|contradiction].
  - intros c L. cbn [lookup] in L. rewrite String.eqb_sym in L. cbn [based listed own]. destruct (String.eqb c0 c); [discriminate L|]. exact (g_none _ _ G _ L).
  - intros [|[c1 k1] pre] c k post b E B; cbn [List.app] in E.
    + injection E as <- <- <-. exact (PB _ B).
    + injection E as _ _ E. exact (g_order _ _ G _ _ _ _ _ E B).
Qed.
Lemma dict_set_split {A} c (k : A) : forall env k0, lookup c env = Some k0 -> exists pre post, env = (pre ++ (c, k0) :: post)%list /\ dict_set c k env = (pre ++ (c, k) :: post)%list.
Proof.
  induction env as [|[c' k'] env IH]; intros k0 L; [discriminate L|]. cbn [lookup dict_set] in *. destruct (String.eqb_spec c c') as [<-|NE].
  - injection L as <-. exists [], env. auto.
  - destruct (IH _ L) as (pre & post & E & E'). exists ((c', k') :: pre), post. cbn [List.app]. rewrite <- E, <- E'. auto.
Qed.
Lemma good_attach h env env' c0 n0 d : Good h env -> Declare.attach env c0 n0 d = Ok env' -> Good (Attach c0 n0 d :: h) env'.
Proof.
  intros G H. unfold Declare.attach in H. destruct (lookup c0 env) as [k0|] eqn:L0; [|discriminate H]. destruct (d_factory d) as [f|] eqn:DF; [|discriminate H].
  destruct (make f (key_or (d_key d) n0) (d_args d)) as [p0|] eqn:MK; [|discriminate H]. cbn [bind] in H. injection H as <-.
  set (K := mk_cls _ _ _ _ _).
  assert (LK : forall c, lookup c (dict_set c0 K env) = if String.eqb c0 c then Some K else lookup c env) by (intros c; apply ds_lookup).
  assert (KT : forall t n, lookup n (table_of t K) = listed (Attach c0 n0 d :: h) t c0 n).
  { intros t n. cbn [listed]. rewrite String.eqb_refl. cbn [andb]. unfold noted_in. rewrite DF. rewrite <- (g_tables _ _ G c0 k0 t n L0).
    destruct t; cbn [table_of K k_fields k_children k_internal]; destruct f; cbn [same_kind]; rewrite ?andb_false_r, ?andb_true_r; try reflexivity; apply ds_lookup. }
  split.
  - apply nodup_dict_set, (g_nodup _ _ G).
  - intros c k L. rewrite LK in L. cbn [based]. destruct (String.eqb_spec c0 c) as [<-|]; [|exact (g_base _ _ G _ _ L)]. injection L as <-. exact (g_base _ _ G _ _ L0).
  - intros c k t n L. rewrite LK in L. destruct (String.eqb_spec c0 c) as [<-|NE]; [injection L as <-; apply KT|]. cbn [listed]. apply String.eqb_neq in NE. rewrite NE. exact (g_tables _ _ G _ _ _ _ L).
  - intros c k t L. rewrite LK in L. destruct (String.eqb_spec c0 c) as [<-|NE]; [|exact (g_names _ _ G _ _ _ L)]. injection L as <-. assert (N := g_names _ _ G c0 k0 t L0).
    destruct t; cbn [table_of K k_fields k_children k_internal] in *; destruct f; auto; now apply nodup_dict_set.
  - intros c k n p L. rewrite LK in L. destruct (String.eqb_spec c0 c) as [<-|NE].
    2:{ cbn [own]. apply String.eqb_neq in NE. rewrite NE. exact (g_own _ _ G _ _ _ _ L). }
    injection L as <-. cbn [k_attrs K own]. rewrite String.eqb_refl. cbn [andb]. rewrite ds_lookup. destruct (String.eqb_spec n0 n) as [<-|]; [|exact (g_own _ _ G _ _ _ _ L0)].
    unfold meant. rewrite DF, MK. split; congruence.
  - intros c L. rewrite LK in L. cbn [based listed own]. destruct (String.eqb c0 c); [discriminate L|]. exact (g_none _ _ G _ L).
  - intros pre c k post b E B. destruct (dict_set_split c0 K env k0 L0) as (pre0 & post0 & E0 & E1). rewrite E1 in E.
    assert (ORD : forall pre c k post, (pre0 ++ (c0, k0) :: post0 = pre ++ (c, k) :: post)%list -> k_base k = Some b -> In b (keys post)) by (intros ? ? ? ? X Y; rewrite <- E0 in X; exact (g_order _ _ G _ _ _ _ _ X Y)).
    clear -E B ORD. revert pre c k post E B ORD. induction pre0 as [|[c1 k1] pre0 IH]; intros pre c k post E B ORD.
    + destruct pre as [|e pre]; cbn [List.app] in E.
      * injection E as <- <- <-. apply (ORD [] c0 k0 post0 eq_refl). exact B.
      * injection E as <- E. apply (ORD ((c0, k0) :: pre) c k post); [cbn [List.app]; now rewrite E|exact B].
    + destruct pre as [|e pre]; cbn [List.app] in E.
      * injection E as <- <- <-. assert (O := ORD [] c1 k1 _ eq_refl B). unfold keys in *. rewrite map_app in *. exact O.
      * injection E as <- E. apply (IH pre c k post E B). intros pre' c' k' post' X Y. apply (ORD ((c1, k1) :: pre') c' k' post'); [cbn [List.app]; now rewrite X|exact Y].
Qed.
Lemma good_run : forall h2 h1 env0 env, Good h1 env0 -> Forall dict_names h2 -> foldM exec h2 env0 = Ok env -> Good (rev h2 ++ h1) env.
Proof.
  induction h2 as [|s h2 IH]; intros h1 env0 env G F H; [injection H as <-; exact G|]. inversion F as [|? ? DN F']; subst. cbn [foldM] in H. destruct (exec env0 s) as [env1|] eqn:E; [|discriminate H]. cbn [bind] in H.
  cbn [rev]. rewrite <- app_assoc. cbn [List.app]. apply (IH _ env1); [|exact F'|exact H]. destruct s as [c b f ch i|c n d]; cbn [exec] in E; [exact (good_declare _ _ _ _ _ _ _ _ G DN E)|exact (good_attach _ _ _ _ _ _ G E)].
Qed.
Lemma good_module h env : Forall dict_names h -> module h = Ok env -> Good (rev h) env.
Proof. intros F M. rewrite <- (app_nil_r (rev h)). exact (good_run _ _ _ _ good_empty F M). Qed.

Lemma lookup_suffix {A} (pre post : list (string * A)) c : ~ In c (keys pre) -> lookup c (pre ++ post)%list = lookup c post.
Proof. intros N. rewrite lookup_app. apply PyValFacts.lookup_none in N. now rewrite N. Qed.
Lemma attr_sees h env : Good h env -> forall n p post pre c, env = (pre ++ post)%list -> ~ In c (keys pre) -> class_attr post c n = Some p <-> sees h c n p.
Proof.
  intros G n p. induction post as [|[c1 k1] post IH]; intros pre c E NI.
  - rewrite app_nil_r in E. subst pre. apply PyValFacts.lookup_none in NI. destruct (g_none _ _ G _ NI) as (NB & _ & NO). cbn [class_attr]. split; [discriminate|]. intros SE. inversion SE; subst; [exfalso; eapply NO; eassumption|congruence].
  - cbn [class_attr]. destruct (String.eqb_spec c1 c) as [->|NE].
    + assert (L : lookup c env = Some k1). { rewrite E, lookup_suffix by exact NI. cbn [lookup]. now rewrite String.eqb_refl. }
      assert (O := fun q => g_own _ _ G c k1 n q L). assert (B := g_base _ _ G c k1 L). destruct (lookup n (k_attrs k1)) as [q|] eqn:LA.
      * split; [intros [= <-]; apply sees_own, O; reflexivity|]. intros SE. inversion SE as [? ? ? OW|? ? ? b NO BB SB]; subst; [apply O in OW; congruence|]. exfalso. apply (NO q). now apply O.
      * assert (NO : forall q, ~ own h c n q) by (intros q OW; apply O in OW; discriminate OW). destruct (k_base k1) as [b|] eqn:KB.
        -- assert (IN := g_order _ _ G pre c k1 post b E KB).
           assert (NB : ~ In b (keys (pre ++ [(c, k1)]))).
           { assert (ND := g_nodup _ _ G). rewrite E in ND. change ((c, k1) :: post)%list with ([(c, k1)] ++ post)%list in ND. rewrite app_assoc in ND. unfold keys in *. rewrite map_app in ND. intros J.
             clear -ND J IN. induction (map fst (pre ++ [(c, k1)])) as [|x l IHl]; [contradiction|]. cbn [List.app] in ND. inversion ND as [|? ? NI ND']; subst. destruct J as [<- | J]; [apply NI, in_or_app; now right|auto]. }
           assert (E' : env = ((pre ++ [(c, k1)]) ++ post)%list) by (rewrite <- app_assoc; exact E). rewrite (IH _ b E' NB). split; intros SE; [eapply sees_base; eauto|].
           inversion SE as [? ? ? OW|? ? ? b' NO' BB SB]; subst; [exfalso; exact (NO _ OW)|]. congruence.
        -- split; [discriminate|]. intros SE. inversion SE as [? ? ? OW|? ? ? b' NO' BB SB]; subst; [exfalso; exact (NO _ OW)|]. congruence.
    + apply (IH (pre ++ [(c1, k1)])%list c); [rewrite <- app_assoc; exact E|]. unfold keys. rewrite map_app. intros J. apply in_app_or in J as [J|[J|[]]]; [exact (NI J)|exact (NE J)].
Qed.
