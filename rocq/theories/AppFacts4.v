(** * Facts about App.v: loading terminates and parses each location once. *)
From Coq Require Import String List Bool Arith Lia.
From Verif Require Import PyStr PyStrFacts PyVal PyValFacts Jp Urls Obj Classes_v1_2 Classes_v2_0 Classes_v3_0_0 Store SpecStore StoreFacts StoreFacts2 App SpecApp AppFacts2 AppFacts3.
Import ListNotations.
Open Scope string_scope. Open Scope nat_scope.

(** ** covered locations *)
Definition covb (V : string) (s : store sobj) (l : string * string) : bool :=
  match first_match (snd l) V (sub (fst l) (s_objs s)) with Some _ => true | None => false end.
Lemma covb_spec V s l : good s -> covb V s l = true <-> exists p o, prefix_of p (snd l) /\ entry s (fst l) p V = Some o.
Proof.
  intros G. unfold covb. destruct (first_match _ _ _) as [[p o]|] eqn:F.
  - apply first_match_some in F as [P E]; [|now apply good_sub]. split; [|reflexivity]. intros _. exists p, o. split; [exact P|]. now rewrite entry_sub.
  - split; [discriminate|]. intros (p & o & P & E). rewrite entry_sub in E. now apply (first_match_none _ _ _ F p o P) in E.
Qed.
Lemma covb_get V s u jp : covb V s (u, jp) = false -> store_get so_resolve s u jp V = Ok None.
Proof. unfold covb, store_get. cbn [fst snd]. now destruct (first_match _ _ _) as [[p o]|]. Qed.
Lemma get_covb V s u jp o : store_get so_resolve s u jp V = Ok (Some o) -> covb V s (u, jp) = true.
Proof. unfold covb, store_get. cbn [fst snd]. now destruct (first_match _ _ _) as [[p o']|]. Qed.
Lemma get_none_covb V s u jp : store_get so_resolve s u jp V = Ok None -> covb V s (u, jp) = false.
Proof. unfold covb, store_get. cbn [fst snd]. destruct (first_match _ _ _) as [[p o']|]; [|reflexivity]. now destruct (so_resolve _ _). Qed.

Definition mono (V : string) (s s' : store sobj) : Prop := forall l, covb V s l = true -> covb V s' l = true.
Definition uncov (V : string) (U : list (string * string)) (s : store sobj) : nat := length (filter (fun l => negb (covb V s l)) U).
Lemma mono_refl V s : mono V s s. Proof. intros l H. exact H. Qed.
Lemma mono_trans V s s' s'' : mono V s s' -> mono V s' s'' -> mono V s s''. Proof. intros A B l H. auto. Qed.
Lemma filter_le {A} (f g : A -> bool) l : (forall x, In x l -> f x = true -> g x = true) -> length (filter f l) <= length (filter g l).
Proof.
  intros H. induction l as [|x l IH]; [reflexivity|]. cbn [filter]. assert (L : length (filter f l) <= length (filter g l)) by (apply IH; intros; apply H; auto; now right).
  destruct (f x) eqn:F.
  - rewrite (H x (or_introl eq_refl) F). cbn [length]. lia.
  - destruct (g x); cbn [length]; lia.
Qed.
Lemma filter_lt {A} (f g : A -> bool) l x : (forall x, In x l -> f x = true -> g x = true) -> In x l -> f x = false -> g x = true -> length (filter f l) < length (filter g l).
Proof.
  intros H I F G. induction l as [|y l IH]; [destruct I|]. cbn [filter]. assert (HL : forall x, In x l -> f x = true -> g x = true) by (intros; apply H; auto; now right).
  destruct I as [->|I].
  - rewrite F, G. cbn [length]. assert (L := filter_le f g l HL). lia.
  - specialize (IH HL I). destruct (f y) eqn:FY; [rewrite (H y (or_introl eq_refl) FY); cbn [length]; lia|]. destruct (g y); cbn [length]; lia.
Qed.
Lemma uncov_mono V U s s' : mono V s s' -> uncov V U s' <= uncov V U s.
Proof.
  intros H. apply filter_le. intros l _ F. destruct (covb V s l) eqn:C; [|reflexivity]. apply H in C. rewrite C in F. discriminate F.
Qed.
Lemma uncov_lt V U s s' l : mono V s s' -> In l U -> covb V s l = false -> covb V s' l = true -> uncov V U s' < uncov V U s.
Proof.
  intros H I C C'. apply filter_lt with l; [|exact I|now rewrite C'|now rewrite C]. intros k _ F. destruct (covb V s k) eqn:E; [|reflexivity]. apply H in E. rewrite E in F. discriminate F.
Qed.
Lemma uncov_le V U s : uncov V U s <= length U.
Proof. unfold uncov. induction U as [|x U IH]; [reflexivity|]. cbn [filter]. destruct (negb _); cbn [length]; lia. Qed.

(** ** effects on the store *)
Lemma set_as_op s o u jp v s' : store_set so_base s o u jp v = Ok s' -> s' = run_op so_base s (SetOp o u jp v) /\ so_base o = true.
Proof. cbn [run_op]. intros H. rewrite H. split; [reflexivity|]. unfold store_set in H. now destruct (so_base o). Qed.
Lemma set_mono V s o u jp v s' : good s -> store_set so_base s o u jp v = Ok s' -> mono V s s' /\ good s' /\ covb v s' (u, jp) = true.
Proof.
  intros G H. apply set_as_op in H as [-> B]. assert (G' := run_op_good so_base s (SetOp o u jp v) G). split; [|split; [exact G'|]].
  - intros l C. apply covb_spec in C as (p & x & P & E); [|exact G]. apply covb_spec; [exact G'|].
    assert (ES := entry_set so_base s o u jp v (fst l) p V B). destruct (String.eqb u (fst l) && String.eqb jp p && String.eqb v V); [exists p, o|exists p, x]; (split; [exact P|]); rewrite ES; auto.
  - apply covb_spec; [exact G'|]. exists jp, o. cbn [fst snd]. split; [exists ""; now rewrite sapp_nil_r|]. rewrite entry_set by exact B. now rewrite !String.eqb_refl.
Qed.
Lemma set_entry s o u jp v s' u' p' v' x : store_set so_base s o u jp v = Ok s' -> entry s' u' p' v' = Some x -> (x = o /\ u' = u /\ v' = v) \/ entry s u' p' v' = Some x.
Proof.
  intros H E. apply set_as_op in H as [-> B]. rewrite entry_set in E by exact B. destruct (String.eqb u u' && String.eqb jp p' && String.eqb v v') eqn:Q; [left|now right].
  injection E as <-. split; [reflexivity|]. apply andb_true_iff in Q as [Q1 Q]. apply andb_true_iff in Q1 as [Q1 _]. apply String.eqb_eq in Q, Q1. auto.
Qed.
Lemma routes_objs (s s' : store sobj) u v rs r : store_update_routes s u v rs = (s', r) -> s_objs s' = s_objs s /\ s_versions s' = s_versions s.
Proof. unfold store_update_routes. destruct (lookup v _); intros H; injection H as <- _; auto. Qed.
Lemma set_versions s o u jp v s' : store_set so_base s o u jp v = Ok s' -> s_versions s' = s_versions s.
Proof. unfold store_set. destruct (so_base o); [|discriminate]. intros H. now injection H as <-. Qed.
Lemma objs_covb V s s' l : s_objs s' = s_objs s -> covb V s' l = covb V s l. Proof. unfold covb. now intros ->. Qed.
Lemma objs_entry (s s' : store sobj) u p v : s_objs s' = s_objs s -> entry s' u p v = entry s u p v. Proof. unfold entry. now intros ->. Qed.
Lemma objs_good (s s' : store sobj) : s_objs s' = s_objs s -> good s -> good s'. Proof. unfold good. now intros ->. Qed.
Lemma under_op (s : store sobj) u jp v r s' x : store_get_under s u jp v r = (s', x) -> s' = run_op so_base s (UnderOp u jp v r).
Proof. cbn [run_op]. intros H. now rewrite H. Qed.
Lemma under_versions (s : store sobj) u jp v r s' x : store_get_under s u jp v r = (s', x) -> s_versions s' = s_versions s.
Proof.
  unfold store_get_under. destruct (r && _); [now intros [= <- _]|]. destruct (lookup u (s_objs s)) as [[|pc uc]|]; try (now intros [= <- _]). intros [= <- _]. now destruct r.
Qed.
Lemma under_entry (s : store sobj) u jp v r s' x u' p' v' o : good s -> store_get_under s u jp v r = (s', x) -> entry s' u' p' v' = Some o -> entry s u' p' v' = Some o.
Proof.
  intros G H. apply under_op in H as ->. destruct r.
  - rewrite entry_remove by exact G. now destruct (_ && _ && _ && _).
  - intros E. rewrite <- E. symmetry. apply objs_entry. now apply (entry_other so_base s (UnderOp u jp v false)).
Qed.
Lemma under_covb V (s : store sobj) u jp v r s' x l : good s -> store_get_under s u jp v r = (s', x) -> covb V s l = true ->
  covb V s' l = true \/ (fst l = u /\ prefix_of jp (snd l) /\ v = V).
Proof.
  intros G H C. assert (HO := under_op _ _ _ _ _ _ _ H). assert (G' : good s') by (rewrite HO; now apply run_op_good).
  apply covb_spec in C as (p & o & P & E); [|exact G]. destruct r.
  - assert (ER := entry_remove so_base s u jp v (fst l) p V G). rewrite <- HO in ER. destruct (truthy_str jp && String.eqb u (fst l) && startswith jp p && String.eqb v V) eqn:Q.
    + right. apply andb_true_iff in Q as [Q Q4]. apply andb_true_iff in Q as [Q Q3]. apply andb_true_iff in Q as [_ Q2]. apply String.eqb_eq in Q2, Q4. apply prefix_startswith in Q3.
      split; [auto|]. split; [|exact Q4]. destruct Q3 as [x1 ->]. destruct P as [x2 ->]. exists (x1 ++ x2)%string. now rewrite sapp_assoc.
    + left. apply covb_spec; [exact G'|]. exists p, o. split; [exact P|]. now rewrite ER.
  - left. apply covb_spec; [exact G'|]. exists p, o. split; [exact P|]. rewrite <- E. apply objs_entry. rewrite HO. now apply (entry_other so_base s (UnderOp u jp v false)).
Qed.

(** ** the invariant *)
Section Termination.
  Variables (path2url abspath : string -> string) (app_url : string) (versions : list string) (fetch : string -> res json)
            (upgrade : string -> option (sobj -> string -> prog (sobj * routes))) (prepare : sobj -> string -> res sobj).
  Variables (V : string) (U : list (string * string)) (D : string -> obj -> Prop) (may_load : string -> Prop).
  Notation split := (split path2url abspath).
  Notation load := (load_obj path2url abspath fetch).
  Notation resolve_obj := (resolve_obj path2url abspath app_url versions fetch upgrade prepare).
  Notation migrate_obj := (migrate_obj path2url abspath versions upgrade prepare).
  Hypothesis V_supported : V = "2.0" \/ V = "3.0.0".
  Hypothesis one_version : forall jref d v, fetch jref = Ok (JDict d) -> declares d v -> v = JStr V.
  Hypothesis U_load : forall l, In l U -> may_load (fst l).
  Hypothesis D_parse : forall jref src url jp b path ovr o, may_load url -> fetch jref = Ok src -> split jref = Ok (url, jp) -> (forall k x, In (k, x) ovr -> D url x) -> construct (table_of V) src b path ovr = Ok o -> D url o.
  Hypothesis D_resolve : forall url v o ts o', D url o -> resolve (table_of v) o ts = Ok o' -> D url o'.
  Hypothesis D_prepare : forall url o jref o', D url (so_obj o) -> prepare o jref = Ok o' -> D url (so_obj o').
  Hypothesis one_round : versions_through versions V V = Ok [V].
  Hypothesis U_asks : forall m o jref url jp, upgrade V = Some m -> split jref = Ok (url, jp) -> swagger_version o = Ok V -> D url (so_obj o) -> asks_within split D V U url (m o jref).

  Record Inv (a : app) : Prop := mk_inv {
    i_good : good (a_store a);
    i_orig : a_original a = V;
    i_parsed : forall l, In l (parsed a) -> covb V (a_store a) l = true;
    i_nodup : NoDup (parsed a);
    i_deep : ~ too_deep a;
    i_nulls : nulls a = [];
    i_key : forall u p, entry (a_store a) u p "" = None;
    i_D : forall u p v o, entry (a_store a) u p v = Some o -> D u (so_obj o) }.

  Definition triple {A} (n : nat) (m : M A) (post : A -> Prop) : Prop :=
    forall a, Inv a -> uncov V U (a_store a) <= n ->
      let (a', r) := m a in
      nulls a' <> [] \/
      (NoDup (parsed a') /\ ~ too_deep a' /\ forall x, r = Ok x -> Inv a' /\ mono V (a_store a) (a_store a') /\ post x).

  Lemma nulls_grow a a' l : a_log a' = (l ++ a_log a)%list -> nulls a <> [] -> nulls a' <> [].
  Proof. intros E N. unfold nulls in *. rewrite E, flat_map_app. intros H. apply app_eq_nil in H as [_ H]. contradiction. Qed.
  Lemma triple_bind {A B} n (m : M A) (f : A -> M B) P Q : triple n m P -> (forall x, P x -> triple n (f x) Q) -> (forall x, grows (f x)) -> triple n (bindm m f) Q.
  Proof.
    intros T1 T2 G a I L. unfold bindm. specialize (T1 a I L). destruct (m a) as [a1 [x|e]].
    - destruct T1 as [B1|(N1 & E1 & T1)].
      + destruct (G x a1) as [l E]. destruct (f x a1) as [a2 r]. left. now apply (nulls_grow a1 a2 l).
      + destruct (T1 x eq_refl) as (I1 & M1 & P1). assert (L1 : uncov V U (a_store a1) <= n) by (assert (Z := uncov_mono V U _ _ M1); lia).
        specialize (T2 x P1 a1 I1 L1). destruct (f x a1) as [a2 r]. destruct T2 as [B2|(N2 & E2 & T2)]; [now left|]. right. split; [exact N2|]. split; [exact E2|].
        intros y Hy. destruct (T2 y Hy) as (I2 & M2 & Q2). split; [exact I2|]. split; [now apply mono_trans with (a_store a1)|exact Q2].
    - destruct T1 as [B1|(N1 & E1 & _)]; [now left|]. right. split; [exact N1|]. split; [exact E1|discriminate].
  Qed.
  Lemma triple_pure {A} n (m : M A) (P : A -> Prop) : (forall a, Inv a -> exists r, m a = (a, r) /\ forall x, r = Ok x -> P x) -> triple n m P.
  Proof.
    intros H a I _. destruct (H a I) as (r & -> & HP). right. split; [apply (i_nodup a I)|]. split; [apply (i_deep a I)|]. intros x E. split; [exact I|]. split; [apply mono_refl|auto].
  Qed.
  Lemma triple_lift {A} n (r : res A) (P : A -> Prop) : (forall x, r = Ok x -> P x) -> triple n (lift r) P.
  Proof. intros H. apply triple_pure. intros a _. exists r. auto. Qed.
  Lemma triple_ret {A} n (x : A) (P : A -> Prop) : P x -> triple n (ret x) P.
  Proof. intros H. apply triple_pure. intros a _. exists (Ok x). split; [reflexivity|]. intros y E. now injection E as <-. Qed.

  (** a change of the store which keeps covered locations covered *)
  Lemma Inv_store a s : Inv a -> good s -> mono V (a_store a) s -> (forall u p, entry s u p "" = None) -> (forall u p v o, entry s u p v = Some o -> D u (so_obj o)) ->
    Inv (with_store a s).
  Proof.
    intros [G O P N X Z K DD] G' M K' D'. split; cbn [with_store a_store a_original a_log]; auto.
  Qed.
  Lemma triple_set n o u jp v : D u (so_obj o) -> v <> "" -> triple n (set_obj o u jp v) (fun _ => True).
  Proof.
    intros DO NV a I L. unfold set_obj. destruct (store_set so_base (a_store a) o u jp v) as [s|e] eqn:S.
    - right. split; [apply (i_nodup a I)|]. split; [apply (i_deep a I)|]. intros x _. destruct (set_mono V _ _ _ _ _ _ (i_good a I) S) as (M & G & _). split; [|split; [exact M|exact Logic.I]].
      apply Inv_store; auto.
      + intros u' p'. destruct (entry s u' p' "") as [x'|] eqn:E; [|reflexivity]. exfalso. apply (set_entry _ _ _ _ _ _ _ _ _ _ S) in E as [(_ & _ & E)|E]; [congruence|]. rewrite (i_key a I) in E. discriminate E.
      + intros u' p' v' o' E. apply (set_entry _ _ _ _ _ _ _ _ _ _ S) in E as [(-> & -> & _)|E]; [exact DO|now apply (i_D a I) in E].
    - right. split; [apply (i_nodup a I)|]. split; [apply (i_deep a I)|discriminate].
  Qed.
  Lemma triple_routes n u v rs : triple n (put_routes u v rs) (fun _ => True).
  Proof.
    intros a I L. unfold put_routes. destruct (store_update_routes (a_store a) u v rs) as [s r] eqn:S. apply routes_objs in S as [S _].
    right. split; [apply (i_nodup a I)|]. split; [apply (i_deep a I)|]. intros x _. assert (M : mono V (a_store a) s) by (intros l C; now rewrite (objs_covb V _ _ l S)).
    split; [|split; [exact M|exact Logic.I]]. apply Inv_store; auto.
    - now apply (objs_good _ _ S), (i_good a I).
    - intros u' p'. rewrite (objs_entry _ _ _ _ _ S). apply (i_key a I).
    - intros u' p' v' o'. rewrite (objs_entry _ _ _ _ _ S). apply (i_D a I).
  Qed.

  (** ** programs and migration, given the depth below *)
  Section Below.
    Variable n : nat.
    Variable ask : query -> M (sobj * string).
    Hypothesis ask_grows : forall q, grows (ask q).
    Hypothesis ask_ok : forall q l, q_from q = V -> (q_to q = None \/ q_to q = Some V) -> (forall p, q_parser q = Some p -> fst p = V) ->
      split (q_jref q) = Ok l -> fst l <> "" -> In l U -> triple n (ask q) (fun x => D (fst l) (so_obj (fst x)) /\ (snd x = (fst l ++ snd l)%string \/ snd x = snd l)).

    Lemma triple_run here p : asks_within split D V U here p -> triple n (run ask p) (fun x => D here (so_obj (fst x))).
    Proof.
      induction p as [r|q k IH|o u jp v k IH|u v rs k IH|k IH|u jp v k IH]; intros W; cbn [run].
      - apply triple_lift. intros x ->. inversion W; subst. assumption.
      - inversion W; subst. apply triple_bind with (P := fun x => D (fst l) (so_obj (fst x)) /\ (snd x = (fst l ++ snd l)%string \/ snd x = snd l)).
        + apply ask_ok; assumption.
        + intros [o r] [HO HR]. apply IH. match goal with H : forall o r, D _ _ -> _ |- _ => now apply H end.
        + intros x. now apply grows_run.
      - inversion W; subst. apply triple_bind with (P := fun _ => True); [now apply triple_set| |intros; now apply grows_run]. intros x _. now apply IH.
      - inversion W; subst. apply triple_bind with (P := fun _ => True); [apply triple_routes| |intros; now apply grows_run]. intros x _. now apply IH.
      - inversion W; subst. apply triple_bind with (P := fun x => x = V).
        + apply triple_pure with (P := fun x => x = V). intros a IA. exists (Ok (a_original a)). split; [reflexivity|]. intros x [= <-]. apply (i_orig a IA).
        + intros x ->. now apply IH.
        + intros x. now apply grows_run.
      - inversion W.
    Qed.
    Lemma triple_round url jp0 jref o jp from : split jref = Ok (url, jp0) -> swagger_version o = Ok V -> D url (so_obj o) -> V <> "" -> triple n (round upgrade prepare ask url jref o jp from V) (fun x => D url (so_obj (fst x))).
    Proof.
      intros SJ SV DO NV. unfold round. destruct (upgrade V) as [m|] eqn:UV; [|apply triple_lift; discriminate].
      apply triple_bind with (P := fun x => D url (so_obj (fst x))).
      - apply triple_run. apply (U_asks m o jref url jp0); auto.
      - intros [o' rl] DO'. cbn [fst] in DO'. apply triple_bind with (P := fun _ => True); [apply triple_routes| |].
        + intros [] _. apply triple_bind with (P := fun _ => True).
          * apply triple_pure. intros a _. eexists. split; [reflexivity|auto].
          * intros jp' _. apply triple_bind with (P := fun x => D url (so_obj x)).
            -- apply triple_lift. intros x E. now apply (D_prepare url) in E.
            -- intros o'' DO''. apply triple_bind with (P := fun _ => True); [now apply triple_set| |].
               ++ intros [] _. now apply triple_ret.
               ++ intros []. auto with grow.
            -- intros x. apply grows_bind; auto with grow.
          * intros x. apply grows_bind; [auto with grow|]. intros y. apply grows_bind; auto with grow.
        + intros []. apply grows_bind; [auto with grow|]. intros x. apply grows_bind; [auto with grow|]. intros y. apply grows_bind; auto with grow.
      - intros [o' rl]. apply grows_bind; [auto with grow|]. intros []. apply grows_bind; [auto with grow|]. intros x. apply grows_bind; [auto with grow|]. intros y. apply grows_bind; auto with grow.
    Qed.
    Lemma triple_rounds url jp0 jref : split jref = Ok (url, jp0) -> V <> "" -> forall o jp from, swagger_version o = Ok V -> D url (so_obj o) ->
      triple n (fun a => let '(a', _, r) := rounds upgrade prepare ask url jref [V] o jp from a in (a', r)) (fun x => D url (so_obj x)).
    Proof.
      intros SJ NV o jp from SV DO a I L. assert (T := triple_round url jp0 jref o jp from SJ SV DO NV a I L). cbn [rounds].
      destruct (round _ _ _ _ _ _ _ _ _ a) as [a1 [[o1 jp1]|e]].
      - destruct T as [B|(N & X & T)]; [now left|]. right. split; [exact N|]. split; [exact X|]. intros x [= <-]. apply (T (o1, jp1) eq_refl).
      - destruct T as [B|(N & X & _)]; [now left|]. right. split; [exact N|]. split; [exact X|]. discriminate.
    Qed.
    Lemma triple_migrate o jref url jp : split jref = Ok (url, jp) -> swagger_version o = Ok V -> D url (so_obj o) -> V <> "" -> triple n (migrate_obj ask o jref V) (fun x => D url (so_obj x)).
    Proof.
      intros SJ SV DO NV a I L. unfold App.migrate_obj, migrate_traced. destruct (negb _).
      { right. split; [apply (i_nodup a I)|]. split; [apply (i_deep a I)|discriminate]. }
      rewrite SV. cbn [bind]. rewrite one_round. cbn [bind]. rewrite SJ. cbn [bind].
      assert (R := triple_rounds url jp jref SJ NV o jp V SV DO a I L). cbv beta in R.
      destruct (rounds upgrade prepare ask url jref [V] o jp V a) as [[a1 t] [o1|e]]; [|exact R].
      destruct (is_root o1); [|exact R]. cbn [set_current fst]. destruct R as [B|(N & X & R)]; [left; exact B|]. right. split; [exact N|]. split; [exact X|].
      intros x E. destruct (R x E) as ([G O P N1 X1 Z K DD] & M & DX). split; [|split; [exact M|exact DX]]. split; assumption.
    Qed.
  End Below.

  (** ** loading *)
  Lemma under_objs (s : store sobj) u jp v r s' l : good s -> store_get_under s u jp v r = (s', Ok (Some l)) ->
    forall k o, In (k, o) l -> exists p, entry s u p v = Some o.
  Proof.
    intros G. unfold store_get_under. destruct (r && _); [discriminate|]. destruct (lookup u (s_objs s)) as [[|pc0 uc0]|] eqn:LU; try discriminate.
    assert (GC := good_lookup s u _ G LU). set (uc := pc0 :: uc0) in *. clearbody uc. intros H k o I. injection H as _ <-.
    assert (X : forall c ret, In (k, o) (fold_left (put_under jp v) c ret) -> In (k, o) ret \/ exists p pc, In (p, pc) c /\ lookup v pc = Some o).
    { induction c as [|[p pc] c IH]; intros ret H; [now left|]. cbn [fold_left] in H. apply IH in H as [H|(p' & pc' & H & E)]; [|right; exists p', pc'; split; [now right|exact E]].
      unfold put_under in H. cbn [fst snd] in H. destruct (startswith jp p); [|now left]. destruct (lookup v pc) as [o'|] eqn:L; [|now left].
      apply in_dict_set in H as [[= -> ->]|H]; [|now left]. right. exists p, pc. split; [now left|exact L]. }
    rewrite under_fold in I. apply X in I as [[]|(p & pc & I & E)]. exists p. unfold entry. rewrite LU. destruct GC as [N _]. now rewrite (lookup_nodup _ _ _ N I).
  Qed.
  Lemma entries_none (s : store sobj) u jp : good s -> (forall p, entry s u p "" = None) -> store_get so_resolve s u jp "" = Ok None.
  Proof.
    intros G H. unfold store_get. destruct (first_match jp "" (sub u (s_objs s))) as [[p o]|] eqn:F; [|reflexivity]. exfalso.
    apply first_match_some in F as [_ E]; [|now apply good_sub]. rewrite <- entry_sub in E. rewrite H in E. discriminate E.
  Qed.
  Lemma load_step jref (p : option parser) rm a url jp : may_load url -> Inv a -> split jref = Ok (url, jp) -> covb V (a_store a) (url, jp) = false -> (forall q : parser, p = Some q -> fst q = V) ->
    let (a', r) := load jref p rm a in
    NoDup (parsed a') /\ ~ too_deep a' /\ nulls a' = [] /\
    forall o, r = Ok o -> (exists e, swagger_version o = Err e) \/ (Inv a' /\ mono V (a_store a) (a_store a') /\ covb V (a_store a') (url, jp) = true /\ D url (so_obj o) /\ swagger_version o = Ok V).
  Proof.
    intros ML I S C PV. assert (STOP : forall e : exn, let (a', r) := (a, @Err sobj e) in NoDup (parsed a') /\ ~ too_deep a' /\ nulls a' = [] /\
      forall o, r = Ok o -> (exists e, swagger_version o = Err e) \/ (Inv a' /\ mono V (a_store a) (a_store a') /\ covb V (a_store a') (url, jp) = true /\ D url (so_obj o) /\ swagger_version o = Ok V)).
    { intros e. split; [apply (i_nodup a I)|]. split; [apply (i_deep a I)|]. split; [apply (i_nulls a I)|discriminate]. }
    destruct (fetch jref) as [src|e] eqn:F; [|rewrite (load_fetch_err _ _ _ _ _ _ _ _ F); apply STOP].
    destruct (doc_version src) as [v|e] eqn:DV; [|rewrite (load_version_err _ _ _ _ _ _ _ _ _ F DV); apply STOP]. clear STOP.
    assert (HV : (v = Some (JStr V) /\ version_key v = Some V) \/ (v = None /\ version_key v = Some "")).
    { destruct v as [v|]; [left|now right]. destruct src; try discriminate DV. apply doc_version_declares in DV. rewrite (one_version jref _ _ F DV). split; [reflexivity|]. destruct V_supported as [-> | ->]; reflexivity. }
    assert (NV : V <> "") by (destruct V_supported as [-> | ->]; discriminate).
    assert (NC : not_cached a url jp v).
    { left. unfold cached_for. destruct HV as [[-> _]|[-> _]].
      - assert (TV : truthy_str V = true) by (destruct V_supported as [-> | ->]; reflexivity). rewrite TV. now apply covb_get.
      - apply entries_none; [apply (i_good a I)|]. intros q. apply (i_key a I). }
    rewrite (load_fresh _ _ _ _ _ _ _ _ _ _ _ F DV S NC). unfold after_under.
    assert (NP : ~ In (url, jp) (parsed a)). { intros H. apply (i_parsed a I) in H. congruence. }
    assert (LOG : forall s, NoDup (parsed (with_event (with_store a s) (EParse url jp))) /\ ~ too_deep (with_event (with_store a s) (EParse url jp)) /\ nulls (with_event (with_store a s) (EParse url jp)) = []).
    { intros s. split; [unfold parsed; cbn [with_event with_store a_log flat_map List.app]; constructor; [exact NP|apply (i_nodup a I)]|]. split; [|apply (i_nulls a I)].
      intros [E|E]; [discriminate E|]. now apply (i_deep a I). }
    assert (UK : exists k, version_key v = Some k /\ (k = V \/ k = "")) by (destruct HV as [[_ ->]|[_ ->]]; eauto).
    destruct UK as (k & EK & KK). rewrite EK. destruct (store_get_under (a_store a) url jp k rm) as [s u] eqn:UN.
    destruct u as [ovr|e]; [|split; [apply (i_nodup a I)|]; split; [apply (i_deep a I)|]; split; [apply (i_nulls a I)|discriminate]].
    cbv zeta. destruct (parse fetch src jref url v (overrides ovr) p) as [[[o v'] url']|e] eqn:PA; [|destruct (LOG s) as (L1 & L2 & L3); split; [exact L1|]; split; [exact L2|]; split; [exact L3|discriminate]].
    destruct (so_truthy o); [|destruct (LOG s) as (L1 & L2 & L3); split; [exact L1|]; split; [exact L2|]; split; [exact L3|discriminate]].
    destruct (store_set so_base s o url' jp v') as [s'|e] eqn:SS; [|destruct (LOG s) as (L1 & L2 & L3); split; [exact L1|]; split; [exact L2|]; split; [exact L3|discriminate]].
    destruct (LOG s') as (L1 & L2 & L3). split; [exact L1|]. split; [exact L2|]. split; [exact L3|]. intros x [= <-].
    assert (OV : forall k' x, In (k', x) (overrides ovr) -> D url x).
    { intros k' x HIn. unfold overrides in HIn. destruct ovr as [l|]; [|destruct HIn]. apply in_map_iff in HIn as ([k2 o2] & E2 & HIn). cbn [fst snd] in E2. injection E2 as <- <-.
      destruct (under_objs _ _ _ _ _ _ _ (i_good a I) UN _ _ HIn) as [q EQ]. now apply (i_D a I) in EQ. }
    assert (PARSED : (exists e, swagger_version o = Err e) \/ (v' = V /\ url' = url /\ swagger_version o = Ok V /\ so_version o = V /\ D url (so_obj o))).
    { destruct HV as [[-> _]|[-> _]].
      - right. assert (T : forall b path, construct (table_of V) src b path (overrides ovr) = Ok (so_obj o) -> D url (so_obj o)) by (intros b path HC; now apply (D_parse jref src url jp b path (overrides ovr))).
        destruct (parse_version _ _ _ _ _ _ _ _ _ _ PA) as [(E & _)|[(E & -> & SV & (path0 & kids0 & EO) & ->)|(E & -> & SV & (path0 & kids0 & EO) & ->)]].
        + exfalso. injection E as E. destruct V_supported as [H | H]; rewrite H in E; discriminate E.
        + injection E as E. split; [auto|]. split; [reflexivity|]. split; [unfold swagger_version; rewrite EO; congruence|]. split; [congruence|]. rewrite E in T, PA. unfold parse in PA. cbn [String.eqb Ascii.eqb Bool.eqb] in PA.
          destruct (construct v20_table src (BCls "Swagger") (Some jref) (overrides ovr)) as [y|] eqn:CY; [|discriminate PA]. cbn [bind] in PA. injection PA as <-. cbn [so_obj] in *. apply (T (BCls "Swagger") (Some jref)). exact CY.
        + injection E as E. split; [auto|]. split; [reflexivity|]. split; [unfold swagger_version; rewrite EO; congruence|]. split; [congruence|]. rewrite E in T, PA. unfold parse in PA. cbn [String.eqb Ascii.eqb Bool.eqb] in PA.
          destruct (construct v30_table src (BCls "OpenApi") (Some jref) (overrides ovr)) as [y|] eqn:CY; [|discriminate PA]. cbn [bind] in PA. injection PA as <-. cbn [so_obj] in *. apply (T (BCls "OpenApi") (Some jref)). exact CY.
      - apply parse_none in PA as (pv & b & -> & CO & SV & -> & ->). specialize (PV _ eq_refl). cbn [fst] in PV. subst pv.
        unfold swagger_version. destruct (so_obj o) eqn:SO; [left; eauto| |left; eauto|left; eauto]. right. split; [reflexivity|]. split; [reflexivity|]. split; [congruence|]. split; [exact SV|].
        apply (D_parse jref src url jp b (Some jref) []); [exact ML|exact F|exact S|intros ? ? []|exact CO]. }
    destruct PARSED as [BAD|(-> & -> & SW & SV & DO)]; [now left|]. right.
    assert (HO : s = run_op so_base (a_store a) (UnderOp url jp k rm)) by now apply under_op in UN.
    assert (GS : good s) by (rewrite HO; apply run_op_good, (i_good a I)).
    destruct (set_mono V _ _ _ _ _ _ GS SS) as (MS & GS' & CS).
    assert (MM : mono V (a_store a) s').
    { intros [lu lp] H. destruct (under_covb V _ _ _ _ _ _ _ _ (i_good a I) UN H) as [H'|(E1 & E2 & _)]; [now apply MS|]. cbn [fst snd] in E1, E2. subst lu.
      apply covb_spec; [exact GS'|]. exists jp, o. cbn [fst snd]. split; [exact E2|]. apply set_as_op in SS as [-> B]. rewrite entry_set by exact B. now rewrite !String.eqb_refl. }
    split; [|split; [exact MM|split; [exact CS|split; [exact DO|exact SW]]]]. split; cbn [a_store a_original a_log]; auto.
    - destruct (is_root o); [exact SV|apply (i_orig a I)].
    - intros l [<-|H]; [exact CS|]. apply MM. now apply (i_parsed a I).
    - intros u' p'. destruct (entry s' u' p' "") as [x|] eqn:E; [|reflexivity]. exfalso. apply (set_entry _ _ _ _ _ _ _ _ _ _ SS) in E as [(_ & _ & E)|E]; [congruence|].
      apply (under_entry _ _ _ _ _ _ _ _ _ _ _ (i_good a I) UN) in E. rewrite (i_key a I) in E. discriminate E.
    - intros u' p' w x E. apply (set_entry _ _ _ _ _ _ _ _ _ _ SS) in E as [(-> & -> & _)|E]; [exact DO|]. apply (under_entry _ _ _ _ _ _ _ _ _ _ _ (i_good a I) UN) in E. now apply (i_D a I) in E.
  Qed.

  (** ** resolving *)
  Lemma get_D a url jp o : Inv a -> store_get so_resolve (a_store a) url jp V = Ok (Some o) -> D url (so_obj o).
  Proof.
    intros I H. unfold store_get in H. destruct (first_match jp V (sub url (s_objs (a_store a)))) as [[p x]|] eqn:F; [|discriminate H].
    apply first_match_some in F as [_ E]; [|apply good_sub, (i_good a I)]. rewrite <- entry_sub in E. apply (i_D a I) in E.
    unfold so_resolve in H. destruct (resolve _ (so_obj x) _) as [y|] eqn:R; [|discriminate H]. cbn [rmap] in H. injection H as <-. cbn [so_obj]. now apply (D_resolve _ _ _ _ _ E R).
  Qed.
  Lemma answer_D u o url jp x : D u (so_obj o) -> answer o url jp = Ok x -> D u (so_obj (fst x)).
  Proof. intros H. unfold answer. destruct (so_obj o) as [[]| | |] eqn:E; try discriminate; intros [= <-]; cbn [fst]; now rewrite E. Qed.

  Lemma answer_where o url jp x : answer o url jp = Ok x -> snd x = (url ++ jp)%string \/ snd x = jp.
  Proof. unfold answer. destruct (so_obj o) as [[]| | |]; try discriminate; intros [= <-]; cbn [snd]; auto. Qed.
  Lemma relocate_here (s : store sobj) u jp v jp' : store_relocate s u jp v (Some v) = Ok jp' -> jp' = jp.
  Proof.
    unfold store_relocate. destruct (lookup u (s_routes s)) as [ur|]; [|congruence]. destruct (truthy_str v) eqn:TV; [|destruct v; [|discriminate TV]; destruct (mem "3.0.0" ur); discriminate].
    destruct (mem v ur); [|discriminate]. destruct (strict_version v) as [f|]; [|discriminate]. cbn [bind].
    induction ur as [|[w m] ur IH]; cbn [relocate_loop]; [congruence|]. destruct (strict_version w) as [y|]; [|discriminate]. cbn [bind].
    destruct (ver_ltb f y); cbn [negb]; [congruence|exact IH].
  Qed.
  Theorem triple_resolve fuel : forall n, n < fuel -> forall q l, q_from q = V -> (q_to q = None \/ q_to q = Some V) -> (forall p, q_parser q = Some p -> fst p = V) ->
      split (q_jref q) = Ok l -> fst l <> "" -> In l U -> triple n (resolve_obj fuel q) (fun x => D (fst l) (so_obj (fst x)) /\ (snd x = (fst l ++ snd l)%string \/ snd x = snd l)).
  Proof.
    induction fuel as [|f IH]; intros n LN q [url jp] QF QT QP QS QU QI a I L; [lia|].
    assert (STOP : forall e : exn, let (a', r) := (a, @Err (sobj * string) e) in nulls a' <> [] \/ (NoDup (parsed a') /\ ~ too_deep a' /\ forall x, r = Ok x -> Inv a' /\ mono V (a_store a) (a_store a') /\ D url (so_obj (fst x)) /\ (snd x = (url ++ jp)%string \/ snd x = jp))).
    { intros e. right. split; [apply (i_nodup a I)|]. split; [apply (i_deep a I)|discriminate]. }
    assert (TO : (match q_to q with Some t => if truthy_str t then t else q_from q | None => q_from q end) = V)
           by (rewrite QF; destruct QT as [-> | ->]; [reflexivity|]; now destruct (truthy_str V)).
    cbn [App.resolve_obj]. destruct (negb (truthy_str (q_jref q))); [apply STOP|].
    rewrite TO, QF, String.eqb_refl. unfold bindm at 1, lift at 1. rewrite QS. cbn [fst] in QU.
    assert (TU : truthy_str url = true) by (destruct url; [congruence|reflexivity]). rewrite TU.
    unfold bindm at 1, ret at 1. unfold bindm at 1, get_obj at 1.
    destruct (store_get so_resolve (a_store a) url jp V) as [c|e] eqn:SG; [|apply STOP].
    destruct (not_none c) as [o|] eqn:NN.
    { assert (c = Some o). { destruct c as [x|]; cbn [not_none] in NN; [|discriminate NN]. destruct (so_null x); [discriminate NN|congruence]. } subst c. apply get_D in SG; [|exact I].
      apply (triple_lift n (answer o url jp)); [|exact I|exact L]. intros x E. split; [now apply (answer_D url o url jp)|now apply (answer_where o)]. }
    set (rest := fun _ : unit => bindm (get_until url jp V V) _).
    assert (GR : forall x, grows (rest x)).
    { intros x. unfold rest. apply grows_bind; [auto with grow|]. intros u. apply grows_bind.
      { destruct u as [[[o j] w]|]; [auto with grow|]. apply grows_bind; [auto with grow|]. intros orig. destruct (String.eqb _ _); [|auto with grow]. apply grows_bind; [apply grows_load|]. auto with grow. }
      intros [o jref']. apply grows_bind; [apply grows_migrate; intros; apply grows_resolve|]. intros o1. apply grows_bind; [destruct (so_truthy o1); auto with grow|]. intros o2. apply grows_bind; auto with grow. }
    destruct c as [x|].
    { (* the cached object answered None *)
      unfold bindm at 1, emit. destruct (GR tt (with_event a (ENull url jp))) as [l EL]. destruct (rest tt (with_event a (ENull url jp))) as [a' r]. left.
      apply (nulls_grow _ _ l EL). discriminate. }
    unfold bindm at 1, ret at 1. assert (UC := get_none_covb _ _ _ _ SG). unfold rest. clear rest GR. unfold bindm at 1, get_until at 1.
    assert (GU : store_get_until so_truthy so_resolve (a_store a) url jp V (Some V) = Ok None \/ exists e, store_get_until so_truthy so_resolve (a_store a) url jp V (Some V) = Err e).
    { unfold store_get_until. destruct (index_of V (s_versions (a_store a))) as [i|e] eqn:IX; [|right; eexists; reflexivity]. cbn [bind].
      assert (TV : truthy_str V = true) by (destruct V_supported as [-> | ->]; reflexivity). rewrite TV. cbn [rmap bind].
      rewrite skipn_all2 by (rewrite firstn_length; lia). cbn [until_chain bind rev List.app until_seek]. rewrite SG. now left. }
    destruct GU as [GU|[e GU]]; rewrite GU; [|apply STOP].
    unfold bindm at 1. unfold bindm at 1, get_original at 1. rewrite (i_orig a I), String.eqb_refl. unfold bindm at 1.
    assert (LS := load_step (q_jref q) (q_parser q) (q_remove q) a url jp (U_load _ QI) I QS UC QP).
    destruct (load (q_jref q) (q_parser q) (q_remove q) a) as [a1 [o|e]]; destruct LS as (N1 & X1 & Z1 & LS); [|right; split; [exact N1|]; split; [exact X1|discriminate]].
    unfold ret at 1. destruct (LS o eq_refl) as [[e BAD]|(I1 & M1 & C1 & D1 & W1)].
    { (* a container: it has no version *)
      unfold bindm at 1, App.migrate_obj, migrate_traced. rewrite BAD. cbn [bind]. destruct (negb _); right; (split; [exact N1|]; split; [exact X1|discriminate]). }
    assert (NV0 : V <> "") by (destruct V_supported as [-> | ->]; discriminate).
    assert (DEC := uncov_lt V U _ _ _ M1 QI UC C1). destruct f as [|f]; [lia|].
    set (rest := bindm (migrate_obj _ o _ V) _).
    assert (T : triple f rest (fun x => D url (so_obj (fst x)) /\ (snd x = (url ++ jp)%string \/ snd x = jp))).
    { unfold rest. apply triple_bind with (P := fun x => D url (so_obj x)).
      - apply triple_migrate with jp; [intros; apply grows_resolve| |exact QS|exact W1|exact D1|exact NV0]. intros q' l' H1 H2 H3 H4 H5 H6. apply (IH f (Nat.lt_succ_diag_r f) q' l'); auto.
      - intros o1 DO1. apply triple_bind with (P := fun x => D url (so_obj x)).
        + destruct (so_truthy o1); [apply triple_lift; intros x E; now apply (D_prepare url) in E|now apply triple_ret].
        + intros o2 DO2. apply triple_bind with (P := fun jp2 => jp2 = jp).
          * apply triple_pure. intros b _. eexists. split; [reflexivity|]. intros jp2. apply relocate_here.
          * intros jp2 ->. apply triple_lift. intros x E. split; [now apply (answer_D url o2 url jp)|now apply (answer_where o2)].
          * intros x. auto with grow.
        + intros o2. apply grows_bind; auto with grow.
      - intros o1. apply grows_bind; [destruct (so_truthy o1); auto with grow|]. intros o2. apply grows_bind; auto with grow. }
    assert (L1 : uncov V U (a_store a1) <= f) by lia. specialize (T a1 I1 L1). destruct (rest a1) as [a2 r]. destruct T as [B|(N2 & X2 & T)]; [now left|]. right. split; [exact N2|]. split; [exact X2|].
    intros x E. destruct (T x E) as (I2 & M2 & P2). split; [exact I2|]. split; [now apply mono_trans with (a_store a1)|exact P2].
  Qed.

  (** opening a document: load it, then migrate it within its version *)
  Definition fresh_app : app := mk_app (new_store versions) "" None [].
  Definition open_document (fuel : nat) (jref : string) : M sobj :=
    o <-- load jref None false ;; migrate_obj (resolve_obj fuel) o jref V.
  Theorem open_terminates fuel jref : (forall url jp, split jref = Ok (url, jp) -> may_load url) -> length U < fuel ->
    let (a, r) := open_document fuel jref fresh_app in nulls a <> [] \/ (NoDup (parsed a) /\ ~ too_deep a).
  Proof.
    intros ML LF. unfold open_document, bindm.
    set (a0 := mk_app (new_store versions) V None []).
    assert (I0 : Inv a0).
    { split; cbn [a0 a_store a_original a_log]; auto.
      - split; [constructor|intros ? ? []].
      - constructor.
      - intros u p v o E. discriminate E. }
    (* the original version plays no role in loading *)
    assert (EQ : forall jref, split jref = split jref) by reflexivity. clear EQ.
    assert (START : forall url jp, split jref = Ok (url, jp) -> covb V (a_store a0) (url, jp) = false) by reflexivity.
    destruct (fetch jref) as [src|e] eqn:F; [|rewrite (load_fetch_err _ _ _ _ _ _ _ _ F); right; split; [constructor|intros []]].
    destruct (doc_version src) as [v|e] eqn:DV; [|rewrite (load_version_err _ _ _ _ _ _ _ _ _ F DV); right; split; [constructor|intros []]].
    destruct (split jref) as [[url jp]|e] eqn:S; [|rewrite (load_split_err _ _ _ _ _ _ _ _ _ _ F DV S); right; split; [constructor|intros []]].
    assert (NC : forall org, not_cached (mk_app (new_store versions) org None []) url jp v).
    { intros org. left. unfold cached_for. destruct v as [[]|]; try reflexivity. now destruct (truthy_str s). }
    assert (LS := load_step jref None false a0 url jp (ML _ _ eq_refl) I0 S (START _ _ eq_refl) ltac:(discriminate)). unfold a0, fresh_app in *.
    rewrite (load_fresh _ _ _ _ _ _ _ _ _ _ _ F DV S (NC V)) in LS. rewrite (load_fresh _ _ _ _ _ _ _ _ _ _ _ F DV S (NC "")).
    assert (AU : after_under (mk_app (new_store versions) "" None []) url jp v false = after_under (mk_app (new_store versions) V None []) url jp v false) by reflexivity.
    rewrite AU. destruct (after_under _ url jp v false) as [s [ovr|e]]; [|right; split; [constructor|intros []]].
    cbv zeta in *. assert (NF : ~ too_deep (with_event (with_store {| a_store := new_store versions; a_original := ""; a_current := None; a_log := [] |} s) (EParse url jp))).
    { intros [H|[]]. discriminate H. }
    assert (ND : NoDup (parsed (with_event (with_store {| a_store := new_store versions; a_original := ""; a_current := None; a_log := [] |} s) (EParse url jp)))).
    { cbn. constructor; [intros []|constructor]. }
    destruct (parse fetch src jref url v (overrides ovr) None) as [[[o v'] url']|e] eqn:PA; [|right; split; [exact ND|exact NF]]. rewrite ?PA in LS.
    destruct (so_truthy o); [|right; split; [exact ND|exact NF]]. destruct (store_set so_base s o url' jp v') as [s'|e]; [|right; split; [exact ND|exact NF]].
    assert (RT : is_root o = true).
    { destruct v as [v|]; [|discriminate PA]. destruct (parse_version _ _ _ _ _ _ _ _ _ _ PA) as [(_ & _ & SV & path & kids & E)|[(_ & _ & SV & (path & kids & E) & _)|(_ & _ & SV & (path & kids & E) & _)]];
        unfold is_root; rewrite E, SV; reflexivity. }
    rewrite RT in LS |- *. cbn [a_log a_current] in *. destruct LS as (N1 & X1 & Z1 & LS). destruct (LS o eq_refl) as [[e BAD]|(I1 & M1 & C1 & D1 & W1)].
    { unfold App.migrate_obj, migrate_traced. rewrite BAD. cbn [bind]. destruct (negb _); right; auto. }
    destruct fuel as [|f]; [lia|].
    assert (NV0 : V <> "") by (destruct V_supported as [-> | ->]; discriminate).
    assert (T : triple f (migrate_obj (resolve_obj (Datatypes.S f)) o jref V) (fun x => D url (so_obj x))).
    { apply triple_migrate with jp; [intros; apply grows_resolve| |exact S|exact W1|exact D1|exact NV0]. intros q' l' H1 H2 H3 H4 H5 H6. apply (triple_resolve (Datatypes.S f) f (Nat.lt_succ_diag_r f) q' l'); auto. }
    specialize (T _ I1). assert (LU := uncov_le V U s'). cbn [a_store] in T. specialize (T ltac:(lia)). destruct (migrate_obj _ o jref V _) as [a2 r]. destruct T as [B|(N2 & X2 & _)]; [now left|]. right. auto.
  Qed.
End Termination.
