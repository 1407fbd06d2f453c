(** * Facts about App.v: migration. *)
From Coq Require Import String List Bool Arith Lia.
From Verif Require Import PyStr PyStrFacts PyVal PyValFacts UrlLib Obj Store SpecStore StoreFacts StoreFacts2 UntilFacts App SpecApp.
Import ListNotations.
Open Scope string_scope. Open Scope nat_scope.

Lemma str_in_In x l : str_in x l = true <-> In x l.
Proof.
  unfold str_in. rewrite existsb_exists. split.
  - intros (y & H & E). apply String.eqb_eq in E. now subst.
  - intros H. exists x. split; [exact H|apply String.eqb_refl].
Qed.

(** ** the versions to go through *)
Lemma ascending_app_l a b : ascending (a ++ b)%list -> ascending a.
Proof.
  induction a as [|x a IH]; intros H; [constructor|]. destruct a as [|y a].
  - destruct (ascending_head _ _ H) as [v Hv]. now apply asc_one with v.
  - inversion H; subst. constructor; [assumption|]. apply IH. assumption.
Qed.
Definition keep (f : ver) (v : string) : bool := match strict_version v with Ok x => negb (ver_ltb x f) | Err _ => true end.
Lemma through_fold f l acc : (forall v, In v l -> exists x, strict_version v = Ok x) ->
  foldM (fun acc v => x <- strict_version v ;; Ok (if ver_ltb x f then acc else (acc ++ [v])%list)) l acc = Ok (acc ++ filter (keep f) l)%list.
Proof.
  revert acc. induction l as [|v l IH]; intros acc H; cbn [foldM filter]; [now rewrite app_nil_r|].
  destruct (H v) as [x Hx]; [now left|]. rewrite Hx. cbn [bind]. unfold keep at 1. rewrite Hx.
  rewrite IH by (intros; apply H; now right). destruct (ver_ltb x f); cbn [negb]; [reflexivity|]. now rewrite <- app_assoc.
Qed.
Lemma ascending_filter p l : ascending l -> ascending (filter p l).
Proof.
  intros H. induction l as [|v l IH]; [constructor|]. cbn [filter]. specialize (IH (ascending_tail _ _ H)).
  destruct (p v); [|exact IH]. destruct (filter p l) as [|w r] eqn:E.
  - destruct (ascending_head _ _ H) as [x Hx]. now apply asc_one with x.
  - constructor; [|exact IH]. apply (ascending_lt v l H). assert (I : In w (filter p l)) by (rewrite E; now left). now apply filter_In in I.
Qed.
Lemma through_spec known from to x : ascending known -> In to known -> strict_version from = Ok x ->
  exists vs, versions_through known from to = Ok vs /\ steps_between known from to vs.
Proof.
  intros A I F. destruct (in_split to known I) as (a & b & E).
  assert (N : ~ In to a). { intros H. assert (D := ascending_nodup _ A). rewrite E in D. apply NoDup_remove_2 in D. apply D. apply in_or_app. now left. }
  unfold versions_through. rewrite E, index_of_app by exact N. cbn [bind]. rewrite F. cbn [bind].
  assert (T : firstn (S (length a)) (a ++ to :: b)%list = (a ++ [to])%list).
  { change (to :: b) with ([to] ++ b)%list. rewrite app_assoc. rewrite <- (firstn_all (a ++ [to])%list) at 2.
    rewrite app_length. cbn [length]. rewrite Nat.add_1_r. rewrite firstn_app. rewrite app_length. cbn [length].
    replace (S (length a) - (length a + 1)) with 0 by lia. cbn [firstn]. now rewrite app_nil_r. }
  rewrite T. rewrite E in A. assert (A2 : ascending (a ++ [to])%list).
  { change (to :: b) with ([to] ++ b)%list in A. rewrite app_assoc in A. now apply ascending_app_l in A. }
  rewrite through_fold by (intros v Hv; now apply ascending_valid with (a ++ [to])%list).
  eexists. split; [reflexivity|]. cbn [List.app]. split; [now apply ascending_filter|]. intros v. rewrite filter_In. split.
  - intros [Hv K]. destruct (ascending_valid _ _ A2 Hv) as [y Hy]. unfold keep in K. rewrite Hy in K. apply negb_true_iff in K.
    repeat split.
    + apply in_app_or in Hv. apply in_or_app. destruct Hv as [Hv|[->|[]]]; [now left|right; now left].
    + exists x, y. auto.
    + apply in_app_or in Hv. destruct Hv as [Hv|[->|[]]].
      * apply version_lt_le. apply (ascending_app_lt a (to :: b) v to A Hv). now left.
      * now apply version_le_refl with y.
  - intros (Hv & (x' & y & Hx & Hy & K) & L). split.
    + apply in_app_or in Hv. apply in_or_app. destruct Hv as [Hv|[->|Hv]]; [now left|right; now left|].
      exfalso. apply (version_lt_not_le to v); [|exact L]. apply (ascending_app_lt (a ++ [to])%list b).
      * now rewrite <- app_assoc.
      * apply in_or_app. right. now left.
      * exact Hv.
    + unfold keep. rewrite Hy. rewrite Hx in F. injection F as ->. now rewrite K.
Qed.
Lemma steps_unique known from to vs vs' : steps_between known from to vs -> steps_between known from to vs' -> vs = vs'.
Proof.
  intros [A H] [A' H']. assert (S : forall v, In v vs <-> In v vs') by (intros v; rewrite H, H'; reflexivity). clear H H'.
  revert vs' A' S. induction vs as [|v vs IH]; intros vs' A' S.
  - destruct vs' as [|w vs']; [reflexivity|]. exfalso. apply (S w). now left.
  - destruct vs' as [|w vs']; [exfalso; apply (S v); now left|].
    assert (E : v = w).
    { destruct (proj1 (S v) (or_introl eq_refl)) as [->|Hv]; [reflexivity|]. destruct (proj2 (S w) (or_introl eq_refl)) as [->|Hw]; [reflexivity|].
      exfalso. assert (L1 := ascending_lt v vs A w Hw). assert (L2 := ascending_lt w vs' A' v Hv). apply (version_lt_not_le v w L1). now apply version_lt_le. }
    subst w. f_equal. apply IH; [now apply ascending_tail in A|now apply ascending_tail in A'|]. intros z. split; intros Hz.
    + destruct (proj1 (S z) (or_intror Hz)) as [->|]; [|assumption]. exfalso. assert (D := ascending_nodup _ A). inversion D; contradiction.
    + destruct (proj2 (S z) (or_intror Hz)) as [->|]; [|assumption]. exfalso. assert (D := ascending_nodup _ A'). inversion D; contradiction.
Qed.

(** ** the rounds *)
Section Migrate.
  Variables (path2url abspath : string -> string) (known : list string)
            (upgrade : string -> option (sobj -> string -> prog (sobj * routes))) (prepare : sobj -> string -> res sobj)
            (ask : query -> M (sobj * string)).
  Notation rounds := (rounds upgrade prepare ask).
  Notation round := (round upgrade prepare ask).
  Notation upgraded := (upgraded upgrade prepare ask).

  Lemma round_ok url jref o jp from v a a' o' jp' : round url jref o jp from v a = (a', Ok (o', jp')) ->
    upgraded jref v o o' /\ exists a1, a' = with_store a1 (a_store a') /\ store_set so_base (a_store a1) o' url jp' v = Ok (a_store a').
  Proof.
    unfold App.round. destruct (upgrade v) as [m|] eqn:U; [|intros H; discriminate H]. unfold bindm, put_routes, relocate, set_obj, lift, ret.
    destruct (run ask (m o jref) a) as [a1 [[mid reloc]|e]] eqn:R; [|intros H; discriminate H].
    destruct (store_update_routes (a_store a1) url v [(jp, RMap reloc)]) as [s [[]|e]] eqn:P; [|intros H; discriminate H].
    destruct (store_relocate _ url jp from (Some v)) as [jp1|e]; [|intros H; discriminate H].
    destruct (prepare mid _) as [o1|e] eqn:Q; [|intros H; discriminate H].
    destruct (store_set so_base _ o1 url jp1 v) as [s2|e] eqn:S; [|intros H; discriminate H].
    intros H. injection H as <- <- <-. split.
    - exists m, a, a1, mid, reloc. eexists. split; [exact U|]. split; [exact R|exact Q].
    - exists (with_store a1 s). split; [reflexivity|exact S].
  Qed.
  Lemma rounds_ok url jref vs : forall o jp from a a' calls o', rounds url jref vs o jp from a = (a', calls, Ok o') ->
    map fst calls = vs /\ handed_on (upgraded jref) o calls o' /\
    (vs = [] -> a' = a /\ o' = o) /\ (vs <> [] -> exists jp', entry (a_store a') url jp' (last vs "") = Some o').
  Proof.
    induction vs as [|v vs IH]; intros o jp from a a' calls o' H; cbn [App.rounds] in H.
    - injection H as <- <- <-. split; [reflexivity|]. split; [constructor|]. split; [auto|congruence].
    - destruct (round url jref o jp from v a) as [a1 [[o1 jp1]|e]] eqn:R; [|discriminate H].
      destruct (rounds url jref vs o1 jp1 v a1) as [[a2 t] r] eqn:R2. injection H as <- <- ->.
      apply IH in R2 as (M & C & Z & S). apply round_ok in R as (U & a0 & W & R). split; [cbn [map fst]; now rewrite M|]. split; [now apply ho_call with o1|]. split; [discriminate|].
      intros _. destruct vs as [|w vs].
      + destruct Z as [-> ->]; [reflexivity|]. exists jp1. cbn [last]. unfold store_set in R. destruct (so_base o1) eqn:B; [|discriminate R]. injection R as R.
        rewrite <- R. rewrite entry_sub. cbn [s_objs]. unfold sub at 2. rewrite ds_lookup, String.eqb_refl. unfold sub at 1. rewrite ds_lookup, String.eqb_refl. rewrite ds_lookup. now rewrite String.eqb_refl.
      + destruct S as [jp2 S]; [discriminate|]. exists jp2. exact S.
  Qed.
  Lemma rounds_err url jref vs : forall o jp from a a' calls e, rounds url jref vs o jp from a = (a', calls, Err e) ->
    exists n o', map fst calls = firstn n vs /\ vs <> [] /\
       (handed_on (upgraded jref) o calls o' \/ exists before v, calls = (before ++ [(v, o')])%list /\ handed_on (upgraded jref) o before o').
  Proof.
    induction vs as [|v vs IH]; intros o jp from a a' calls e H; cbn [App.rounds] in H; [discriminate H|].
    destruct (round url jref o jp from v a) as [a1 [[o1 jp1]|e1]] eqn:R.
    - destruct (rounds url jref vs o1 jp1 v a1) as [[a2 t] r] eqn:R2. injection H as <- <- ->. apply IH in R2 as (n & o' & M & _ & C). exists (S n), o'.
      apply round_ok in R as (U & _). split; [cbn [map fst firstn]; now rewrite M|]. split; [discriminate|]. destruct C as [C|(before & w & -> & C)].
      + left. now apply ho_call with o1.
      + right. exists ((v, o) :: before), w. split; [reflexivity|]. now apply ho_call with o1.
    - injection H as <- <- <-. destruct (upgrade v).
      + exists 1, o. split; [reflexivity|]. split; [discriminate|]. right. exists [], v. split; [reflexivity|constructor].
      + exists 0, o. split; [reflexivity|]. split; [discriminate|]. left. constructor.
  Qed.
End Migrate.

Section Migrate2.
  Variables (path2url abspath : string -> string) (known : list string)
            (upgrade : string -> option (sobj -> string -> prog (sobj * routes))) (prepare : sobj -> string -> res sobj)
            (ask : query -> M (sobj * string)).
  Notation migrate := (migrate_traced path2url abspath known upgrade prepare ask).
  Notation upgraded := (upgraded upgrade prepare ask).

  Lemma migrate_unsupported o jref to a : ~ In to known -> migrate o jref to a = (a, [], Err ValueError).
  Proof.
    intros N. unfold migrate_traced. destruct (str_in to known) eqn:E; [|reflexivity]. apply str_in_In in E. contradiction.
  Qed.
  Lemma migrate_ok o jref to a a' calls o' w : migrate o jref to a = (a', calls, Ok o') -> ascending known -> swagger_version o = Ok w ->
    exists x, strict_version w = Ok x /\ steps_between known w to (map fst calls) /\ handed_on (upgraded jref) o calls o' /\
      (calls = [] -> o' = o /\ a_store a' = a_store a) /\
      (calls <> [] -> exists url jp jp', split path2url abspath jref = Ok (url, jp) /\ entry (a_store a') url jp' to = Some o') /\
      (is_root o' = true -> a_current a' = Some to).
  Proof.
    intros H A V. unfold migrate_traced in H. destruct (str_in to known) eqn:E; [|discriminate H]. apply str_in_In in E. cbn [negb] in H. rewrite V in H. cbn [bind] in H.
    destruct (strict_version w) as [x|e] eqn:X.
    2:{ unfold versions_through in H. rewrite X in H. destruct (index_of to known); discriminate H. }
    destruct (through_spec known w to x A E X) as (vs & T & SB). rewrite T in H. cbn [bind] in H.
    destruct (split path2url abspath jref) as [[url jp]|e] eqn:SP; [|discriminate H]. cbn [bind] in H.
    destruct (rounds upgrade prepare ask url jref vs o jp w a) as [[a1 t] r] eqn:R. destruct r as [o1|e]; [|discriminate H]. injection H as H1 <- <-.
    apply rounds_ok in R as (M & C & Z & L). exists x. split; [reflexivity|]. rewrite M. split; [exact SB|]. split; [exact C|].
    assert (ST : a_store a' = a_store a1) by (rewrite <- H1; now destruct (is_root o1)). rewrite ST. split; [|split].
    - intros ->. cbn [map] in M. destruct Z as [-> ->]; auto.
    - intros N. exists url, jp. destruct L as [jp' L]; [intros ->; destruct t; [congruence|discriminate M]|]. exists jp'. split; [reflexivity|].
      enough (LE : last vs "" = to) by now rewrite LE in L.
      destruct SB as [SA SI]. assert (NE : vs <> []) by (intros ->; destruct t; [congruence|discriminate M]).
      assert (IL : In (last vs "") vs). { destruct (exists_last NE) as (l & z & ->). rewrite last_last. apply in_or_app. right. now left. }
      destruct (proj1 (SI _) IL) as (K & W1 & W2).
      assert (IT : In to vs). { apply SI. split; [exact E|]. destruct W1 as (p & q & P & Q & PQ). destruct W2 as (q' & r & Q' & RR & QR). rewrite Q in Q'. injection Q' as <-.
        split; [|now apply version_le_refl with r]. exists p, r. repeat split; auto. destruct (ver_ltb r p) eqn:B; [|reflexivity].
        assert (D := ver_lt_le_trans r p q B PQ). congruence. }
      destruct (exists_last NE) as (l & z & El). rewrite El in *. rewrite last_last in *. apply in_app_or in IT as [IT|[->|[]]]; [|reflexivity].
      exfalso. apply (version_lt_not_le to z); [|exact W2]. apply (ascending_app_lt l [z] to z SA IT). now left.
    - intros RT. rewrite <- H1, RT. reflexivity.
  Qed.
  Lemma migrate_err o jref to a a' calls e w : migrate o jref to a = (a', calls, Err e) -> ascending known -> In to known -> swagger_version o = Ok w ->
    (calls = [] /\ (forall x, strict_version w <> Ok x) /\ a' = a /\ e = ValueError) \/
    exists vs n o', steps_between known w to vs /\ map fst calls = firstn n vs /\
      (handed_on (upgraded jref) o calls o' \/ exists before v, calls = (before ++ [(v, o')])%list /\ handed_on (upgraded jref) o before o').
  Proof.
    intros H A E V. unfold migrate_traced in H. apply str_in_In in E. rewrite E in H. apply str_in_In in E. cbn [negb] in H. rewrite V in H. cbn [bind] in H.
    destruct (strict_version w) as [x|e'] eqn:X.
    2:{ left. unfold versions_through in H. rewrite X in H. destruct (in_split to known E) as (l & r & ->).
        assert (N : ~ In to l). { intros I. assert (D := ascending_nodup _ A). apply NoDup_remove_2 in D. apply D. apply in_or_app. now left. }
        rewrite index_of_app in H by exact N. cbn [bind] in H. injection H as <- <- <-. repeat split; auto; [congruence|].
        unfold strict_version in X. repeat match type of X with context [match ?y with _ => _ end] => destruct y; try discriminate X end; now injection X. }
    right. destruct (through_spec known w to x A E X) as (vs & T & SB). rewrite T in H. cbn [bind] in H.
    destruct (split path2url abspath jref) as [[url jp]|e'] eqn:SP; cbn [bind] in H.
    - destruct (rounds upgrade prepare ask url jref vs o jp w a) as [[a1 t] r] eqn:R. destruct r as [o1|e1]; [discriminate H|]. injection H as <- <- <-.
      apply rounds_err in R as (n & o' & M & _ & C). exists vs, n, o'. auto.
    - injection H as <- <- <-. exists vs, 0, o. split; [exact SB|]. split; [reflexivity|]. left. constructor.
  Qed.
End Migrate2.

(** ** the supported versions *)
From Coq Require Import Permutation Sorted.
Lemma insert_version_perm x l : Permutation (insert_version x l) (x :: l).
Proof.
  induction l as [|y l IH]; [reflexivity|]. cbn [insert_version]. destruct (ver_ltb (snd x) (snd y)); [reflexivity|].
  rewrite IH. constructor.
Qed.
Definition ver_le (a b : string * ver) : Prop := ver_ltb (snd b) (snd a) = false.
Lemma insert_version_sorted x l : StronglySorted ver_le l -> StronglySorted ver_le (insert_version x l).
Proof.
  induction l as [|y l IH]; intros S; [repeat constructor|]. cbn [insert_version]. apply StronglySorted_inv in S as [S F]. destruct (ver_ltb (snd x) (snd y)) eqn:E.
  - constructor; [now constructor|]. constructor; [unfold ver_le; now apply ver_lt_asym|]. rewrite Forall_forall in F |- *. intros z Hz. specialize (F z Hz). unfold ver_le in *.
    destruct (ver_ltb (snd z) (snd x)) eqn:Z; [|reflexivity]. assert (T := ver_ltb_trans _ _ _ Z E). congruence.
  - constructor; [now apply IH|]. rewrite Forall_forall in F |- *. intros z Hz. apply (Permutation_in z (insert_version_perm x l)) in Hz. destruct Hz as [<-|Hz]; [exact E|now apply F].
Qed.
Lemma insert_all_perm l acc : Permutation (fold_left (fun acc x => insert_version x acc) l acc) (acc ++ l)%list.
Proof.
  revert acc. induction l as [|x l IH]; intros acc; [now rewrite app_nil_r|]. cbn [fold_left]. rewrite IH, insert_version_perm. cbn [List.app]. now rewrite Permutation_middle.
Qed.
Lemma insert_all_sorted l acc : StronglySorted ver_le acc -> StronglySorted ver_le (fold_left (fun acc x => insert_version x acc) l acc).
Proof. revert acc. induction l as [|x l IH]; intros acc H; [exact H|]. cbn [fold_left]. apply IH. now apply insert_version_sorted. Qed.

Lemma supported_spec modules is_pkg vs : get_supported_versions modules is_pkg = Ok vs ->
  Permutation vs (map (fun n => dots (sdrop 1 n)) (filter (startswith "v") (map fst (filter (fun m => Bool.eqb (snd m) is_pkg) modules)))) /\
  StronglySorted version_le vs.
Proof.
  unfold get_supported_versions. set (names := filter (startswith "v") _). clearbody names. intros H.
  destruct (mapM _ names) as [keyed|e] eqn:K; [|discriminate H]. cbn [bind] in H. injection H as <-.
  assert (KF : map fst keyed = map (fun n => dots (sdrop 1 n)) names /\ Forall (fun x => strict_version (fst x) = Ok (snd x)) keyed).
  { revert keyed K. induction names as [|n names IH]; intros keyed K; cbn [mapM] in K; [injection K as <-; split; [reflexivity|constructor]|].
    destruct (strict_version (dots (sdrop 1 n))) as [v|e] eqn:V; [|discriminate K]. cbn [bind] in K.
    destruct (mapM _ names) as [ks|e]; [|discriminate K]. cbn [bind] in K. injection K as <-. destruct (IH ks eq_refl) as [E F]. split; [cbn [map fst]; now rewrite E|]. constructor; [exact V|exact F]. }
  destruct KF as [KF KV]. split.
  - rewrite <- KF. apply Permutation_map. now rewrite insert_all_perm.
  - assert (S := insert_all_sorted keyed [] (SSorted_nil _)). assert (P := insert_all_perm keyed []). cbn [List.app] in P.
    set (l := fold_left _ keyed []) in *. clearbody l. assert (F : Forall (fun x => strict_version (fst x) = Ok (snd x)) l).
    { rewrite Forall_forall in KV |- *. intros x Hx. apply KV. now apply (Permutation_in x P). }
    clear P KV KF. induction S as [|x l S IH FA]; [constructor|]. inversion F; subst. cbn [map]. constructor; [now apply IH|].
    rewrite Forall_forall in *. intros z Hz. apply in_map_iff in Hz as (y & <- & Hy). exists (snd x), (snd y). split; [assumption|]. split; [now apply H2|]. now apply FA.
Qed.
Lemma sorted_ascending vs : StronglySorted version_le vs -> (forall v w, In v vs -> In w vs -> version_le v w -> version_le w v -> v = w) -> NoDup vs ->
  (forall v, In v vs -> exists x, strict_version v = Ok x) -> ascending vs.
Proof.
  intros S D N V. induction S as [|v vs S IH F]; [constructor|]. inversion N; subst. assert (A : ascending vs).
  { apply IH; [|assumption|]; intros; [apply D|apply V]; auto; now right. }
  destruct vs as [|w vs]; [destruct (V v (or_introl eq_refl)) as [x Hx]; now apply asc_one with x|]. constructor; [|exact A].
  inversion F as [|? ? L FL]; subst. destruct L as (x & y & X & Y & L). exists x, y. split; [exact X|]. split; [exact Y|].
  destruct (ver_ltb x y) eqn:B; [reflexivity|]. exfalso. assert (E : v = w). { apply D; [now left|right; now left| |]; [exists x, y|exists y, x]; auto. }
  subst. apply H1. now left.
Qed.
