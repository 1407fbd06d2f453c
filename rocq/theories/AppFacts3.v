(** * Facts about App.v: loading terminates. *)
From Coq Require Import String List Bool Arith Lia.
From Verif Require Import PyStr PyStrFacts PyVal PyValFacts Jp Urls Obj Store SpecStore StoreFacts StoreFacts2 App SpecApp AppFacts2.
Import ListNotations.
Open Scope string_scope. Open Scope nat_scope.

(** ** the log only grows *)
Definition grows {A} (m : M A) : Prop := forall a, exists l, a_log (fst (m a)) = (l ++ a_log a)%list.
Lemma grows_bind {A B} (m : M A) (f : A -> M B) : grows m -> (forall x, grows (f x)) -> grows (bindm m f).
Proof.
  intros G H a. unfold bindm. specialize (G a). destruct (m a) as [a1 [x|e]]; cbn [fst] in *; [|exact G].
  destruct (H x a1) as [l2 E2]. destruct G as [l1 E1]. exists (l2 ++ l1)%list. rewrite E2, E1. apply app_assoc.
Qed.
Lemma grows_same {A} (m : M A) : (forall a, a_log (fst (m a)) = a_log a) -> grows m.
Proof. intros H a. exists []. apply H. Qed.
Lemma grows_lift {A} (r : res A) : grows (lift r). Proof. now apply grows_same. Qed.
Lemma grows_ret {A} (x : A) : grows (ret x). Proof. now apply grows_same. Qed.
Lemma grows_set o u p v : grows (set_obj o u p v).
Proof. apply grows_same. intros a. unfold set_obj. now destruct (store_set _ _ _ _ _ _). Qed.
Lemma grows_get u p v : grows (get_obj u p v). Proof. now apply grows_same. Qed.
Lemma grows_under u p v r : grows (get_under u p v r).
Proof. apply grows_same. intros a. unfold get_under. now destruct (store_get_under _ _ _ _ _). Qed.
Lemma grows_routes u v rs : grows (put_routes u v rs).
Proof. apply grows_same. intros a. unfold put_routes. now destruct (store_update_routes _ _ _ _). Qed.
Lemma grows_relocate u p f t : grows (relocate u p f t). Proof. now apply grows_same. Qed.
Lemma grows_until u p f t : grows (get_until u p f t). Proof. now apply grows_same. Qed.
Lemma grows_emit e : grows (emit e). Proof. intros a. now exists [e]. Qed.
Lemma grows_original : grows get_original. Proof. now apply grows_same. Qed.
Lemma grows_set_original v : grows (set_original v). Proof. now apply grows_same. Qed.
Create HintDb grow.
#[export] Hint Resolve grows_lift grows_ret grows_set grows_get grows_under grows_routes grows_relocate grows_until grows_emit grows_original grows_set_original : grow.

Section Loading.
  Variables (path2url abspath : string -> string) (app_url : string) (versions : list string) (fetch : string -> res json)
            (upgrade : string -> option (sobj -> string -> prog (sobj * routes))) (prepare : sobj -> string -> res sobj).
  Notation split := (split path2url abspath).
  Notation load := (load_obj path2url abspath fetch).
  Notation resolve_obj := (resolve_obj path2url abspath app_url versions fetch upgrade prepare).
  Notation migrate_obj := (migrate_obj path2url abspath versions upgrade prepare).
  Notation migrate_traced := (migrate_traced path2url abspath versions upgrade prepare).

  Lemma grows_load jref p r : grows (load jref p r).
  Proof.
    unfold load_obj. apply grows_bind; [auto with grow|]. intros src. apply grows_bind; [auto with grow|]. intros v. apply grows_bind; [auto with grow|]. intros [url jp].
    apply grows_bind; [destruct (version_key v); auto with grow|]. intros c. destruct (match c with Some o => so_truthy o | None => false end); [auto with grow|].
    apply grows_bind; [destruct (version_key v); auto with grow|]. intros ovr. apply grows_bind; [auto with grow|]. intros []. apply grows_bind; [auto with grow|]. intros [[o v'] url'].
    destruct (so_truthy o); [|auto with grow]. apply grows_bind; [auto with grow|]. intros []. apply grows_bind; [destruct (is_root o); auto with grow|]. intros []. auto with grow.
  Qed.
  Lemma grows_run ask : (forall q, grows (ask q)) -> forall A (p : prog A), grows (run ask p).
  Proof.
    intros H A p. induction p as [r|q k IH|o u jp v k IH|u v rs k IH|k IH|u jp v k IH]; cbn [run]; [auto with grow| | | | |]; (apply grows_bind; [auto with grow|intros; auto]).
  Qed.
  Lemma grows_round ask : (forall q, grows (ask q)) -> forall url jref o jp from v, grows (round upgrade prepare ask url jref o jp from v).
  Proof.
    intros H url jref o jp from v. unfold round. destruct (upgrade v) as [m|]; [|auto with grow]. apply grows_bind; [now apply grows_run|]. intros [o' rl].
    apply grows_bind; [auto with grow|]. intros []. apply grows_bind; [auto with grow|]. intros jp'. apply grows_bind; [auto with grow|]. intros o''. apply grows_bind; [auto with grow|]. intros []. auto with grow.
  Qed.
  Lemma grows_rounds ask : (forall q, grows (ask q)) -> forall vs url jref o jp from a, exists l, a_log (fst (fst (rounds upgrade prepare ask url jref vs o jp from a))) = (l ++ a_log a)%list.
  Proof.
    intros H vs. induction vs as [|v vs IH]; intros url jref o jp from a; cbn [rounds]; [now exists []|].
    destruct (grows_round ask H url jref o jp from v a) as [l1 E1]. destruct (round _ _ _ _ _ _ _ _ _ a) as [a1 [[o1 jp1]|e]]; cbn [fst] in *; [|now exists l1].
    destruct (IH url jref o1 jp1 v a1) as [l2 E2]. destruct (rounds _ _ _ _ _ _ _ _ _ a1) as [[a2 t] r]. cbn [fst] in *. exists (l2 ++ l1)%list. rewrite E2, E1. apply app_assoc.
  Qed.
  Lemma grows_migrate ask : (forall q, grows (ask q)) -> forall o jref to, grows (migrate_obj ask o jref to).
  Proof.
    intros H o jref to a. unfold App.migrate_obj, App.migrate_traced. destruct (negb _); [now exists []|].
    destruct (bind _ _) as [[[w vs] [url jp]]|e]; [|now exists []].
    destruct (grows_rounds ask H vs url jref o jp w a) as [l E]. destruct (rounds _ _ _ _ _ _ _ _ _ a) as [[a1 t] [o1|e]]; cbn [fst] in *; exists l; [|exact E].
    now destruct (is_root o1).
  Qed.
  Lemma grows_resolve fuel : forall q, grows (resolve_obj fuel q).
  Proof.
    induction fuel as [|f IH]; intros q; cbn [App.resolve_obj]; [apply grows_bind; auto with grow|].
    destruct (negb _); [auto with grow|]. apply grows_bind; [auto with grow|]. intros [url0 jp].
    apply grows_bind; [destruct (String.eqb _ _); auto with grow|]. intros jp1. apply grows_bind; [auto with grow|]. intros c. destruct (not_none c) as [o|]; [auto with grow|].
    apply grows_bind; [destruct c; auto with grow|]. intros []. apply grows_bind; [auto with grow|]. intros u.
    apply grows_bind.
    { destruct u as [[[o j] w]|]; [auto with grow|]. apply grows_bind; [auto with grow|]. intros orig. destruct (String.eqb _ _); [|auto with grow].
      apply grows_bind; [apply grows_load|]. auto with grow. }
    intros [o jref']. apply grows_bind; [now apply grows_migrate|]. intros o1. apply grows_bind; [destruct (so_truthy o1); auto with grow|]. intros o2. apply grows_bind; auto with grow.
  Qed.
End Loading.
