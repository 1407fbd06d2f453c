(** Lemmas about dispatch (C28). *)
From Coq Require Import String Ascii List Bool Arith Lia.
From Verif Require Import PyStr PyVal PyValFacts Obj Scan SpecScan.
Import ListNotations.
Open Scope string_scope. Open Scope nat_scope.

Lemma lookup_dict_set {A} k k' (v : A) d : lookup k (dict_set k' v d) = if String.eqb k k' then Some v else lookup k d.
Proof.
  induction d as [|[q x] d IH]; cbn.
  - destruct (String.eqb k k'); reflexivity.
  - destruct (String.eqb_spec k' q) as [->|Hq]; cbn.
    + destruct (String.eqb k q); reflexivity.
    + destruct (String.eqb_spec k q) as [->|]; [|exact IH]. destruct (String.eqb_spec q k'); [congruence|reflexivity].
Qed.
Section D.
  Context {S R : Type}.
  Definition found (c : string) (d : dispatcher S R) : list (handler S R) := match lookup c (d_route d) with Some hs => hs | None => [] end.
  Lemma register_found is_base ts : forall (d d' : dispatcher S R) h c, register is_base d ts h = Ok d' ->
    found c d' = (found c d ++ flat_map (fun t => if String.eqb t c then [h] else []) ts)%list /\ d_result d' = d_result d.
  Proof.
    induction ts as [|t ts IH]; intros d d' h c H; unfold register in *; cbn [foldM] in H.
    - cbn in H. injection H as <-. cbn. rewrite app_nil_r. auto.
    - destruct (is_base t); [|discriminate]. cbn [bind] in H.
      destruct (IH (mk_disp (add_route t h (d_route d)) (d_result d)) d' h c) as [E1 E2]; [exact H|]. split; [|exact E2].
      rewrite E1. cbn [flat_map]. rewrite app_assoc. f_equal. unfold found, add_route. cbn [d_route]. rewrite lookup_dict_set, (String.eqb_sym c t).
      destruct (String.eqb_spec t c) as [->|]; [reflexivity|]. now rewrite app_nil_r.
  Qed.
  Lemma registrations_found is_base (regs : registrations S R) c : forall d d', foldM (fun d tr => register is_base d (fst tr) (snd tr)) regs d = Ok d' ->
    found c d' = (found c d ++ handlers_for c regs)%list /\ d_result d' = d_result d.
  Proof.
    induction regs as [|[ts h] regs IH]; intros d d' H; cbn [foldM] in H.
    - injection H as <-. cbn. rewrite app_nil_r. auto.
    - apply bind_ok in H as (d1 & H1 & H). cbn [fst snd] in H1. destruct (register_found is_base ts d d1 h c H1) as [E1 R1].
      destruct (IH d1 d' H) as [E2 R2]. split; [|congruence]. rewrite E2, E1. unfold handlers_for. cbn [flat_map fst snd]. now rewrite app_assoc.
  Qed.
  Lemma first_none (before : route S R) d after : (forall x, In x before -> x = None) -> first_dispatcher (before ++ Some d :: after)%list = Some d.
  Proof. induction before as [|x b IH]; intros H; [reflexivity|]. cbn. rewrite (H x (or_introl eq_refl)). apply IH. intros; apply H; now right. Qed.
  Lemma perform_app (a b : list (call S R)) s : perform_all (a ++ b)%list s = (s' <- perform_all a s ;; perform_all b s').
  Proof. revert s. induction a as [|k a IH]; intros s; cbn; [reflexivity|]. destruct (perform k s); cbn; [apply IH|reflexivity]. Qed.
  Lemma foldM_perform {A} (f : S -> A -> res S) (g : A -> list (call S R)) l : (forall x s, In x l -> f s x = perform_all (g x) s) ->
    forall s, foldM f l s = perform_all (flat_map g l) s.
  Proof.
    induction l as [|x l IH]; intros H s; cbn [foldM flat_map]; [reflexivity|]. rewrite perform_app, (H x s (or_introl eq_refl)).
    destruct (perform_all (g x) s); cbn; [|reflexivity]. apply IH. intros; apply H; now right.
  Qed.
  Lemma handle_calls c path o (d : dispatcher S R) s :
    handle_cls c path o d s = perform_all (map (fun h => mk_call _ _ h (d_result d) path o) (found c d)) s.
  Proof.
    unfold handle_cls, found. destruct (lookup c (d_route d)) as [hs|]; [|reflexivity]. revert s.
    induction hs as [|h hs IH]; intros s; cbn [foldM map perform_all]; [reflexivity|]. unfold perform at 1. cbn [k_handler k_path k_obj k_result].
    destruct (h path o s) as [[s1 r]|]; [|reflexivity]. cbn [bind fst snd]. destruct (d_result d) as [f|]; [|apply IH]. destruct (f r s1); [apply IH|reflexivity].
  Qed.
  Lemma registered_build is_base rts : forall (routes : list (route S R)), Forall2 (registered is_base) rts routes ->
    exists ds, build_route routes = ds /\ Forall2 (fun rt d => d_result d = snd rt /\ forall c, found c d = handlers_for c (fst rt)) rts ds.
  Proof.
    induction rts as [|rt rts IH]; intros routes F; inversion F as [|? r ? routes' Hr F']; subst; [exists []; split; [reflexivity|constructor]|].
    destruct (IH _ F') as (ds & E & F2). destruct Hr as (bf & af & d & Hd & -> & Hb).
    exists ((match snd rt with Some f => set_result d f | None => d end) :: ds). split.
    - unfold build_route in *. cbn [flat_map]. rewrite (first_none bf _ af Hb), E. reflexivity.
    - constructor; [|exact F2]. assert (X := fun c => registrations_found is_base (fst rt) c _ _ Hd).
      split; [destruct (snd rt) eqn:Er; [reflexivity|destruct (X "") as [_ X2]; exact X2]|]. intros c. destruct (X c) as [X1 _]. destruct (snd rt); exact X1.
  Qed.
  Lemma calls_of_route c path o rts ds : Forall2 (fun rt (d : dispatcher S R) => d_result d = snd rt /\ forall c, found c d = handlers_for c (fst rt)) rts ds ->
    flat_map (fun d => map (fun h => mk_call _ _ h (d_result d) path o) (found c d)) ds =
    flat_map (fun rt => map (fun h => mk_call _ _ h (snd rt) path o) (handlers_for c (fst rt))) rts.
  Proof. induction 1 as [|rt d rts ds [E1 E2] F IH]; [reflexivity|]. cbn [flat_map]. now rewrite IH, E1, E2. Qed.
  Lemma calls_of_route_along (cs : list string) path o rts ds : Forall2 (fun rt (d : dispatcher S R) => d_result d = snd rt /\ forall c, found c d = handlers_for c (fst rt)) rts ds ->
    flat_map (fun d => flat_map (fun c => map (fun h => mk_call _ _ h (d_result d) path o) (found c d)) cs) ds =
    flat_map (fun rt => flat_map (fun c => map (fun h => mk_call _ _ h (snd rt) path o) (handlers_for c (fst rt))) cs) rts.
  Proof.
    induction 1 as [|rt d rts ds [E1 E2] F IH]; [reflexivity|]. cbn [flat_map]. rewrite IH. f_equal. rewrite !flat_map_concat_map. f_equal.
    apply map_ext. intros c. now rewrite E1, E2.
  Qed.
  Lemma scan_calls T is_base fuel rts (routes : list (route S R)) root leaves visited s :
    Forall2 (registered is_base) rts routes -> default_tree_traversal T fuel root leaves = Ok visited ->
    scan T fuel routes (Some root) leaves s = perform_all (calls_for visited rts) s.
  Proof.
    intros F H. destruct (registered_build is_base rts routes F) as (ds & E & F2). unfold scan. rewrite H, E. cbn [bind]. unfold calls_for.
    apply foldM_perform. intros [path o] s0 _. cbn [fst snd]. destruct o as [j|c p sp ks|b p es|b p es].
    2: { rewrite <- (calls_of_route c path (OObj c p sp ks) rts ds F2). apply foldM_perform. intros d s1 _. apply handle_calls. }
    all: clear; revert s0; induction ds as [|d ds IH]; intros s0; [reflexivity|apply IH].
  Qed.
  Lemma scanner_calls T is_base mro fuel rts (routes : list (route S R)) root leaves visited s :
    Forall2 (registered is_base) rts routes -> default_tree_traversal T fuel root leaves = Ok visited ->
    scanner_scan T mro fuel routes (Some root) leaves s = perform_all (calls_along mro visited rts) s.
  Proof.
    intros F H. destruct (registered_build is_base rts routes F) as (ds & E & F2). unfold scanner_scan. rewrite H, E. cbn [bind]. unfold calls_along.
    apply foldM_perform. intros [path o] s0 _. cbn [fst snd]. destruct o as [j|c p sp ks|b p es|b p es].
    2: { rewrite <- (calls_of_route_along (mro c) path (OObj c p sp ks) rts ds F2). apply foldM_perform. intros d s1 _.
         apply foldM_perform. intros c' s2 _. apply handle_calls. }
    all: clear; revert s0; induction ds as [|d ds IH]; intros s0; [reflexivity|apply IH].
  Qed.
  Lemma perform_raises (ks ks' : list (call S R)) k s s1 e : perform_all ks s = Ok s1 -> perform k s1 = Err e -> perform_all (ks ++ k :: ks')%list s = Err e.
  Proof. intros H E. rewrite perform_app, H. cbn. now rewrite E. Qed.
  Lemma register_raises is_base (d : dispatcher S R) ts h t : In t ts -> is_base t = false -> register is_base d ts h = Err ValueError.
  Proof.
    intros Ht Hb. unfold register. generalize (d_route d) as r. induction ts as [|x ts IH]; intros r; [destruct Ht|]. cbn [foldM].
    destruct Ht as [->|Ht]; [now rewrite Hb|]. destruct (is_base x); [|reflexivity]. cbn [bind]. now apply IH.
  Qed.
End D.
