(** * C81: attributes attached to objects while they are processed. *)
From Coq Require Import String List Bool Arith Lia.
From Verif Require Import PyStr PyVal PyValFacts Attrs SpecAttrs AttrsFacts.
Import ListNotations.
Open Scope string_scope.

Lemma asked_first h o ns c : In (Ask o ns (Some c)) h -> exists c', first_class h o ns = Some c'.
Proof.
  induction h as [|x h IH]; [intros []|]. intros [->|HI].
  - exists c. cbn. rewrite Nat.eqb_refl, String.eqb_refl. reflexivity.
  - destruct (IH HI) as [c' F]. cbn. destruct x as [o' ns' [c1|] | |]; try (exists c'; exact F).
    destruct (Nat.eqb o' o && String.eqb ns' ns)%bool; [exists c1; reflexivity|exists c'; exact F].
Qed.
Lemma not_asked_first h o ns : (forall c, ~ In (Ask o ns (Some c)) h) -> first_class h o ns = None.
Proof.
  intro N. destruct (first_class h o ns) as [c|] eqn:F; [|reflexivity].
  destruct (first_split _ _ _ _ F) as (h1 & h2 & -> & _). destruct (N c). apply in_elt.
Qed.

(** C81: whatever was done before, an object has at most one group under a namespace, every later call
    answers with that one, whatever class it names, and no other object or namespace gets it *)
Theorem C81_one_group : forall env h o ns g, answered env h o ns g ->
  (forall c, get_attrs (after env h) o ns c = (after env h, Some g))
  /\ (forall o' ns', answered env h o' ns' g -> o' = o /\ ns' = ns).
Proof.
  intros env h o ns g A. split; [intro c; exact (get_after env h o ns c g A)|].
  intros o' ns' A'. exact (i_inj _ _ (inv_after env h) _ _ _ _ _ (answered_of _ _ _ _ _ A') (answered_of _ _ _ _ _ A)).
Qed.
(** C81: without a class, the answer is None, and nothing is made, exactly when no call has named a
    class for this object and namespace; with a class, the answer is a group, a new one if there was none *)
Theorem C81_asking : forall env h o ns,
  (snd (get_attrs (after env h) o ns None) = None <-> forall c, ~ In (Ask o ns (Some c)) h)
  /\ ((forall c, ~ In (Ask o ns (Some c)) h) -> fst (get_attrs (after env h) o ns None) = after env h)
  /\ (forall c, exists g, snd (get_attrs (after env h) o ns (Some c)) = Some g
       /\ ((forall c', ~ In (Ask o ns (Some c')) h) -> forall o' ns', ~ answered env h o' ns' g)).
Proof.
  intros env h o ns. split; [split|split].
  - intros E c HI. destruct (asked_first _ _ _ _ HI) as [c' F]. destruct (first_answered env _ _ _ _ F) as [g A].
    rewrite (get_after env h o ns None g A) in E. discriminate.
  - intro N. unfold get_attrs. rewrite (unanswered env _ _ _ (not_asked_first _ _ _ N)). reflexivity.
  - intro N. unfold get_attrs. rewrite (unanswered env _ _ _ (not_asked_first _ _ _ N)). reflexivity.
  - intro c. unfold get_attrs. destruct (group_of (a_of (after env h)) o ns) as [g|] eqn:G; cbn [snd]; eexists; (split; [reflexivity|]).
    + intro N. rewrite (unanswered env _ _ _ (not_asked_first _ _ _ N)) in G. discriminate.
    + intros _ o' ns' A. pose proof (inv_lt _ _ _ _ _ (inv_after env h) (answered_of _ _ _ _ _ A)). lia.
Qed.
(** C81: an attribute of a group holds what was written last to it, or to another attribute declared
    with the same key; before that, its default, or an error if it is required; an attribute the class
    of the group does not declare is an AttributeError until it is written.  The class is that of the
    first call, and writing to a group touches no other group. *)
Theorem C81_read : forall env h o ns g c n w, given_before env [] h -> answered env h o ns g ->
  first_class h o ns = Some c -> last_written env g c n h w -> reading env c n w (read_attr env (after env h) g n).
Proof. exact reading_ok. Qed.
(** C81: reading the reference of an object never fails, whatever was done to its attributes before *)
Theorem C81_references_read : forall env h o ns g c n, env = groups_v20 \/ env = groups_v30 -> In c (map fst env) ->
  n = "ref_obj" \/ n = "normalized_ref" -> given_before env [] h -> answered env h o ns g -> first_class h o ns = Some c ->
  exists v, read_attr env (after env h) g n = Ok v /\ (last_written env g c n h None -> v = VNone).
Proof.
  intros env h o ns g c n HE HC HN G A F. destruct (last_written_total env g c n h) as [w L].
  pose proof (reading_ok env h o ns g c n w G A F L) as R.
  assert (D : exists p, declares env c n p /\ ap_required p = false /\ ap_default p = VNone).
  { assert (K : match group_attr env c n with Some p => negb (ap_required p) && match ap_default p with VNone => true | _ => false end | None => false end = true).
    { destruct HE as [-> | ->]; destruct HN as [-> | ->]; cbn in HC; repeat (destruct HC as [<- | HC]; [vm_compute; reflexivity|]); destruct HC. }
    destruct (group_attr env c n) as [p|] eqn:P; [|discriminate]. exists p. split; [exact (group_attr_declares _ _ _ _ P)|].
    apply andb_prop in K. destruct K as [K1 K2]. split; [destruct (ap_required p); [discriminate|reflexivity]|destruct (ap_default p); try discriminate; reflexivity]. }
  destruct D as (p & D & RQ & DF).
  assert (NONE : last_written env g c n h None -> read_attr env (after env h) g n = Ok VNone).
  { intro L0. pose proof (proj1 (reading_ok env h o ns g c n None G A F L0) p D) as X. rewrite RQ, DF in X. exact X. }
  destruct w as [v|].
  - exists v. split; [exact R|]. intro L0. specialize (NONE L0). cbn in R. congruence.
  - exists VNone. split; [exact (NONE L)|reflexivity].
Qed.
(** C81: what [final] answers for a path item with a '$ref': the merged object noted last; if none was
    noted, the path item itself in 3.0.0, but an AttributeError in 2.0, whose group does not declare
    'final_obj'; an AttributeError in both if the path item has no attributes at all *)
Theorem C81_final : forall env h o, env = groups_v20 \/ env = groups_v30 -> given_before env [] h ->
  (first_class h o "migration" = None -> final_of env (after env h) true o = Err AttributeError)
  /\ forall g, first_class h o "migration" = Some "PathItemAttributeGroup" -> answered env h o "migration" g ->
     (forall f, last_written env g "PathItemAttributeGroup" "final_obj" h (Some (VObject f)) -> final_of env (after env h) true o = Ok (VObject f))
     /\ ((forall v, ~ In (Write g "final_obj" v) h) ->
         (env = groups_v30 -> final_of env (after env h) true o = Ok (VObject o))
         /\ (env = groups_v20 -> final_of env (after env h) true o = Err AttributeError)).
Proof.
  intros env h o HE G. split.
  - intro F. unfold final_of, get_attrs. rewrite (unanswered env _ _ _ F). reflexivity.
  - intros g F A.
    assert (RD : final_of env (after env h) true o = v <- read_attr env (after env h) g "final_obj" ;; Ok (match v with VNone => VObject o | VText t => if truthy_str t then v else VObject o | _ => v end)).
    { unfold final_of. rewrite (get_after env h o "migration" None g A). reflexivity. }
    rewrite RD. split.
    + intros f L. pose proof (reading_ok env h o _ g _ _ _ G A F L) as R. cbn [reading] in R. rewrite R. reflexivity.
    + intro NW. set (c := "PathItemAttributeGroup") in *.
      assert (SP : forall m, same_place env c "final_obj" m -> m = "final_obj").
      { intros m SP. apply same_placeb_ok in SP. unfold same_placeb in SP. destruct HE as [-> | ->].
        - change (group_attr groups_v20 c "final_obj") with (@None aprop) in SP. destruct (group_attr groups_v20 c m); [discriminate|]. apply String.eqb_eq in SP. congruence.
        - change (group_attr groups_v30 c "final_obj") with (Some (mk_aprop "final_obj" false VNone)) in SP.
          destruct (group_attr groups_v30 c m) as [q|] eqn:Q; [|discriminate]. apply String.eqb_eq in SP. cbn [ap_key] in SP. subst c. cbn [group_attr groups_v30 declare_group map fst snd] in Q.
          rewrite String.eqb_refl in Q. unfold lookup in Q.
          repeat match type of Q with context [if String.eqb m ?s then _ else _] => destruct (String.eqb_spec m s) as [->|]; [apply (f_equal (fun x => match x with Some y => ap_key y | None => "" end)) in Q; cbn in Q; try reflexivity; rewrite <- SP in Q; discriminate|] end.
          discriminate. }
      assert (L : last_written env g c "final_obj" h None).
      { constructor. intros m v HI S. apply SP in S. subst m. exact (NW v HI). }
      pose proof (reading_ok env h o _ g _ _ _ G A F L) as [R1 R2]. split; intros ->.
      * rewrite (R1 (mk_aprop "final_obj" false VNone) (group_attr_declares groups_v30 c "final_obj" _ eq_refl)). reflexivity.
      * rewrite (R2 (proj1 (group_attr_none groups_v20 c "final_obj") eq_refl)). reflexivity.
Qed.

(** C81: in 2.0 no group declares 'final_obj' (that of schemas declares 'final'): whatever was asked and written,
    unless somebody wrote 'final_obj' itself, [final] fails for every object with a '$ref' *)
Theorem C81_final_20 : forall h o c g, given_before groups_v20 [] h -> first_class h o "migration" = Some c -> answered groups_v20 h o "migration" g ->
  (forall v, ~ In (Write g "final_obj" v) h) -> final_of groups_v20 (after groups_v20 h) true o = Err AttributeError.
Proof.
  intros h o c g G F A NW.
  assert (N : group_attr groups_v20 c "final_obj" = None).
  { cbn [group_attr groups_v20 declare_group map fst snd]. repeat match goal with |- context [String.eqb ?a ?b] => destruct (String.eqb a b); [vm_compute; reflexivity|] end. reflexivity. }
  assert (SP : forall m, same_place groups_v20 c "final_obj" m -> m = "final_obj").
  { intros m SP. apply same_placeb_ok in SP. unfold same_placeb in SP. rewrite N in SP. destruct (group_attr groups_v20 c m); [discriminate|]. apply String.eqb_eq in SP. congruence. }
  assert (L : last_written groups_v20 g c "final_obj" h None).
  { constructor. intros m v HI S. apply SP in S. subst m. exact (NW v HI). }
  pose proof (reading_ok groups_v20 h o _ g _ _ _ G A F L) as [_ R2].
  assert (RD : final_of groups_v20 (after groups_v20 h) true o = v <- read_attr groups_v20 (after groups_v20 h) g "final_obj" ;; Ok (match v with VNone => VObject o | VText t => if truthy_str t then v else VObject o | _ => v end)).
  { unfold final_of. rewrite (get_after groups_v20 h o "migration" None g A). reflexivity. }
  rewrite RD, (R2 (proj1 (group_attr_none groups_v20 c "final_obj") N)). reflexivity.
Qed.
(** the statements apply: two objects, the second asked for again with another class; an attribute that
    shares its key with another one, a required one, an inherited one *)
Definition ex_env : gclasses :=
  declare_group (declare_group [] "Plain" None [("a", mk_adesc (Some "k") None None); ("b", mk_adesc (Some "k") (Some true) None); ("c", mk_adesc None (Some true) None)])
    "Special" (Some "Plain") [("d", mk_adesc None None (Some (VText "x")))].
Definition ex_h : list op :=
  [Ask 1 "migration" None; Ask 1 "migration" (Some "Special"); Ask 2 "migration" (Some "Plain"); Ask 2 "migration" (Some "Special");
   Write 0 "a" (VText "u"); Write 1 "d" (VText "w"); Write 0 "b" (VText "v"); Write 1 "a" (VObject 7)].
Example ex_given : given_before ex_env [] ex_h.
Proof.
  assert (A0 : forall h2, answered ex_env ([Ask 1 "migration" None; Ask 1 "migration" (Some "Special")] ++ h2) 1 "migration" 0).
  { intro h2. exists [Ask 1 "migration" None], (Some "Special"), h2. split; reflexivity. }
  assert (A1 : forall h2, answered ex_env ([Ask 1 "migration" None; Ask 1 "migration" (Some "Special"); Ask 2 "migration" (Some "Plain")] ++ h2) 2 "migration" 1).
  { intro h2. exists [Ask 1 "migration" None; Ask 1 "migration" (Some "Special")], (Some "Plain"), h2. split; reflexivity. }
  cbn [given_before ex_h List.app]. repeat apply conj; try exact Logic.I.
  - exists 1, "migration". apply (A0 [Ask 2 "migration" (Some "Plain"); Ask 2 "migration" (Some "Special")]).
  - exists 2, "migration". apply (A1 [Ask 2 "migration" (Some "Special"); Write 0 "a" (VText "u")]).
  - exists 1, "migration". apply (A0 [Ask 2 "migration" (Some "Plain"); Ask 2 "migration" (Some "Special"); Write 0 "a" (VText "u"); Write 1 "d" (VText "w")]).
  - exists 2, "migration". apply (A1 [Ask 2 "migration" (Some "Special"); Write 0 "a" (VText "u"); Write 1 "d" (VText "w"); Write 0 "b" (VText "v")]).
Qed.
Example ex_reads :
  map (fun x => read_attr ex_env (after ex_env ex_h) (fst x) (snd x)) [(0, "a"); (0, "c"); (0, "d"); (1, "b"); (1, "d"); (1, "e")]
  = [Ok (VText "v"); Err PyException; Ok (VText "x"); Ok (VObject 7); Ok (VText "w"); Err AttributeError].
Proof. vm_compute. reflexivity. Qed.
(** a path item whose reference was resolved, but which was not merged: 2.0 and 3.0.0 differ *)
Definition ex_resolved : list op := [Ask 5 "migration" (Some "PathItemAttributeGroup"); Write 0 "normalized_ref" (VText "file:///a#/paths/~1b"); Write 0 "ref_obj" (VObject 6)].
Example ex_final : final_of groups_v20 (after groups_v20 ex_resolved) true 5 = Err AttributeError
  /\ final_of groups_v30 (after groups_v30 ex_resolved) true 5 = Ok (VObject 5)
  /\ final_of groups_v20 (after groups_v20 (ex_resolved ++ [Write 0 "final_obj" (VObject 9)])) true 5 = Ok (VObject 9).
Proof. vm_compute. repeat split; reflexivity. Qed.
Example ex_resolved_given : given_before groups_v20 [] ex_resolved /\ first_class ex_resolved 5 "migration" = Some "PathItemAttributeGroup" /\ answered groups_v20 ex_resolved 5 "migration" 0.
Proof.
  assert (A : forall h2, answered groups_v20 ([Ask 5 "migration" (Some "PathItemAttributeGroup")] ++ h2) 5 "migration" 0).
  { intro h2. exists [], (Some "PathItemAttributeGroup"), h2. split; reflexivity. }
  split; [|split; [reflexivity|apply (A [_; _])]]. cbn [given_before ex_resolved List.app]. repeat apply conj; try exact Logic.I.
  - exists 5, "migration". apply (A []).
  - exists 5, "migration". apply (A [Write 0 "normalized_ref" (VText "file:///a#/paths/~1b")]).
Qed.

Print Assumptions C81_one_group.
Print Assumptions C81_asking.
Print Assumptions C81_read.
Print Assumptions C81_references_read.
Print Assumptions C81_final.
Print Assumptions C81_final_20.
