(** * Facts about App.v: where objects are stored, loading again, answers from the store. *)
From Coq Require Import String List Bool Arith Lia.
From Verif Require Import PyStr PyStrFacts PyVal PyValFacts Jp Urls Obj Classes_v1_2 Classes_v2_0 Classes_v3_0_0 Store SpecStore StoreFacts StoreFacts2 App SpecApp AppFacts AppFacts2.
Import ListNotations.
Open Scope string_scope. Open Scope nat_scope.

(** ** where the object of a step is stored *)
Lemma set_routes (s s' : store sobj) o u jp v : store_set so_base s o u jp v = Ok s' -> s_routes s' = s_routes s.
Proof. unfold store_set. destruct (so_base o); [|discriminate]. intros H. now injection H as <-. Qed.
Lemma set_entry_here (s s' : store sobj) o u jp v : store_set so_base s o u jp v = Ok s' -> entry s' u jp v = Some o.
Proof.
  unfold store_set. destruct (so_base o) eqn:B; [|discriminate]. intros R. injection R as <-.
  rewrite entry_sub. cbn [s_objs]. unfold sub at 2. rewrite ds_lookup, String.eqb_refl. unfold sub at 1. rewrite ds_lookup, String.eqb_refl. rewrite ds_lookup. now rewrite String.eqb_refl.
Qed.
Section One.
  Variables (path2url abspath : string -> string) (known : list string)
            (upgrade : string -> option (sobj -> string -> prog (sobj * routes))) (prepare : sobj -> string -> res sobj)
            (ask : query -> M (sobj * string)).
  Notation migrate := (migrate_traced path2url abspath known upgrade prepare ask).
  Lemma round_where url jref o jp from v a a' o' jp' : round upgrade prepare ask url jref o jp from v a = (a', Ok (o', jp')) ->
    store_relocate (a_store a') url jp from (Some v) = Ok jp' /\ entry (a_store a') url jp' v = Some o' /\
    exists m a1 mid reloc, upgrade v = Some m /\ run ask (m o jref) a = (a1, Ok (mid, reloc)) /\ prepare mid (url ++ jp') = Ok o' /\
      exists a2, store_update_routes (a_store a1) url v [(jp, RMap reloc)] = (a2, Ok tt) /\ s_routes (a_store a') = s_routes a2.
  Proof.
    unfold App.round. destruct (upgrade v) as [m|] eqn:U; [|intros H; discriminate H]. unfold bindm, put_routes, relocate, set_obj, lift, ret.
    destruct (run ask (m o jref) a) as [a1 [[mid reloc]|e]] eqn:R; [|intros H; discriminate H].
    destruct (store_update_routes (a_store a1) url v [(jp, RMap reloc)]) as [s [[]|e]] eqn:P; [|intros H; discriminate H].
    destruct (store_relocate _ url jp from (Some v)) as [jp1|e] eqn:RL; [|intros H; discriminate H].
    destruct (prepare mid _) as [o1|e] eqn:Q; [|intros H; discriminate H].
    destruct (store_set so_base _ o1 url jp1 v) as [s2|e] eqn:S; [|intros H; discriminate H].
    intros H. injection H as <- <- <-. cbn [with_store a_store] in *. assert (SR := set_routes _ _ _ _ _ _ S). split; [|split].
    - rewrite <- RL. unfold store_relocate. now rewrite SR.
    - exact (set_entry_here _ _ _ _ _ _ S).
    - exists m, a1, mid, reloc. split; [reflexivity|]. split; [exact R|]. split; [exact Q|]. exists s. split; [exact P|exact SR].
  Qed.
  Lemma migrate_one o jref to a a' o' w x : migrate o jref to a = (a', [(to, x)], Ok o') -> ascending known -> swagger_version o = Ok w ->
    exists url jp jp', split path2url abspath jref = Ok (url, jp) /\ store_relocate (a_store a') url jp w (Some to) = Ok jp' /\ entry (a_store a') url jp' to = Some o'.
  Proof.
    intros H A V. destruct (migrate_ok path2url abspath known upgrade prepare ask _ _ _ _ _ _ _ _ H A V) as (y & Y & SB & _).
    assert (IK : In to known) by (destruct SB as [_ SB]; destruct (proj1 (SB to) (or_introl eq_refl)) as [K _]; exact K).
    unfold migrate_traced in H. apply str_in_In in IK. rewrite IK in H. apply str_in_In in IK. cbn [negb] in H. rewrite V in H. cbn [bind] in H.
    destruct (through_spec known w to y A IK Y) as (vs & T & SB'). rewrite T in H. cbn [bind] in H.
    assert (EV := steps_unique _ _ _ _ _ SB' SB). cbn [map fst] in EV. subst vs.
    destruct (split path2url abspath jref) as [[url jp]|e] eqn:SP; [|discriminate H]. cbn [bind] in H. cbn [rounds] in H.
    destruct (round upgrade prepare ask url jref o jp w to a) as [a1 [[o1 jp1]|e]] eqn:R; [|destruct (upgrade to); discriminate H].
    injection H as H1 _ <-. apply round_where in R as (R1 & R2 & _). exists url, jp, jp1. split; [reflexivity|].
    assert (ST : a_store a' = a_store a1) by (rewrite <- H1; now destruct (is_root o1)). rewrite ST. auto.
  Qed.
End One.

(** ** loading again *)
Section Load.
  Variables (path2url abspath : string -> string) (fetch : string -> res json).
  Notation split := (split path2url abspath).
  Notation load := (load_obj path2url abspath fetch).
  Lemma prefix_self p : prefix_of p p. Proof. exists "". now rewrite sapp_nil_r. Qed.
  Lemma sdrop_all s : sdrop (String.length s) s = "".
  Proof. induction s as [|c s IH]; [reflexivity|exact IH]. Qed.
  Lemma get_exact (s : store sobj) url jp v o : good s -> entry s url jp v = Some o -> (forall p o', prefix_of p jp -> entry s url p v = Some o' -> p = jp) ->
    store_get so_resolve s url jp v = rmap Some (so_resolve o []).
  Proof.
    intros G E H. unfold store_get. destruct (first_match jp v (sub url (s_objs s))) as [[p x]|] eqn:F.
    - apply first_match_some in F as [P X]; [|now apply good_sub]. rewrite <- entry_sub in X. assert (p = jp) as -> by now apply (H p x). rewrite E in X. injection X as <-. rewrite sdrop_all. reflexivity.
    - exfalso. rewrite entry_sub in E. exact (first_match_none _ _ _ F jp o (prefix_self jp) E).
  Qed.
  Lemma run_ops_step versions calls p : run_op so_base (run_ops so_base versions calls) p = run_ops so_base versions (calls ++ [p])%list.
  Proof. symmetry. apply run_ops_snoc. Qed.
  Lemma reachable_op versions a a' p : reachable versions a -> a_store a' = run_op so_base (a_store a) p -> reachable versions a'.
  Proof. intros [calls E] E'. exists (calls ++ [p])%list. now rewrite E', E, run_ops_step. Qed.
  Lemma reachable_good versions a : reachable versions a -> good (a_store a).
  Proof. intros [calls ->]. apply run_ops_good. Qed.
  Lemma load_again versions jref p p' r r' a a' d v url jp o : reachable versions a -> fetch jref = Ok (JDict d) -> declares d (JStr v) -> v = "2.0" \/ v = "3.0.0" ->
    split jref = Ok (url, jp) -> (forall p0 o', prefix_of p0 jp -> entry (a_store a) url p0 v = Some o' -> p0 = jp) -> cached_for a url jp (Some (JStr v)) = Ok None ->
    load jref p r a = (a', Ok o) ->
    entry (a_store a') url jp v = Some o /\ load jref p' r' a' = (a', Ok o).
  Proof.
    intros RE F DE HV S ONLY NC L. assert (DV : doc_version (JDict d) = Ok (Some (JStr v))) by now apply doc_version_declares.
    rewrite (load_fresh _ _ _ _ _ _ _ _ _ _ _ F DV S (or_introl NC)) in L. destruct (after_under a url jp (Some (JStr v)) r) as [s [ovr|e]] eqn:AU; [|discriminate L]. cbv zeta in L.
    destruct (parse fetch (JDict d) jref url (Some (JStr v)) (overrides ovr) p) as [[[o1 v'] url']|e] eqn:PA; [|discriminate L]. destruct (so_truthy o1) eqn:TR; [|discriminate L].
    destruct (store_set so_base s o1 url' jp v') as [s'|e] eqn:SS; [|discriminate L]. injection L as <- <-. cbn [a_store].
    assert (X : v' = v /\ url' = url /\ so_version o1 = v /\ so_apis o1 = [] /\ exists c path kids, so_obj o1 = OObj c path (JDict d) kids).
    { destruct (parse_version _ _ _ _ _ _ _ _ _ _ PA) as [(E & _)|[(E & -> & SV & (path & kids & EO) & ->)|(E & -> & SV & (path & kids & EO) & ->)]];
        injection E as E; subst v; [destruct HV; discriminate| |]; (repeat split; [exact SV| |eauto]);
        unfold parse in PA; cbn [String.eqb Ascii.eqb Bool.eqb] in PA; destruct (construct _ _ _ _ _) in PA; [|discriminate PA| |discriminate PA]; cbn [bind] in PA; injection PA as <-; reflexivity. }
    destruct X as (-> & -> & SV & AP & c & path & kids & EO).
    assert (TV : truthy_str v = true) by (destruct HV as [-> | ->]; reflexivity).
    assert (KV : version_key (Some (JStr v)) = Some v) by (destruct HV as [-> | ->]; reflexivity).
    assert (E1 := set_entry_here _ _ _ _ _ _ SS). split; [exact E1|].
    assert (G : good (a_store a)) by now apply (reachable_good versions).
    unfold after_under in AU. rewrite KV in AU. assert (AO : s = run_op so_base (a_store a) (UnderOp url jp v r)) by (cbn [run_op]; now rewrite AU).
    assert (GS : good s) by (rewrite AO; now apply run_op_good).
    assert (SO : s' = run_op so_base s (SetOp o1 url jp v) /\ so_base o1 = true). { cbn [run_op]. rewrite SS. split; [reflexivity|]. unfold store_set in SS. now destruct (so_base o1). }
    destruct SO as [SO B]. assert (GS' : good s') by (rewrite SO; now apply run_op_good).
    apply (load_cached _ _ _ _ _ _ _ (JDict d) (Some (JStr v)) url jp); auto. unfold cached_for. cbn [a_store]. rewrite TV. rewrite (get_exact s' url jp v o1 GS' E1).
    - unfold so_resolve. rewrite EO. cbn [resolve rmap]. f_equal. f_equal. destruct o1 as [ov oo oa]; cbn [so_version so_obj so_apis] in *. now subst.
    - intros p0 o' P0 E0. rewrite SO in E0. rewrite entry_set in E0 by exact B. destruct (String.eqb url url && String.eqb jp p0 && String.eqb v v) eqn:Q.
      + apply andb_true_iff in Q as [Q _]. apply andb_true_iff in Q as [_ Q]. now apply String.eqb_eq in Q.
      + rewrite AO in E0. destruct r.
        * rewrite entry_remove in E0 by exact G. destruct (_ && _ && _ && _); [discriminate E0|]. now apply (ONLY p0 o').
        * apply (ONLY p0 o'); [exact P0|]. rewrite <- E0. unfold entry. rewrite (entry_other so_base (a_store a) (UnderOp url jp v false) eq_refl). reflexivity.
  Qed.
End Load.

(** ** answers from the store *)
Section Answers.
  Variables (path2url abspath : string -> string) (app_url : string) (versions : list string) (fetch : string -> res json)
            (upgrade : string -> option (sobj -> string -> prog (sobj * routes))) (prepare : sobj -> string -> res sobj).
  Notation split := (split path2url abspath).
  Notation resolve_obj := (resolve_obj path2url abspath app_url versions fetch upgrade prepare).
  Lemma resolve_empty f q a : q_jref q = "" -> resolve_obj (S f) q a = (a, Err ValueError).
  Proof. intros E. cbn [App.resolve_obj]. now rewrite E. Qed.
  Lemma resolve_cached f q a url jp jp1 o : q_jref q <> "" -> split (q_jref q) = Ok (url, jp) ->
    (if String.eqb (q_from q) (target_version q) then Ok jp else store_relocate (a_store a) (if truthy_str url then url else app_url) jp (q_from q) (Some (target_version q))) = Ok jp1 ->
    store_get so_resolve (a_store a) (if truthy_str url then url else app_url) jp1 (target_version q) = Ok (Some o) -> so_base o = true ->
    resolve_obj (S f) q a = (a, Ok (o, ((if truthy_str url then url else app_url) ++ jp1)%string)).
  Proof.
    intros NE S R G B. cbn [App.resolve_obj]. destruct (q_jref q) as [|c s] eqn:Q; [congruence|]. cbn [truthy_str negb]. fold (target_version q). unfold bindm at 1, lift at 1. rewrite S.
    unfold bindm at 1. assert (J : (if String.eqb (q_from q) (target_version q) then ret jp else relocate (if truthy_str url then url else app_url) jp (q_from q) (target_version q)) a = (a, Ok jp1)).
    { destruct (String.eqb (q_from q) (target_version q)); [unfold ret; now rewrite R|unfold relocate; now rewrite R]. }
    rewrite J. unfold bindm at 1, get_obj at 1. rewrite G. assert (N : not_none (Some o) = Some o) by (unfold not_none, so_null, so_base in *; now destruct (so_obj o) as [[]| | |]). rewrite N.
    unfold lift, answer. unfold so_base in B. destruct (so_obj o); [discriminate B|reflexivity..].
  Qed.
  Lemma resolve_own f q q' a jp : q_jref q <> "" -> app_url <> "" -> split (q_jref q) = Ok ("", jp) -> split (app_url ++ jp) = Ok (app_url, jp) ->
    q' = mk_query (app_url ++ jp) (q_from q) (q_parser q) (q_to q) (q_remove q) -> resolve_obj (S f) q a = resolve_obj (S f) q' a.
  Proof.
    intros NE NA S S' ->. cbn [App.resolve_obj q_jref q_from q_parser q_to q_remove]. destruct (q_jref q) as [|c s] eqn:Q; [congruence|]. cbn [truthy_str negb].
    assert (T : truthy_str app_url = true) by (destruct app_url; [congruence|reflexivity]). assert (T' : truthy_str (app_url ++ jp) = true) by (destruct app_url; [congruence|reflexivity]). rewrite T'. cbn [negb].
    unfold bindm, lift. rewrite S, S'. rewrite !T. cbn [truthy_str]. reflexivity.
  Qed.
  Lemma resolve_no_source f q a url jp jp1 : q_jref q <> "" -> split (q_jref q) = Ok (url, jp) -> url <> "" ->
    (if String.eqb (q_from q) (target_version q) then Ok jp else store_relocate (a_store a) url jp (q_from q) (Some (target_version q))) = Ok jp1 ->
    store_get so_resolve (a_store a) url jp1 (target_version q) = Ok None ->
    store_get_until so_truthy so_resolve (a_store a) url jp (q_from q) (Some (target_version q)) = Ok None -> q_from q <> a_original a ->
    resolve_obj (S f) q a = (a, Err PyException).
  Proof.
    intros NE S NU R G U O. cbn [App.resolve_obj]. destruct (q_jref q) as [|c s] eqn:Q; [congruence|]. cbn [truthy_str negb]. fold (target_version q). unfold bindm at 1, lift at 1. rewrite S.
    assert (T : truthy_str url = true) by (destruct url; [congruence|reflexivity]). rewrite T.
    unfold bindm at 1. assert (J : (if String.eqb (q_from q) (target_version q) then ret jp else relocate url jp (q_from q) (target_version q)) a = (a, Ok jp1)).
    { destruct (String.eqb (q_from q) (target_version q)); [unfold ret; now rewrite R|unfold relocate; now rewrite R]. }
    rewrite J. unfold bindm at 1, get_obj at 1. rewrite G. cbn [not_none]. unfold bindm at 1, ret at 1. unfold bindm at 1, get_until at 1. rewrite U. unfold bindm at 1. unfold bindm at 1, get_original at 1.
    destruct (String.eqb_spec (q_from q) (a_original a)); [congruence|]. reflexivity.
  Qed.
  (** otherwise the newest object of an older version, or the document, is migrated *)
  Theorem resolve_migrates f q a a' url jp jp1 y new : q_jref q <> "" -> split (q_jref q) = Ok (url, jp) -> url <> "" ->
    (if String.eqb (q_from q) (target_version q) then Ok jp else store_relocate (a_store a) url jp (q_from q) (Some (target_version q))) = Ok jp1 ->
    store_get so_resolve (a_store a) url jp1 (target_version q) = Ok None ->
    resolve_obj (S f) q a = (a', Ok (y, new)) ->
    exists o where_ a0 o1 a1, migrate_obj path2url abspath versions upgrade prepare (resolve_obj f) o where_ (target_version q) a0 = (a1, Ok o1) /\
      (if so_truthy o1 then prepare o1 where_ = Ok y else y = o1) /\ a' = a1 /\
      ((exists j v, store_get_until so_truthy so_resolve (a_store a) url jp (q_from q) (Some (target_version q)) = Ok (Some (o, j, v)) /\ where_ = (url ++ j)%string /\ a0 = a) \/
       (store_get_until so_truthy so_resolve (a_store a) url jp (q_from q) (Some (target_version q)) = Ok None /\ q_from q = a_original a /\
        where_ = q_jref q /\ load_obj path2url abspath fetch (q_jref q) (q_parser q) (q_remove q) a = (a0, Ok o))).
  Proof.
    intros NE S NU J G H. assert (TU : truthy_str url = true) by (destruct url; [congruence|reflexivity]).
    cbn [App.resolve_obj] in H. fold (target_version q) in H. destruct (truthy_str (q_jref q)) eqn:TR; [|destruct (q_jref q); [congruence|discriminate TR]]. cbn [negb] in H.
    unfold bindm at 1, lift at 1 in H. rewrite S, TU in H.
    assert (JM : (if String.eqb (q_from q) (target_version q) then ret jp else relocate url jp (q_from q) (target_version q)) a = (a, Ok jp1)).
    { unfold relocate, ret. destruct (String.eqb (q_from q) (target_version q)); [now injection J as ->|now rewrite J]. }
    unfold bindm at 1 in H. rewrite JM in H. unfold bindm at 1, get_obj at 1 in H. rewrite G in H. cbn [not_none] in H.
    unfold bindm at 1, ret at 1 in H. unfold bindm at 1, get_until at 1 in H.
    destruct (store_get_until so_truthy so_resolve (a_store a) url jp (q_from q) (Some (target_version q))) as [[[[o j] v]|]|] eqn:U; [| |discriminate H].
    - unfold bindm at 1, ret at 1 in H. unfold bindm at 1 in H.
      destruct (migrate_obj path2url abspath versions upgrade prepare (resolve_obj f) o (url ++ j) (target_version q) a) as [a1 [o1|]] eqn:MI; [|discriminate H].
      exists o, (url ++ j)%string, a, o1, a1. split; [exact MI|].
      unfold bindm at 1 in H. destruct (so_truthy o1).
      + unfold lift at 1 in H. destruct (prepare o1 (url ++ j)) as [o2|] eqn:P; [|discriminate H]. unfold bindm, relocate, lift in H.
        destruct (store_relocate _ _ _ _ _) in H; [|discriminate H]. injection H as <- E. 
        assert (o2 = y) as -> by (unfold answer in E; destruct (so_obj o2) as [[]| | |]; try discriminate E; now injection E as <-).
        split; [reflexivity|]. split; [reflexivity|]. left. eauto.
      + unfold ret at 1 in H. unfold bindm, relocate, lift in H.
        destruct (store_relocate _ _ _ _ _) in H; [|discriminate H]. injection H as <- E.
        assert (o1 = y) as -> by (unfold answer in E; destruct (so_obj o1) as [[]| | |]; try discriminate E; now injection E as <-).
        split; [reflexivity|]. split; [reflexivity|]. left. eauto.
    - unfold bindm at 1 in H. unfold bindm at 1, get_original at 1 in H. destruct (String.eqb_spec (q_from q) (a_original a)) as [EO|]; [|discriminate H].
      unfold bindm at 1 in H. destruct (load_obj path2url abspath fetch (q_jref q) (q_parser q) (q_remove q) a) as [a0 [o|]] eqn:LO; [|discriminate H]. unfold ret at 1 in H. unfold bindm at 1 in H.
      destruct (migrate_obj path2url abspath versions upgrade prepare (resolve_obj f) o (q_jref q) (target_version q) a0) as [a1 [o1|]] eqn:MI; [|discriminate H].
      exists o, (q_jref q), a0, o1, a1. split; [exact MI|].
      unfold bindm at 1 in H. destruct (so_truthy o1).
      + unfold lift at 1 in H. destruct (prepare o1 (q_jref q)) as [o2|] eqn:P; [|discriminate H]. unfold bindm, relocate, lift in H.
        destruct (store_relocate _ _ _ _ _) in H; [|discriminate H]. injection H as <- E.
        assert (o2 = y) as -> by (unfold answer in E; destruct (so_obj o2) as [[]| | |]; try discriminate E; now injection E as <-).
        split; [reflexivity|]. split; [reflexivity|]. right. auto.
      + unfold ret at 1 in H. unfold bindm, relocate, lift in H.
        destruct (store_relocate _ _ _ _ _) in H; [|discriminate H]. injection H as <- E.
        assert (o1 = y) as -> by (unfold answer in E; destruct (so_obj o1) as [[]| | |]; try discriminate E; now injection E as <-).
        split; [reflexivity|]. split; [reflexivity|]. right. auto.
  Qed.
End Answers.
