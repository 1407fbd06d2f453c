(** Opening a document: nothing of 3.0.0 is stored before the last step. *)
From Coq Require Import String Ascii List Bool Arith Lia.
From Verif Require Import PyStr PyStrFacts PyVal PyValFacts Jp UrlLib Urls Obj ObjFacts SpecObj
  Classes_v1_2 Classes_v2_0 Classes_v3_0_0 Store SpecStore StoreFacts Scan App SpecApp AppFacts AppFacts2 AppFacts4 AppFacts5 Main SpecOpen RewriteFacts OpenFacts.
Import ListNotations.
Open Scope string_scope. Open Scope nat_scope.

(** ** programs that ask for 2.0 only and store nothing as 3.0.0 *)
Definition asks20 (q : query) : Prop :=
  q_from q = "2.0" /\ (q_to q = None \/ q_to q = Some "2.0") /\ (forall p, q_parser q = Some p -> fst p <> "3.0.0").
Inductive safe : prog (sobj * routes) -> Prop :=
| sf_done r : safe (Done r)
| sf_ask q k : asks20 q -> (forall x, safe (k x)) -> safe (Ask q k)
| sf_cache o u jp v k : v <> "3.0.0" -> safe k -> safe (Cache o u jp v k)
| sf_original k : (forall v, safe (k v)) -> safe (Original k).
Definition safec (k : cont) : Prop := forall u, safe (k u).
Lemma safe_fold {X} (f : X -> prog (sobj * routes) -> prog (sobj * routes)) k l : (forall y k, safe k -> safe (f y k)) -> safe k -> safe (fold_right f k l).
Proof. intros M H. induction l as [|y l IH]; [exact H|]. exact (M _ _ IH). Qed.
Lemma safec_fold {X} (f : X -> cont -> cont) k l : (forall y k, safec k -> safec (f y k)) -> safec k -> safec (fold_right f k l).
Proof. intros M H. induction l as [|y l IH]; [exact H|]. exact (M _ _ IH). Qed.
Section Safe.
  Variables (path2url abspath : string -> string) (app_url : string) (fuel : nat) (from12 : sobj -> res sobj).
  Lemma safe_resolve url b o k : safec k -> safec (resolve_with path2url abspath "2.0" url b o k).
  Proof.
    intros H u. change (resolve_with path2url abspath "2.0") with resolve20. unfold resolve20. destruct (truthy_obj o); [|apply H].
    destruct (oattr (table_of "2.0") o "ref") as [r|[]]; try apply sf_done; try apply H.
    destruct (truthy_obj r); [|apply H]. destruct (normalized (table_of "2.0") url o) as [[n|]|e]; try apply sf_done.
    apply sf_ask.
    - split; [reflexivity|]. split; [now left|]. intros p E. injection E as <-. discriminate.
    - intros x. destruct (so_truthy (fst x)); [apply H|apply sf_done].
  Qed.
  Lemma safe_refs url o k : safec k -> safec (resolve_obj_refs path2url abspath "2.0" url o k).
  Proof.
    intros H. unfold resolve_obj_refs. destruct o; try exact H. apply safec_fold; [|exact H]. intros t k' H'. unfold resolve_target.
    destruct (pick _ _ t) as [[os b]|e]; [|intros u; apply sf_done]. apply safec_fold; [|exact H']. intros. now apply safe_resolve.
  Qed.
  Lemma safe_chain k : safe k -> forall f seen cur, safe (merge_chain path2url abspath app_url f "2.0" seen cur k).
  Proof.
    intros H. induction f as [|f IH]; intros seen cur; [apply sf_done|]. cbn [merge_chain]. destruct (split path2url abspath cur) as [[u jp]|e]; [|apply sf_done].
    cbv zeta. apply sf_original. intros v. apply sf_ask.
    - split; [reflexivity|]. split; [now right|]. intros p E. injection E as <-. discriminate.
    - intros x. destruct (so_truthy (fst x)); [|apply sf_done].
      destruct (existsb _ seen); [exact H|]. destruct (normalized _ _ _) as [[n|]|e]; [|exact H|apply sf_done]. destruct (truthy_str n); [apply IH|exact H].
  Qed.
  Lemma safe_merge url o k : safe k -> safe (merge_obj path2url abspath app_url fuel "2.0" url o k).
  Proof.
    intros H. unfold merge_obj. destruct o as [|c p s kids| |]; try exact H. destruct (String.eqb c "PathItem"); [|exact H].
    destruct (normalized _ _ _) as [[n|]|e]; [|exact H|apply sf_done]. destruct (truthy_str n); [now apply safe_chain|exact H].
  Qed.
  Lemma safe_upgrade20 o jref : safe (upgrade20 path2url abspath app_url fuel from12 o jref).
  Proof.
    unfold upgrade20. destruct (if String.eqb (so_version o) "1.2" then from12 o else Ok o) as [o'|e]; [|apply sf_done].
    destruct (String.eqb (so_version o') "2.0"); [|apply sf_done]. destruct (split path2url abspath jref) as [[url jp]|e]; [|apply sf_done].
    apply sf_cache; [discriminate|]. unfold visited. destruct (default_tree_traversal _ _ _ _); [|apply sf_done]. destruct (normalize_all _ _ _); [|apply sf_done].
    apply sf_cache; [discriminate|].
    match goal with |- safe (fold_right ?f ?k ?l []) => assert (X : safec (fold_right f k l)); [|exact (X [])] end.
    apply safec_fold; [intros; now apply safe_refs|]. intros u. apply safe_fold; [intros; now apply safe_merge|]. apply sf_done.
  Qed.
End Safe.

(** ** the store *)
Definition clean (url : string) (a : app) : Prop := good (a_store a) /\ forall p, entry (a_store a) url p "3.0.0" = None.
Section Clean.
  Variables (path2url abspath : string -> string) (app_url : string) (fetch : string -> res json) (merge_fuel : nat).
  Variables (from12 : sobj -> res sobj) (from20 : sobj -> string -> string -> override -> res (sobj * routes)) (url : string).
  Hypothesis NO30 : forall j d p, split path2url abspath j = Ok (url, p) -> fetch j = Ok (JDict d) -> ~ declares d (JStr "3.0.0").
  Notation upgrade := (modules path2url abspath app_url merge_fuel from12 from20).
  Notation prepare := (fun (o : sobj) (_ : string) => @Ok sobj o).

  Definition keeps {A} (m : M A) : Prop := forall a, clean url a -> clean url (fst (m a)).
  Lemma keeps_same {A} (m : M A) : (forall a, a_store (fst (m a)) = a_store a) -> keeps m.
  Proof. intros H a [G N]. split; rewrite H; assumption. Qed.
  Lemma keeps_bind {A B} (m : M A) (f : A -> M B) : keeps m -> (forall x, keeps (f x)) -> keeps (bindm m f).
  Proof. intros G H a C. unfold bindm. specialize (G a C). destruct (m a) as [a1 [x|e]]; cbn [fst] in *; [|exact G]. exact (H x a1 G). Qed.
  Lemma keeps_lift {A} (r : res A) : keeps (lift r). Proof. now apply keeps_same. Qed.
  Lemma keeps_ret {A} (x : A) : keeps (ret x). Proof. now apply keeps_same. Qed.
  Lemma keeps_set o u p v : v <> "3.0.0" \/ u <> url -> keeps (set_obj o u p v).
  Proof.
    intros H a [G N]. unfold set_obj. destruct (store_set so_base (a_store a) o u p v) as [s|e] eqn:E; cbn [fst]; [|split; assumption].
    split; cbn [with_store a_store].
    - exact (proj1 (proj2 (set_mono "2.0" _ _ _ _ _ _ G E))).
    - intros q. destruct (entry s url q "3.0.0") as [x|] eqn:EN; [|reflexivity]. apply (set_entry _ _ _ _ _ _ _ _ _ _ E) in EN.
      destruct EN as [(_ & E1 & E2)|EN]; [|rewrite N in EN; discriminate EN]. destruct H as [H|H]; congruence.
  Qed.
  Lemma keeps_get u p v : keeps (get_obj u p v). Proof. now apply keeps_same. Qed.
  Lemma keeps_under u p v r : keeps (get_under u p v r).
  Proof.
    intros a [G N]. unfold get_under. destruct (store_get_under (a_store a) u p v r) as [s x] eqn:E. cbn [fst]. split; cbn [with_store a_store].
    - rewrite (under_op _ _ _ _ _ _ _ E). now apply run_op_good.
    - intros q. destruct (entry s url q "3.0.0") as [y|] eqn:EN; [|reflexivity]. apply (under_entry _ _ _ _ _ _ _ _ _ _ _ G E) in EN. rewrite N in EN. discriminate EN.
  Qed.
  Lemma keeps_routes u v rs : keeps (put_routes u v rs).
  Proof.
    intros a [G N]. unfold put_routes. destruct (store_update_routes (a_store a) u v rs) as [s x] eqn:E. cbn [fst]. destruct (routes_objs _ _ _ _ _ _ E) as [EO _].
    split; cbn [with_store a_store]; [exact (objs_good _ _ EO G)|]. intros q. rewrite (objs_entry _ _ _ _ _ EO). apply N.
  Qed.
  Lemma parse_stored src jref u v ovr p o v' u' : parse fetch src jref u v ovr p = Ok (o, v', u') ->
    (forall q : parser, p = Some q -> fst q <> "3.0.0") -> v' = "3.0.0" -> u' = u /\ v = Some (JStr "3.0.0").
  Proof.
    unfold parse. intros E HP. destruct v as [[| | | |s| |]|]; try discriminate E.
    - destruct (String.eqb_spec s "1.2") as [->|N1].
      { destruct (construct _ _ _ _ _); [|discriminate E]. cbn [bind] in E. destruct (resource_paths _); [|discriminate E]. cbn [bind] in E. destruct (load_apis _ _ _ _); [|discriminate E]. cbn [bind] in E.
        injection E as _ <- _. discriminate. }
      destruct (String.eqb_spec s "2.0") as [->|N2]. { destruct (construct _ _ _ _ _); [|discriminate E]. injection E as _ <- _. discriminate. }
      destruct (String.eqb_spec s "3.0.0") as [->|N3]; [|discriminate E]. destruct (construct _ _ _ _ _); [|discriminate E]. injection E as _ <- <-. auto.
    - destruct p as [[pv b]|]; [|discriminate E]. destruct (construct _ _ _ _ _) as [x|]; [|discriminate E]. cbn [bind] in E. injection E as _ <- _.
      specialize (HP _ eq_refl). cbn [fst] in HP. destruct x; intros; congruence.
  Qed.
  Lemma keeps_load jref p rm : (forall q : parser, p = Some q -> fst q <> "3.0.0") -> keeps (load_obj path2url abspath fetch jref p rm).
  Proof.
    intros HP. unfold load_obj. destruct (fetch jref) as [src|e] eqn:F; [|now apply keeps_same].
    change (keeps (bindm (lift (doc_version src)) (fun version => bindm (lift (split path2url abspath jref)) (fun uj => let '(u, jp) := uj in
      cached <-- (match version_key version with Some v => get_obj u jp v | None => ret None end) ;;
      if match cached with Some o => so_truthy o | None => false end
      then ret (match cached with Some o => o | None => mk_sobj "" (OPrim JNull) [] end)
      else
        ovr <-- (match version_key version with Some v => get_under u jp v rm | None => ret None end) ;;
        _ <-- emit (EParse u jp) ;;
        ovu <-- lift (parse fetch src jref u version (overrides ovr) p) ;;
        let '(o, v, url') := ovu in
        if so_truthy o then
          _ <-- set_obj o url' jp v ;;
          _ <-- (if is_root o then set_original (so_version o) else ret tt) ;;
          ret o
        else lift (Err PyException))))).
    destruct (doc_version src) as [version|e] eqn:DV; [|now apply keeps_same]. destruct (split path2url abspath jref) as [[u jp]|e] eqn:S; [|now apply keeps_same].
    match goal with |- keeps ?m => change (keeps (cached <-- (match version_key version with Some v => get_obj u jp v | None => ret None end) ;;
      if match cached with Some o => so_truthy o | None => false end
      then ret (match cached with Some o => o | None => mk_sobj "" (OPrim JNull) [] end)
      else
        ovr <-- (match version_key version with Some v => get_under u jp v rm | None => ret None end) ;;
        _ <-- emit (EParse u jp) ;;
        ovu <-- lift (parse fetch src jref u version (overrides ovr) p) ;;
        let '(o, v, url') := ovu in
        if so_truthy o then
          _ <-- set_obj o url' jp v ;;
          _ <-- (if is_root o then set_original (so_version o) else ret tt) ;;
          ret o
        else lift (Err PyException))) end.
    apply keeps_bind; [destruct (version_key version); [apply keeps_get|apply keeps_ret]|]. intros cached. destruct (match cached with Some o => so_truthy o | None => false end); [apply keeps_ret|].
    apply keeps_bind; [destruct (version_key version); [apply keeps_under|apply keeps_ret]|]. intros ovr. apply keeps_bind; [now apply keeps_same|]. intros _.
    destruct (parse fetch src jref u version (overrides ovr) p) as [[[o v'] u']|e] eqn:PA; [|now apply keeps_same].
    intros a C. unfold bindm at 1, lift. destruct (so_truthy o); [|exact C]. revert a C. apply (keeps_bind (set_obj o u' jp v')).
    - apply keeps_set. destruct (string_dec v' "3.0.0") as [E|]; [|now left]. right. destruct (parse_stored _ _ _ _ _ _ _ _ _ PA HP E) as [-> ->]. intros ->.
      assert (exists d, src = JDict d) as [d ->] by (destruct src; try discriminate DV; eauto). exact (NO30 _ _ _ S F (proj1 (doc_version_declares d _) DV)).
    - intros _. apply keeps_bind; [destruct (is_root o); now apply keeps_same|]. intros _. apply keeps_ret.
  Qed.

  Section Ask.
    Variable ask : query -> M (sobj * string).
    Hypothesis ASK : forall q, asks20 q -> keeps (ask q).
    Lemma keeps_run p : safe p -> keeps (run ask p).
    Proof.
      induction 1 as [r|q k Q S IH|o u jp v k N S IH|k S IH]; cbn [run].
      - apply keeps_lift.
      - apply keeps_bind; [now apply ASK|exact IH].
      - apply keeps_bind; [apply keeps_set; now left|intros _; exact IH].
      - apply keeps_bind; [now apply keeps_same|exact IH].
    Qed.
    Lemma keeps_round u jref o jp from v : v = "1.2" \/ v = "2.0" -> keeps (round upgrade prepare ask u jref o jp from v).
    Proof.
      intros HV. unfold round. assert (X : exists m, upgrade v = Some m /\ safe (m o jref)).
      { destruct HV as [-> | ->]; eexists; (split; [reflexivity|]); [apply sf_done|apply safe_upgrade20]. }
      destruct X as (m & -> & SM). apply keeps_bind; [now apply keeps_run|]. intros [o' reloc]. apply keeps_bind; [apply keeps_routes|]. intros _. apply keeps_bind; [now apply keeps_same|]. intros jp'.
      apply keeps_bind; [apply keeps_lift|]. intros o''. apply keeps_bind; [|intros _; apply keeps_ret]. apply keeps_set. left. destruct HV as [-> | ->]; discriminate.
    Qed.
    Lemma keeps_rounds u jref vs : (forall v, In v vs -> v = "1.2" \/ v = "2.0") -> forall o jp from a, clean url a -> clean url (fst (fst (rounds upgrade prepare ask u jref vs o jp from a))).
    Proof.
      induction vs as [|v vs IH]; intros HV o jp from a C; [exact C|]. cbn [rounds]. assert (K := keeps_round u jref o jp from v (HV v (or_introl eq_refl)) a C).
      destruct (round _ _ _ _ _ _ _ _ _ a) as [a1 [[o1 jp1]|e]]; cbn [fst] in *; [|exact K].
      assert (K2 := IH (fun v I => HV v (or_intror I)) o1 jp1 v a1 K). destruct (rounds _ _ _ _ _ _ _ _ _ a1) as [[a2 t] r]. exact K2.
    Qed.
    Lemma keeps_migrate o jref : keeps (App.migrate_obj path2url abspath three upgrade prepare ask o jref "2.0").
    Proof.
      intros a C. unfold App.migrate_obj, migrate_traced. change (negb (str_in "2.0" three)) with false. cbv iota.
      destruct (swagger_version o) as [w|e]; [|exact C]. cbn [bind]. destruct (versions_through three w "2.0") as [vs|e] eqn:VT; [|exact C]. cbn [bind].
      destruct (split path2url abspath jref) as [[u jp]|e]; [|exact C]. cbn [bind].
      assert (HV : forall v, In v vs -> v = "1.2" \/ v = "2.0").
      { intros v I. unfold versions_through in VT. change (index_of "2.0" three) with (Ok 1) in VT. cbn [bind] in VT. destruct (strict_version w) as [x|]; [|discriminate VT]. cbn [bind three firstn foldM] in VT.
        destruct (strict_version "1.2") as [y1|]; [|discriminate VT]. cbn [bind] in VT. destruct (strict_version "2.0") as [y2|]; [|discriminate VT]. cbn [bind] in VT. injection VT as <-.
        destruct (ver_ltb y1 x), (ver_ltb y2 x); cbn in I; intuition. }
      assert (K := keeps_rounds u jref vs HV o jp w a C). destruct (rounds _ _ _ _ _ _ _ _ _ a) as [[a2 t] [r|e]]; cbn [fst] in *; [|exact K]. destruct (is_root r); exact K.
    Qed.
  End Ask.
  Lemma keeps_resolve fuel : forall q, asks20 q -> keeps (resolve_obj path2url abspath app_url three fetch upgrade prepare fuel q).
  Proof.
    induction fuel as [|f IH]; intros q (QF & QT & QP); cbn [resolve_obj].
    - apply keeps_bind; [now apply keeps_same|]. intros _. apply keeps_lift.
    - destruct (negb (truthy_str (q_jref q))); [apply keeps_lift|]. cbv zeta.
      assert (E : (match q_to q with Some t => if truthy_str t then t else q_from q | None => q_from q end) = "2.0") by (destruct QT as [-> | ->]; [exact QF|reflexivity]).
      rewrite E. apply keeps_bind; [apply keeps_lift|]. intros [u0 jp]. apply keeps_bind; [destruct (String.eqb (q_from q) "2.0"); now apply keeps_same|]. intros jp1.
      apply keeps_bind; [apply keeps_get|]. intros cached. destruct (not_none cached); [apply keeps_lift|]. apply keeps_bind; [destruct cached; now apply keeps_same|]. intros _.
      apply keeps_bind; [now apply keeps_same|]. intros unt. apply keeps_bind.
      + destruct unt as [[[o j] v]|]; [apply keeps_ret|]. apply keeps_bind; [now apply keeps_same|]. intros orig. destruct (String.eqb (q_from q) orig); [|apply keeps_lift].
        apply keeps_bind; [now apply keeps_load|]. intros o. apply keeps_ret.
      + intros [o jref']. apply keeps_bind; [apply keeps_migrate; exact IH|]. intros o1. apply keeps_bind; [destruct (so_truthy o1); now apply keeps_same|]. intros o2.
        apply keeps_bind; [now apply keeps_same|]. intros jp2. apply keeps_lift.
  Qed.
  Lemma clean_overrides a jp found : clean url a -> snd (store_get_under (a_store a) url jp "3.0.0" false) = Ok found -> overrides found = [].
  Proof.
    intros [G N] E. destruct (store_get_under (a_store a) url jp "3.0.0" false) as [s x] eqn:GU. cbn [snd] in E. subst x. destruct found as [l|]; [|reflexivity].
    destruct l as [|[k o] l]; [reflexivity|]. destruct (under_objs _ _ _ _ _ _ _ G GU k o (or_introl eq_refl)) as [p EN]. rewrite N in EN. discriminate EN.
  Qed.
  Lemma fresh_clean : clean url (fresh_app three).
  Proof. split; [|reflexivity]. split; [constructor|intros ? ? []]. Qed.
End Clean.
