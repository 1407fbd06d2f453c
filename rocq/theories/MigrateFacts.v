(** * When the migration to OpenAPI 3.0 succeeds. *)
From Coq Require Import String Ascii List Bool Arith Lia.
From Verif Require Import PyStr PyStrFacts PyVal PyValFacts Jp JpFacts UrlLib Obj ObjFacts Classes_v2_0 TablesFacts SpecJson ShapeFacts DumpFacts SpecObj SpecSchema SpecConv SpecBody SpecOp SpecDoc Store Conv20 ConvFacts SchemaFacts SchemaFacts2 ParamFacts BodyFacts BodyFacts2 ParamListFacts ParamListFacts2 ParamListFacts3 OpFacts OpFacts2 PathFacts PathFacts2 DocFacts DocFacts2 TotalFacts SpecGiven SpecMigrate.
Import ListNotations.
Open Scope string_scope. Open Scope nat_scope.

(** a result is an object, or SchemaError if the condition does not hold *)
Definition outcome {A} (r : res A) (C : Prop) : Prop := (exists x, r = Ok x) \/ (r = Err SchemaError /\ ~ C).
Lemma outcome_bind {A B} (r : res A) (f : A -> res B) (C C1 : Prop) : outcome r C1 -> (C -> C1) -> (forall x, r = Ok x -> outcome (f x) C) -> outcome (bind r f) C.
Proof. intros [[x E]|[E N]] I H; rewrite E; cbn [bind]; [exact (H x E)|right; auto]. Qed.
Lemma outcome_ok {A} (x : A) C : outcome (Ok x) C. Proof. left. eauto. Qed.
Lemma outcome_of {A} (r : res A) (C : Prop) : (exists x, r = Ok x) \/ r = Err SchemaError -> (C -> exists x, r = Ok x) -> outcome r C.
Proof. intros [H|H] I; [now left|]. right. split; [exact H|]. intros X. destruct (I X). congruence. Qed.
Lemma outcome_weak {A} (r : res A) (C C1 : Prop) : outcome r C1 -> (C -> C1) -> outcome r C.
Proof. intros [H|[E N]] I; [now left|right; auto]. Qed.

Lemma nodup_app_l {A} (l m : list A) : NoDup (l ++ m) -> NoDup l.
Proof. induction l as [|a l IH]; intros H; [constructor|]. inversion H; subst. constructor; [|auto]. intros X. apply H2. apply in_or_app. now left. Qed.

(** the request bodies *)
Definition fresh_for (body : option dict) (ps : list (dict * dict)) : Prop :=
  let ms := filter merges ps in
  ms = [] \/ (Forall (fun pq => form_param (snd pq)) ms /\ NoDup (map pname ms) /\ forall n t, In n (map pname ms) -> mem n (body_properties t (old_body body)) = false) \/
  (body = None /\ exists pq, ms = [pq]).
Lemma no_props t n : mem n (body_properties t []) = false. Proof. reflexivity. Qed.
Lemma fresh_none ps : one_request ps -> fresh_for None ps.
Proof.
  unfold one_request, fresh_for. cbv zeta. destruct (filter merges ps) as [|a [|b l]] eqn:E; intros [H|[H N]]; [now left..|right; right; eauto|right; right; eauto|cbn in H; lia|].
  right; left. split; [exact H|]. split; [exact N|]. intros n t _. apply no_props.
Qed.
Lemma body_props_other t b b' : lookup t (subd "content" b') = lookup t (subd "content" b) -> body_properties t b' = body_properties t b.
Proof. intros H. unfold body_properties, media. unfold subd at 3 6. now rewrite H. Qed.
Section Go.
  Variables (deref : obj -> res obj) (normalized_ref : obj -> res json).
  Lemma step_fresh p q o body cs rest : param_given deref p q o -> usable deref q -> body_ok (old_body body) -> format_ok q -> fresh_for body ((p, q) :: rest) ->
    exists d c, from_parameter deref o body cs = Ok (d, c) /\ fresh_for (if is_body c then Some d else body) rest.
  Proof.
    intros G U Bo Fq Fr. destruct U as [[P M]|[Fp|(Bp & W & R)]].
    - assert (Fr' : fresh_for body rest). { unfold fresh_for in *. cbn [filter] in Fr. change (merges (p, q)) with (is_merged q) in Fr. rewrite M in Fr. exact Fr. }
      rewrite (from_parameter_eq deref p q o body cs G). unfold is_merged in M. pose proof M as M'. apply orb_false_iff in M as [M M3]. apply orb_false_iff in M as [M1 M2].
      rewrite M1, M2, M3. destruct (is_reference p) eqn:Ir; [do 2 eexists; split; [reflexivity|exact Fr']|]. destruct G as (r & _ & L & _ & X). rewrite Ir in X. destruct X as [-> ->].
      destruct (to_parameter_total p o L P) as [(x & E)|(_ & Q & NQ)]; [rewrite E; cbn [bind]; do 2 eexists; split; [reflexivity|exact Fr']|].
      destruct (Fq Q) as (_ & Z). contradiction.
    - rewrite (form_from deref p q o body cs G Fp). pose proof Fp as (Pd & Hi & Hs & n & Hn).
      assert (M : is_merged q = true). { unfold is_merged. rewrite Hi. cbn. now rewrite orb_true_r. }
      assert (Pn : pname (p, q) = n). { unfold pname. cbn [snd]. now rewrite Hn. }
      assert (Nq : ~ query_array_only (val q "collectionFormat")). { intros X. destruct (Fq X) as (Y & _). congruence. }
      unfold fresh_for in Fr. cbn [filter] in Fr. change (merges (p, q)) with (is_merged q) in Fr. rewrite M in Fr. cbv zeta in Fr.
      assert (Fn : forall t, mem n (body_properties t (old_body body)) = false).
      { destruct Fr as [Fr|[(_ & _ & Fr)|(-> & _)]]; [discriminate| |intros t; apply no_props]. intros t. apply Fr. cbn [map]. left. exact Pn. }
      destruct (request_body_step deref p q o n body cs G Fp Hn Bo) as [(b & E & St & _)|[_ (t & St & [Cl|[_ Cl]])]].
      2: { exfalso. unfold clashes in *. specialize (Fn t). unfold body_properties in Fn. congruence. }
      2: { contradiction. }
      rewrite E. cbn [bind]. do 2 eexists. split; [reflexivity|].
      replace (is_body (form_ctx q)) with true by (unfold form_ctx; destruct (is_file_param q); reflexivity). unfold fresh_for.
      destruct Fr as [Fr|[(F1 & N & Fr)|(-> & pq & Fr)]]; [discriminate| |left; now injection Fr].
      right. left. inversion F1; subst. cbn [map] in N, Fr. inversion N as [|? ? Nn N']; subst. split; [assumption|]. split; [exact N'|]. intros n' t I'. cbn [old_body].
      destruct St as (_ & S1 & S2 & _).
      destruct (sends cs t (p, q)) eqn:Es.
      + apply sends_spec in Es. destruct (S1 t Es) as (_ & _ & (v & _ & Ev) & _). unfold body_properties. rewrite Ev, mem_set. specialize (Fr n' t (or_intror I')). unfold body_properties in Fr. rewrite Fr.
        destruct (String.eqb_spec (pname (p, q)) n') as [<-|]; [contradiction|reflexivity].
      + rewrite (body_props_other t (old_body body) b); [apply Fr; now right|]. apply S2. intros X. apply (proj2 (sends_spec cs t (p, q))) in X. congruence.
    - rewrite (body_from deref p q o body cs G Bp R). pose proof Bp as (Pd & Hi & _).
      assert (M : is_merged q = true). { unfold is_merged. rewrite Hi. cbn. now rewrite orb_true_r. }
      unfold fresh_for in Fr. cbn [filter] in Fr. change (merges (p, q)) with (is_merged q) in Fr. rewrite M in Fr. cbv zeta in Fr.
      destruct Fr as [Fr|[(F1 & N & Fr)|(-> & pq & Fr)]]; [discriminate| |].
      + inversion F1 as [|? ? (_ & Hi' & _) _]; subst. cbn [snd] in Hi'. congruence.
      + destruct (request_body_first deref p q o cs G Bp W) as (b & E & _). rewrite E. cbn [bind]. do 2 eexists. split; [reflexivity|]. cbn [is_body]. left. now injection Fr.
  Qed.
  Lemma params_fresh : forall ps os i cs kept body rest, usable_given deref ps os -> body_ok (old_body body) -> Forall (fun pq => format_ok (snd pq)) ps -> fresh_for body (ps ++ rest) ->
    exists k b m, convert_params deref os i cs kept body = Ok (k, b, m) /\ fresh_for b rest /\ body_ok (old_body b).
  Proof.
    induction ps as [|[p q] ps IH]; intros os i cs kept body rest G Bo Ff Fr; inversion G as [|? o ? os' [Gp U] G' E1 E2]; subst; [do 3 eexists; split; [reflexivity|auto]|].
    inversion Ff; subst. cbn [convert_params]. cbn [fst snd List.app] in *. destruct (step_fresh p q o body cs (ps ++ rest) Gp U Bo ltac:(assumption) Fr) as (d & c & E & Fr'). rewrite E. cbn [bind fst snd].
    destruct (is_body c) eqn:Ib.
    - pose proof (from_parameter_body_ok deref p q o body cs d c Gp U Bo E Ib) as Bd.
      destruct (IH os' (S i) cs kept (Some d) rest G' Bd ltac:(assumption) Fr') as (k & b & m & E' & X). rewrite E'. cbn [bind]. eauto 6.
    - eapply IH; eassumption.
  Qed.
  Lemma params_outcome ps os i cs kept body : usable_given deref ps os -> body_ok (old_body body) ->
    outcome (convert_params deref os i cs kept body) (Forall (fun pq => format_ok (snd pq)) ps /\ fresh_for body ps).
  Proof.
    intros G Bo. apply outcome_of; [exact (convert_params_total deref ps os i cs kept body G Bo)|]. intros [Ff Fr].
    destruct (params_fresh ps os i cs kept body [] G Bo Ff ltac:(now rewrite app_nil_r)) as (k & b & m & E & _). eauto.
  Qed.
  Lemma each_outcome {A} (f : A -> res dict) (P : string * A -> Prop) (C : Prop) es acc :
    Forall (fun kv => outcome (f (snd kv)) (P kv)) es -> (C -> Forall P es) ->
    outcome (foldM (fun acc kv => x <- f (snd kv) ;; Ok (dict_set (fst kv) (JDict x) acc)) es acc) C.
  Proof.
    intros F I. destruct (fold_total f (fun kv => ~ P kv) es acc F) as [X|(X & kv & Ik & N)]; [now left|right]. split; [exact X|]. intros c. apply N. exact (proj1 (Forall_forall _ _) (I c) kv Ik).
  Qed.
  Lemma response_outcome p q o pr : SpecGiven.response_given deref p q o -> response_doc q -> wf_json (JDict q) -> outcome (to_response deref o pr) (headers_ok q).
  Proof. intros G D W. destruct (to_response_total deref p q o pr G D W) as [X|(X & n & h & L & Q)]; [now left|right]. split; [exact X|]. intros H. exact (H n h L Q). Qed.
  Lemma operation_outcome d o op body root pr cs : loaded (BCls "Operation") (JDict d) o -> operation_given deref d op -> body_ok (old_body body) ->
    outcome (to_operation deref o body root pr cs)
      (Forall (fun pq => format_ok (snd pq)) (fst op) /\ fresh_for body (fst op) /\ Forall (fun kr => headers_ok (snd (snd kr))) (snd op)).
  Proof.
    destruct op as [ps rs]. cbn [fst snd]. intros L (Pa & Us & [Ra Rf] & Ed) Bo. cbn [fst snd] in *. unfold to_operation.
    destruct (generate_fields_ok o (val d) ["summary"; "description"; "operationId"; "deprecated"]) as (fs & -> & _ & _).
    { intros n Hn. repeat (destruct Hn as [<-|Hn]; [match goal with |- gfield_none o ?n = _ => exact (gfield_none_val "Operation" d o n L eq_refl) end|]). destruct Hn. }
    cbn [bind]. destruct (opt_dump "Operation" d o "tags" BStr raw_str L eq_refl) as (tg & -> & Et). cbn [bind]. rewrite Et. cbn [bind].
    destruct (opt_dump "Operation" d o "security" (BMapOf (BListOf BStr)) (raw_map _ (raw_list _ raw_str)) L eq_refl) as (se & -> & Es). cbn [bind]. rewrite Es. cbn [bind].
    destruct (params_loaded deref "Operation" d o ps L eq_refl Pa) as (px & -> & Hp). cbn [bind].
    destruct (child_strs "Operation" d o "consumes" L eq_refl) as (cx & Ecx & _). destruct (child_strs "Operation" d o "produces" L eq_refl) as (prx & Epx & _). rewrite Ecx, Epx. cbn [bind].
    eapply outcome_bind.
    { destruct Hp as [[-> T]|(es & Np & T & E & G)]; rewrite T; [apply outcome_ok|]. rewrite E. cbn [bind]. eapply outcome_bind; [apply (params_outcome ps); [exact (usable_pairs deref _ _ G Us)|exact Bo]|intros X; exact X|].
      intros [[k b] m] _. apply outcome_ok. }
    { tauto. }
    intros [ret b] _. cbn [fst snd].
    destruct (gattr_child "Operation" d o "responses" _ L eq_refl) as [[Hv G]|(Hv & ko & G & Lk & _)]; rewrite G; cbn [bind].
    - cbn [truthy_obj truthy bind]. destruct (opt_docs "Operation" d o L eq_refl Ed) as (ex & e & Ge & Ee & _ & _). rewrite Ge. cbn [bind]. rewrite Ee. cbn [bind].
      destruct (child_strs "Operation" d o "schemes" L eq_refl) as (sx & Gs & _). rewrite Gs. cbn [bind]. apply outcome_ok.
    - destruct Ra as [[Ra _]|Ra]; [contradiction|]. rewrite Ra in Lk. destruct (loaded_map _ _ _ Lk) as (l & p & es & El & -> & F2). injection El as <-.
      eapply (outcome_bind _ _ _ (Forall (fun kr => headers_ok (snd (snd kr))) rs)).
      + destruct (truthy_obj (OMap _ p es)); [|apply outcome_ok]. cbn [entries bind]. eapply (outcome_bind _ _ _ (Forall (fun kr => headers_ok (snd (snd kr))) rs)); [|auto|intros xs _; apply outcome_ok].
        clear -F2 Rf. set (f := fun o => to_response deref o (or_else (strs prx) pr)). change (fun (acc : dict) (kv : string * obj) => x <- to_response deref (snd kv) (or_else (strs prx) pr);; Ok (dict_set (fst kv) (JDict x) acc)) with (fun (acc : dict) (kv : string * obj) => x <- f (snd kv);; Ok (dict_set (fst kv) (JDict x) acc)).
        generalize (@nil (string * json)). revert es F2. induction Rf as [|kr rs (R1 & R2 & R3) Rf IH]; intros es F2 acc; cbn [map] in F2; inversion F2 as [|? e ? es' [E La] F3]; subst; cbn [foldM]; [apply outcome_ok|].
        cbn [fst snd] in *. eapply outcome_bind; [eapply outcome_bind; [exact (response_outcome _ _ _ _ (refers_response _ _ _ _ R1 La) R2 R3)|intros X; exact X|intros; apply outcome_ok]| |]; [intros X; now inversion X|].
        intros a _. eapply outcome_weak; [exact (IH _ F3 a)|]. intros X. now inversion X.
      + tauto.
      + intros r3 _. destruct (opt_docs "Operation" d o L eq_refl Ed) as (ex & e & Ge & Ee & _ & _). rewrite Ge. cbn [bind]. rewrite Ee. cbn [bind].
        destruct (child_strs "Operation" d o "schemes" L eq_refl) as (sx & Gs & _). rewrite Gs. cbn [bind]. apply outcome_ok.
  Qed.
  Lemma operation_after d o op body root pr cs x body' rest : loaded (BCls "Operation") (JDict d) o -> operation_given deref d op -> body_ok (old_body body) ->
    to_operation deref o body root pr cs = Ok (x, body') ->
    body_ok (old_body body') /\ (Forall (fun pq => format_ok (snd pq)) (fst op) -> fresh_for body (fst op ++ rest) -> fresh_for body' rest) /\ (body <> None -> body' <> None).
  Proof.
    intros L (Pa & Us & _) Bo E. destruct (to_operation_params deref d o (fst op) body root pr cs x body' L Pa E) as [[-> ->]|(es & k & m & G & Ec)]; [split; [exact Bo|]; split; [auto|auto]|].
    pose proof (usable_pairs deref _ _ G Us) as Ug. split; [exact (convert_params_body_ok deref _ _ _ _ _ _ _ _ _ Ug Bo Ec)|]. split.
    - intros Ff Fr. destruct (params_fresh (fst op) es 0 (or_default (texts (val d "consumes")) cs) [] body rest Ug Bo Ff Fr) as (k' & b' & m' & E' & Fr' & _). rewrite Ec in E'. now injection E' as _ <- _.
    - intros Nb Z. destruct (convert_params_split deref _ _ _ _ _ _ _ _ _ (usable_all_given _ _ _ Ug) Ec) as (_ & _ & Eb). apply Eb in Z as [Z _]. contradiction.
  Qed.
  Definition fits_ops (ops : list request) : Prop :=
    Forall (fun op => Forall (fun pq => format_ok (snd pq)) (fst op)) ops /\ Forall (fun op => Forall (fun kr => headers_ok (snd (snd kr))) (snd op)) ops.
  Lemma methods_outcome d o root pr cs : loaded (BCls "PathItem") (JDict d) o -> forall ms ops shared, incl ms METHODS ->
    Forall2 (fun m op => (val d m = JNull /\ op = ([], [])) \/ exists od, val d m = JDict od /\ operation_given deref od op) ms ops -> body_ok (old_body shared) ->
    outcome (convert_methods deref o ms shared root pr cs)
      (fits_ops ops /\ match shared with None => Forall (fun op => one_request (fst op)) ops | Some _ => fresh_for shared (concat (map fst ops)) end).
  Proof.
    intros L. induction ms as [|m ms IH]; intros ops shared Im F Bo; inversion F as [|? op ? ops' Hm F']; subst; cbn [convert_methods]; [apply outcome_ok|].
    assert (Im' : incl ms METHODS) by (intros z Z; apply Im; now right).
    destruct (method_child d o m L (Im m (or_introl eq_refl))) as [[Hv G]|(mo & G & Lm & T & Hv)]; rewrite G; cbn [bind].
    - cbn [truthy_obj truthy]. destruct Hm as [[_ ->]|(od & Hod & _)]; [|congruence]. eapply outcome_weak; [exact (IH ops' shared Im' F' Bo)|]. intros [[F1 F2] C]. inversion F1; inversion F2; subst. split; [split; assumption|].
      destruct shared; [exact C|now inversion C].
    - rewrite T. destruct Hm as [[Z _]|(od & Hod & Gv)]; [contradiction|]. rewrite Hod in Lm.
      eapply outcome_bind; [exact (operation_outcome od mo op shared root pr cs Lm Gv Bo)| |].
      + intros [[F1 F2] C]. inversion F1; inversion F2; subst. split; [assumption|]. split; [|assumption]. destruct shared as [b|].
        * unfold fresh_for in *. cbn [map concat] in C. rewrite filter_app in C. cbv zeta in *. destruct C as [C|[(C1 & C2 & C3)|(C & pq & C1)]]; [apply app_eq_nil in C as [C _]; now left| |discriminate].
          right. left. apply Forall_app in C1 as [C1 _]. split; [exact C1|]. rewrite map_app in C2, C3. split; [now apply nodup_app_l in C2|]. intros n t I. apply C3. apply in_or_app. now left.
        * inversion C; subst. now apply fresh_none.
      + intros [x b'] Ex. cbn [fst snd].
        assert (Q := fun rest => operation_after od mo op shared root pr cs x b' rest Lm Gv Bo Ex).
        set (shared' := match shared with Some _ => b' | None => None end).
        assert (Bo' : body_ok (old_body shared')). { unfold shared'. destruct shared; [exact (proj1 (Q []))|apply body_ok_nil]. }
        eapply outcome_bind; [exact (IH ops' shared' Im' F' Bo')| |intros [r s] _; apply outcome_ok].
        intros [[F1 F2] C]. inversion F1; inversion F2; subst. split; [split; assumption|]. unfold shared'. destruct shared as [b|].
        * destruct (Q (concat (map fst ops'))) as (_ & Q2 & Q3). destruct b' as [b'|]; [|exfalso; now apply Q3]. apply Q2; [assumption|exact C].
        * now inversion C.
  Qed.
  Lemma path_outcome d o ps ops root cs pr : loaded (BCls "PathItem") (JDict d) o -> path_given deref d ps ops ->
    (truthy (val d "$ref") = true -> exists n, normalized_ref o = Ok n) ->
    outcome (to_path_item deref normalized_ref o root cs pr) (expressible ps ops).
  Proof.
    intros L (Pa & Us & F) Nr. unfold to_path_item. rewrite (path_ref d o L). cbn [bind truthy_obj].
    eapply (outcome_bind _ _ _ True); [|auto|].
    { destruct (truthy (val d "$ref")); [|apply outcome_ok]. destruct (Nr eq_refl) as (n & ->). apply outcome_ok. }
    intros ret _. destruct (params_loaded deref "PathItem" d o ps L eq_refl Pa) as (px & Gpx & Hp). rewrite Gpx. cbn [bind].
    assert (Split : expressible ps ops -> Forall (fun pq => format_ok (snd pq)) ps /\ fits_ops ops).
    { intros (E1 & E2 & _). apply Forall_app in E1 as [E1 E3]. split; [exact E1|]. split; [|exact E2]. clear -E3. induction ops; [constructor|]. cbn [map concat] in E3. apply Forall_app in E3 as [? ?]. constructor; auto. }
    assert (Fn : expressible ps ops -> fresh_for None ps).
    { intros (_ & _ & R). unfold requests_ok in R. apply fresh_none. destruct (no_merged ps) eqn:N.
      - left. replace (filter merges ps) with (@nil (dict * dict)); [cbn; lia|]. clear -N. induction ps as [|pq ps IH]; [reflexivity|]. cbn [no_merged forallb] in N. apply andb_true_iff in N as [N1 N2]. cbn [filter].
        unfold merges at 1. destruct (is_merged (snd pq)); [discriminate|]. now apply IH.
      - unfold one_request in *. cbv zeta in *. rewrite filter_app in R. destruct R as [R|[R1 R2]]; [rewrite app_length in R; left; lia|right]. apply Forall_app in R1 as [R1 _]. rewrite map_app in R2. split; [exact R1|]. now apply nodup_app_l in R2. }
    eapply outcome_bind.
    { destruct Hp as [[-> T]|(es & Np & T & E & G)]; rewrite T; [apply outcome_ok|]. rewrite E. cbn [bind]. apply (params_outcome ps); [exact (usable_pairs deref _ _ G Us)|apply body_ok_nil]. }
    { intros C. split; [exact (proj1 (Split C))|exact (Fn C)]. }
    intros [[kept body] moved] Ep.
    assert (Bo : body_ok (old_body body) /\ (body = None <-> no_merged ps = true) /\ (expressible ps ops -> body <> None -> fresh_for body (concat (map fst ops)))).
    { destruct Hp as [[-> T]|(es & Np & T & E & G)]; rewrite T in Ep.
      - injection Ep as <- <- <-. split; [apply body_ok_nil|]. split; [split; reflexivity|congruence].
      - rewrite E in Ep. cbn [bind] in Ep. pose proof (usable_pairs deref _ _ G Us) as Ug. split; [exact (convert_params_body_ok deref _ _ _ _ _ None _ _ _ Ug body_ok_nil Ep)|].
        destruct (convert_params_split deref _ _ _ _ _ _ _ _ _ (usable_all_given _ _ _ Ug) Ep) as (_ & Em & Eb).
        assert (Eb' : body = None <-> no_merged ps = true) by (rewrite Eb, Em, positions_none; tauto). split; [exact Eb'|]. intros C Nb.
        destruct (params_fresh ps es 0 cs [] None (concat (map fst ops)) Ug body_ok_nil (proj1 (Split C))) as (k' & b' & m' & E' & Fr & _).
        + destruct C as (_ & _ & R). unfold requests_ok in R. destruct (no_merged ps) eqn:N; [exfalso; apply Nb; now apply Eb'|]. now apply fresh_none.
        + rewrite Ep in E'. injection E' as <- <- <-. exact Fr. }
    destruct Bo as (Bo & Eb & Fr).
    eapply outcome_bind; [exact (methods_outcome d o root pr cs L METHODS ops body (incl_refl _) F Bo)| |].
    { intros C. split; [exact (proj2 (Split C))|]. destruct body as [b|]; [apply Fr; [exact C|discriminate]|]. destruct C as (_ & _ & R). unfold requests_ok in R. rewrite (proj1 Eb eq_refl) in R. exact R. }
    intros [ops' body'] _. apply outcome_ok.
  Qed.
End Go.
