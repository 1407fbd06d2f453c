(** Proofs about path items: the request body shared by the operations. *)
From Coq Require Import String Ascii List Bool Arith Lia.
From Verif Require Import PyStr PyStrFacts PyVal PyValFacts Jp UrlLib Obj ObjFacts Classes_v2_0 TablesFacts SpecJson ShapeFacts DumpFacts SpecObj SpecSchema SpecConv SpecBody SpecOp Store Conv20 ConvFacts SchemaFacts SchemaFacts2 ParamFacts BodyFacts BodyFacts2 ParamListFacts ParamListFacts2 OpFacts OpFacts2.
Import ListNotations.
Open Scope string_scope. Open Scope nat_scope.

(** no property gets lost *)
Definition grows (b b' : dict) : Prop := forall t n, mem n (body_properties t b) = true -> mem n (body_properties t b') = true.
Lemma grows_refl b : grows b b. Proof. intros t n H. exact H. Qed.
Lemma grows_trans a b c : grows a b -> grows b c -> grows a c. Proof. intros H1 H2 t n H. auto. Qed.
Lemma mem_set {A} k n (v : A) d : mem k (dict_set n v d) = String.eqb n k || mem k d.
Proof. unfold mem. rewrite lookup_dict_set. rewrite String.eqb_sym. destruct (String.eqb n k); reflexivity. Qed.

Section Paths.
  Variable deref : obj -> res obj.
  Local Notation op_usable := (SpecGiven.op_usable deref).

  Lemma step_grows cs p q n b b' : body_step cs p q n b b' -> grows b b' /\ forall t, sent_as cs q t -> mem n (body_properties t b') = true.
  Proof.
    intros (_ & S1 & S2 & _). assert (D : forall t, In t (valid_mime_types (form_ctx q) cs) \/ ~ In t (valid_mime_types (form_ctx q) cs)) by (intros t; destruct (in_dec string_dec t (valid_mime_types (form_ctx q) cs)); auto).
    split.
    - intros t k H. destruct (D t) as [I|N].
      + apply mime_form in I. destruct (S1 t I) as (_ & _ & (v & _ & E) & _). unfold body_properties. rewrite E, mem_set. unfold body_properties in H. rewrite H. apply orb_true_r.
      + assert (E : media t b' = media t b). { unfold media, subd at 1 3. rewrite S2; [reflexivity|]. intros X. apply N. now apply mime_form. } unfold body_properties in *. now rewrite E.
    - intros t I. destruct (S1 t I) as (_ & _ & (v & _ & E) & _). unfold body_properties. now rewrite E, mem_set, String.eqb_refl.
  Qed.

  Lemma convert_params_grows : forall ps os i cs kept body kept' body' moved, usable_given deref ps os -> body_ok (old_body body) ->
    convert_params deref os i cs kept body = Ok (kept', body', moved) ->
    body_ok (old_body body') /\ grows (old_body body) (old_body body') /\
    forall pq t, In pq ps -> form_param (snd pq) -> sent_as cs (snd pq) t ->
      mem (pname pq) (body_properties t (old_body body')) = true /\ mem (pname pq) (body_properties t (old_body body)) = false.
  Proof.
    induction ps as [|[p q] ps IH]; intros os i cs kept body kept' body' moved G Bo H; inversion G as [|? o ? os' [Gp U] G' E1 E2]; subst.
    - cbn in H. injection H as <- <- <-. split; [exact Bo|]. split; [apply grows_refl|]. intros pq t [].
    - cbn [convert_params] in H. apply bind_ok in H as ([d c] & E & H). cbn [fst snd] in *. pose proof (from_parameter_kind deref p q o body cs d c Gp E) as K. destruct (is_body c) eqn:Ib.
      + apply bind_ok in H as ([[k1 b1] m1] & Ec & H). injection H as <- <- <-.
        assert (Bd : body_ok d) by (eapply (from_parameter_body_ok deref p q o body cs); eauto).
        destruct (IH os' (S i) cs kept (Some d) _ _ _ G' Bd Ec) as (B1 & G1 & N1). cbn [old_body] in *. split; [exact B1|].
        destruct U as [[P M]|[Fp|(Bp & W & R)]].
        * congruence.
        * rewrite (form_from deref p q o body cs Gp Fp) in E. apply bind_ok in E as (b0 & E & X). injection X as <- <-.
          pose proof Fp as (_ & _ & _ & n & Hn). destruct (request_body_step deref p q o n body cs Gp Fp Hn Bo) as [(b' & E' & S & C)|[E' _]]; [|congruence].
          assert (b' = b0) by congruence. subst b'. destruct (step_grows _ _ _ _ _ _ S) as [Sg Sn]. split; [now apply (grows_trans _ b0)|]. intros pq t [<-|I] Fq St.
          -- assert (pname (p, q) = n) by (unfold pname; cbn; now rewrite Hn). cbn [snd] in *. rewrite H. split; [apply G1, Sn, St|].
             destruct (mem n (body_properties t (old_body body))) eqn:Em; [|reflexivity]. exfalso. apply C. exists t. split; [exact St|]. now left.
          -- destruct (N1 pq t I Fq St) as [X1 X2]. split; [exact X1|]. destruct (mem (pname pq) (body_properties t (old_body body))) eqn:Em; [|reflexivity]. apply Sg in Em. congruence.
        * rewrite (body_from deref p q o body cs Gp Bp R) in E. apply bind_ok in E as (b0 & E & X). injection X as <- <-. destruct body as [b2|].
          { rewrite (request_body_second deref p q o b2 cs Gp Bp Bo) in E. discriminate. }
          cbn [old_body]. split; [intros t n X; discriminate X|]. intros pq t [<-|I] Fq St.
          -- exfalso. destruct Bp as (_ & Hb & _). destruct Fq as (_ & Hf & _). cbn in Hf. rewrite Hb in Hf. discriminate.
          -- split; [now apply N1|reflexivity].
      + destruct (IH os' (S i) cs _ body _ _ _ G' Bo H) as (B1 & G1 & N1). split; [exact B1|]. split; [exact G1|]. intros pq t [<-|I] Fq St; [|auto].
        exfalso. destruct Fq as (_ & Hf & _). cbn [snd] in Hf. symmetry in K. unfold is_merged in K. rewrite Hf in K. cbn in K. rewrite orb_true_r in K. discriminate.
  Qed.

  (** ** operations of a path item *)
  Lemma to_operation_params d o ps body root pr cs x body' :
    loaded (BCls "Operation") (JDict d) o -> params_at deref (val d "parameters") ps -> to_operation deref o body root pr cs = Ok (x, body') ->
    (ps = [] /\ body' = body) \/ (exists es kept moved, Forall2 (fun pq o => param_given deref (fst pq) (snd pq) o) ps es /\
       convert_params deref es 0 (or_default (texts (val d "consumes")) cs) [] body = Ok (kept, body', moved)).
  Proof.
    intros L Pa. unfold to_operation. intros H. apply bind_ok in H as (fs & _ & H). apply bind_ok in H as (tg & _ & H). apply bind_ok in H as (r1 & _ & H). apply bind_ok in H as (se & _ & H). apply bind_ok in H as (r2 & _ & H).
    destruct (params_loaded deref "Operation" d o ps L eq_refl Pa) as (px & Gp & Hp). rewrite Gp in H. cbn [bind] in H. apply bind_ok in H as ([r3 b3] & H3 & H). cbn [fst snd] in H.
    apply bind_ok in H as (rs & _ & H). apply bind_ok in H as (r4 & _ & H). apply bind_ok in H as (ed & _ & H). apply bind_ok in H as (r5 & _ & H). apply bind_ok in H as (sch & _ & H). injection H as _ ->.
    destruct Hp as [[-> T]|(es & Np & T & E & G)]; rewrite T in H3; [injection H3 as _ ->; auto|]. right. rewrite E in H3. cbn [bind] in H3.
    destruct (child_strs "Operation" d o "consumes" L eq_refl) as (cx & Ec & Sx & _). rewrite Ec in H3. cbn [bind] in H3. change (or_else (strs cx) cs) with (or_default (strs cx) cs) in H3. rewrite Sx in H3.
    apply bind_ok in H3 as ([[k b] m] & Ek & H3). injection H3 as _ ->. eauto.
  Qed.
  Lemma usable_pairs ps es : Forall2 (fun pq o => param_given deref (fst pq) (snd pq) o) ps es -> Forall (fun pq => usable deref (snd pq)) ps -> usable_given deref ps es.
  Proof. unfold usable_given. intros F. induction F as [|x y l l' H F IH]; intros U; [constructor|]. inversion U as [|? ? U1 U2]; subst. constructor; [split; [exact H|exact U1]|exact (IH U2)]. Qed.

  Lemma method_child d o m : loaded (BCls "PathItem") (JDict d) o -> In m METHODS ->
    (val d m = JNull /\ gattr_none o m = Ok (OPrim JNull)) \/ (exists op, gattr_none o m = Ok op /\ loaded (BCls "Operation") (val d m) op /\ truthy_obj op = true /\ val d m <> JNull).
  Proof.
    intros L I. assert (C : child_builder "PathItem" m = Some (BCls "Operation")) by (repeat (destruct I as [<-|I]; [reflexivity|]); destruct I).
    destruct (gattr_child "PathItem" d o m _ L C) as [[Hv G]|(Hv & ko & G & Lk & _)]; rewrite (gattr_none_ok _ _ _ G); [left; auto|]. right. exists ko. split; [reflexivity|]. split; [exact Lk|]. split; [|exact Hv].
    now apply (loaded_cls_truthy "Operation" _ _ ltac:(discriminate) Lk).
  Qed.

  (** without a body of the path item *)
  Lemma methods_none o root pr cs : forall ms ops s, NoDup ms -> convert_methods deref o ms None root pr cs = Ok (ops, s) ->
    s = None /\ (forall m, In m (keys ops) -> In m ms) /\ NoDup (keys ops) /\
    forall m op, In m ms -> gattr_none o m = Ok op ->
      if truthy_obj op then exists x, to_operation deref op None root pr cs = Ok x /\ lookup m ops = Some x else lookup m ops = None.
  Proof.
    induction ms as [|m0 ms IH]; intros ops s Nd H; cbn [convert_methods] in H.
    - injection H as <- <-. split; [reflexivity|]. split; [intros m []|]. split; [constructor|]. intros m op [].
    - apply bind_ok in H as (op & Eo & H). inversion Nd as [|? ? N0 Nd']; subst. destruct (truthy_obj op) eqn:T.
      + apply bind_ok in H as (x & Ex & H). apply bind_ok in H as ([ops' s'] & Er & H). cbn [fst snd] in H. injection H as <- <-.
        destruct (IH _ _ Nd' Er) as (-> & K & Nk & F). split; [reflexivity|]. split; [intros m [<-|I]; [now left|right; auto]|]. split; [constructor; auto|].
        intros m op' [<-|I] E'.
        * assert (op' = op) by congruence. subst op'. rewrite T. exists x. split; [exact Ex|]. cbn [lookup]. now rewrite String.eqb_refl.
        * specialize (F m op' I E'). cbn [lookup]. destruct (String.eqb_spec m m0) as [->|]; [contradiction|exact F].
      + destruct (IH _ _ Nd' H) as (-> & K & Nk & F). split; [reflexivity|]. split; [intros m I; right; auto|]. split; [exact Nk|]. intros m op' [<-|I] E'; [|exact (F m op' I E')].
        assert (op' = op) by congruence. subst op'. rewrite T. apply PyValFacts.lookup_none. intros X. apply N0, K, X.
  Qed.
  (** with one *)
  Lemma methods_some o root pr cs : forall ms b ops s, NoDup ms -> convert_methods deref o ms (Some b) root pr cs = Ok (ops, s) ->
    (forall m, In m (keys ops) -> In m ms) /\ NoDup (keys ops) /\
    forall m op, In m ms -> gattr_none o m = Ok op ->
      if truthy_obj op then exists bm x, to_operation deref op bm root pr cs = Ok x /\ lookup m ops = Some x else lookup m ops = None.
  Proof.
    intros ms b. generalize (Some b). clear b. induction ms as [|m0 ms IH]; intros b ops s Nd H; cbn [convert_methods] in H.
    - injection H as <- <-. split; [intros m []|]. split; [constructor|]. intros m op [].
    - apply bind_ok in H as (op & Eo & H). inversion Nd as [|? ? N0 Nd']; subst. destruct (truthy_obj op) eqn:T.
      + apply bind_ok in H as (x & Ex & H). apply bind_ok in H as ([ops' s'] & Er & H). cbn [fst snd] in H. injection H as <- <-.
        destruct (IH _ _ _ Nd' Er) as (K & Nk & F). split; [intros m [<-|I]; [now left|right; auto]|]. split; [constructor; auto|].
        intros m op' [<-|I] E'.
        * assert (op' = op) by congruence. subst op'. rewrite T. exists b, x. split; [exact Ex|]. cbn [lookup]. now rewrite String.eqb_refl.
        * specialize (F m op' I E'). cbn [lookup]. destruct (String.eqb_spec m m0) as [->|]; [contradiction|exact F].
      + destruct (IH _ _ _ Nd' H) as (K & Nk & F). split; [intros m I; right; auto|]. split; [exact Nk|]. intros m op' [<-|I] E'; [|exact (F m op' I E')].
        assert (op' = op) by congruence. subst op'. rewrite T. apply PyValFacts.lookup_none. intros X. apply N0, K, X.
  Qed.
  (** the parameters [ps] of an operation under the consumes list [cs] *)
  Definition op_params (d : dict) (ps : list (dict * dict)) : Prop := params_at deref (val d "parameters") ps.
  Lemma methods_grow d o root pr cs : loaded (BCls "PathItem") (JDict d) o ->
    (forall m od, In m METHODS -> val d m = JDict od -> op_usable od) ->
    forall ms b ops s, incl ms METHODS -> (forall m, In m ms -> val d m = JNull \/ exists od, val d m = JDict od) -> body_ok b ->
    convert_methods deref o ms (Some b) root pr cs = Ok (ops, s) ->
    exists b', s = Some b' /\ body_ok b' /\ grows b b' /\
    (forall m od ps pq t, In m ms -> val d m = JDict od -> op_params od ps -> Forall (fun pq => usable deref (snd pq)) ps -> In pq ps -> form_param (snd pq) ->
       sent_as (or_default (texts (val od "consumes")) cs) (snd pq) t ->
       mem (pname pq) (body_properties t b') = true /\ mem (pname pq) (body_properties t b) = false) /\
    (NoDup ms -> forall m1 m2 od1 od2 ps1 ps2 pq1 pq2 t, In m1 ms -> In m2 ms -> m1 <> m2 -> val d m1 = JDict od1 -> val d m2 = JDict od2 ->
       op_params od1 ps1 -> op_params od2 ps2 -> Forall (fun pq => usable deref (snd pq)) ps1 -> Forall (fun pq => usable deref (snd pq)) ps2 ->
       In pq1 ps1 -> In pq2 ps2 -> form_param (snd pq1) -> form_param (snd pq2) ->
       sent_as (or_default (texts (val od1 "consumes")) cs) (snd pq1) t -> sent_as (or_default (texts (val od2 "consumes")) cs) (snd pq2) t -> pname pq1 <> pname pq2).
  Proof.
    intros L Hu. induction ms as [|m0 ms IH]; intros b ops s Inc Hd Bo H; cbn [convert_methods] in H.
    - injection H as <- <-. exists b. split; [reflexivity|]. split; [exact Bo|]. split; [apply grows_refl|]. split; [intros m od ps pq t []|]. intros _ m1 m2 od1 od2 ps1 ps2 pq1 pq2 t [].
    - apply bind_ok in H as (op & Eo & H).
      assert (Inc' : incl ms METHODS) by (intros m Hm; apply Inc; now right). assert (Hd' : forall m, In m ms -> val d m = JNull \/ exists od, val d m = JDict od) by (intros m Hm; apply Hd; now right).
      destruct (method_child d o m0 L (Inc m0 (or_introl eq_refl))) as [[Hv E]|(op' & E & Lo & T & Nv)]; rewrite Eo in E; injection E as ->.
      + cbn [truthy_obj truthy] in H. destruct (IH _ _ _ Inc' Hd' Bo H) as (b' & -> & B1 & G1 & N1 & C1). exists b'. split; [reflexivity|]. split; [exact B1|]. split; [exact G1|]. split.
        * intros m od ps pq t [<-|I] X; [congruence|]. exact (N1 m od ps pq t I X).
        * intros Nd m1 m2 od1 od2 ps1 ps2 pq1 pq2 t [<-|I1] [<-|I2] Ne X1 X2; try congruence. inversion Nd as [|? ? N0 Nd']; subst. exact (C1 Nd' m1 m2 od1 od2 ps1 ps2 pq1 pq2 t I1 I2 Ne X1 X2).
      + rewrite T in H. apply bind_ok in H as ([x bx] & Ex & H). apply bind_ok in H as ([ops' s'] & Er & H). cbn [fst snd] in *. injection H as <- <-.
        destruct (Hd m0 (or_introl eq_refl)) as [Hv|(od0 & Hv)]; [contradiction|].
        rewrite Hv in Lo.
        assert (Kb : forall ps, op_params od0 ps -> Forall (fun pq => usable deref (snd pq)) ps -> exists b1, bx = Some b1 /\ body_ok b1 /\ grows b b1 /\
           forall pq t, In pq ps -> form_param (snd pq) -> sent_as (or_default (texts (val od0 "consumes")) cs) (snd pq) t -> mem (pname pq) (body_properties t b1) = true /\ mem (pname pq) (body_properties t b) = false).
        { intros ps Pp Up. destruct (to_operation_params _ _ _ _ _ _ _ _ _ Lo Pp Ex) as [[-> ->]|(es & kept & moved & Fg & Ec)].
          - exists b. split; [reflexivity|]. split; [exact Bo|]. split; [apply grows_refl|]. intros pq t [].
          - pose proof (usable_pairs _ _ Fg Up) as Ug. destruct (convert_params_grows ps es 0 _ [] (Some b) kept bx moved Ug Bo Ec) as (B2 & G2 & N2).
            destruct (convert_params_split deref ps es 0 _ [] (Some b) _ _ _ (usable_all_given deref _ _ Ug) Ec) as (_ & _ & Eb). destruct bx as [b1|]; [|destruct Eb as [Eb _]; destruct (Eb eq_refl); discriminate].
            exists b1. cbn [old_body] in *. auto. }
        destruct (Hu m0 od0 (Inc m0 (or_introl eq_refl)) Hv) as (ps0 & Pp0 & Up0). destruct (Kb ps0 Pp0 Up0) as (b1 & -> & B1 & G1 & _).
        destruct (IH _ _ _ Inc' Hd' B1 Er) as (b' & -> & B2 & G2 & N2 & C2). exists b'. split; [reflexivity|]. split; [exact B2|]. split; [now apply (grows_trans _ b1)|].
        assert (Kb' : forall ps, op_params od0 ps -> Forall (fun pq => usable deref (snd pq)) ps ->
           forall pq t, In pq ps -> form_param (snd pq) -> sent_as (or_default (texts (val od0 "consumes")) cs) (snd pq) t -> mem (pname pq) (body_properties t b1) = true /\ mem (pname pq) (body_properties t b) = false).
        { intros ps Pp Up. destruct (Kb ps Pp Up) as (b1' & E1 & _ & _ & X). injection E1 as <-. exact X. }
        split.
        * intros m od ps pq t [<-|I] Hm Pp Up Ip Fp St.
          -- rewrite Hv in Hm. injection Hm as <-. destruct (Kb' ps Pp Up pq t Ip Fp St) as [X1 X2]. split; [now apply G2|exact X2].
          -- destruct (N2 m od ps pq t I Hm Pp Up Ip Fp St) as [X1 X2]. split; [exact X1|]. destruct (mem (pname pq) (body_properties t b)) eqn:Em; [|reflexivity]. apply G1 in Em. congruence.
        * intros Nd m1 m2 od1 od2 ps1 ps2 pq1 pq2 t I1 I2 Ne X1 X2 P1 P2 U1 U2 J1 J2 F1 F2 S1 S2 En. inversion Nd as [|? ? N0 Nd']; subst.
          destruct I1 as [<-|I1], I2 as [<-|I2]; [congruence| | |].
          -- rewrite Hv in X1. injection X1 as <-. destruct (Kb' ps1 P1 U1 pq1 t J1 F1 S1) as [Y1 _]. destruct (N2 m2 od2 ps2 pq2 t I2 X2 P2 U2 J2 F2 S2) as [_ Y2]. congruence.
          -- rewrite Hv in X2. injection X2 as <-. destruct (Kb' ps2 P2 U2 pq2 t J2 F2 S2) as [Y1 _]. destruct (N2 m1 od1 ps1 pq1 t I1 X1 P1 U1 J1 F1 S1) as [_ Y2]. congruence.
          -- exact (C2 Nd' m1 m2 od1 od2 ps1 ps2 pq1 pq2 t I1 I2 Ne X1 X2 P1 P2 U1 U2 J1 J2 F1 F2 S1 S2 En).
  Qed.
End Paths.
