(** Proofs about path items: the whole conversion. *)
From Coq Require Import String Ascii List Bool Arith Lia.
From Verif Require Import PyStr PyStrFacts PyVal PyValFacts Jp UrlLib Obj ObjFacts Classes_v2_0 TablesFacts SpecJson ShapeFacts DumpFacts SpecObj SpecSchema SpecConv SpecBody SpecOp Store Conv20 ConvFacts SchemaFacts SchemaFacts2 ParamFacts BodyFacts BodyFacts2 ParamListFacts ParamListFacts2 OpFacts OpFacts2 PathFacts.
Import ListNotations.
Open Scope string_scope. Open Scope nat_scope.

Lemma methods_nodup : NoDup METHODS.
Proof. repeat (constructor; [cbn; intuition discriminate|]). constructor. Qed.
Lemma fold_ops {A} (f : A -> json) : forall (ops : list (string * A)) (acc : dict), NoDup (keys ops) ->
  forall k, lookup k (fold_left (fun acc mx => dict_set (fst mx) (f (snd mx)) acc) ops acc) = match lookup k ops with Some y => Some (f y) | None => lookup k acc end.
Proof.
  induction ops as [|[m y] ops IH]; intros acc N k; cbn [fold_left lookup fst snd]; [reflexivity|]. inversion N as [|? ? N0 N']; subst. rewrite IH by exact N'.
  destruct (String.eqb_spec k m) as [->|Ne].
  - assert (E : lookup m ops = None) by now apply PyValFacts.lookup_none. rewrite E, lookup_set, String.eqb_refl. reflexivity.
  - rewrite lookup_set. destruct (String.eqb_spec m k); [congruence|reflexivity].
Qed.
Lemma path_ref d o : loaded (BCls "PathItem") (JDict d) o -> gattr o "ref" = Ok (OPrim (val d "$ref")).
Proof.
  intros L. pose proof (gattr_field "PathItem" d o "$ref" JNull L eq_refl) as H. fold (val d "$ref") in H. rewrite <- H.
  destruct (loaded_obj "PathItem" v20_PathItem _ _ eq_refl L) as (p & kids & -> & _). reflexivity.
Qed.

Section Path.
  Variables (deref : obj -> res obj) (normalized_ref : obj -> res json).
  Local Notation ops_usable := (SpecGiven.ops_usable deref).
  Lemma positions_none (ps : list (dict * dict)) : forall i, positions merges i ps = [] <-> no_merged ps = true.
  Proof.
    induction ps as [|pq ps IH]; intros i; [cbn; tauto|]. unfold no_merged. cbn [positions forallb]. unfold merges at 1. destruct (is_merged (snd pq)); cbn [negb andb]; [split; discriminate|]. apply IH.
  Qed.
  Lemma to_path_item_ok d o ps root cs pr x reloc :
    loaded (BCls "PathItem") (JDict d) o -> params_at deref (val d "parameters") ps -> Forall (fun pq => param_doc (snd pq)) ps ->
    to_path_item deref normalized_ref o root cs pr = Ok (x, reloc) ->
    exists kept body ops body',
      Forall2 (fun pq k => kept_image (fst pq) k) (filter (fun pq => negb (is_merged (snd pq))) ps) kept /\
      (body = None <-> no_merged ps = true) /\
      reloc = map (fun i => ("parameters/" ++ nat_dec i, RStr internal_body)) (positions merges 0 ps) /\
      (forall b, body = Some b -> exists es moved, Forall2 (fun pq o => param_given deref (fst pq) (snd pq) o) ps es /\ convert_params deref es 0 cs [] None = Ok (kept, Some b, moved)) /\
      convert_methods deref o METHODS body root pr cs = Ok (ops, body') /\
      (forall m, In m METHODS -> lookup m x = match lookup m ops with
                                                | Some y => Some (JDict (with_body (fst y) (match body with Some _ => body' | None => snd y end)))
                                                | None => None end) /\
      lookup internal_body x = option_map JDict body' /\
      lookup "parameters" x = some_list kept /\
      (if truthy (val d "$ref") then exists n, normalized_ref o = Ok n /\ lookup "$ref" x = Some n else lookup "$ref" x = None) /\
      (forall k, ~ In k ("$ref" :: "parameters" :: internal_body :: METHODS) -> lookup k x = None).
  Proof.
    intros L Pa Pd. unfold to_path_item. rewrite (path_ref d o L). cbn [bind truthy_obj]. intros H. apply bind_ok in H as (ret & Er & H).
    destruct (params_loaded deref "PathItem" d o ps L eq_refl Pa) as (px & Gpx & Hp). rewrite Gpx in H. cbn [bind] in H. apply bind_ok in H as ([[kept body] moved] & Ep & H).
    apply bind_ok in H as ([ops body'] & Em & H). injection H as Hx Hr.
    assert (Ks : Forall2 (fun pq k => kept_image (fst pq) k) (filter (fun pq => negb (is_merged (snd pq))) ps) kept /\ moved = positions merges 0 ps /\ (body = None <-> no_merged ps = true) /\
      (forall b, body = Some b -> exists es moved, Forall2 (fun pq o => param_given deref (fst pq) (snd pq) o) ps es /\ convert_params deref es 0 cs [] None = Ok (kept, Some b, moved))).
    { destruct Hp as [[-> T]|(es & Np & T & E & G)]; rewrite T in Ep.
      - injection Ep as <- <- <-. split; [constructor|]. split; [reflexivity|]. split; [cbn; tauto|discriminate].
      - rewrite E in Ep. cbn [bind] in Ep.
        assert (Ga : all_given deref ps es). { unfold all_given. clear -G Pd. revert Pd. induction G; intros Pd; inversion Pd; subst; constructor; auto. }
        destruct (convert_params_split deref ps es 0 cs [] None kept body moved Ga Ep) as ((ks & -> & Fk) & Emv & Eb). cbn [List.app] in *. split; [exact Fk|]. split; [exact Emv|].
        split; [rewrite Eb, Emv, positions_none; tauto|]. intros b ->. exists es, moved. auto. }
    destruct Ks as (Fk & Emv & Eb & Ex).
    assert (Hops : (forall m, In m (keys ops) -> In m METHODS) /\ NoDup (keys ops) /\ (body = None -> body' = None)).
    { destruct body as [b|].
      - destruct (methods_some deref o root pr cs METHODS b ops body' methods_nodup Em) as (K & N & _). split; [exact K|]. split; [exact N|discriminate].
      - destruct (methods_none deref o root pr cs METHODS ops body' methods_nodup Em) as (Z & K & N & _). auto. }
    destruct Hops as (K & N & Z).
    set (fin := fun z : option dict => match body with Some _ => body' | None => z end) in Hx.
    set (f := fun y : dict * option dict => JDict (with_body (fst y) (fin (snd y)))).
    assert (R0 : forall k, lookup k (match kept with [] => ret | _ => dict_set "parameters" (JList kept) ret end) = if String.eqb "parameters" k then some_list kept else lookup k ret).
    { intros k. destruct kept; [|apply lookup_set]. destruct (String.eqb_spec "parameters" k) as [<-|]; [|reflexivity]. destruct (truthy (val d "$ref")); [apply bind_ok in Er as (n & _ & Er)|]; injection Er as <-; reflexivity. }
    assert (Rk : forall k, k <> "$ref" -> lookup k ret = None).
    { intros k Hk. destruct (truthy (val d "$ref")); [apply bind_ok in Er as (n & _ & Er)|]; injection Er as <-; [|reflexivity]. cbn [lookup]. destruct (String.eqb_spec k "$ref"); [contradiction|reflexivity]. }
    match type of Hx with (match body' with Some _ => _ | None => ?r end) = _ => set (ret2 := r) in * end.
    assert (R2 : forall k, lookup k ret2 = match lookup k ops with Some y => Some (f y) | None => if String.eqb "parameters" k then some_list kept else lookup k ret end).
    { intros k. rewrite <- R0. unfold ret2. exact (fold_ops f ops _ N k). }
    assert (Nm : forall k, ~ In k METHODS -> lookup k ops = None) by (intros k Hk; apply PyValFacts.lookup_none; intros X; apply Hk, K, X).
    assert (Lx : forall k, lookup k x = if String.eqb internal_body k then option_map JDict body' else lookup k ret2).
    { intros k. rewrite <- Hx. destruct body' as [b'|]; [apply lookup_set|]. destruct (String.eqb_spec internal_body k) as [<-|]; [|reflexivity]. cbn [option_map]. rewrite R2, Nm, Rk; [reflexivity|discriminate|].
      cbn. intuition discriminate. }
    clear Hx. exists kept, body, ops, body'. split; [exact Fk|]. split; [exact Eb|]. split; [subst moved; symmetry; exact Hr|]. split; [exact Ex|]. split; [exact Em|].
    split; [|split; [rewrite Lx; reflexivity|split; [|split]]].
    - intros m I. assert (Hm : m <> internal_body /\ m <> "parameters" /\ m <> "$ref") by (repeat (destruct I as [<-|I]; [repeat split; discriminate|]); destruct I). destruct Hm as (H1 & H2 & H3).
      rewrite Lx, R2. destruct (String.eqb_spec internal_body m); [congruence|]. destruct (String.eqb_spec "parameters" m); [congruence|]. rewrite (Rk m H3). reflexivity.
    - rewrite Lx, R2, Nm by (cbn; intuition discriminate). reflexivity.
    - rewrite Lx, R2, Nm by (cbn; intuition discriminate). cbn [String.eqb Ascii.eqb Bool.eqb internal_body]. destruct (truthy (val d "$ref")).
      + apply bind_ok in Er as (n & E & Er). injection Er as <-. exists n. split; [exact E|reflexivity].
      + injection Er as <-. reflexivity.
    - intros k Hk. rewrite Lx, R2, Nm by (intros X; apply Hk; right; right; right; exact X). destruct (String.eqb_spec internal_body k) as [<-|]; [destruct Hk; in_list|]. destruct (String.eqb_spec "parameters" k) as [<-|]; [destruct Hk; in_list|].
      apply Rk. intros ->. apply Hk. now left.
  Qed.

  (** the operation [m] of a converted path item *)
  Lemma methods_some_body o root pr cs : forall ms b ops s, convert_methods deref o ms (Some b) root pr cs = Ok (ops, s) -> exists b', s = Some b'.
  Proof.
    induction ms as [|m0 ms IH]; intros b ops s H; cbn [convert_methods] in H; [injection H as _ <-; eauto|].
      apply bind_ok in H as (op & _ & H). destruct (truthy_obj op); [|eauto]. apply bind_ok in H as ([y z] & Ex & H). apply bind_ok in H as ([ops' s'] & Er & H). cbn [fst snd] in *. injection H as <- <-.
      assert (Hz : z <> None).
      { unfold to_operation in Ex. apply bind_ok in Ex as (? & _ & Ex). apply bind_ok in Ex as (? & _ & Ex). apply bind_ok in Ex as (? & _ & Ex). apply bind_ok in Ex as (? & _ & Ex). apply bind_ok in Ex as (? & _ & Ex).
        apply bind_ok in Ex as (px & _ & Ex). apply bind_ok in Ex as ([r3 b3] & H3 & Ex). apply bind_ok in Ex as (? & _ & Ex). apply bind_ok in Ex as (? & _ & Ex). apply bind_ok in Ex as (? & _ & Ex). apply bind_ok in Ex as (? & _ & Ex). apply bind_ok in Ex as (? & _ & Ex).
        injection Ex as _ <-. cbn [snd]. destruct (truthy_obj px); [|injection H3 as _ <-; discriminate]. apply bind_ok in H3 as (es & _ & H3). apply bind_ok in H3 as (cx & _ & H3). apply bind_ok in H3 as ([[k b'] mv] & Ek & H3). injection H3 as _ <-.
        revert Ek. clear. generalize (or_else (strs cx) cs), 0, (@nil json). intros cs0. revert b k b' mv. induction es as [|e es IH]; intros b k b' mv i kp H; cbn [convert_params] in H; [injection H as _ <- _; discriminate|].
        apply bind_ok in H as ([dd c] & _ & H). cbn [fst snd] in H. destruct (is_body c); [|eauto]. apply bind_ok in H as ([[k1 b1] m1] & Ek & H). injection H as <- <- <-. eauto. }
      destruct z as [z|]; [|contradiction]. eauto.
  Qed.
  Lemma path_item_operation d o ps root cs pr x reloc m od :
    loaded (BCls "PathItem") (JDict d) o -> params_at deref (val d "parameters") ps -> Forall (fun pq => param_doc (snd pq)) ps ->
    to_path_item deref normalized_ref o root cs pr = Ok (x, reloc) -> In m METHODS -> val d m = JDict od ->
    exists op y body b0, loaded (BCls "Operation") (JDict od) op /\ to_operation deref op b0 root pr cs = Ok (y, body) /\
      (if no_merged ps then b0 = None /\ lookup m x = Some (JDict (with_body y body))
       else exists b, lookup internal_body x = Some (JDict b) /\ lookup m x = Some (JDict (with_body y (Some b)))).
  Proof.
    intros L Pa Pd H Im Hm. destruct (to_path_item_ok d o ps root cs pr x reloc L Pa Pd H) as (kept & body & ops & body' & _ & Eb & _ & _ & Em & Lm & Li & _).
    specialize (Lm m Im). destruct (method_child d o m L Im) as [[Hv _]|(op & Go & Lo & T & _)]; [congruence|]. rewrite Hm in Lo.
    destruct body as [b|].
    - destruct (no_merged ps) eqn:E; [destruct Eb as [_ Eb]; discriminate (Eb eq_refl)|]. destruct (methods_some deref o root pr cs METHODS b ops body' methods_nodup Em) as (_ & _ & F). specialize (F m op Im Go). rewrite T in F.
      destruct F as (b0 & [y z] & Eo & Lo'). rewrite Lo' in Lm. cbn [fst snd] in Lm.
      exists op, y, z, b0. split; [exact Lo|]. split; [exact Eo|].
      destruct body' as [b'|]; [exists b'; split; [exact Li|exact Lm]|]. exfalso. destruct (methods_some_body o root pr cs METHODS b ops None Em) as [b' E']. discriminate.
    - destruct (no_merged ps) eqn:E; [|destruct Eb as [Eb _]; discriminate (Eb eq_refl)]. destruct (methods_none deref o root pr cs METHODS ops body' methods_nodup Em) as (_ & _ & _ & F). specialize (F m op Im Go). rewrite T in F.
      destruct F as ([y z] & Eo & Lo'). rewrite Lo' in Lm. exists op, y, z, None. split; [exact Lo|]. split; [exact Eo|]. split; [reflexivity|exact Lm].
  Qed.
  (** independence *)
  Lemma path_item_independent d1 d2 path o1 o2 ps1 ps2 root cs pr x1 x2 r1 r2 m :
    construct v20_table (JDict d1) (BCls "PathItem") path [] = Ok o1 -> construct v20_table (JDict d2) (BCls "PathItem") path [] = Ok o2 ->
    params_at deref (val d1 "parameters") ps1 -> Forall (fun pq => param_doc (snd pq)) ps1 -> no_merged ps1 = true ->
    params_at deref (val d2 "parameters") ps2 -> Forall (fun pq => param_doc (snd pq)) ps2 -> no_merged ps2 = true ->
    to_path_item deref normalized_ref o1 root cs pr = Ok (x1, r1) -> to_path_item deref normalized_ref o2 root cs pr = Ok (x2, r2) ->
    In m METHODS -> val d1 m = val d2 m -> lookup m x1 = lookup m x2.
  Proof.
    intros C1 C2 P1 Q1 N1 P2 Q2 N2 H1 H2 Im Ev.
    assert (L1 : loaded (BCls "PathItem") (JDict d1) o1) by (exists path; exact C1). assert (L2 : loaded (BCls "PathItem") (JDict d2) o2) by (exists path; exact C2).
    assert (G : gattr_none o1 m = gattr_none o2 m).
    { assert (Cb : child_builder "PathItem" m = Some (BCls "Operation")) by (repeat (destruct Im as [<-|Im]; [reflexivity|]); destruct Im).
      assert (Fc : find_child m (c_children v20_PathItem) = Some (mk_child m (BCls "Operation") false)) by (repeat (destruct Im as [<-|Im]; [reflexivity|]); destruct Im).
      rewrite construct_eq in C1, C2. cbn [select bind con_core] in C1, C2. rewrite split_nil in C1, C2. cbn [bind] in C1, C2.
      change (lookup "PathItem" v20_table) with (Some v20_PathItem) in C1, C2. cbn iota in C1, C2.
      apply bind_ok in C1 as (k1 & K1 & C1). apply bind_ok in C2 as (k2 & K2 & C2). injection C1 as <-. injection C2 as <-.
      destruct (find_child_in _ _ _ Fc) as [Fi _].
      pose proof (kids_of "PathItem" v20_PathItem _ _ _ eq_refl K1 _ Fi) as X1. pose proof (kids_of "PathItem" v20_PathItem _ _ _ eq_refl K2 _ Fi) as X2. cbn [ch_name] in X1, X2.
      assert (Ek : match lookup m k1 with Some o => o | None => OPrim JNull end = match lookup m k2 with Some o => o | None => OPrim JNull end).
      { assert (Cv : forall dd, con_child v20_table path [] (JDict dd) (mk_child m (BCls "Operation") false) = match val dd m with JNull => Ok None | v => rmap Some (construct v20_table v (BCls "Operation") (sub_path path m) []) end).
        { intros dd. unfold con_child, val. cbn [ch_name ch_required ch_builder]. change (ovr_get m []) with (@nil (string * obj)). cbn [ovr_here lookup]. destruct (lookup m dd) as [[]|]; reflexivity. }
        rewrite Cv in X1, X2. rewrite Ev in X1. rewrite X1 in X2. injection X2 as ->. reflexivity. }
      unfold gattr_none, gattr. change (lookup "PathItem" v20_table) with (Some v20_PathItem). cbn iota. unfold getattr_, getattr_plain. rewrite Fc. rewrite Ek. reflexivity. }
    destruct (to_path_item_ok d1 o1 ps1 root cs pr x1 r1 L1 P1 Q1 H1) as (kept1 & body1 & ops1 & body1' & _ & Eb1 & _ & _ & Em1 & Lm1 & _).
    destruct (to_path_item_ok d2 o2 ps2 root cs pr x2 r2 L2 P2 Q2 H2) as (kept2 & body2 & ops2 & body2' & _ & Eb2 & _ & _ & Em2 & Lm2 & _).
    destruct Eb1 as [_ Eb1]. destruct Eb2 as [_ Eb2]. rewrite (Eb1 N1) in *. rewrite (Eb2 N2) in *. rewrite (Lm1 m Im), (Lm2 m Im).
    destruct (methods_none deref o1 root pr cs METHODS ops1 body1' methods_nodup Em1) as (_ & _ & _ & F1). destruct (methods_none deref o2 root pr cs METHODS ops2 body2' methods_nodup Em2) as (_ & _ & _ & F2).
    destruct (method_child d1 o1 m L1 Im) as [[_ Go]|(op & Go & _)].
    - pose proof (F1 m _ Im Go) as X1. rewrite G in Go. pose proof (F2 m _ Im Go) as X2. cbn [truthy_obj truthy] in X1, X2. now rewrite X1, X2.
    - pose proof (F1 m _ Im Go) as X1. rewrite G in Go. pose proof (F2 m _ Im Go) as X2. destruct (truthy_obj op); [|now rewrite X1, X2].
      destruct X1 as (y1 & E1 & ->), X2 as (y2 & E2 & ->). assert (y1 = y2) by congruence. subst. reflexivity.
  Qed.
  (** the shared body *)
  Lemma path_item_shared d o ps root cs pr x reloc :
    loaded (BCls "PathItem") (JDict d) o -> params_at deref (val d "parameters") ps -> Forall (fun pq => usable deref (snd pq)) ps -> no_merged ps = false -> ops_usable d ->
    to_path_item deref normalized_ref o root cs pr = Ok (x, reloc) ->
    exists b, lookup internal_body x = Some (JDict b) /\
      (forall pq t, In pq ps -> form_param (snd pq) -> sent_as cs (snd pq) t -> mem (pname pq) (body_properties t b) = true) /\
      (forall m od qs pq t, In m METHODS -> val d m = JDict od -> params_at deref (val od "parameters") qs -> Forall (fun pq => usable deref (snd pq)) qs -> In pq qs -> form_param (snd pq) ->
         sent_as (or_default (texts (val od "consumes")) cs) (snd pq) t ->
         mem (pname pq) (body_properties t b) = true /\
         (forall pq', In pq' ps -> form_param (snd pq') -> sent_as cs (snd pq') t -> pname pq' <> pname pq)) /\
      (forall m1 m2 od1 od2 ps1 ps2 pq1 pq2 t, In m1 METHODS -> In m2 METHODS -> m1 <> m2 -> val d m1 = JDict od1 -> val d m2 = JDict od2 ->
       params_at deref (val od1 "parameters") ps1 -> params_at deref (val od2 "parameters") ps2 -> Forall (fun pq => usable deref (snd pq)) ps1 -> Forall (fun pq => usable deref (snd pq)) ps2 ->
       In pq1 ps1 -> In pq2 ps2 -> form_param (snd pq1) -> form_param (snd pq2) ->
       sent_as (or_default (texts (val od1 "consumes")) cs) (snd pq1) t -> sent_as (or_default (texts (val od2 "consumes")) cs) (snd pq2) t -> pname pq1 <> pname pq2).
  Proof.
    intros L Pa Up Nm Ou H. assert (Pd : Forall (fun pq : dict * dict => param_doc (snd pq)) ps) by (eapply Forall_impl; [|exact Up]; intros pq Hq; exact (usable_doc deref _ Hq)).
    destruct (to_path_item_ok d o ps root cs pr x reloc L Pa Pd H) as (kept & body & ops & body' & _ & Eb & _ & Ex & Em & _ & Li & _).
    destruct body as [b|]; [|destruct Eb as [Eb _]; rewrite (Eb eq_refl) in Nm; discriminate]. destruct (Ex b eq_refl) as (es & moved & Fg & Ec).
    destruct (convert_params_grows deref ps es 0 cs [] None kept (Some b) moved (usable_pairs deref _ _ Fg Up) body_ok_nil Ec) as (Bo & _ & Nb). cbn [old_body] in *.
    destruct (methods_grow deref d o root pr cs L) with (ms := METHODS) (b := b) (ops := ops) (s := body') as (b' & -> & _ & G & N1 & C1).
    - intros m od Im Hm. destruct (Ou m Im) as [E|(od' & E & U)]; [congruence|]. assert (od' = od) by congruence. now subst.
    - intros m Hm. exact Hm.
    - intros m Im. destruct (Ou m Im) as [E|(od' & E & U)]; [now left|]. right. now exists od'.
    - exact Bo.
    - exact Em.
    - exists b'. split; [exact Li|]. split; [intros pq t I F S; apply G; now apply (Nb pq t I F S)|]. split; [|exact (C1 methods_nodup)].
      intros m od qs pq t Im Hm Pq Uq I F S. destruct (N1 m od qs pq t Im Hm Pq Uq I F S) as [X1 X2]. split; [exact X1|]. intros pq' I' F' S' En. destruct (Nb pq' t I' F' S') as [Y _]. congruence.
  Qed.
End Path.
