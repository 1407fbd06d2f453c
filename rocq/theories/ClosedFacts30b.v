(** Sets of OpenAPI 3.0.0 documents that refer to each other open. *)
From Coq Require Import String Ascii List Bool Arith Lia.
From Verif Require Import PyStr PyStrFacts PyVal PyValFacts Jp JpFacts UrlLib Urls SpecUrl Obj ObjFacts Classes_v3_0_0 SpecJson SpecObj SpecScan TablesFacts DumpFacts ResolveFacts Scan TraverseFacts
  PropertiesObjAux PropertiesScanAux Store SpecStore StoreFacts App SpecApp AppFacts AppFacts2 AppFacts4 AppFacts5 Main SpecDoc SpecRefs SpecLocal SpecOpen WfFacts RelocFacts RefFacts OpenFacts OpenFacts2 OverrideFacts MainFacts RewriteFacts RewriteFacts2 TaskFacts QuietFacts LocalFacts LocalFacts2 SpecTables SpecClosed SpecClosed30 ClosedFacts ClosedFacts30.
Import ListNotations.
Open Scope string_scope. Open Scope nat_scope.
Notation within := SpecObj.within (only parsing).

(** every target but the object itself is built by "Reference or ...", of something else than a path item *)
Definition slot_builder (b : builder) : bool :=
  match b with
  | BRefElse r (BCls c) => String.eqb r "Reference" && negb (str_in c ["Reference"; "PathItem"])
  | BRefElse r (BMapOf _) => String.eqb r "Reference"
  | _ => false
  end.
Definition slot30 (t : target) : bool :=
  match t with Self b => builder_eqb b (BCls "PathItem") | One _ b | Items _ b | Values _ b => slot_builder b end.
Lemma slots30 : forallb (fun e => forallb slot30 (snd e)) targets30 = true.
Proof. vm_compute. reflexivity. Qed.
Lemma target30 c t : In t (targets_of "3.0.0" c) -> slot30 t = true.
Proof.
  intros I. unfold targets_of in I. cbn [String.eqb Ascii.eqb Bool.eqb] in I. destruct (lookup c targets30) as [l|] eqn:L; [|contradiction]. apply TablesFacts.lookup_In in L.
  assert (H := slots30). rewrite forallb_forall in H. specialize (H _ L). cbn [snd] in H. rewrite forallb_forall in H. exact (H _ I).
Qed.
Lemma self30 c b : In (Self b) (targets_of "3.0.0" c) -> c = "PathItem" /\ b = BCls "PathItem".
Proof.
  intros I. assert (H := target30 _ _ I). cbn [slot30] in H. apply builder_eqb_eq in H. split; [|exact H]. subst b. unfold targets_of in I. cbn [String.eqb Ascii.eqb Bool.eqb] in I.
  destruct (lookup c targets30) as [l|] eqn:L; [|contradiction]. apply TablesFacts.lookup_In in L.
  assert (Z : forallb (fun e => String.eqb (fst e) "PathItem" || negb (existsb (fun t => match t with Self _ => true | _ => false end) (snd e))) targets30 = true) by (vm_compute; reflexivity).
  rewrite forallb_forall in Z. specialize (Z _ L). cbn [fst snd] in Z. apply orb_prop in Z as [Z|Z]; [now apply String.eqb_eq|]. exfalso. apply negb_true_iff in Z.
  assert (Z' : existsb (fun t => match t with Self _ => true | _ => false end) l = true) by (apply existsb_exists; exists (Self (BCls "PathItem")); split; [exact I|reflexivity]). congruence.
Qed.

Section Closed.
  Variables (path2url abspath : string -> string) (app_url : string) (fetch : string -> res json) (merge_fuel : nat)
    (from12 : sobj -> res sobj) (from20 : sobj -> string -> string -> override -> res (sobj * routes)).
  Variables (url : string) (d0 : list (string * json)) (root : obj) (places : list (string * list string * builder)).
  Notation split := (split path2url abspath).
  Notation upgrade := (modules path2url abspath app_url merge_fuel from12 from20).
  Notation prepare := (fun (o : sobj) (_ : string) => Ok o).
  Notation resolving := (resolve_obj path2url abspath app_url known3 fetch upgrade prepare).
  Notation piece := (piece30 fetch).
  Hypothesis CW : closed_world30 fetch url root places.
  Hypothesis CL : clean url.
  Hypothesis FE : fetch url = Ok (JDict d0).
  Hypothesis DE : SpecApp.declares d0 (JStr "3.0.0").
  Hypothesis WJ : wf_json (JDict d0).
  Hypothesis CO : construct v30_table (JDict d0) (BCls "OpenApi") (Some url) [] = Ok root.
  Hypothesis UN0 : unmixed root.
  Hypothesis NM0 : no_media_examples root.
  Lemma SU : split url = Ok (url, "#"). Proof. exact (split_place path2url abspath url [] CL). Qed.
  Lemma NU : url <> "". Proof. exact (clean_ne _ CL). Qed.

  (** where the places are *)
  Definition locs : list (string * string) := map (fun e => (fst (fst e), pointer (snd (fst e)))) places.
  Lemma locs_in u ts b : In (u, ts, b) places -> In (u, pointer ts) locs.
  Proof. intros I. apply in_map_iff. exists (u, ts, b). auto. Qed.
  Lemma locs_length : length locs = length places.
  Proof. apply map_length. Qed.

  (** what is stored at a location: the object made from the document, with some references rewritten *)
  Definition original (u p : string) (X : obj) : Prop :=
    (u = url /\ p = "#" /\ X = root) \/ (u <> url /\ exists ts b, In (u, ts, b) places /\ p = pointer ts /\ piece u ts b X).
  Definition stored_ok (u p : string) (Y : obj) : Prop := exists X w, original u p X /\ good_ups u X w /\ Y = rewrite_refs w X.
  Lemma piece_fun u ts b X X' : piece u ts b X -> piece u ts b X' -> X = X'.
  Proof. intros (d & F & _ & _ & C & _) (d' & F' & _ & _ & C' & _). rewrite F in F'. injection F' as <-. rewrite C in C'. now injection C'. Qed.
  Lemma original_closed u p X : original u p X -> refs_closed30 u X places.
  Proof.
    intros [(-> & -> & ->)|(NE & ts & b & I & E & P)]; [exact (c3_root _ _ _ _ CW)|].
    destruct (c3_places _ _ _ _ CW u ts b I) as (_ & [(E' & _)|(_ & X' & P' & RC)]); [contradiction|]. now rewrite (piece_fun _ _ _ _ _ P P').
  Qed.
  Lemma original_built u p X : original u p X -> clean u /\ exists c q s kids j base b, X = OObj c q s kids /\ wf_json j /\ construct v30_table j b (Some base) [] = Ok X /\ construct v30_table j (BCls c) (Some base) [] = Ok X /\ base <> "" /\ unmixed X /\ no_media_examples X.
  Proof.
    intros [(-> & -> & ->)|(NE & ts & b & I & E & P)].
    - split; [exact CL|]. assert (CO' := CO). destruct (construct_cls_obj _ _ _ _ _ CO') as (kids & ER). exists "OpenApi", (Some url), (JDict d0), kids, (JDict d0), url, (BCls "OpenApi"). assert (NU' := NU). auto 10.
    - destruct (c3_places _ _ _ _ CW u ts b I) as (CU & _). split; [exact CU|].
      destruct (c3_prefix _ _ _ _ CW u ts b ts b X I I NE) as (rest & ER & c & q & s & kids & W & _); [apply prefix_startswith, prefix_self|exact P|].
      assert (rest = []) by (apply (app_inv_head ts); now rewrite app_nil_r). subst rest. inversion W; subst. destruct P as (d & F & DN & WF & C & UN & NM).
      exists c, q, s, kids, (JDict d), (place u ts), b. split; [reflexivity|]. split; [exact WF|]. split; [exact C|]. split; [now apply as_class in C|]. split; [now apply place_ne|auto].
  Qed.
  Lemma original_nothing u p X : original u p X -> rewrite_refs [] X = X.
  Proof. intros O. destruct (original_built _ _ _ O) as (_ & c & q & s & kids & j & base & b & _ & WF & C & _). exact (rewrite_nothing X j b base WF C). Qed.
  Lemma original_stored u p X : original u p X -> stored_ok u p X.
  Proof. intros O. exists X, []. split; [exact O|]. split; [apply good_nil|]. symmetry. exact (original_nothing _ _ _ O). Qed.
  Lemma stored_closed u p Y : stored_ok u p Y -> refs_closed30 u Y places.
  Proof.
    intros (X & w & O & G & ->). destruct (original_built _ _ _ O) as (CU & c & q & s & kids & j & base & b & _ & WF & C & _ & NB & _).
    exact (closed_same u X j b base CU C NB w places G (original_closed _ _ _ O)).
  Qed.
  Lemma stored_built u p Y : stored_ok u p Y -> clean u /\ exists c q s kids j b base, Y = OObj c q s kids /\ construct v30_table j b (Some base) [] = Ok Y.
  Proof.
    intros (X & w & O & G & ->). destruct (original_built _ _ _ O) as (CU & c & q & s & kids & j & base & b & EX & WF & C & _ & NB & _). split; [exact CU|].
    destruct (rewritten_built X j b base WF C w) as (j' & C' & _). rewrite EX in *. rewrite rewrite_obj in *. do 7 eexists. split; [reflexivity|exact C'].
  Qed.
  (** ** the states met; [Q] are the locations whose references are being resolved *)
  Record Inv (Q : string * string -> Prop) (a : app) : Prop := {
    i_good : good (a_store a);
    i_vers : s_versions (a_store a) = known3;
    i_orig : a_original a = "3.0.0";
    i_rows : forall u ur, lookup u (s_routes (a_store a)) = Some ur -> keys ur = known3;
    i_ent : forall u p v o, entry (a_store a) u p v = Some o -> v = "3.0.0" /\ so_version o = "3.0.0" /\ so_apis o = [] /\ stored_ok u p (so_obj o);
    i_root : exists o, entry (a_store a) url "#" "3.0.0" = Some o;
    i_done : forall u p o u' ts b, entry (a_store a) u p "3.0.0" = Some o -> ~ Q (u, p) -> refers30 u (so_obj o) u' ts b -> covb "3.0.0" (a_store a) (u', pointer ts) = true }.
  Notation cov a l := (covb "3.0.0" (a_store a) l = true).
  Notation grow a a' := (mono "3.0.0" (a_store a) (a_store a')).
  Notation left_ a := (uncov "3.0.0" locs (a_store a)).

  Lemma inv_weaken (Q Q' : string * string -> Prop) a : (forall l, Q l -> Q' l) -> Inv Q a -> Inv Q' a.
  Proof. intros H [A B C D E F G]. split; auto. intros u p o u' ts b EN NQ. apply (G u p o u' ts b EN). auto. Qed.
  (** the state only differs in what does not matter *)
  Lemma inv_same Q a a' : Inv Q a -> a_store a' = a_store a -> a_original a' = a_original a -> Inv Q a'.
  Proof. intros [A B C D E F G] ES EO. split; rewrite ?ES, ?EO; auto. Qed.

  Lemma set_inv (Q : string * string -> Prop) a u jp X : Inv Q a -> stored_ok u jp X -> Q (u, jp) ->
    exists a', set_obj (mk_sobj "3.0.0" X []) u jp "3.0.0" a = (a', Ok tt) /\ Inv Q a' /\ grow a a' /\ cov a' (u, jp).
  Proof.
    intros I SO HQ. destruct (stored_built _ _ _ SO) as (_ & c & q & s & kids & j & b0 & base & EX & _). assert (B : so_base (mk_sobj "3.0.0" X []) = true) by (rewrite EX; reflexivity).
    unfold set_obj. destruct (store_set so_base (a_store a) (mk_sobj "3.0.0" X []) u jp "3.0.0") as [s'|] eqn:SS; [|unfold store_set in SS; rewrite B in SS; discriminate SS].
    destruct (set_mono "3.0.0" _ _ _ _ _ _ (i_good _ _ I) SS) as (MO & GO & CV). exists (with_store a s'). split; [reflexivity|]. split; [|split; [exact MO|exact CV]].
    assert (EE : forall u' p' v' o', entry s' u' p' v' = Some o' -> (o' = mk_sobj "3.0.0" X [] /\ u' = u /\ p' = jp /\ v' = "3.0.0") \/ entry (a_store a) u' p' v' = Some o').
    { intros u' p' v' o' EN. destruct (set_as_op _ _ _ _ _ _ SS) as (-> & _). rewrite entry_set in EN by exact B. destruct (String.eqb_spec u u') as [<-|]; [|now right].
      destruct (String.eqb_spec jp p') as [<-|]; [|now right]. destruct (String.eqb_spec "3.0.0" v') as [<-|]; [|now right]. injection EN as <-. left. auto. }
    split; cbn [with_store a_store a_original].
    - exact GO.
    - rewrite (set_versions _ _ _ _ _ _ SS). apply (i_vers _ _ I).
    - apply (i_orig _ _ I).
    - rewrite (set_routes _ _ _ _ _ _ SS). apply (i_rows _ _ I).
    - intros u' p' v' o' EN. destruct (EE _ _ _ _ EN) as [(-> & -> & -> & ->)|EN']; [auto|]. exact (i_ent _ _ I _ _ _ _ EN').
    - destruct (i_root _ _ I) as (o & EN). destruct (set_as_op _ _ _ _ _ _ SS) as (-> & _). rewrite entry_set by exact B. destruct (_ && _); eauto.
    - intros u' p' o' u2 ts b EN NQ RF. destruct (EE _ _ _ _ EN) as [(-> & -> & -> & _)|EN']; [contradiction|]. apply MO. exact (i_done _ _ I _ _ _ _ _ _ EN' NQ RF).
  Qed.
  Lemma routes_inv Q a u rs : Inv Q a -> exists a', put_routes u "3.0.0" rs a = (a', Ok tt) /\ Inv Q a' /\ grow a a'.
  Proof.
    intros I. unfold put_routes. destruct (store_update_routes (a_store a) u "3.0.0" rs) as [s r] eqn:UR. destruct (routes_objs _ _ _ _ _ _ UR) as (EO & EV).
    assert (KR : r = Ok tt /\ forall u' ur, lookup u' (s_routes s) = Some ur -> keys ur = known3).
    { unfold store_update_routes in UR. rewrite (i_vers _ _ I) in UR. set (ur := match lookup u (s_routes (a_store a)) with Some ur => ur | None => _ end) in UR.
      assert (KU : keys ur = known3). { unfold ur. destruct (lookup u (s_routes (a_store a))) eqn:L; [exact (i_rows _ _ I _ _ L)|reflexivity]. }
      destruct (lookup "3.0.0" ur) as [m|] eqn:LM.
      2:{ exfalso. apply PyValFacts.lookup_none in LM. apply LM. change (In "3.0.0" (keys ur)). rewrite KU. cbn. auto. }
      injection UR as <- <-. split; [reflexivity|]. cbn [s_routes]. intros u' ur' L. rewrite ds_lookup in L. destruct (String.eqb_spec u u') as [->|]; [|exact (i_rows _ _ I _ _ L)].
      injection L as <-. rewrite keys_dict_set. unfold mem. rewrite LM. exact KU. }
    destruct KR as (-> & KR). exists (with_store a s). split; [reflexivity|]. split; [|intros l C; cbn [with_store a_store]; now rewrite (objs_covb _ _ _ _ EO)].
    split; cbn [with_store a_store a_original].
    - exact (objs_good _ _ EO (i_good _ _ I)).
    - rewrite EV. apply (i_vers _ _ I).
    - apply (i_orig _ _ I).
    - exact KR.
    - intros u' p v o EN. rewrite (objs_entry _ _ _ _ _ EO) in EN. exact (i_ent _ _ I _ _ _ _ EN).
    - rewrite (objs_entry _ _ _ _ _ EO). apply (i_root _ _ I).
    - intros u' p o u2 ts b EN NQ RF. rewrite (objs_entry _ _ _ _ _ EO) in EN. rewrite (objs_covb _ _ _ _ EO). exact (i_done _ _ I _ _ _ _ _ _ EN NQ RF).
  Qed.
  Lemma relocate_inv Q a u jp : Inv Q a -> store_relocate (a_store a) u jp "3.0.0" (Some "3.0.0") = Ok jp.
  Proof.
    intros I. unfold store_relocate. destruct (lookup u (s_routes (a_store a))) as [ur|] eqn:L; [|reflexivity]. assert (K := i_rows _ _ I _ _ L). cbn [truthy_str].
    assert (M : mem "3.0.0" ur = true). { unfold mem. destruct (lookup "3.0.0" ur) eqn:L2; [reflexivity|]. exfalso. apply PyValFacts.lookup_none in L2. apply L2. change (In "3.0.0" (keys ur)). rewrite K. cbn. auto. }
    rewrite M. change (strict_version "3.0.0") with (@Ok ver [3; 0; 0; 2; 0]). cbn [bind]. apply relocate_loop_back; [rewrite K; exact known_ascending|reflexivity].
  Qed.

  (** *** looking up a place *)
  Definition answers (u : string) (b : builder) (y : obj) : Prop :=
    exists c p s kids, y = OObj c p s kids /\ (b = BCls "PathItem" -> c = "PathItem" /\ exists X ts, refs_closed30 u X places /\ within X ts y).
  Lemma get_cov Q a u ts b : Inv Q a -> In (u, ts, b) places -> cov a (u, pointer ts) ->
    exists y, store_get so_resolve (a_store a) u (pointer ts) "3.0.0" = Ok (Some (mk_sobj "3.0.0" y [])) /\ answers u b y /\
      exists ts1 rest X w x, ts = (ts1 ++ rest)%list /\ original u (pointer ts1) X /\ good_ups u X w /\ within X rest x /\ y = rewrite_refs w x.
  Proof.
    intros I IN C. destruct (c3_places _ _ _ _ CW u ts b IN) as (CU & _).
    unfold covb in C. cbn [fst snd] in C. unfold store_get. destruct (first_match (pointer ts) "3.0.0" (sub u (s_objs (a_store a)))) as [[p o]|] eqn:FM; [|discriminate C].
    destruct (first_match_some _ _ _ _ _ (good_sub _ _ (i_good _ _ I)) FM) as (PF & LK). rewrite <- entry_sub in LK.
    destruct (i_ent _ _ I _ _ _ _ LK) as (_ & SV & _ & SO). assert (SO' := SO). destruct SO' as (X & w & O & G & EY).
    assert (F : exists ts1 rest, p = pointer ts1 /\ ts = (ts1 ++ rest)%list /\ object_at X rest b).
    { destruct O as [(-> & -> & ->)|(NU' & ts1 & b1 & I1 & -> & P1)].
      - exists [], ts. split; [reflexivity|]. split; [reflexivity|]. destruct (c3_places _ _ _ _ CW url ts b IN) as (_ & [(_ & O)|(N & _)]); [exact O|congruence].
      - destruct (c3_prefix _ _ _ _ CW u ts1 b1 ts b X I1 IN NU') as (rest & E & O); [now apply prefix_startswith|exact P1|]. exists ts1, rest. auto. }
    destruct F as (ts1 & rest & -> & -> & c & q & s & kids & W & PI). rewrite drop_pointer, tail_split.
    destruct (stored_built _ _ _ SO) as (_ & c1 & q1 & s1 & k1 & j & b1 & base & EX & CX). assert (WY := rewrite_within w _ _ _ W). rewrite <- EY in WY.
    destruct (within_resolve v30_table rest (repo_wd _ rt_v30) j b1 (Some base) (so_obj o) _ CX WY) as (_ & R & _); [rewrite rewrite_obj; intros (? & [=])|].
    exists (rewrite_refs w (OObj c q s kids)). split; [unfold so_resolve; rewrite SV; change (table_of "3.0.0") with v30_table; rewrite R; reflexivity|].
    split; [rewrite rewrite_obj; do 4 eexists; split; [reflexivity|]; intros EB; split; [exact (PI EB)|]; exists (so_obj o), rest; split; [exact (stored_closed _ _ _ SO)|rewrite <- rewrite_obj; exact WY]|].
    exists ts1, rest, X, w, (OObj c q s kids). auto.
  Qed.
  Lemma root_cov Q a ts : Inv Q a -> cov a (url, pointer ts).
  Proof. intros I. destruct (i_root _ _ I) as (o & EN). apply covb_spec; [exact (i_good _ _ I)|]. exists "#", o. split; [eexists; reflexivity|exact EN]. Qed.

  (** *** a way of asking that always answers, while at most [n] places are not in the store *)
  Definition asks (ask : query -> M (sobj * string)) (n : nat) : Prop :=
    forall Q a q b u ts, Inv Q a -> left_ a <= n -> q_from q = "3.0.0" -> target_version q = "3.0.0" -> q_parser q = Some ("3.0.0", b) -> In (u, ts, b) places -> q_jref q = place u ts ->
      exists a' y, ask q a = (a', Ok (mk_sobj "3.0.0" y [], (u ++ pointer ts)%string)) /\ Inv Q a' /\ grow a a' /\ answers u b y /\ cov a' (u, pointer ts).

  (** *** the upgrade of an object *)
  Section Upgrade.
    Variables (ask : query -> M (sobj * string)) (n : nat).
    Hypothesis AS : asks ask n.
    Variables (u jp : string) (X : obj) (Q : string * string -> Prop).
    Hypothesis SO : original u jp X.
    Hypothesis HQ : Q (u, jp).
    Let o := mk_sobj "3.0.0" X [].
    Let Goal (l : string * string) : Prop := exists u' ts b, refers30 u X u' ts b /\ l = (u', pointer ts).
    (** every reference was rewritten *)
    Definition full (w : ref_updates) : Prop := good_ups u X w /\
      forall qs c p d kids ref, within X qs (OObj c p (JDict d) kids) -> In c (referring_classes "3.0.0") -> lookup "$ref" d = Some (JStr ref) -> (exists b, expected_at v30_table X qs c b) -> exists q r, p = Some q /\ In (q, r) w.
    Definition TR (P : string * string -> Prop) (p : prog (sobj * routes)) : Prop :=
      forall a, Inv Q a -> left_ a <= n -> (forall l, P l -> cov a l) -> exists a' w, run ask p a = (a', Ok (rewrite_sobj w o, [])) /\ full w /\ Inv Q a' /\ grow a a' /\ forall l, Goal l -> cov a' l.
    Lemma left_grow a a' : grow a a' -> left_ a <= n -> left_ a' <= n.
    Proof. intros G L. assert (H := uncov_mono "3.0.0" locs _ _ G). lia. Qed.
    Lemma TR_done w (P : string * string -> Prop) : full w -> (forall l, Goal l -> P l) -> TR P (Done (Ok (rewrite_sobj w o, []))).
    Proof. intros F H a I L C. exists a, w. split; [reflexivity|]. split; [exact F|]. split; [exact I|]. split; [apply mono_refl|]. intros l G. apply C, H, G. Qed.
    Lemma TR_cache w P k : good_ups u X w -> TR P k -> TR P (Cache (rewrite_sobj w o) u jp "3.0.0" k).
    Proof.
      intros G H a I L C. destruct (set_inv Q a u jp (rewrite_refs w X) I (ex_intro _ X (ex_intro _ w (conj SO (conj G eq_refl)))) HQ) as (a1 & E & I1 & G1 & _). cbn [run]. unfold bindm. change (rewrite_sobj w o) with (mk_sobj "3.0.0" (rewrite_refs w X) []). rewrite E.
      destruct (H a1 I1 (left_grow _ _ G1 L)) as (a2 & w2 & E2 & F2 & I2 & G2 & C2); [intros l Pl; apply G1, C, Pl|]. exists a2, w2. split; [exact E2|]. split; [exact F2|]. split; [exact I2|]. split; [eapply mono_trans; eauto|exact C2].
    Qed.
    Lemma TR_routes rs P k : TR P k -> TR P (Routes u "3.0.0" rs k).
    Proof.
      intros H a I L C. destruct (routes_inv Q a u rs I) as (a1 & E & I1 & G1). cbn [run]. unfold bindm. rewrite E.
      destruct (H a1 I1 (left_grow _ _ G1 L)) as (a2 & w2 & E2 & F2 & I2 & G2 & C2); [intros l Pl; apply G1, C, Pl|]. exists a2, w2. split; [exact E2|]. split; [exact F2|]. split; [exact I2|]. split; [eapply mono_trans; eauto|exact C2].
    Qed.
    Lemma TR_ask (P : string * string -> Prop) q k b u' ts : q_from q = "3.0.0" -> target_version q = "3.0.0" -> q_parser q = Some ("3.0.0", b) -> In (u', ts, b) places -> q_jref q = place u' ts ->
      (forall y, answers u' b y -> TR (fun l => P l \/ l = (u', pointer ts)) (k (mk_sobj "3.0.0" y [], (u' ++ pointer ts)%string))) -> TR P (Ask q k).
    Proof.
      intros QF QT QP IN S H a I L C. destruct (AS Q a q b u' ts I L QF QT QP IN S) as (a1 & y & E & I1 & G1 & A & CV). cbn [run]. unfold bindm. rewrite E.
      destruct (H y A a1 I1 (left_grow _ _ G1 L)) as (a2 & w2 & E2 & F2 & I2 & G2 & C2); [intros l [Pl| ->]; [apply G1, C, Pl|exact CV]|].
      exists a2, w2. split; [exact E2|]. split; [exact F2|]. split; [exact I2|]. split; [eapply mono_trans; eauto|exact C2].
    Qed.
    Lemma TR_original P k : TR P (k "3.0.0") -> TR P (Original k).
    Proof. intros H a I L C. cbn [run]. unfold bindm, get_original. rewrite (i_orig _ _ I). exact (H a I L C). Qed.
    Lemma TR_weaken (P P' : string * string -> Prop) p : (forall l, P' l -> P l) -> TR P' p -> TR P p.
    Proof. intros W H a I L C. apply (H a I L). intros l Pl. apply C, W, Pl. Qed.

    (** a referring object of a closed object [Y], and what it refers to *)
    Lemma ref_of Y qs c p s kids : refs_closed30 u Y places -> within Y qs (OObj c p s kids) -> In c (referring_classes "3.0.0") ->
      (normalized v30_table u (OObj c p s kids) = Ok None /\ c <> "Reference") \/
      (exists d ref u' ts, s = JDict d /\ lookup "$ref" d = Some (JStr ref) /\ oattr v30_table (OObj c p s kids) "ref" = Ok (OPrim (JStr ref)) /\ normalized v30_table u (OObj c p s kids) = Ok (Some (place u' ts)) /\
        normalize_jr (Some ref) (Some u) = Ok (Some (place u' ts)) /\ clean u' /\ forall b, expected_at v30_table Y qs c b -> In (u', ts, b) places).
    Proof.
      intros (R1 & R2) W IC. destruct (R1 qs c p s kids W IC) as (d & -> & D). destruct (lookup "$ref" d) as [r|] eqn:L.
      - right. destruct D as (ref & u' & ts & -> & NE & CU' & NJ). assert (OA := ref_attr "3.0.0" c p d kids ref (or_intror eq_refl) IC L). change (table_of "3.0.0") with v30_table in OA.
        assert (TR1 : truthy_str ref = true) by (destruct ref; [congruence|reflexivity]). exists d, ref, u', ts. split; [reflexivity|]. split; [exact L|]. split; [exact OA|]. split; [unfold normalized; rewrite OA; cbn [bind]; rewrite TR1; exact NJ|].
        split; [exact NJ|]. split; [exact CU'|]. intros b EX. apply R2. exists qs, c, p, d, kids, ref. auto 8.
      - left. assert (M : mem "$ref" d = false) by (unfold mem; now rewrite L). assert (OA : oattr v30_table (OObj c p (JDict d) kids) "ref" = Ok (OPrim JNull)).
        { cbn in IC. repeat (destruct IC as [<-|IC]; [try congruence; cbn; rewrite M; reflexivity|]); contradiction. }
        split; [unfold normalized; rewrite OA; reflexivity|exact D].
    Qed.
    (** a task: a referring object with its parser, or something that is skipped *)
    Definition task_ok (b : builder) (x : obj) : Prop :=
      (forall c p s kids, x = OObj c p s kids -> c <> "Reference" /\ c <> "PathItem") \/
      exists qs c p s kids, x = OObj c p s kids /\ within X qs x /\ In c (referring_classes "3.0.0") /\ expected_at v30_table X qs c b.
    Definition met (x : obj) (l : string * string) : Prop := exists c p s kids u' ts, x = OObj c p s kids /\ In c (referring_classes "3.0.0") /\ clean u' /\ normalized v30_table u x = Ok (Some (place u' ts)) /\ l = (u', pointer ts).
    Definition wrote (x : obj) (w : ref_updates) : Prop := forall c p d kids ref, x = OObj c p (JDict d) kids -> In c (referring_classes "3.0.0") -> lookup "$ref" d = Some (JStr ref) -> exists q r, p = Some q /\ In (q, r) w.
    Lemma wrote_more x w w' : incl w w' -> wrote x w -> wrote x w'.
    Proof. intros H WR c p d kids ref E IC L. destruct (WR c p d kids ref E IC L) as (q & r & EQ & I). exists q, r. split; [exact EQ|exact (H _ I)]. Qed.
    Lemma task_step b x (P : string * string -> Prop) (H : list obj) k : task_ok b x ->
      (forall w, good_ups u X w -> (forall y, In y H -> wrote y w) -> wrote x w -> TR (fun l => P l \/ met x l) (k w)) ->
      forall w, good_ups u X w -> (forall y, In y H -> wrote y w) -> TR P (resolve30 path2url abspath u b x k w).
    Proof.
      intros T K w GW HW. unfold resolve30. change (table_of "3.0.0") with v30_table.
      assert (SKIP : (forall l, ~ met x l) -> wrote x w -> TR P (k w)) by (intros NM WR; eapply TR_weaken; [|apply (K w GW HW WR)]; intros l [Pl|M]; [exact Pl|destruct (NM l M)]).
      destruct T as [NC|(qs & c & p & s & kids & -> & W & IC & EX)].
      - assert (NI : forall c p s kids, x = OObj c p s kids -> ~ In c (referring_classes "3.0.0")) by (intros c p s kids E; destruct (NC _ _ _ _ E); cbn; intros [F|[F|[]]]; congruence).
        assert (SK : TR P (k w)) by (apply SKIP; [intros l (c & p & s & kids & u' & ts & E & IC & _); exact (NI _ _ _ _ E IC)|intros c p d kids ref E IC; destruct (NI _ _ _ _ E IC)]).
        destruct x as [jx|c p s kids|b1 p1 es|b1 p1 es]; try exact SK. destruct (NC _ _ _ _ eq_refl) as (N1 & N2). apply String.eqb_neq in N1, N2. rewrite N1, N2. exact SK.
      - assert (RC := original_closed _ _ _ SO). assert (EC : String.eqb c "Reference" || String.eqb c "PathItem" = true) by (cbn in IC; destruct IC as [<-|[<-|[]]]; reflexivity). rewrite EC.
        destruct (original_built _ _ _ SO) as (CU & c0 & q0 & s0 & kids0 & j & base & b0 & EX0 & WF & CX & _ & NB & _).
        destruct (ref_of X qs c p s kids RC W IC) as [(N & NR)|(d & ref & u' & ts & -> & L & OA & N & NJ & CU' & PL)].
        + rewrite N. apply String.eqb_neq in NR. rewrite NR. apply SKIP.
          * intros l (c1 & p1 & s1 & k1 & u' & ts & E & _ & _ & N' & _). rewrite N in N'. discriminate N'.
          * intros c1 p1 d1 k1 ref E _ L. injection E as <- <- -> <-. destruct RC as (R1 & _). destruct (R1 _ _ _ _ _ W IC) as (d2 & E2 & D). injection E2 as <-. rewrite L in D.
            destruct D as (ref' & u' & ts & E & NE & _ & NJ). injection E as <-. exfalso. assert (OA := ref_attr "3.0.0" c p d1 kids ref (or_intror eq_refl) IC L). change (table_of "3.0.0") with v30_table in OA.
            unfold normalized in N. rewrite OA in N. cbn [bind] in N. assert (TR1 : truthy_str ref = true) by (destruct ref; [congruence|reflexivity]). rewrite TR1, NJ in N. discriminate N.
        + rewrite N. apply TR_original. change (from30 "3.0.0") with "3.0.0". assert (IN := PL b EX).
          eapply (TR_ask P _ _ b u' ts); [reflexivity|reflexivity|reflexivity|exact IN|reflexivity|]. intros y (c' & p' & s' & k' & -> & _). cbn [fst snd so_truthy so_obj truthy_obj]. rewrite OA.
          assert (NR : new_ref path2url abspath ref (u' ++ pointer ts) = Ok (absolute ref u' ts)).
          { unfold new_ref, absolute. destruct (startswith "#" ref); [|reflexivity]. rewrite (split_full path2url abspath u' ts CU'). reflexivity. }
          rewrite NR. assert (EP := path_at X j b0 base CX NB qs c p _ _ W). assert (GW' : good_ups u X (assigned p (absolute ref u' ts) w)).
          { rewrite EP. cbn [assigned]. intros q r [E|I]; [|exact (GW q r I)]. injection E as <- <-. exists qs, c, d, kids, ref, u', ts. rewrite <- EP. auto 8. }
          eapply TR_weaken; [|apply (K _ GW')].
          * intros l [Pl|(c1 & p1 & s1 & k1 & u2 & t2 & E & _ & C2 & N2 & ->)]; [now left|right]. rewrite N in N2. assert (E2 : place u' ts = place u2 t2) by congruence. destruct (place_inj _ _ _ _ CU' C2 E2) as (<- & <-). reflexivity.
          * intros y' I. apply (wrote_more y' w); [|exact (HW _ I)]. intros e IE. rewrite EP. now right.
          * intros c1 p1 d1 k1 ref1 E _ _. injection E as <- <- <- <-. rewrite EP. eexists _, _. split; [reflexivity|]. now left.
    Qed.
    Lemma tasks_step l (P : string * string -> Prop) k : forall H, (forall b x, In (b, x) l -> task_ok b x) ->
      (forall w, good_ups u X w -> (forall y, In y H \/ In y (map snd l) -> wrote y w) -> TR (fun q => P q \/ exists b x, In (b, x) l /\ met x q) (k w)) ->
      forall w, good_ups u X w -> (forall y, In y H -> wrote y w) -> TR P (fold_right (fun bx => resolve_with path2url abspath "3.0.0" u (fst bx) (snd bx)) k l w).
    Proof.
      revert P. induction l as [|[b x] l IH]; intros P H T K; cbn [fold_right].
      - intros w GW HW. eapply TR_weaken; [|apply (K w GW)]. { intros q [Pq|(b & x & [] & _)]. exact Pq. } intros y [I|[]]. exact (HW y I).
      - change (resolve_with path2url abspath "3.0.0") with (resolve30 path2url abspath). cbn [fst snd]. apply task_step; [apply T; now left|]. intros w GW HW WX.
        apply (IH _ (x :: H)); [intros; apply T; now right| |exact GW|intros y [<-|I]; [exact WX|exact (HW y I)]].
        intros w' GW' HW'. eapply TR_weaken; [|apply (K w' GW')].
        + intros q [Pq|(b' & x' & [E|I] & M)]; [auto|injection E as -> ->; auto|right; eauto].
        + intros y [I|I]; [apply HW'; left; now right|]. cbn [map In snd] in I. destruct I as [<-|I]; apply HW'; [left; now left|now right].
    Qed.
    (** following the path items *)
    Lemma chain_step fuel P k : TR P k -> forall seen u1 ts1, In (u1, ts1, BCls "PathItem") places -> NoDup seen -> incl seen locs -> length locs < length seen + fuel ->
      TR P (merge_chain path2url abspath app_url fuel "3.0.0" seen (place u1 ts1) k).
    Proof.
      intros H. induction fuel as [|f IH]; intros seen u1 ts1 IN ND IL LN.
      { assert (LE := NoDup_incl_length ND IL). lia. }
      cbn [merge_chain]. destruct (c3_places _ _ _ _ CW _ _ _ IN) as (CU1 & _). rewrite (split_place path2url abspath _ _ CU1), (clean_true _ CU1).
      apply TR_original. cbn [String.eqb Ascii.eqb Bool.eqb]. change (from30 "3.0.0") with "3.0.0".
      eapply (TR_ask P _ _ (BCls "PathItem") u1 ts1); [reflexivity|reflexivity|reflexivity|exact IN|reflexivity|]. intros y (c & p & s & kids & -> & PI). destruct (PI eq_refl) as (-> & X' & ts2 & RC & W).
      cbn [fst so_truthy so_obj truthy_obj]. assert (HW : TR (fun l => P l \/ l = (u1, pointer ts1)) k) by (eapply TR_weaken; [|exact H]; auto).
      destruct (existsb (fun l => String.eqb (fst l) u1 && String.eqb (snd l) (pointer ts1)) seen) eqn:EX; [exact HW|].
      destruct RC as (R1 & R2). assert (IP : In "PathItem" (referring_classes "3.0.0")) by (cbn; auto). destruct (R1 ts2 _ p s kids W IP) as (d & -> & D). change (table_of "3.0.0") with v30_table.
      destruct (lookup "$ref" d) as [r|] eqn:L.
      - destruct D as (ref & u2 & t2 & -> & NE & CU2 & NJ). assert (OA := ref_attr "3.0.0" _ p d kids ref (or_intror eq_refl) IP L). change (table_of "3.0.0") with v30_table in OA.
        assert (TR1 : truthy_str ref = true) by (destruct ref; [congruence|reflexivity]). unfold normalized. rewrite OA. cbn [bind]. rewrite TR1, NJ. assert (TM : truthy_str (place u2 t2) = true) by (apply truthy_str_true; now apply place_ne). rewrite TM.
        assert (IM : In (u2, t2, BCls "PathItem") places) by (apply R2; exists ts2, "PathItem", p, d, kids, ref; exact (conj W (conj IP (conj L (conj CU2 (conj NJ eq_refl)))))).
        eapply TR_weaken; [|apply (IH ((u1, pointer ts1) :: seen) u2 t2 IM)]; [auto| | |cbn [length]; lia].
        + constructor; [|exact ND]. intros I. assert (EX' : existsb (fun l => String.eqb (fst l) u1 && String.eqb (snd l) (pointer ts1)) seen = true).
          { apply existsb_exists. exists (u1, pointer ts1). split; [exact I|]. cbn [fst snd]. now rewrite !String.eqb_refl. } congruence.
        + intros l [<-|I]; [exact (locs_in _ _ _ IN)|exact (IL _ I)].
      - assert (M : mem "$ref" d = false) by (unfold mem; now rewrite L). assert (OA : oattr v30_table (OObj "PathItem" p (JDict d) kids) "ref" = Ok (OPrim JNull)) by (cbn; rewrite M; reflexivity).
        unfold normalized. rewrite OA. cbn [bind truthy]. exact HW.
    Qed.
    Lemma merge_step Y os P k : length locs < merge_fuel -> refs_closed30 u Y places -> TR P k -> (forall x, In x os -> exists ts, within Y ts x) -> TR P (fold_right (merge_obj path2url abspath app_url merge_fuel "3.0.0" u) k os).
    Proof.
      intros MF RC H. induction os as [|x os IH]; intros WI; [exact H|]. cbn [fold_right]. assert (HK := IH (fun y I => WI y (or_intror I))). set (k' := fold_right _ k os) in *. unfold merge_obj.
      destruct x as [j|c p s kids|b p es|b p es]; try exact HK. destruct (String.eqb_spec c "PathItem") as [->|]; [|exact HK].
      destruct (WI _ (or_introl eq_refl)) as (ts & W). change (table_of "3.0.0") with v30_table.
      destruct (ref_of Y ts _ p s kids RC W ltac:(cbn; auto)) as [(N & _)|(d & ref & u1 & ts1 & _ & _ & _ & N & _ & CU1 & PL)]; rewrite N; [exact HK|].
      assert (TM : truthy_str (place u1 ts1) = true) by (apply truthy_str_true; now apply place_ne). rewrite TM.
      apply chain_step; [exact HK|exact (PL _ eq_refl)|constructor|intros l []|cbn [length]; lia].
    Qed.
    Lemma normal_step os : (forall x, In x os -> exists ts, within X ts x) -> normalize_all "3.0.0" u os = Ok tt.
    Proof.
      intros H. assert (RC := original_closed _ _ _ SO). unfold normalize_all. induction os as [|o1 os IH]; [reflexivity|]. cbn [foldM].
      assert (E : (match o1 with OObj c0 _ _ _ => if str_in c0 (normalized_classes "3.0.0") then x <- normalized (table_of "3.0.0") u o1 ;; Ok tt else Ok tt | _ => Ok tt end) = Ok tt).
      { destruct o1 as [jx|c1 p1 s1 k1|b1 p1 es|b1 p1 es]; try reflexivity. destruct (str_in c1 (normalized_classes "3.0.0")) eqn:SI; [|reflexivity].
        assert (I1 : In c1 (referring_classes "3.0.0")) by (unfold str_in in SI; apply existsb_exists in SI as (y & I & EQ); apply String.eqb_eq in EQ as ->; exact I).
        destruct (H _ (or_introl eq_refl)) as (ts & W). change (table_of "3.0.0") with v30_table. destruct (ref_of X ts c1 p1 s1 k1 RC W I1) as [(N & _)|(d & ref & u1 & ts1 & _ & _ & _ & N & _)]; now rewrite N. }
      rewrite E. cbn [bind]. apply IH. intros x I. apply H. now right.
    Qed.
    Lemma looked_task ts cx q s kids t b x : within X ts (OObj cx q s kids) -> In t (targets_of "3.0.0" cx) -> looked_at "3.0.0" (OObj cx q s kids) cx t b x -> task_ok b x.
    Proof.
      intros W IT LA. unfold task_ok. destruct LA as [(jx & ->)|[(ET & ->)|((v & p & b' & CX & EB) & (n0 & ET) & ks & WK & DS & _)]].
      - left. discriminate.
      - right. rewrite ET in IT. destruct (self30 _ _ IT) as (-> & ->). exists ts, "PathItem", q, s, kids. split; [reflexivity|]. split; [exact W|]. split; [cbn; auto|reflexivity].
      - assert (SL := target30 _ _ IT). assert (SB : slot_builder b = true) by (destruct ET as [-> |[-> | ->]]; exact SL). clear SL.
        assert (TR : forall c1 p1 s1 k1, x = OObj c1 p1 s1 k1 -> typed (table_of "3.0.0") b (OObj c1 p1 s1 k1)).
        { intros c1 p1 s1 k1 ->. assert (TX := construct_typed _ _ _ _ _ _ (le_n _) CX). destruct EB as [->| ->]; [exact TX|now inversion TX]. }
        assert (TB : forall c3 c1 p1 s1 k1, typed (table_of "3.0.0") (BCls c3) (OObj c1 p1 s1 k1) -> c1 = c3) by (intros c3 c1 p1 s1 k1 H3; now inversion H3).
        destruct b as [| | | |r b2|]; try discriminate SB.
        assert (ER : r = "Reference") by (destruct b2; try discriminate SB; [apply andb_prop in SB as (SB & _)|]; now apply String.eqb_eq). subst r.
        assert (CX1 : forall c1 p1 s1 k1, x = OObj c1 p1 s1 k1 -> c1 = "Reference" \/ c1 <> "PathItem").
        { intros c1 p1 s1 k1 E. assert (TX := TR _ _ _ _ E). inversion TX as [| | | | | |]; subst.
          all: try (left; eapply TB; eassumption). all: try (right; destruct b2 as [c2| | | | |]; try discriminate SB; [|match goal with H : typed _ (BMapOf _) _ |- _ => inversion H end]).
          match goal with H : typed _ (BCls _) _ |- _ => apply TB in H; subst end. intros ->. vm_compute in SB. discriminate SB. }
        destruct x as [jx|c1 p1 s1 k1|b1 p1 es|b1 p1 es]; [left; discriminate| |left; discriminate|left; discriminate].
        destruct (string_dec c1 "Reference") as [->|NC]; [right|left; intros c2 p2 s2 k2 E; injection E as <- _ _ _; destruct (CX1 _ _ _ _ eq_refl); [contradiction|auto]].
        exists (ts ++ ks)%list, "Reference", p1, s1, k1. split; [reflexivity|]. split; [eapply within_app; eauto|]. split; [cbn; auto|]. cbn [expected_at String.eqb Ascii.eqb Bool.eqb].
        exists ts, ks, (OObj cx q s kids), b2. auto.
    Qed.
    Lemma TR_cache0 P k : TR P k -> TR P (Cache o u jp "3.0.0" k).
    Proof.
      intros H. assert (E : rewrite_sobj [] o = o) by (unfold rewrite_sobj, o; cbn [so_obj so_version so_apis]; now rewrite (original_nothing _ _ _ SO)). rewrite <- E at 1. apply TR_cache; [apply good_nil|exact H].
    Qed.
    Lemma upgrade_ok jref a : length locs < merge_fuel -> split jref = Ok (u, jp) -> Inv Q a -> left_ a <= n ->
      exists a' w, run ask (upgrade300 path2url abspath app_url merge_fuel from20 o jref) a = (a', Ok (rewrite_sobj w o, [])) /\ full w /\ Inv Q a' /\ grow a a' /\ forall l, Goal l -> cov a' l.
    Proof.
      intros MF S I L. destruct (original_built _ _ _ SO) as (CU & c & q & s & kids & j & base & b0 & EX & WF & CX0 & CX & NB & UN & NM).
      destruct (tasks_total "3.0.0" (or_intror eq_refl) j c (Some base) X WF CX UN NM) as (vis & l & TV & AT & VW & TL).
      assert (TRU : TR (fun _ => False) (upgrade300 path2url abspath app_url merge_fuel from20 o jref)).
      2:{ exact (TRU a I L (fun l F => match F with end)). }
      unfold upgrade300. rewrite S. change (so_version o) with "3.0.0". cbn [String.eqb Ascii.eqb Bool.eqb]. unfold finish30. change (so_version o) with "3.0.0". cbn [String.eqb Ascii.eqb Bool.eqb].
      unfold visited. change (so_obj o) with X. change (table_of "3.0.0") with v30_table in TV. rewrite TV. rewrite (normal_step _ VW). apply TR_cache0, TR_routes. rewrite (flat_tasks _ _ _ _ _ _ _ AT).
      assert (TASK : forall qs c1 p1 d k1 ref, within X qs (OObj c1 p1 (JDict d) k1) -> In c1 (referring_classes "3.0.0") -> lookup "$ref" d = Some (JStr ref) -> (exists b, expected_at v30_table X qs c1 b) ->
        exists b, In (b, OObj c1 p1 (JDict d) k1) l).
      { intros qs c1 p1 d k1 ref W IC LR (b & EXP). destruct (original_closed _ _ _ SO) as (R1 & _). destruct (R1 qs c1 p1 _ k1 W IC) as (d' & E & D). injection E as <-. rewrite LR in D. destruct D as (ref' & u' & ts' & E & NR & _). injection E as <-.
        assert (NC : c <> "Reference").
        { intros ->. assert (TY := construct_typed _ _ _ _ _ _ (le_n _) CX). rewrite EX in TY. inversion TY as [|? cd ? ? ? LC K| | | | |]; subst. vm_compute in LC. injection LC as <-.
          inversion W as [|? ? ? ? k0 y ? ? LK W'| |]; subst; [|apply TablesFacts.lookup_In in LK; destruct (K _ _ LK) as (ch & [] & _)].
          cbn [expected_at String.eqb Ascii.eqb Bool.eqb] in EXP. destruct EXP as (us & ks & ow & b' & E0 & _ & DS & _). symmetry in E0. apply app_eq_nil in E0 as (_ & ->). inversion DS. }
        destruct (document_task "3.0.0" j c (Some base) X vis l qs c1 p1 d k1 ref (or_intror eq_refl) WF CX UN NC TV AT W IC LR NR) as (b2 & _ & IL). eauto. }
      apply (tasks_step l _ _ []).
      - intros b x IX. destruct (TL b x IX) as (ts & o' & cx & t & W & IT & (q' & s' & k' & ->) & LA). exact (looked_task _ _ _ _ _ _ _ _ W IT LA).
      - intros w GW HW. apply TR_cache; [exact GW|]. apply (merge_step (rewrite_refs w X)); [exact MF|exact (closed_same u X j b0 base CU CX0 NB w places GW (original_closed _ _ _ SO))| |].
        2:{ intros x IX. apply in_map_iff in IX as (y & <- & IY). destruct (VW _ IY) as (ts & W). exists ts. now apply rewrite_within. }
        apply TR_done.
        + split; [exact GW|]. intros qs c1 p1 d k1 ref W IC LR EXP. destruct (TASK _ _ _ _ _ _ W IC LR EXP) as (b & IL). apply (HW (OObj c1 p1 (JDict d) k1)) with (c := c1) (p := p1) (d := d) (kids := k1) (ref := ref); [|reflexivity|exact IC|exact LR].
          right. apply in_map_iff. exists (b, OObj c1 p1 (JDict d) k1). auto.
        + intros l0 (u' & ts & b & RF & ->). right. destruct RF as (qs & c1 & p1 & d & k1 & ref & W & IC & LR & CU' & NJ & EXP). destruct (TASK _ _ _ _ _ _ W IC LR (ex_intro _ b EXP)) as (b2 & IL).
          exists b2, (OObj c1 p1 (JDict d) k1). split; [exact IL|]. exists c1, p1, (JDict d), k1, u', ts. split; [reflexivity|]. split; [exact IC|]. split; [exact CU'|]. split; [|reflexivity].
          destruct (original_closed _ _ _ SO) as (R1 & _). destruct (R1 qs c1 p1 _ k1 W IC) as (d2 & E & D). injection E as <-. rewrite LR in D. destruct D as (ref2 & u2 & t2 & E & NE & _). injection E as <-.
          assert (OA := ref_attr "3.0.0" c1 p1 d k1 ref (or_intror eq_refl) IC LR). change (table_of "3.0.0") with v30_table in OA. unfold normalized. rewrite OA. cbn [bind].
          assert (T1 : truthy_str ref = true) by (destruct ref; [congruence|reflexivity]). rewrite T1. exact NJ.
      - apply good_nil.
      - intros y [].
    Qed.
  End Upgrade.
  Hypothesis MF : length locs < merge_fuel.
  Lemma inv_finish (Q : string * string -> Prop) a u jp X w : Inv (fun l => Q l \/ l = (u, jp)) a -> original u jp X -> good_ups u X w -> entry (a_store a) u jp "3.0.0" = Some (mk_sobj "3.0.0" (rewrite_refs w X) []) ->
    (forall l, (exists u' ts b, refers30 u X u' ts b /\ l = (u', pointer ts)) -> cov a l) -> Inv Q a.
  Proof.
    intros I O G EN C. split; [apply (i_good _ _ I)|apply (i_vers _ _ I)|apply (i_orig _ _ I)|apply (i_rows _ _ I)|apply (i_ent _ _ I)|apply (i_root _ _ I)|].
    intros u' p' o' u2 ts b EN' NQ RF. destruct (string_dec u' u) as [->|N]; [destruct (string_dec p' jp) as [->|N]|].
    - rewrite EN in EN'. injection EN' as <-. apply C. exists u2, ts, b. split; [|reflexivity]. cbn [so_obj] in RF. destruct (original_built _ _ _ O) as (CU & c & q & s & kids & j & base & b0 & _ & _ & CX & _ & NB & _).
      now apply (refers_same u X j b0 base CU CX NB w).
    - refine (i_done _ _ I _ _ _ _ _ _ EN' _ RF). intros [H|H]; [exact (NQ H)|congruence].
    - refine (i_done _ _ I _ _ _ _ _ _ EN' _ RF). intros [H|H]; [exact (NQ H)|congruence].
  Qed.
  Lemma migrate_ok ask n Q a u jp X jref : asks ask n -> original u jp X -> split jref = Ok (u, jp) -> Inv (fun l => Q l \/ l = (u, jp)) a -> left_ a <= n ->
    exists a' w, migrate_obj path2url abspath known3 upgrade prepare ask (mk_sobj "3.0.0" X []) jref "3.0.0" a = (a', Ok (mk_sobj "3.0.0" (rewrite_refs w X) [])) /\ full u X w /\ Inv Q a' /\ grow a a' /\
      entry (a_store a') u jp "3.0.0" = Some (mk_sobj "3.0.0" (rewrite_refs w X) []).
  Proof.
    intros AS SO S I L. set (o := mk_sobj "3.0.0" X []). set (Q' := fun l => Q l \/ l = (u, jp)) in *. assert (HQ : Q' (u, jp)) by now right.
    destruct (upgrade_ok ask n AS u jp X Q' SO HQ jref a MF S I L) as (a1 & w & E1 & F & I1 & G1 & C1). fold o in E1. set (o' := rewrite_sobj w o) in *. change (mk_sobj "3.0.0" (rewrite_refs w X) []) with o'.
    destruct (routes_inv Q' a1 u [(jp, RMap [])] I1) as (a2 & E2 & I2 & G2).
    assert (SO' : stored_ok u jp (rewrite_refs w X)) by (exists X, w; split; [exact SO|]; split; [exact (proj1 F)|reflexivity]).
    destruct (set_inv Q' a2 u jp (rewrite_refs w X) I2 SO' HQ) as (a3 & E3 & I3 & G3 & _). change (mk_sobj "3.0.0" (rewrite_refs w X) []) with o' in E3.
    assert (EN : entry (a_store a3) u jp "3.0.0" = Some o').
    { unfold set_obj in E3. destruct (store_set so_base (a_store a2) o' u jp "3.0.0") as [s'|] eqn:SS; [|discriminate E3]. injection E3 as <-. exact (set_entry_here _ _ _ _ _ _ SS). }
    assert (I4 : Inv Q a3) by (apply (inv_finish Q a3 u jp X w I3 SO (proj1 F) EN); intros l GL; apply G3, G2, C1, GL).
    destruct (original_built _ _ _ SO) as (_ & c & q & s & kids & _ & _ & _ & EX & _).
    unfold migrate_obj, migrate_traced. change (str_in "3.0.0" known3) with true. cbn [negb]. assert (SW : swagger_version o = Ok "3.0.0") by (unfold swagger_version, o; rewrite EX; reflexivity). rewrite SW. cbn [bind].
    rewrite through_30. cbn [bind]. rewrite S. cbn [bind rounds].
    assert (RD : round upgrade prepare ask u jref o jp "3.0.0" "3.0.0" a = (a3, Ok (o', jp))).
    { unfold round. change (upgrade "3.0.0") with (Some (upgrade300 path2url abspath app_url merge_fuel from20)). cbv iota. unfold bindm at 1. rewrite E1. unfold bindm at 1. rewrite E2. unfold bindm at 1, relocate at 1. rewrite (relocate_inv Q' a2 u jp I2).
      unfold bindm at 1, lift at 1. unfold bindm at 1. rewrite E3. reflexivity. }
    rewrite RD. eexists _, w. split; [reflexivity|]. split; [exact F|]. assert (G : grow a a3) by (eapply mono_trans; [exact G1|eapply mono_trans; eauto]). split; [|split].
    - destruct (is_root o'); [|exact I4]. apply (inv_same Q a3); [exact I4|reflexivity|reflexivity].
    - destruct (is_root o'); exact G.
    - destruct (is_root o'); exact EN.
  Qed.
  Lemma under_inv Q a u jp rm : Inv Q a -> jp <> "" -> exists s r, store_get_under (a_store a) u jp "" rm = (s, Ok r) /\ Inv Q (with_store a s) /\ mono "3.0.0" (a_store a) s.
  Proof.
    intros I NJ. destruct (store_get_under (a_store a) u jp "" rm) as [s r] eqn:E.
    assert (R : exists x, r = Ok x). { unfold store_get_under in E. assert (T : truthy_str jp = true) by (destruct jp; [congruence|reflexivity]). rewrite T, andb_false_r in E. destruct (lookup u (s_objs (a_store a))) as [[|]|]; injection E as _ <-; eauto. }
    destruct R as (x & ->). exists s, x. split; [reflexivity|]. assert (OP := under_op _ _ _ _ _ _ _ E).
    assert (MO : mono "3.0.0" (a_store a) s).
    { intros l C. destruct (under_covb "3.0.0" _ _ _ _ _ _ _ l (i_good _ _ I) E C) as [H|(_ & _ & H)]; [exact H|discriminate H]. }
    assert (GO : good s) by (rewrite OP; apply run_op_good, (i_good _ _ I)).
    assert (RO : s_routes s = s_routes (a_store a)).
    { unfold store_get_under in E. destruct (rm && negb (truthy_str jp)); [discriminate E|]. destruct (lookup u (s_objs (a_store a))) as [[|]|]; try (injection E as <- _; reflexivity). destruct rm; injection E as <- _; reflexivity. }
    assert (EN : forall u' p', entry s u' p' "3.0.0" = entry (a_store a) u' p' "3.0.0").
    { intros u' p'. rewrite OP. destruct rm.
      - rewrite entry_remove by exact (i_good _ _ I). destruct (truthy_str jp && String.eqb u u' && startswith jp p'); reflexivity.
      - rewrite (objs_entry _ _ _ _ _ (entry_other so_base (a_store a) (UnderOp u jp "" false) eq_refl)). reflexivity. }
    split; [|exact MO]. split; cbn [with_store a_store a_original].
    - exact GO.
    - rewrite (under_versions _ _ _ _ _ _ _ E). apply (i_vers _ _ I).
    - apply (i_orig _ _ I).
    - rewrite RO. apply (i_rows _ _ I).
    - intros u' p' v' o' H. apply (i_ent _ _ I). exact (under_entry _ _ _ _ _ _ _ _ _ _ _ (i_good _ _ I) E H).
    - rewrite EN. apply (i_root _ _ I).
    - intros u' p' o' u2 ts b H NQ RF. rewrite EN in H. apply MO. exact (i_done _ _ I _ _ _ _ _ _ H NQ RF).
  Qed.
  Lemma load_ok (Q : string * string -> Prop) a u ts b rm : Inv Q a -> In (u, ts, b) places -> u <> url ->
    exists a' X, load_obj path2url abspath fetch (place u ts) (Some ("3.0.0", b)) rm a = (a', Ok (mk_sobj "3.0.0" X [])) /\ original u (pointer ts) X /\ object_at X [] b /\ Inv (fun l => Q l \/ l = (u, pointer ts)) a' /\ grow a a' /\ cov a' (u, pointer ts).
  Proof.
    intros I IN NE. destruct (c3_places _ _ _ _ CW u ts b IN) as (CU & [(E & _)|(_ & X & P & _)]); [contradiction|].
    assert (SO : original u (pointer ts) X) by (right; split; [exact NE|]; exists ts, b; auto). assert (P' := P). destruct P' as (d & F & DN & WF & C & _). destruct (original_built _ _ _ SO) as (_ & c & q & s0 & kids & _ & _ & _ & EX & _).
    assert (AX : object_at X [] b).
    { destruct (c3_prefix _ _ _ _ CW u ts b ts b X IN IN NE) as (rest & ER & OA); [apply prefix_startswith, prefix_self|exact P|].
      assert (rest = []) by (apply (app_inv_head ts); now rewrite app_nil_r). subst rest. exact OA. }
    assert (DV : doc_version (JDict d) = Ok None) by (apply doc_version_none; exact DN).
    assert (NC : cached_for a u (pointer ts) None = Ok None). { unfold cached_for. apply entries_none; [exact (i_good _ _ I)|]. intros p. destruct (entry (a_store a) u p "") as [o|] eqn:EN; [|reflexivity]. destruct (i_ent _ _ I _ _ _ _ EN) as (H & _). discriminate H. }
    rewrite (AppFacts2.load_fresh path2url abspath fetch (place u ts) (Some ("3.0.0", b)) rm a (JDict d) None u (pointer ts) F DV (split_place _ _ u ts CU) (or_introl NC)). unfold after_under. cbn [version_key].
    destruct (under_inv Q a u (pointer ts) rm I) as (s & r & EU & IU & MU); [discriminate|]. rewrite EU. cbv zeta. unfold parse. change (table_of "3.0.0") with v30_table. rewrite C. cbn [bind]. rewrite EX. cbn [so_truthy so_obj truthy_obj]. rewrite <- EX.
    set (Q' := fun l => Q l \/ l = (u, pointer ts)). assert (IU' : Inv Q' (with_store a s)) by (apply (inv_weaken Q); [intros l H; now left|exact IU]).
    destruct (set_inv Q' (with_store a s) u (pointer ts) X IU' (original_stored _ _ _ SO) (or_intror eq_refl)) as (a1 & E1 & I1 & G1 & C1). unfold set_obj in E1. cbn [with_store a_store] in E1.
    destruct (store_set so_base s (mk_sobj "3.0.0" X []) u (pointer ts) "3.0.0") as [s1|] eqn:SS; [|discriminate E1]. injection E1 as <-. eexists _, X. split; [reflexivity|]. split; [exact SO|]. split; [exact AX|]. split; [|split].
    - eapply (inv_same Q' _ _ I1); [reflexivity|]. cbn [with_store a_original]. destruct (is_root (mk_sobj "3.0.0" X [])); [symmetry; apply (i_orig _ _ I)|reflexivity].
    - cbn [a_store]. eapply mono_trans; [exact MU|exact G1].
    - exact C1.
  Qed.
  Theorem resolve_ok fuel : forall n, n < fuel -> asks (resolving fuel) n.
  Proof.
    induction fuel as [|f IH]; intros n NF; [lia|]. intros Q a q b u ts I L QF QT QP IN EJ.
    destruct (c3_places _ _ _ _ CW _ _ b IN) as (CU & _). assert (S : split (q_jref q) = Ok (u, pointer ts)) by (rewrite EJ; now apply split_place).
    assert (NQ : q_jref q <> "") by (rewrite EJ; now apply place_ne). assert (TU := clean_true _ CU).
    destruct (covb "3.0.0" (a_store a) (u, pointer ts)) eqn:CV.
    - destruct (get_cov Q a u ts b I IN CV) as (y & G & A & _). exists a, y. split; [|split; [exact I|split; [apply mono_refl|split; [exact A|exact CV]]]].
      rewrite (resolve_cached path2url abspath app_url known3 fetch upgrade prepare f q a u (pointer ts) (pointer ts) (mk_sobj "3.0.0" y []) NQ S).
      + now rewrite TU.
      + rewrite QF, QT. reflexivity.
      + rewrite TU, QT. exact G.
      + destruct A as (c & p & s & kids & -> & _). reflexivity.
    - assert (NU2 : u <> url) by (intros ->; rewrite (root_cov Q a ts I) in CV; discriminate CV).
      destruct (load_ok Q a u ts b (q_remove q) I IN NU2) as (a1 & X & E1 & SO & AX & I1 & G1 & C1).
      assert (LT : left_ a1 < left_ a) by exact (uncov_lt "3.0.0" locs _ _ (u, pointer ts) G1 (locs_in _ _ _ IN) CV C1).
      destruct n as [|n]; [lia|]. destruct (migrate_ok (resolving f) n Q a1 u (pointer ts) X (place u ts) (IH n ltac:(lia)) SO (split_place path2url abspath u ts CU) I1 ltac:(lia)) as (a2 & w & E2 & F2 & I2 & G2 & _).
      assert (C2 : cov a2 (u, pointer ts)) by (apply G2, C1). destruct (original_built _ _ _ SO) as (_ & c & p & s & kids & j & base & b0 & EX & WF & CX & _ & NB & _).
      exists a2, (rewrite_refs w X). split; [|split; [exact I2|split; [eapply mono_trans; eauto|split; [|exact C2]]]].
      + cbn [resolve_obj]. destruct (q_jref q) as [|c0 s0] eqn:EQ; [congruence|]. cbn [truthy_str negb]. fold (target_version q). rewrite <- EQ in *. unfold bindm at 1, lift at 1. rewrite S. rewrite TU.
        rewrite QF, QT. cbn [String.eqb Ascii.eqb Bool.eqb]. unfold bindm at 1, ret at 1. unfold bindm at 1, get_obj at 1. rewrite (covb_get _ _ _ _ CV). cbn [not_none]. unfold bindm at 1, ret at 1.
        unfold bindm at 1, get_until at 1. assert (UT : store_get_until so_truthy so_resolve (a_store a) u (pointer ts) "3.0.0" (Some "3.0.0") = Ok None).
        { unfold store_get_until. rewrite (i_vers _ _ I). change (index_of "3.0.0" known3) with (@Ok nat 2). cbn [rmap bind truthy_str]. change (skipn 3 (firstn 3 known3)) with (@nil string). cbn [until_chain bind rev List.app until_seek]. rewrite (covb_get _ _ _ _ CV). reflexivity. }
        rewrite UT. unfold bindm at 1, bindm at 1. unfold get_original at 1. rewrite (i_orig _ _ I). cbn [String.eqb Ascii.eqb Bool.eqb]. unfold bindm at 1. rewrite QP, EJ, E1. unfold ret at 1. unfold bindm at 1. rewrite E2.
        assert (TY : so_truthy (mk_sobj "3.0.0" (rewrite_refs w X) []) = true) by (rewrite EX, rewrite_obj; reflexivity). unfold bindm at 1. rewrite TY. unfold lift at 1. unfold bindm at 1, relocate at 1. rewrite (relocate_inv Q a2 u (pointer ts) I2). rewrite EX, rewrite_obj. reflexivity.
      + destruct AX as (c1 & q1 & s1 & k1 & W & PI). assert (EX1 : X = OObj c1 q1 s1 k1) by now inversion W. rewrite EX1 at 1. rewrite rewrite_obj. do 4 eexists. split; [reflexivity|]. intros EB. split; [exact (PI EB)|].
        exists (rewrite_refs w X), []. split; [exact (closed_same u X j b0 base CU CX NB w places (proj1 F2) (original_closed _ _ _ SO))|]. rewrite EX1. rewrite rewrite_obj. constructor.
  Qed.

  Notation oroot := (mk_sobj "3.0.0" root []).
  Notation opened := (mk_app (mk_store [(url, [("#", [("3.0.0", oroot)])])] [] known3) "3.0.0" None [EParse url "#"]).
  Lemma load_root : load_obj path2url abspath fetch url None false (fresh_app known3) = (opened, Ok oroot).
  Proof.
    assert (DV : doc_version (JDict d0) = Ok (Some (JStr "3.0.0"))) by (apply doc_version_declares; exact DE).
    rewrite (AppFacts2.load_fresh path2url abspath fetch url None false (fresh_app known3) (JDict d0) (Some (JStr "3.0.0")) url "#" FE DV SU (or_introl eq_refl)). unfold after_under. cbn [version_key].
    change (store_get_under (a_store (fresh_app known3)) url "#" "3.0.0" false) with (new_store known3 : store sobj, @Ok (option (list (string * sobj))) None). cbv zeta. unfold parse. cbn [String.eqb Ascii.eqb Bool.eqb overrides]. rewrite CO. cbn [bind].
    destruct (construct_cls_obj _ _ _ _ _ CO) as (kids & ->). reflexivity.
  Qed.
  Lemma opened_inv : Inv (fun l => False \/ l = (url, "#")) opened.
  Proof.
    destruct (construct_cls_obj _ _ _ _ _ CO) as (kids & ER). assert (OR : original url "#" root) by (left; auto).
    assert (EN : forall u p v o, entry (a_store opened) u p v = Some o -> u = url /\ p = "#" /\ v = "3.0.0" /\ o = oroot).
    { intros u p v o. unfold entry. cbn [a_store s_objs lookup]. destruct (String.eqb_spec u url) as [->|]; [|discriminate]. cbn [lookup]. destruct (String.eqb_spec p "#") as [->|]; [|discriminate]. cbn [lookup]. destruct (String.eqb_spec v "3.0.0") as [->|]; [|discriminate]. intros [= <-]. auto. }
    split.
    - assert (G := run_ops_good so_base known3 [SetOp oroot url "#" "3.0.0"]). unfold run_ops in G. cbn [fold_left run_op] in G. unfold store_set in G. assert (B : so_base oroot = true) by (rewrite ER; reflexivity). rewrite B in G. exact G.
    - reflexivity.
    - reflexivity.
    - discriminate.
    - intros u p v o E. destruct (EN _ _ _ _ E) as (-> & -> & -> & ->). split; [reflexivity|]. split; [reflexivity|]. split; [reflexivity|]. exact (original_stored _ _ _ OR).
    - exists oroot. unfold entry. cbn [a_store s_objs lookup]. rewrite String.eqb_refl. reflexivity.
    - intros u p o u' ts b E NQ. exfalso. apply NQ. right. destruct (EN _ _ _ _ E) as (-> & -> & _). reflexivity.
  Qed.
  Theorem opens fuel : length locs < fuel -> exists a w, open_document path2url abspath app_url known3 fetch upgrade prepare "3.0.0" fuel url (fresh_app known3) = (a, Ok (mk_sobj "3.0.0" (rewrite_refs w root) [])) /\
    full url root w /\ Inv (fun _ => False) a /\ entry (a_store a) url "#" "3.0.0" = Some (mk_sobj "3.0.0" (rewrite_refs w root) []).
  Proof.
    intros LF. unfold open_document, bindm. rewrite load_root. assert (SO : original url "#" root) by (left; auto).
    destruct (migrate_ok (resolving fuel) (length locs) (fun _ => False) opened url "#" root url (resolve_ok fuel (length locs) LF) SO SU opened_inv (uncov_le _ _ _)) as (a & w & E & F & I & _ & EN).
    exists a, w. auto.
  Qed.
  (** the references of the result *)
  Lemma opened_refs w qs c p d kids ref : full url root w -> within root qs (OObj c p (JDict d) kids) -> In c (referring_classes "3.0.0") -> lookup "$ref" d = Some (JStr ref) ->
    exists u ts d' kids', clean u /\ normalize_jr (Some ref) (Some url) = Ok (Some (place u ts)) /\ within (rewrite_refs w root) qs (OObj c p (JDict d') kids') /\ lookup "$ref" d' = Some (JStr (absolute ref u ts)).
  Proof.
    intros (G & FW) W IC L. assert (NE : ref <> "") by (destruct (c3_root _ _ _ _ CW) as (R1 & _); destruct (R1 _ _ _ _ _ W IC) as (d2 & E & D); injection E as <-; rewrite L in D; destruct D as (r2 & _ & _ & E & NE & _); congruence).
    assert (EXP : exists b, expected_at v30_table root qs c b).
    { destruct (tasks_total "3.0.0" (or_intror eq_refl) (JDict d0) "OpenApi" (Some url) root WJ CO UN0 NM0) as (vis & l & TV & AT & VW & TL).
      destruct (document_task "3.0.0" (JDict d0) "OpenApi" (Some url) root vis l qs c p d kids ref (or_intror eq_refl) WJ CO UN0 ltac:(discriminate) TV AT W IC L NE) as (b & EX & _). eauto. }
    destruct (FW _ _ _ _ _ _ W IC L EXP) as (q & r & -> & I). destruct (rewritten_at url root (JDict d0) (BCls "OpenApi") url CO NU w _ _ _ _ _ G W) as (d' & kids' & E & _ & H).
    destruct (H q r ref eq_refl I L) as (u & ts & C & N & L'). exists u, ts, d', kids'. split; [exact C|]. split; [exact N|]. split; [rewrite <- E; now apply rewrite_within|exact L'].
  Qed.
  (** a part of an object, and the part with its references rewritten *)
  Lemma part_value X j b base w rest c q s kids : wf_json j -> construct v30_table j b (Some base) [] = Ok X -> within X rest (OObj c q s kids) ->
    exists c' q' s' kids', rewrite_refs w (OObj c q s kids) = OObj c' q' s' kids' /\ jget j rest s /\ same_but_refs s s'.
  Proof.
    intros WF C W. destruct (within_resolve v30_table rest (repo_wd _ rt_v30) j b (Some base) X _ C W (not_prim _ _ _ _)) as (_ & _ & j' & b' & J & C').
    assert (C2 := as_class _ _ _ _ _ _ _ _ C'). assert (ES : s = j') by (destruct (construct_cls_obj _ _ _ _ _ C2) as (k' & E); now injection E). subst j'.
    assert (WS : wf_json s).
    { clear -J WF. induction J as [j|d k v ts r L J IH|l i t v ts r IT N J IH]; [exact WF| |]; apply IH; eapply wf_part; [exact WF|exists k; now apply PyValFacts.lookup_In|exact WF|exact (nth_error_In _ _ N)]. }
    destruct (construct_rewrite v30_table w WD30 (no_ref_child v30_table no_ref30) s WS _ _ _ C2) as (_ & SB & _). rewrite rewrite_obj in SB |- *. do 4 eexists. split; [reflexivity|]. split; [exact J|].
    destruct s as [| | | | | |d]; try (destruct q; constructor). rewrite graft_kids_entries, own_ref_dict in SB |- *. exact SB.
  Qed.
  Theorem answered a f u p o u' ts b rm : Inv (fun _ => False) a -> entry (a_store a) u p "3.0.0" = Some o -> refers30 u (so_obj o) u' ts b ->
    exists c q s kids j, 
      resolving (S f) (mk_query (place u' ts) "3.0.0" (Some ("3.0.0", b)) (Some "3.0.0") rm) a = (a, Ok (mk_sobj "3.0.0" (OObj c q s kids) [], (u' ++ pointer ts)%string)) /\ same_but_refs j s /\
      ((u' = url /\ jget (JDict d0) ts j) \/ (u' <> url /\ exists b1 ts1 rest j1, In (u', ts1, b1) places /\ ts = (ts1 ++ rest)%list /\ fetch (place u' ts1) = Ok j1 /\ jget j1 rest j)).
  Proof.
    intros I EN RF. destruct (i_ent _ _ I _ _ _ _ EN) as (_ & _ & _ & SO). assert (IN : In (u', ts, b) places) by (destruct (stored_closed _ _ _ SO) as (_ & R2); exact (R2 _ _ _ RF)).
    destruct (c3_places _ _ _ _ CW _ _ b IN) as (CU & _). assert (CV := i_done _ _ I _ _ _ _ _ _ EN (fun F => F) RF).
    destruct (get_cov _ a u' ts b I IN CV) as (y & G & A & ts1 & rest & X & w & x & ET & OX & GW & W & EY). assert (TU := clean_true _ CU).
    assert (EX : exists c0 q0 s0 k0, x = OObj c0 q0 s0 k0) by (destruct A as (c & q & s & kids & EA & _); rewrite EY in EA; destruct x; rewrite ?rewrite_list, ?rewrite_map in EA; try discriminate EA; eauto). destruct EX as (c0 & q0 & s0 & k0 & ->).
    assert (PV : forall j b0 base, wf_json j -> construct v30_table j b0 (Some base) [] = Ok X -> exists c q s kids, y = OObj c q s kids /\ jget j rest s0 /\ same_but_refs s0 s).
    { intros j b0 base WF C. rewrite EY. exact (part_value X j b0 base w rest c0 q0 s0 k0 WF C W). }
    assert (RES : forall c q s kids, y = OObj c q s kids -> resolving (S f) (mk_query (place u' ts) "3.0.0" (Some ("3.0.0", b)) (Some "3.0.0") rm) a = (a, Ok (mk_sobj "3.0.0" (OObj c q s kids) [], (u' ++ pointer ts)%string))).
    { intros c q s kids ->. rewrite (resolve_cached path2url abspath app_url known3 fetch upgrade prepare f (mk_query (place u' ts) "3.0.0" (Some ("3.0.0", b)) (Some "3.0.0") rm) a u' (pointer ts) (pointer ts) (mk_sobj "3.0.0" (OObj c q s kids) []) (place_ne _ _ CU) (split_place _ _ _ _ CU) eq_refl); [now rewrite TU| |reflexivity].
      rewrite TU. exact G. }
    destruct OX as [(-> & EP & ->)|(NE & t1 & b1 & I1 & EP & d & F & _ & WF & C & _)].
    - destruct (PV _ _ _ WJ CO) as (c & q & s & kids & EYY & J & SB). exists c, q, s, kids, s0. split; [exact (RES _ _ _ _ EYY)|]. split; [exact SB|]. left. split; [reflexivity|].
      change "#" with (pointer []) in EP. apply pointer_inj in EP. subst ts1. cbn [List.app] in ET. subst ts. exact J.
    - destruct (PV _ _ _ WF C) as (c & q & s & kids & EYY & J & SB). exists c, q, s, kids, s0. split; [exact (RES _ _ _ _ EYY)|]. split; [exact SB|]. right. split; [exact NE|].
      apply pointer_inj in EP. subst t1. exists b1, ts1, rest, (JDict d). auto.
  Qed.
End Closed.
