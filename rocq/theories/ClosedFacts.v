(** Sets of documents that refer to each other open. *)
From Coq Require Import String Ascii List Bool Arith Lia.
From Verif Require Import PyStr PyStrFacts PyVal PyValFacts Jp JpFacts UrlLib Urls SpecUrl Obj ObjFacts Classes_v2_0 SpecJson SpecObj SpecScan TablesFacts DumpFacts ResolveFacts Scan TraverseFacts
  PropertiesObjAux PropertiesScanAux Store SpecStore StoreFacts App SpecApp AppFacts AppFacts2 AppFacts4 AppFacts5 Main SpecDoc SpecRefs SpecLocal SpecOpen WfFacts RelocFacts RefFacts OpenFacts OverrideFacts MainFacts RewriteFacts2 TaskFacts QuietFacts LocalFacts LocalFacts2 SpecTables SpecClosed.
Import ListNotations.
Open Scope string_scope. Open Scope nat_scope.
Notation within := SpecObj.within (only parsing).

Lemma tail_split ts : tl (jp_split (tail_of ts)) = ts.
Proof. destruct ts as [|t ts]; [reflexivity|]. rewrite tail_join by discriminate. apply tl_jp_split. discriminate. Qed.
Lemma tail_app a b : tail_of (a ++ b) = (tail_of a ++ tail_of b)%string.
Proof. induction a as [|t a IH]; [reflexivity|]. cbn [List.app]. rewrite !tail_cons, IH. now rewrite !sapp_assoc. Qed.
Lemma drop_pointer a b : sdrop (String.length (pointer a)) (pointer (a ++ b)) = tail_of b.
Proof. rewrite !pointer_tail, tail_app. change ("#" ++ (tail_of a ++ tail_of b))%string with (("#" ++ tail_of a) ++ tail_of b)%string. now apply sdrop_join_app. Qed.
Lemma pointer_inj a b : pointer a = pointer b -> a = b.
Proof. rewrite !pointer_tail. intros E. injection E as E. now rewrite <- (tail_split a), E, tail_split. Qed.
Lemma as_class T j b p c q s kids : construct T j b p [] = Ok (OObj c q s kids) -> construct T j (BCls c) p [] = Ok (OObj c q s kids).
Proof.
  intros C. rewrite construct_eq in C |- *. apply bind_ok in C as (k & K & C). destruct k as [v|c'|b'|b'|]; cbn [con_core] in C.
  - discriminate C.
  - assert (E : c' = c). { rewrite split_nil in C. cbn [bind] in C. destruct (lookup c' T) as [cd|]; [|discriminate C]. apply bind_ok in C as (kids' & _ & E). now injection E. }
    subst c'. exact C.
  - rewrite split_nil in C. cbn [bind] in C. destruct j; try discriminate C. apply bind_ok in C as (es & _ & E). discriminate E.
  - rewrite split_nil in C. cbn [bind] in C. destruct j; try discriminate C. apply bind_ok in C as (es & _ & E). discriminate E.
  - destruct j; discriminate C.
Qed.

(** the [Resolve] scanner as one list of tasks *)
Lemma fold_flat {X} {A} (g : A -> cont -> cont) (h : X -> cont -> cont) (ts : X -> res (list A)) os l k :
  (forall x lx k', In x os -> ts x = Ok lx -> h x k' = fold_right g k' lx) -> rmap (@concat _) (mapM ts os) = Ok l -> fold_right h k os = fold_right g k l.
Proof.
  revert l. induction os as [|x os IH]; intros l H E; cbn [mapM rmap] in E.
  - injection E as <-. reflexivity.
  - destruct (ts x) as [lx|] eqn:G; [|discriminate E]. cbn [bind] in E. destruct (mapM ts os) as [ls|] eqn:M; [|discriminate E]. cbn [bind rmap] in E. injection E as <-. cbn [concat].
    rewrite fold_right_app. cbn [fold_right]. rewrite <- (IH (concat ls) (fun y ly k' I => H y ly k' (or_intror I)) eq_refl). apply H; [now left|exact G].
Qed.
Lemma flat_tasks path2url abspath V url os l k : all_tasks V os = Ok l ->
  fold_right (resolve_obj_refs path2url abspath V url) k os = fold_right (fun bx => resolve_with path2url abspath V url (fst bx) (snd bx)) k l.
Proof.
  intros E. eapply fold_flat; [|exact E]. intros o lo k' _ T. unfold tasks in T. unfold resolve_obj_refs. destruct o as [j|c p s kids|b p es|b p es]; try (injection T as <-; reflexivity).
  eapply fold_flat; [|exact T]. intros t lt k2 _ P. cbv beta in P. unfold resolve_target. destruct (pick (table_of V) (OObj c p s kids) t) as [[os' b]|]; [|discriminate P]. cbn [rmap fst snd] in P. injection P as <-.
  induction os' as [|x os' IH]; [reflexivity|]. cbn [map fold_right fst snd]. now rewrite IH.
Qed.

(** the routes of a url to 3.0.0 *)
Definition row30 (a : app) (u : string) : routes :=
  match lookup u (s_routes (a_store a)) with Some ur => match lookup "3.0.0" ur with Some m => m | None => [] end | None => [] end.

Section Closed.
  Variables (path2url abspath : string -> string) (app_url : string) (fetch : string -> res json) (merge_fuel : nat)
    (from12 : sobj -> res sobj) (from20 : sobj -> string -> string -> override -> res (sobj * routes)).
  Variables (url : string) (d0 : list (string * json)) (root : obj) (places : list (string * builder)).
  Notation split := (split path2url abspath).
  Notation upgrade := (modules path2url abspath app_url merge_fuel from12 from20).
  Notation prepare := (fun (o : sobj) (_ : string) => Ok o).
  Notation resolving := (resolve_obj path2url abspath app_url known3 fetch upgrade prepare).
  Notation piece := (piece fetch).
  Hypothesis CW : closed_world path2url abspath fetch url root places.
  Hypothesis SU : split url = Ok (url, "#").
  Hypothesis NU : url <> "".
  Hypothesis FE : fetch url = Ok (JDict d0).
  Hypothesis DE : SpecApp.declares d0 (JStr "2.0").
  Hypothesis WJ : wf_json (JDict d0).
  Hypothesis CO : construct v20_table (JDict d0) (BCls "Swagger") (Some url) [] = Ok root.
  Notation oroot := (mk_sobj "2.0" root []).
  (** what is there at 3.0.0, objects and routes: nothing changes there *)
  Variables (there : string -> string -> option sobj) (routed : string -> routes).

  (** where the places are *)
  Definition locs : list (string * string) := flat_map (fun nb => match split (fst nb) with Ok l => [l] | Err _ => [] end) places.
  Lemma locs_in n b l : In (n, b) places -> split n = Ok l -> In l locs.
  Proof. intros I S. apply in_flat_map. exists (n, b). split; [exact I|]. cbn [fst]. rewrite S. now left. Qed.
  Lemma locs_length : length locs <= length places.
  Proof.
    unfold locs. generalize places as pl. clear. intros pl. induction pl as [|nb l IH]; [auto|]. cbn [flat_map length]. rewrite app_length. destruct (split (fst nb)); cbn [length]; lia.
  Qed.

  (** what is stored at a location *)
  Definition stored_ok (u p : string) (X : obj) : Prop :=
    (u = url /\ p = "#" /\ X = root) \/ (u <> url /\ exists n b ts, In (n, b) places /\ split n = Ok (u, p) /\ p = pointer ts /\ piece n b X).
  Lemma piece_fun n b X X' : piece n b X -> piece n b X' -> X = X'.
  Proof. intros (d & F & _ & _ & C) (d' & F' & _ & _ & C'). rewrite F in F'. injection F' as <-. rewrite C in C'. now injection C'. Qed.
  Lemma stored_closed u p X : stored_ok u p X -> refs_closed u X places.
  Proof.
    intros [(-> & -> & ->)|(NE & n & b & ts & I & S & E & P)]; [exact (cw_root _ _ _ _ _ _ CW)|].
    destruct (cw_places _ _ _ _ _ _ CW n b I) as (u' & ts' & S' & _ & [(E' & _)|(_ & X' & P' & RC)]); rewrite S in S'; injection S' as <- _; [contradiction|].
    now rewrite (piece_fun _ _ _ _ P P').
  Qed.
  Lemma stored_built u p X : stored_ok u p X -> exists c q s kids j base, X = OObj c q s kids /\ wf_json j /\ construct v20_table j (BCls c) base [] = Ok X /\ u <> "".
  Proof.
    intros [(-> & -> & ->)|(NE & n & b & ts & I & S & E & P)].
    - destruct (construct_cls_obj _ _ _ _ _ CO) as (kids & ER). exists "Swagger", (Some url), (JDict d0), kids, (JDict d0), (Some url). auto.
    - destruct (cw_prefix _ _ _ _ _ _ CW n b n b u ts ts X I I NE) as (rest & ER & c & q & s & kids & W & _); [now rewrite <- E|now rewrite <- E| |exact P|].
      { apply prefix_startswith. apply prefix_self. }
      assert (rest = []) by (apply (app_inv_head ts); now rewrite app_nil_r). subst rest. inversion W; subst. destruct P as (d & F & DN & WF & C).
      destruct (cw_places _ _ _ _ _ _ CW n b I) as (u' & ts' & S' & NU' & _). rewrite S in S'. injection S' as <- _.
      exists c, q, s, kids, (JDict d), (Some n). split; [reflexivity|]. split; [exact WF|]. split; [now apply as_class in C|exact NU'].
  Qed.

  (** ** the states met; [Q] are the locations whose references are being resolved *)
  Record Inv (Q : string * string -> Prop) (a : app) : Prop := {
    i_good : good (a_store a);
    i_vers : s_versions (a_store a) = known3;
    i_orig : a_original a = "2.0";
    i_rows : forall u ur, lookup u (s_routes (a_store a)) = Some ur -> keys ur = known3;
    i_ent : forall u p v o, entry (a_store a) u p v = Some o -> v = "3.0.0" \/ (v = "2.0" /\ so_version o = "2.0" /\ so_apis o = [] /\ stored_ok u p (so_obj o));
    i_there : forall u p, entry (a_store a) u p "3.0.0" = there u p;
    i_routed : forall u, row30 a u = routed u;
    i_root : entry (a_store a) url "#" "2.0" = Some oroot;
    i_done : forall u p o n b l, entry (a_store a) u p "2.0" = Some o -> ~ Q (u, p) -> refers u (so_obj o) n b -> split n = Ok l -> covb "2.0" (a_store a) l = true }.
  Notation cov a l := (covb "2.0" (a_store a) l = true).
  Notation grow a a' := (mono "2.0" (a_store a) (a_store a')).
  Notation left_ a := (uncov "2.0" locs (a_store a)).

  Lemma inv_weaken (Q Q' : string * string -> Prop) a : (forall l, Q l -> Q' l) -> Inv Q a -> Inv Q' a.
  Proof. intros H [A B C D E T R F G]. split; auto. intros u p o n b l EN NQ. apply (G u p o n b l EN). auto. Qed.
  (** the state only differs in what does not matter *)
  Lemma inv_same Q a a' : Inv Q a -> a_store a' = a_store a -> a_original a' = a_original a -> Inv Q a'.
  Proof. intros [A B C D E T R F G] ES EO. unfold row30 in *. split; unfold row30; rewrite ?ES, ?EO; auto. Qed.
  Lemma ent20 Q a u p o : Inv Q a -> entry (a_store a) u p "2.0" = Some o -> so_version o = "2.0" /\ so_apis o = [] /\ stored_ok u p (so_obj o).
  Proof. intros I E. destruct (i_ent _ _ I _ _ _ _ E) as [H|(_ & H)]; [discriminate H|exact H]. Qed.

  Lemma set_inv (Q : string * string -> Prop) a u jp X : Inv Q a -> stored_ok u jp X -> Q (u, jp) ->
    exists a', set_obj (mk_sobj "2.0" X []) u jp "2.0" a = (a', Ok tt) /\ Inv Q a' /\ grow a a' /\ cov a' (u, jp).
  Proof.
    intros I SO HQ. destruct (stored_built _ _ _ SO) as (c & q & s & kids & j & base & EX & _). assert (B : so_base (mk_sobj "2.0" X []) = true) by (rewrite EX; reflexivity).
    unfold set_obj. destruct (store_set so_base (a_store a) (mk_sobj "2.0" X []) u jp "2.0") as [s'|] eqn:SS; [|unfold store_set in SS; rewrite B in SS; discriminate SS].
    destruct (set_mono "2.0" _ _ _ _ _ _ (i_good _ _ I) SS) as (MO & GO & CV). exists (with_store a s'). split; [reflexivity|]. split; [|split; [exact MO|exact CV]].
    assert (EE : forall u' p' v' o', entry s' u' p' v' = Some o' -> (o' = mk_sobj "2.0" X [] /\ u' = u /\ p' = jp /\ v' = "2.0") \/ entry (a_store a) u' p' v' = Some o').
    { intros u' p' v' o' EN. destruct (set_as_op _ _ _ _ _ _ SS) as (-> & _). rewrite entry_set in EN by exact B. destruct (String.eqb_spec u u') as [<-|]; [|now right].
      destruct (String.eqb_spec jp p') as [<-|]; [|now right]. destruct (String.eqb_spec "2.0" v') as [<-|]; [|now right]. injection EN as <-. left. auto. }
    split; cbn [with_store a_store a_original].
    - exact GO.
    - rewrite (set_versions _ _ _ _ _ _ SS). apply (i_vers _ _ I).
    - apply (i_orig _ _ I).
    - rewrite (set_routes _ _ _ _ _ _ SS). apply (i_rows _ _ I).
    - intros u' p' v' o' EN. destruct (EE _ _ _ _ EN) as [(-> & -> & -> & ->)|EN']; [right; auto|]. exact (i_ent _ _ I _ _ _ _ EN').
    - intros u' p'. destruct (set_as_op _ _ _ _ _ _ SS) as (-> & _). rewrite entry_set by exact B. change (String.eqb "2.0" "3.0.0") with false. rewrite andb_false_r. apply (i_there _ _ I).
    - intros u'. unfold row30. cbn [with_store a_store]. rewrite (set_routes _ _ _ _ _ _ SS). apply (i_routed _ _ I).
    - destruct (set_as_op _ _ _ _ _ _ SS) as (-> & _). rewrite entry_set by exact B. destruct (String.eqb_spec u url) as [Eu|]; [|exact (i_root _ _ I)]. destruct (String.eqb_spec jp "#") as [Ej|]; [|exact (i_root _ _ I)].
      cbn [andb String.eqb Ascii.eqb Bool.eqb]. subst u jp. destruct SO as [(_ & _ & ->)|(NE & _)]; [reflexivity|contradiction].
    - intros u' p' o' n b l EN NQ RF S. destruct (EE _ _ _ _ EN) as [(-> & -> & -> & _)|EN']; [contradiction|]. apply MO. exact (i_done _ _ I _ _ _ _ _ _ EN' NQ RF S).
  Qed.
  Lemma known_ascending : ascending known3.
  Proof. repeat (constructor; [do 2 eexists; split; [vm_compute; reflexivity|]; split; [vm_compute; reflexivity|reflexivity]|]). econstructor. vm_compute. reflexivity. Qed.
  Lemma routes_inv Q a u rs : Inv Q a -> exists a', put_routes u "2.0" rs a = (a', Ok tt) /\ Inv Q a' /\ grow a a'.
  Proof.
    intros I. unfold put_routes. destruct (store_update_routes (a_store a) u "2.0" rs) as [s r] eqn:UR. destruct (routes_objs _ _ _ _ _ _ UR) as (EO & EV).
    assert (KR : r = Ok tt /\ forall u' ur, lookup u' (s_routes s) = Some ur -> keys ur = known3).
    { unfold store_update_routes in UR. rewrite (i_vers _ _ I) in UR. set (ur := match lookup u (s_routes (a_store a)) with Some ur => ur | None => _ end) in UR.
      assert (KU : keys ur = known3). { unfold ur. destruct (lookup u (s_routes (a_store a))) eqn:L; [exact (i_rows _ _ I _ _ L)|reflexivity]. }
      destruct (lookup "2.0" ur) as [m|] eqn:LM.
      2:{ exfalso. apply PyValFacts.lookup_none in LM. apply LM. change (In "2.0" (keys ur)). rewrite KU. cbn. auto. }
      injection UR as <- <-. split; [reflexivity|]. cbn [s_routes]. intros u' ur' L. rewrite ds_lookup in L. destruct (String.eqb_spec u u') as [->|]; [|exact (i_rows _ _ I _ _ L)].
      injection L as <-. rewrite keys_dict_set. unfold mem. rewrite LM. exact KU. }
    assert (RR : forall u', row30 (with_store a s) u' = row30 a u').
    { intros u'. unfold row30. cbn [with_store a_store]. unfold store_update_routes in UR. rewrite (i_vers _ _ I) in UR. set (ur := match lookup u (s_routes (a_store a)) with Some ur => ur | None => _ end) in UR.
      destruct (lookup "2.0" ur) as [m|]; injection UR as <- _; cbn [s_routes]; rewrite ds_lookup; (destruct (String.eqb_spec u u') as [->|]; [|reflexivity]).
      - rewrite ds_lookup. change (String.eqb "2.0" "3.0.0") with false. cbv iota. unfold ur. destruct (lookup u' (s_routes (a_store a))); reflexivity.
      - unfold ur. destruct (lookup u' (s_routes (a_store a))); reflexivity. }
    destruct KR as (-> & KR). exists (with_store a s). split; [reflexivity|]. split; [|intros l C; cbn [with_store a_store]; now rewrite (objs_covb _ _ _ _ EO)].
    split; cbn [with_store a_store a_original].
    - exact (objs_good _ _ EO (i_good _ _ I)).
    - rewrite EV. apply (i_vers _ _ I).
    - apply (i_orig _ _ I).
    - exact KR.
    - intros u' p v o EN. rewrite (objs_entry _ _ _ _ _ EO) in EN. exact (i_ent _ _ I _ _ _ _ EN).
    - intros u' p. rewrite (objs_entry _ _ _ _ _ EO). apply (i_there _ _ I).
    - intros u'. rewrite RR. apply (i_routed _ _ I).
    - rewrite (objs_entry _ _ _ _ _ EO). apply (i_root _ _ I).
    - intros u' p o n b l EN NQ RF S. rewrite (objs_entry _ _ _ _ _ EO) in EN. rewrite (objs_covb _ _ _ _ EO). exact (i_done _ _ I _ _ _ _ _ _ EN NQ RF S).
  Qed.
  Lemma relocate_inv Q a u jp : Inv Q a -> store_relocate (a_store a) u jp "2.0" (Some "2.0") = Ok jp.
  Proof.
    intros I. unfold store_relocate. destruct (lookup u (s_routes (a_store a))) as [ur|] eqn:L; [|reflexivity]. assert (K := i_rows _ _ I _ _ L). cbn [truthy_str].
    assert (M : mem "2.0" ur = true). { unfold mem. destruct (lookup "2.0" ur) eqn:L2; [reflexivity|]. exfalso. apply PyValFacts.lookup_none in L2. apply L2. change (In "2.0" (keys ur)). rewrite K. cbn. auto. }
    rewrite M. change (strict_version "2.0") with (@Ok ver [2; 0; 0; 2; 0]). cbn [bind]. apply relocate_loop_back; [rewrite K; exact known_ascending|reflexivity].
  Qed.

  (** *** looking up a place *)
  Definition answers (u : string) (b : builder) (y : obj) : Prop :=
    exists c p s kids, y = OObj c p s kids /\ (b = BCls "PathItem" -> c = "PathItem" /\ exists X ts, refs_closed u X places /\ within X ts y).
  Lemma get_cov Q a n b u jp : Inv Q a -> In (n, b) places -> split n = Ok (u, jp) -> cov a (u, jp) ->
    exists y, store_get so_resolve (a_store a) u jp "2.0" = Ok (Some (mk_sobj "2.0" y [])) /\ answers u b y /\
      exists ts ts1 rest X, jp = pointer ts /\ ts = (ts1 ++ rest)%list /\ stored_ok u (pointer ts1) X /\ within X rest y.
  Proof.
    intros I IN S C. destruct (cw_places _ _ _ _ _ _ CW n b IN) as (u' & ts & S' & NE & _). rewrite S in S'. injection S' as <- ->.
    unfold covb in C. cbn [fst snd] in C. unfold store_get. destruct (first_match (pointer ts) "2.0" (sub u (s_objs (a_store a)))) as [[p o]|] eqn:FM; [|discriminate C].
    destruct (first_match_some _ _ _ _ _ (good_sub _ _ (i_good _ _ I)) FM) as (PF & LK). rewrite <- entry_sub in LK.
    destruct (ent20 _ _ _ _ _ I LK) as (SV & _ & SO).
    assert (F : exists ts1 rest, p = pointer ts1 /\ ts = (ts1 ++ rest)%list /\ object_at (so_obj o) rest b).
    { destruct SO as [(-> & -> & ->)|(NU' & n1 & b1 & ts1 & I1 & S1 & -> & P1)].
      - exists [], ts. split; [reflexivity|]. split; [reflexivity|]. destruct (cw_places _ _ _ _ _ _ CW n b IN) as (u' & ts' & S' & _ & [(_ & O)|(N & _)]); rewrite S in S'; apply Ok_inj_local in S'; [|destruct N; apply (f_equal fst) in S'; cbn [fst] in S'; congruence].
        apply (f_equal snd) in S'. cbn [snd] in S'. apply pointer_inj in S'. now subst ts'.
      - destruct (cw_prefix _ _ _ _ _ _ CW n1 b1 n b u ts1 ts (so_obj o) I1 IN NU' S1 S) as (rest & E & O); [now apply prefix_startswith|exact P1|]. exists ts1, rest. auto. }
    destruct F as (ts1 & rest & -> & -> & c & q & s & kids & W & PI). rewrite drop_pointer, tail_split.
    destruct (stored_built _ _ _ SO) as (c1 & q1 & s1 & k1 & j & base & EX & WF & CX & _).
    destruct (within_resolve v20_table rest (repo_wd _ rt_v20) j (BCls c1) base (so_obj o) _ CX W) as (_ & R & _); [intros (? & [=])|].
    exists (OObj c q s kids). split; [unfold so_resolve; rewrite SV; change (table_of "2.0") with v20_table; rewrite R; reflexivity|].
    split; [exists c, q, s, kids; split; [reflexivity|]; intros EB; split; [exact (PI EB)|]; exists (so_obj o), rest; split; [exact (stored_closed _ _ _ SO)|exact W]|].
    exists (ts1 ++ rest)%list, ts1, rest, (so_obj o). auto.
  Qed.
  Lemma root_cov Q a jp ts : Inv Q a -> jp = pointer ts -> cov a (url, jp).
  Proof. intros I ->. apply covb_spec; [exact (i_good _ _ I)|]. exists "#", oroot. split; [eexists; reflexivity|exact (i_root _ _ I)]. Qed.

  (** *** a way of asking that always answers, while at most [n] places are not in the store *)
  Definition asks (ask : query -> M (sobj * string)) (n : nat) : Prop :=
    forall Q a q b u jp, Inv Q a -> left_ a <= n -> q_from q = "2.0" -> target_version q = "2.0" -> q_parser q = Some ("2.0", b) -> In (q_jref q, b) places -> split (q_jref q) = Ok (u, jp) ->
      exists a' y w, ask q a = (a', Ok (mk_sobj "2.0" y [], w)) /\ Inv Q a' /\ grow a a' /\ answers u b y /\ cov a' (u, jp).

  (** *** the upgrade of a stored object *)
  Section Upgrade.
    Variables (ask : query -> M (sobj * string)) (n : nat).
    Hypothesis AS : asks ask n.
    Variables (u jp : string) (X : obj) (Q : string * string -> Prop).
    Hypothesis SO : stored_ok u jp X.
    Hypothesis HQ : Q (u, jp).
    Let o := mk_sobj "2.0" X [].
    Let Goal (l : string * string) : Prop := exists m b, refers u X m b /\ split m = Ok l.
    Definition TR (P : string * string -> Prop) (p : prog (sobj * routes)) : Prop :=
      forall a, Inv Q a -> left_ a <= n -> (forall l, P l -> cov a l) -> exists a', run ask p a = (a', Ok (o, [])) /\ Inv Q a' /\ grow a a' /\ forall l, Goal l -> cov a' l.
    Lemma left_grow a a' : grow a a' -> left_ a <= n -> left_ a' <= n.
    Proof. intros G L. assert (H := uncov_mono "2.0" locs _ _ G). lia. Qed.
    Lemma TR_done (P : string * string -> Prop) : (forall l, Goal l -> P l) -> TR P (Done (Ok (o, []))).
    Proof. intros H a I L C. exists a. split; [reflexivity|]. split; [exact I|]. split; [apply mono_refl|]. intros l G. apply C, H, G. Qed.
    Lemma TR_cache P k : TR P k -> TR P (Cache o u jp "2.0" k).
    Proof.
      intros H a I L C. destruct (set_inv Q a u jp X I SO HQ) as (a1 & E & I1 & G1 & _). cbn [run]. unfold bindm. fold o in E. rewrite E.
      destruct (H a1 I1 (left_grow _ _ G1 L)) as (a2 & E2 & I2 & G2 & C2); [intros l Pl; apply G1, C, Pl|]. exists a2. split; [exact E2|]. split; [exact I2|]. split; [eapply mono_trans; eauto|exact C2].
    Qed.
    Lemma TR_ask (P : string * string -> Prop) q k b u' jp' : q_from q = "2.0" -> target_version q = "2.0" -> q_parser q = Some ("2.0", b) -> In (q_jref q, b) places -> split (q_jref q) = Ok (u', jp') ->
      (forall y w, answers u' b y -> TR (fun l => P l \/ l = (u', jp')) (k (mk_sobj "2.0" y [], w))) -> TR P (Ask q k).
    Proof.
      intros QF QT QP IN S H a I L C. destruct (AS Q a q b u' jp' I L QF QT QP IN S) as (a1 & y & w & E & I1 & G1 & A & CV). cbn [run]. unfold bindm. rewrite E.
      destruct (H y w A a1 I1 (left_grow _ _ G1 L)) as (a2 & E2 & I2 & G2 & C2); [intros l [Pl| ->]; [apply G1, C, Pl|exact CV]|].
      exists a2. split; [exact E2|]. split; [exact I2|]. split; [eapply mono_trans; eauto|exact C2].
    Qed.
    Lemma TR_original P k : (forall v, TR P (k v)) -> TR P (Original k).
    Proof. intros H a I L C. cbn [run]. unfold bindm, get_original. exact (H _ a I L C). Qed.
    Lemma TR_weaken (P P' : string * string -> Prop) p : (forall l, P' l -> P l) -> TR P' p -> TR P p.
    Proof. intros W H a I L C. apply (H a I L). intros l Pl. apply C, W, Pl. Qed.

    (** a referring object and what it refers to *)
    Lemma ref_of ts c p s kids : within X ts (OObj c p s kids) -> In c (referring_classes "2.0") ->
      (exists j, oattr v20_table (OObj c p s kids) "ref" = Ok (OPrim j) /\ truthy j = false /\ normalized v20_table u (OObj c p s kids) = Ok None /\ c <> "Reference") \/
      (exists ref m, oattr v20_table (OObj c p s kids) "ref" = Ok (OPrim (JStr ref)) /\ truthy_str ref = true /\ normalized v20_table u (OObj c p s kids) = Ok (Some m) /\ truthy_str m = true /\
        forall b, refers_as ts c = Some b -> In (m, b) places /\ refers u X m b).
    Proof.
      intros W IC. destruct (stored_closed _ _ _ SO) as (R1 & R2). destruct (R1 ts c p s kids W IC) as (d & -> & D). destruct (lookup "$ref" d) as [r|] eqn:L.
      - right. destruct D as (ref & m & -> & NE & NJ & NM). assert (OA := ref_attr "2.0" c p d kids ref (or_introl eq_refl) IC L). change (table_of "2.0") with v20_table in OA.
        assert (TR1 : truthy_str ref = true) by (destruct ref; [congruence|reflexivity]). exists ref, m. split; [exact OA|]. split; [exact TR1|]. split; [unfold normalized; rewrite OA; cbn [bind]; rewrite TR1; exact NJ|].
        split; [destruct m; [congruence|reflexivity]|]. intros b RA. assert (RF : refers u X m b) by (exists ts, c, p, d, kids, ref; auto). split; [exact (R2 _ _ RF)|exact RF].
      - left. assert (M : mem "$ref" d = false) by (unfold mem; now rewrite L). exists JNull. assert (OA : oattr v20_table (OObj c p (JDict d) kids) "ref" = Ok (OPrim JNull)).
        { cbn in IC. repeat (destruct IC as [<-|IC]; [try congruence; cbn; rewrite M; reflexivity|]); contradiction. }
        split; [exact OA|]. split; [reflexivity|]. split; [unfold normalized; rewrite OA; reflexivity|exact D].
    Qed.
    (** a task: a referring object with its parser, or something that is skipped *)
    Definition task_ok (b : builder) (x : obj) : Prop :=
      (exists j, x = OPrim j) \/ (exists b' p es, x = OList b' p es \/ exists es', x = OMap b' p es') \/
      (exists c p s kids, x = OObj c p s kids /\ oattr v20_table x "ref" = Err AttributeError) \/
      exists ts c p s kids, x = OObj c p s kids /\ within X ts x /\ In c (referring_classes "2.0") /\ refers_as ts c = Some b.
    Definition met (x : obj) (l : string * string) : Prop := exists m, normalized v20_table u x = Ok (Some m) /\ split m = Ok l.
    Lemma task_step b x (P : string * string -> Prop) k : task_ok b x -> (forall w, TR (fun l => P l \/ met x l) (k w)) -> forall w, TR P (resolve20 u b x k w).
    Proof.
      intros T H w. unfold resolve20. change (table_of "2.0") with v20_table.
      assert (SKIP : (forall l, ~ met x l) -> TR P (k w)) by (intros NM; eapply TR_weaken; [|apply H]; intros l [Pl|M]; [exact Pl|destruct (NM l M)]).
      destruct T as [(j & ->)|[(b' & p & es & [->|(es' & ->)])|[(c & p & s & kids & -> & OA)|(ts & c & p & s & kids & -> & W & IC & RA)]]].
      - destruct (truthy_obj (OPrim j)); apply SKIP; intros l (m & N & _); discriminate N.
      - destruct (truthy_obj (OList b' p es)); apply SKIP; intros l (m & N & _); discriminate N.
      - destruct (truthy_obj (OMap b' p es')); apply SKIP; intros l (m & N & _); discriminate N.
      - cbn [truthy_obj]. rewrite OA. apply SKIP. intros l (m & N & _). unfold normalized in N. rewrite OA in N. discriminate N.
      - cbn [truthy_obj]. destruct (ref_of ts c p s kids W IC) as [(j & OA & TJ & N & _)|(ref & m & OA & TR1 & N & TM & PL)].
        + rewrite OA. cbn [truthy_obj]. rewrite TJ. apply SKIP. intros l (m & N' & _). rewrite N in N'. discriminate N'.
        + rewrite OA. cbn [truthy_obj truthy]. rewrite TR1, N. destruct (PL b RA) as (IN & RF). destruct (cw_places _ _ _ _ _ _ CW m b IN) as (u' & ts' & S & _).
          eapply (TR_ask P _ _ b u' (pointer ts')); [reflexivity|reflexivity|reflexivity|exact IN|exact S|]. intros y w' (c' & p' & s' & k' & -> & _). cbn [fst so_truthy so_obj truthy_obj].
          eapply TR_weaken; [|apply H]. intros l [Pl|(m' & N' & S')]; [now left|right]. rewrite N in N'. injection N' as <-. cbn [q_jref] in *. rewrite S in S'. apply Ok_inj_local in S'. congruence.
    Qed.
    Lemma tasks_step l (P : string * string -> Prop) k : (forall b x, In (b, x) l -> task_ok b x) -> (forall w, TR (fun q => P q \/ exists b x, In (b, x) l /\ met x q) (k w)) ->
      forall w, TR P (fold_right (fun bx => resolve_with path2url abspath "2.0" u (fst bx) (snd bx)) k l w).
    Proof.
      revert P. induction l as [|[b x] l IH]; intros P T H; cbn [fold_right].
      - intros w. eapply TR_weaken; [|apply H]. intros q [Pq|(b & x & [] & _)]. exact Pq.
      - change (resolve_with path2url abspath "2.0") with resolve20. cbn [fst snd]. apply task_step; [apply T; now left|]. apply IH; [intros; apply T; now right|].
        intros w. eapply TR_weaken; [|apply H]. intros q [Pq|(b' & x' & [E|I] & M)]; [auto|injection E as -> ->; auto|right; eauto].
    Qed.
    (** following the path items *)
    Lemma chain_step fuel P k : TR P k -> forall seen cur, In (cur, BCls "PathItem") places -> NoDup seen -> incl seen locs -> length locs < length seen + fuel ->
      TR P (merge_chain path2url abspath app_url fuel "2.0" seen cur k).
    Proof.
      intros H. induction fuel as [|f IH]; intros seen cur IN ND IL LN.
      { assert (LE := NoDup_incl_length ND IL). lia. }
      cbn [merge_chain]. destruct (cw_places _ _ _ _ _ _ CW cur _ IN) as (u' & ts' & S & NU' & _). rewrite S. assert (TU : truthy_str u' = true) by (destruct u'; [congruence|reflexivity]). rewrite TU.
      apply TR_original. intros v. cbn [String.eqb Ascii.eqb Bool.eqb].
      eapply (TR_ask P _ _ (BCls "PathItem") u' (pointer ts')); [reflexivity|reflexivity|reflexivity|exact IN|exact S|]. intros y w (c & p & s & kids & -> & PI). destruct (PI eq_refl) as (-> & X' & ts2 & RC & W).
      cbn [fst so_truthy so_obj truthy_obj]. assert (HW : TR (fun l => P l \/ l = (u', pointer ts')) k) by (eapply TR_weaken; [|exact H]; auto).
      destruct (existsb (fun l => String.eqb (fst l) u' && String.eqb (snd l) (pointer ts')) seen) eqn:EX; [exact HW|].
      destruct RC as (R1 & R2). assert (IP : In "PathItem" (referring_classes "2.0")) by (cbn; auto). destruct (R1 ts2 _ p s kids W IP) as (d & -> & D). change (table_of "2.0") with v20_table.
      destruct (lookup "$ref" d) as [r|] eqn:L.
      - destruct D as (ref & m & -> & NE & NJ & NM). assert (OA := ref_attr "2.0" _ p d kids ref (or_introl eq_refl) IP L). change (table_of "2.0") with v20_table in OA.
        assert (TR1 : truthy_str ref = true) by (destruct ref; [congruence|reflexivity]). unfold normalized. rewrite OA. cbn [bind]. rewrite TR1, NJ. assert (TM : truthy_str m = true) by (destruct m; [congruence|reflexivity]). rewrite TM.
        assert (IM : In (m, BCls "PathItem") places) by (apply R2; exists ts2, "PathItem", p, d, kids, ref; auto 10).
        eapply TR_weaken; [|apply (IH ((u', pointer ts') :: seen) m IM)]; [auto| | |cbn [length]; lia].
        + constructor; [|exact ND]. intros I. assert (EX' : existsb (fun l => String.eqb (fst l) u' && String.eqb (snd l) (pointer ts')) seen = true).
          { apply existsb_exists. exists (u', pointer ts'). split; [exact I|]. cbn [fst snd]. now rewrite !String.eqb_refl. } congruence.
        + intros l [<-|I]; [exact (locs_in _ _ _ IN S)|exact (IL _ I)].
      - assert (M : mem "$ref" d = false) by (unfold mem; now rewrite L). assert (OA : oattr v20_table (OObj "PathItem" p (JDict d) kids) "ref" = Ok (OPrim JNull)) by (cbn; rewrite M; reflexivity).
        unfold normalized. rewrite OA. cbn [bind truthy]. exact HW.
    Qed.
    Lemma merge_step os P k : length locs < merge_fuel -> TR P k -> (forall x, In x os -> exists ts, within X ts x) -> TR P (fold_right (merge_obj path2url abspath app_url merge_fuel "2.0" u) k os).
    Proof.
      intros MF H. induction os as [|x os IH]; intros WI; [exact H|]. cbn [fold_right]. assert (HK := IH (fun y I => WI y (or_intror I))). set (k' := fold_right _ k os) in *. unfold merge_obj.
      destruct x as [j|c p s kids|b p es|b p es]; try exact HK. destruct (String.eqb_spec c "PathItem") as [->|]; [|exact HK].
      destruct (WI _ (or_introl eq_refl)) as (ts & W). change (table_of "2.0") with v20_table.
      destruct (ref_of ts _ p s kids W ltac:(cbn; auto)) as [(j & _ & _ & N & _)|(ref & m & _ & _ & N & TM & PL)]; rewrite N; [exact HK|]. rewrite TM.
      apply chain_step; [exact HK|exact (proj1 (PL _ eq_refl))|constructor|intros l []|cbn [length]; lia].
    Qed.
    Lemma normal_step os : (forall x, In x os -> exists ts, within X ts x) -> normalize_all "2.0" u os = Ok tt.
    Proof.
      intros H. unfold normalize_all. induction os as [|o1 os IH]; [reflexivity|]. cbn [foldM].
      assert (E : (match o1 with OObj c0 _ _ _ => if str_in c0 (normalized_classes "2.0") then x <- normalized (table_of "2.0") u o1 ;; Ok tt else Ok tt | _ => Ok tt end) = Ok tt).
      { destruct o1 as [jx|c1 p1 s1 k1|b1 p1 es|b1 p1 es]; try reflexivity. destruct (str_in c1 (normalized_classes "2.0")) eqn:SI; [|reflexivity].
        assert (I1 : In c1 (referring_classes "2.0")) by (unfold str_in in SI; apply existsb_exists in SI as (y & I & EQ); apply String.eqb_eq in EQ as ->; exact I).
        destruct (H _ (or_introl eq_refl)) as (ts & W). change (table_of "2.0") with v20_table. destruct (ref_of ts c1 p1 s1 k1 W I1) as [(j & _ & _ & N & _)|(ref & m & _ & _ & N & _)]; now rewrite N. }
      rewrite E. cbn [bind]. apply IH. intros x I. apply H. now right.
    Qed.
    Lemma slot_app ts k t : slot (ts ++ [k; t]) = Some k.
    Proof. unfold slot. rewrite rev_app_distr. reflexivity. Qed.
    Lemma targets20_in cx t : In t (targets_of "2.0" cx) ->
      (t = Self (BCls cx) /\ In cx ["Schema"; "PathItem"]) \/
      (exists c2, In c2 ["Parameter"; "Response"] /\ exists key, (t = Items key (or_ref c2) \/ t = Values key (or_ref c2)) /\ (forall cd, lookup cx v20_table = Some cd -> attr_key cd key = Some key) /\
         forall ts tok, refers_as (ts ++ [key; tok]) "Reference" = Some (or_ref c2)).
    Proof.
      intros I. unfold targets_of in I. cbn [String.eqb Ascii.eqb Bool.eqb] in I. destruct (lookup cx targets20) as [tl|] eqn:L; [|contradiction]. apply TablesFacts.lookup_In in L.
      assert (PAR : forall ts tok, refers_as (ts ++ ["parameters"; tok]) "Reference" = Some (or_ref "Parameter")) by (intros; unfold refers_as; rewrite slot_app; reflexivity).
      assert (RES : forall ts tok, refers_as (ts ++ ["responses"; tok]) "Reference" = Some (or_ref "Response")) by (intros; unfold refers_as; rewrite slot_app; reflexivity).
      unfold targets20 in L. cbn [In] in L. destruct L as [L|[L|[L|[]]]]; injection L as <- <-; cbn [In] in I.
      - destruct I as [<-|[]]. left. cbn; auto.
      - destruct I as [<-|[<-|[]]]; [left; cbn; auto|right]. exists "Parameter". split; [cbn; auto|]. exists "parameters". split; [auto|]. split; [|exact PAR]. intros cd E. vm_compute in E. injection E as <-. reflexivity.
      - right. destruct I as [<-|[<-|[]]].
        + exists "Parameter". split; [cbn; auto|]. exists "parameters". split; [auto|]. split; [|exact PAR]. intros cd E. vm_compute in E. injection E as <-. reflexivity.
        + exists "Response". split; [cbn; auto|]. exists "responses". split; [auto|]. split; [|exact RES]. intros cd E. vm_compute in E. injection E as <-. reflexivity.
    Qed.
    Lemma looked_task ts cx q s kids t b x : within X ts (OObj cx q s kids) -> In t (targets_of "2.0" cx) -> looked_at "2.0" (OObj cx q s kids) cx t b x -> task_ok b x.
    Proof.
      intros W IT LA. unfold task_ok. destruct LA as [P|[(ET & ->)|((v & p & b' & CX & EB) & (n0 & ET) & ks & WK & _ & KS)]].
      - now left.
      - right. right. right. destruct (targets20_in _ _ IT) as [(E & IC)|(c2 & _ & key & [E|E] & _)]; rewrite ET in E; try discriminate E. injection E as ->.
        exists ts, cx, q, s, kids. split; [reflexivity|]. split; [exact W|]. cbn in IC. destruct IC as [<-|[<-|[]]]; (split; [cbn; auto|reflexivity]).
      - destruct x as [jx|c1 p1 s1 k1|b1 p1 es|b1 p1 es]; [left; eauto| |right; left; exists b1, p1, es; auto|right; left; exists b1, p1, []; right; eauto]. right. right.
        destruct (targets20_in _ _ IT) as [(E & IC)|(c2 & I2 & key & ET2 & AK & RA)]; [destruct ET as [ET|[ET|ET]]; rewrite ET in E; discriminate E|].
        assert (EBB : n0 = key /\ b = or_ref c2 /\ (t = Items n0 b \/ t = Values n0 b)) by (destruct ET as [ET|[ET|ET]]; destruct ET2 as [E2|E2]; rewrite ET in E2; try discriminate E2; injection E2 as -> ->; auto).
        destruct EBB as (-> & -> & T2). destruct (KS _ T2) as (cd & key' & tok & LC & AK' & ->). rewrite (AK _ LC) in AK'. injection AK' as <-.
        assert (C12 : c1 = "Reference" \/ c1 = c2).
        { assert (TX := construct_typed _ _ _ _ _ _ (le_n _) CX).
          assert (TB : forall c3 o3, typed (table_of "2.0") (BCls c3) o3 -> o3 = OObj c1 p1 s1 k1 -> c1 = c3) by (intros c3 o3 H3 E3; subst o3; now inversion H3).
          assert (TR : typed (table_of "2.0") (or_ref c2) (OObj c1 p1 s1 k1)) by (destruct EB as [->| ->]; [exact TX|now inversion TX]).
          inversion TR; subst; [left|right]; eapply TB; eauto. }
        destruct C12 as [-> | ->].
        + right. exists (ts ++ [key; tok])%list, "Reference", p1, s1, k1. split; [reflexivity|]. split; [eapply within_app; eauto|]. split; [cbn; auto|apply RA].
        + left. exists c2, p1, s1, k1. split; [reflexivity|]. cbn in I2. destruct I2 as [<-|[<-|[]]]; reflexivity.
    Qed.
    Lemma upgrade_ok jref a : length locs < merge_fuel -> split jref = Ok (u, jp) -> Inv Q a -> left_ a <= n ->
      exists a', run ask (upgrade20 path2url abspath app_url merge_fuel from12 o jref) a = (a', Ok (o, [])) /\ Inv Q a' /\ grow a a' /\ forall l, Goal l -> cov a' l.
    Proof.
      intros MF S I L. destruct (stored_built _ _ _ SO) as (c & q & s & kids & j & base & EX & WF & CX & NU').
      assert (UN : unmixed X) by exact (even_built _ _ _ _ _ (or_intror eq_refl) CX).
      assert (NM : no_media_examples X).
      { intros ts p1 s1 k1 W. exfalso. destruct (within_resolve v20_table ts (repo_wd _ rt_v20) _ _ _ _ _ CX W) as (_ & _ & j' & b' & _ & C); [intros (? & [=])|]. apply built_class in C. discriminate C. }
      destruct (tasks_total "2.0" (or_introl eq_refl) j c base X WF CX UN NM) as (vis & l & TV & AT & VW & TL).
      assert (TRU : TR (fun _ => False) (upgrade20 path2url abspath app_url merge_fuel from12 o jref)).
      2:{ exact (TRU a I L (fun l F => match F with end)). }
      unfold upgrade20. change (so_version o) with "2.0". cbn [String.eqb Ascii.eqb Bool.eqb]. rewrite S. apply TR_cache. unfold visited. change (so_obj o) with X. change (table_of "2.0") with v20_table in TV. rewrite TV.
      rewrite (normal_step _ VW). apply TR_cache. rewrite (flat_tasks _ _ _ _ _ _ _ AT). apply tasks_step.
      - intros b x IX. destruct (TL b x IX) as (ts & o' & cx & t & W & IT & (q' & s' & k' & ->) & LA). exact (looked_task _ _ _ _ _ _ _ _ W IT LA).
      - intros _. apply merge_step; [exact MF| |exact VW]. apply TR_done. intros l0 (m & b & RF & SM). right.
        assert (RF' := RF). destruct RF' as (ts & c1 & p1 & d & k1 & ref & W & IC & LR & NJ & RA). destruct (stored_closed _ _ _ SO) as (R1 & _).
        destruct (R1 ts c1 p1 _ k1 W IC) as (d' & E & D). injection E as <-. rewrite LR in D. destruct D as (ref' & m' & E & NR & _). injection E as <-.
        assert (NC : c <> "Reference").
        { intros ->. assert (TY := construct_typed _ _ _ _ _ _ (le_n _) CX). rewrite EX in TY. inversion TY as [|? cd ? ? ? LC K| | | | |]; subst. vm_compute in LC. injection LC as <-.
          inversion W as [|? ? ? ? k0 y ? ? LK W'| |]; subst; [discriminate RA|]. apply TablesFacts.lookup_In in LK. destruct (K _ _ LK) as (ch & [] & _). }
        destruct (document_task "2.0" j c base X vis l ts c1 p1 d k1 ref (or_introl eq_refl) WF CX UN NC TV AT W IC LR NR) as (b2 & _ & IL).
        exists b2, (OObj c1 p1 (JDict d) k1). split; [exact IL|]. exists m. split; [|exact SM]. unfold normalized. assert (OA := ref_attr "2.0" c1 p1 d k1 ref (or_introl eq_refl) IC LR). change (table_of "2.0") with v20_table in OA. rewrite OA. cbn [bind].
        assert (T1 : truthy_str ref = true) by (destruct ref; [congruence|reflexivity]). rewrite T1. exact NJ.
    Qed.
  End Upgrade.
  Hypothesis MF : length locs < merge_fuel.
  Lemma inv_finish (Q : string * string -> Prop) a u jp X : Inv (fun l => Q l \/ l = (u, jp)) a -> entry (a_store a) u jp "2.0" = Some (mk_sobj "2.0" X []) ->
    (forall l, (exists m b, refers u X m b /\ split m = Ok l) -> cov a l) -> Inv Q a.
  Proof.
    intros I EN C. split; [apply (i_good _ _ I)|apply (i_vers _ _ I)|apply (i_orig _ _ I)|apply (i_rows _ _ I)|apply (i_ent _ _ I)|apply (i_there _ _ I)|apply (i_routed _ _ I)|apply (i_root _ _ I)|].
    intros u' p' o' m b l EN' NQ RF S. destruct (string_dec u' u) as [->|N]; [destruct (string_dec p' jp) as [->|N]|].
    - rewrite EN in EN'. injection EN' as <-. apply C. exists m, b. auto.
    - refine (i_done _ _ I _ _ _ _ _ _ EN' _ RF S). intros [H|H]; [exact (NQ H)|congruence].
    - refine (i_done _ _ I _ _ _ _ _ _ EN' _ RF S). intros [H|H]; [exact (NQ H)|congruence].
  Qed.
  Lemma round_ok ask n Q a u jp X jref : asks ask n -> stored_ok u jp X -> split jref = Ok (u, jp) -> Inv (fun l => Q l \/ l = (u, jp)) a -> left_ a <= n ->
    exists a', round upgrade prepare ask u jref (mk_sobj "2.0" X []) jp "2.0" "2.0" a = (a', Ok (mk_sobj "2.0" X [], jp)) /\ Inv Q a' /\ grow a a' /\ forall l, (exists m b, refers u X m b /\ split m = Ok l) -> cov a' l.
  Proof.
    intros AS SO S I L. set (o := mk_sobj "2.0" X []). set (Q' := fun l => Q l \/ l = (u, jp)) in *. assert (HQ : Q' (u, jp)) by now right.
    destruct (upgrade_ok ask n AS u jp X Q' SO HQ jref a MF S I L) as (a1 & E1 & I1 & G1 & C1). fold o in E1.
    destruct (routes_inv Q' a1 u [(jp, RMap [])] I1) as (a2 & E2 & I2 & G2).
    destruct (set_inv Q' a2 u jp X I2 SO HQ) as (a3 & E3 & I3 & G3 & _). fold o in E3.
    assert (EN : entry (a_store a3) u jp "2.0" = Some o).
    { unfold set_obj in E3. destruct (store_set so_base (a_store a2) o u jp "2.0") as [s'|] eqn:SS; [|discriminate E3]. injection E3 as <-. exact (set_entry_here _ _ _ _ _ _ SS). }
    assert (C3 : forall l, (exists m b, refers u X m b /\ split m = Ok l) -> cov a3 l) by (intros l GL; apply G3, G2, C1, GL).
    assert (I4 : Inv Q a3) by exact (inv_finish Q a3 u jp X I3 EN C3). exists a3. split; [|split; [exact I4|split; [eapply mono_trans; [exact G1|eapply mono_trans; eauto]|exact C3]]].
    unfold round. change (upgrade "2.0") with (Some (upgrade20 path2url abspath app_url merge_fuel from12)). cbv iota. unfold bindm at 1. rewrite E1. unfold bindm at 1. rewrite E2. unfold bindm at 1, relocate at 1. rewrite (relocate_inv Q' a2 u jp I2).
    unfold bindm at 1, lift at 1. unfold bindm at 1. rewrite E3. reflexivity.
  Qed.
  Lemma migrate_ok ask n Q a u jp X jref : asks ask n -> stored_ok u jp X -> split jref = Ok (u, jp) -> Inv (fun l => Q l \/ l = (u, jp)) a -> left_ a <= n ->
    exists a', migrate_obj path2url abspath known3 upgrade prepare ask (mk_sobj "2.0" X []) jref "2.0" a = (a', Ok (mk_sobj "2.0" X [])) /\ Inv Q a' /\ grow a a'.
  Proof.
    intros AS SO S I L. destruct (round_ok ask n Q a u jp X jref AS SO S I L) as (a3 & RD & I4 & G & _). set (o := mk_sobj "2.0" X []) in *.
    destruct (stored_built _ _ _ SO) as (c & q & s & kids & j & base & EX & _).
    unfold migrate_obj, migrate_traced. change (str_in "2.0" known3) with true. cbn [negb]. assert (SW : swagger_version o = Ok "2.0") by (unfold swagger_version, o; rewrite EX; reflexivity). rewrite SW. cbn [bind].
    rewrite through_20. cbn [bind]. rewrite S. cbn [bind rounds]. rewrite RD. eexists. split; [reflexivity|]. split.
    - destruct (is_root o); [|exact I4]. apply (inv_same Q a3); [exact I4|reflexivity|reflexivity].
    - destruct (is_root o); exact G.
  Qed.
  Lemma under_inv Q a u jp rm : Inv Q a -> jp <> "" -> exists s r, store_get_under (a_store a) u jp "" rm = (s, Ok r) /\ Inv Q (with_store a s) /\ mono "2.0" (a_store a) s.
  Proof.
    intros I NJ. destruct (store_get_under (a_store a) u jp "" rm) as [s r] eqn:E.
    assert (R : exists x, r = Ok x). { unfold store_get_under in E. assert (T : truthy_str jp = true) by (destruct jp; [congruence|reflexivity]). rewrite T, andb_false_r in E. destruct (lookup u (s_objs (a_store a))) as [[|]|]; injection E as _ <-; eauto. }
    destruct R as (x & ->). exists s, x. split; [reflexivity|]. assert (OP := under_op _ _ _ _ _ _ _ E).
    assert (MO : mono "2.0" (a_store a) s).
    { intros l C. destruct (under_covb "2.0" _ _ _ _ _ _ _ l (i_good _ _ I) E C) as [H|(_ & _ & H)]; [exact H|discriminate H]. }
    assert (GO : good s) by (rewrite OP; apply run_op_good, (i_good _ _ I)).
    assert (RO : s_routes s = s_routes (a_store a)).
    { unfold store_get_under in E. destruct (rm && negb (truthy_str jp)); [discriminate E|]. destruct (lookup u (s_objs (a_store a))) as [[|]|]; try (injection E as <- _; reflexivity). destruct rm; injection E as <- _; reflexivity. }
    assert (ENV : forall u' p' v', v' <> "" -> entry s u' p' v' = entry (a_store a) u' p' v').
    { intros u' p' v' NV. rewrite OP. destruct rm.
      - rewrite entry_remove by exact (i_good _ _ I). assert (F : String.eqb "" v' = false) by (apply String.eqb_neq; congruence). rewrite F, andb_false_r. reflexivity.
      - rewrite (objs_entry _ _ _ _ _ (entry_other so_base (a_store a) (UnderOp u jp "" false) eq_refl)). reflexivity. }
    assert (EN : forall u' p', entry s u' p' "2.0" = entry (a_store a) u' p' "2.0") by (intros; apply ENV; discriminate).
    split; [|exact MO]. split; cbn [with_store a_store a_original].
    - exact GO.
    - rewrite (under_versions _ _ _ _ _ _ _ E). apply (i_vers _ _ I).
    - apply (i_orig _ _ I).
    - rewrite RO. apply (i_rows _ _ I).
    - intros u' p' v' o' H. apply (i_ent _ _ I). exact (under_entry _ _ _ _ _ _ _ _ _ _ _ (i_good _ _ I) E H).
    - intros u' p'. rewrite ENV by discriminate. apply (i_there _ _ I).
    - intros u'. unfold row30. cbn [with_store a_store]. rewrite RO. apply (i_routed _ _ I).
    - rewrite EN. apply (i_root _ _ I).
    - intros u' p' o' m b l H NQ RF SM. rewrite EN in H. apply MO. exact (i_done _ _ I _ _ _ _ _ _ H NQ RF SM).
  Qed.
  Lemma load_ok (Q : string * string -> Prop) a n b u jp rm : Inv Q a -> In (n, b) places -> split n = Ok (u, jp) -> u <> url ->
    exists a' X, load_obj path2url abspath fetch n (Some ("2.0", b)) rm a = (a', Ok (mk_sobj "2.0" X [])) /\ stored_ok u jp X /\ answers u b X /\ Inv (fun l => Q l \/ l = (u, jp)) a' /\ grow a a' /\ cov a' (u, jp).
  Proof.
    intros I IN S NE. destruct (cw_places _ _ _ _ _ _ CW n b IN) as (u' & ts & S' & NU' & [(E & _)|(_ & X & P & _)]); rewrite S in S'; injection S' as <- EJ; [contradiction|].
    assert (SO : stored_ok u jp X) by (right; split; [exact NE|]; exists n, b, ts; auto). assert (P' := P). destruct P' as (d & F & DN & WF & C). destruct (stored_built _ _ _ SO) as (c & q & s0 & kids & _ & _ & EX & _).
    assert (AX : answers u b X).
    { destruct (cw_prefix _ _ _ _ _ _ CW n b n b u ts ts X IN IN NE) as (rest & ER & c1 & q1 & s1 & k1 & W & PI); [now rewrite <- EJ|now rewrite <- EJ|apply prefix_startswith, prefix_self|exact P|].
      assert (rest = []) by (apply (app_inv_head ts); now rewrite app_nil_r). subst rest. exists c, q, s0, kids. split; [exact EX|]. intros EB. rewrite EX in W. inversion W; subst. split; [exact (PI eq_refl)|].
      eexists _, []. split; [exact (stored_closed _ _ _ SO)|constructor]. }
    assert (DV : doc_version (JDict d) = Ok None) by (apply doc_version_none; exact DN).
    assert (NC : cached_for a u jp None = Ok None). { unfold cached_for. apply entries_none; [exact (i_good _ _ I)|]. intros p. destruct (entry (a_store a) u p "") as [o|] eqn:EN; [|reflexivity]. destruct (i_ent _ _ I _ _ _ _ EN) as [H|(H & _)]; discriminate H. }
    rewrite (AppFacts2.load_fresh path2url abspath fetch n (Some ("2.0", b)) rm a (JDict d) None u jp F DV S (or_introl NC)). unfold after_under. cbn [version_key].
    destruct (under_inv Q a u jp rm I) as (s & r & EU & IU & MU); [rewrite EJ; discriminate|]. rewrite EU. cbv zeta. unfold parse. change (table_of "2.0") with v20_table. rewrite C. cbn [bind]. rewrite EX. cbn [so_truthy so_obj truthy_obj]. rewrite <- EX.
    set (Q' := fun l => Q l \/ l = (u, jp)). assert (IU' : Inv Q' (with_store a s)) by (apply (inv_weaken Q); [intros l H; now left|exact IU]).
    destruct (set_inv Q' (with_store a s) u jp X IU' SO (or_intror eq_refl)) as (a1 & E1 & I1 & G1 & C1). unfold set_obj in E1. cbn [with_store a_store] in E1.
    destruct (store_set so_base s (mk_sobj "2.0" X []) u jp "2.0") as [s1|] eqn:SS; [|discriminate E1]. injection E1 as <-. eexists _, X. split; [reflexivity|]. split; [exact SO|]. split; [exact AX|]. split; [|split].
    - eapply (inv_same Q' _ _ I1); [reflexivity|]. cbn [with_store a_original]. destruct (is_root (mk_sobj "2.0" X [])); [symmetry; apply (i_orig _ _ I)|reflexivity].
    - cbn [a_store]. eapply mono_trans; [exact MU|exact G1].
    - exact C1.
  Qed.
  Theorem resolve_ok fuel : forall n, n < fuel -> asks (resolving fuel) n.
  Proof.
    induction fuel as [|f IH]; intros n NF; [lia|]. intros Q a q b u jp I L QF QT QP IN S.
    destruct (cw_places _ _ _ _ _ _ CW _ b IN) as (u' & ts & S' & NU' & _). rewrite S in S'. injection S' as <- EJ.
    assert (NQ : q_jref q <> "") by (intros E; rewrite E in S; vm_compute in S; injection S as <- _; congruence).
    assert (TU : truthy_str u = true) by (destruct u; [congruence|reflexivity]).
    destruct (covb "2.0" (a_store a) (u, jp)) eqn:CV.
    - destruct (get_cov Q a _ b u jp I IN S CV) as (y & G & A & _). exists a, y, (u ++ jp)%string. split; [|split; [exact I|split; [apply mono_refl|split; [exact A|exact CV]]]].
      rewrite (resolve_cached path2url abspath app_url known3 fetch upgrade prepare f q a u jp jp (mk_sobj "2.0" y []) NQ S).
      + now rewrite TU.
      + rewrite QF, QT. reflexivity.
      + rewrite TU, QT. exact G.
      + destruct A as (c & p & s & kids & -> & _). reflexivity.
    - assert (NU2 : u <> url) by (intros ->; rewrite (root_cov Q a jp ts I EJ) in CV; discriminate CV).
      destruct (load_ok Q a _ b u jp (q_remove q) I IN S NU2) as (a1 & X & E1 & SO & AX & I1 & G1 & C1).
      assert (LT : left_ a1 < left_ a) by exact (uncov_lt "2.0" locs _ _ (u, jp) G1 (locs_in _ _ _ IN S) CV C1).
      destruct n as [|n]; [lia|]. destruct (migrate_ok (resolving f) n Q a1 u jp X (q_jref q) (IH n ltac:(lia)) SO S I1 ltac:(lia)) as (a2 & E2 & I2 & G2).
      assert (C2 : cov a2 (u, jp)) by (apply G2, C1). destruct (stored_built _ _ _ SO) as (c & p & s & kids & _ & _ & EX & _).
      exists a2, X, (u ++ jp)%string. split; [|split; [exact I2|split; [eapply mono_trans; eauto|split; [exact AX|exact C2]]]].
      cbn [resolve_obj]. destruct (q_jref q) as [|c0 s0] eqn:EQ; [congruence|]. cbn [truthy_str negb]. fold (target_version q). rewrite <- EQ in *. unfold bindm at 1, lift at 1. rewrite S. rewrite TU.
      rewrite QF, QT. cbn [String.eqb Ascii.eqb Bool.eqb]. unfold bindm at 1, ret at 1. unfold bindm at 1, get_obj at 1. rewrite (covb_get _ _ _ _ CV). cbn [not_none]. unfold bindm at 1, ret at 1.
      unfold bindm at 1, get_until at 1. assert (UT : store_get_until so_truthy so_resolve (a_store a) u jp "2.0" (Some "2.0") = Ok None).
      { unfold store_get_until. rewrite (i_vers _ _ I). change (index_of "2.0" known3) with (@Ok nat 1). cbn [rmap bind truthy_str]. change (skipn 2 (firstn 2 known3)) with (@nil string). cbn [until_chain bind rev List.app until_seek]. rewrite (covb_get _ _ _ _ CV). reflexivity. }
      rewrite UT. unfold bindm at 1, bindm at 1. unfold get_original at 1. rewrite (i_orig _ _ I). cbn [String.eqb Ascii.eqb Bool.eqb]. unfold bindm at 1. rewrite QP, E1. unfold ret at 1. unfold bindm at 1. rewrite E2.
      unfold bindm at 1. rewrite EX. cbn [so_truthy so_obj truthy_obj]. unfold lift at 1. unfold bindm at 1, relocate at 1. rewrite (relocate_inv Q a2 u jp I2). reflexivity.
  Qed.

  Notation opened := (mk_app (mk_store [(url, [("#", [("2.0", oroot)])])] [] known3) "2.0" None [EParse url "#"]).
  Lemma load_root : load_obj path2url abspath fetch url None false (fresh_app known3) = (opened, Ok oroot).
  Proof.
    assert (DV : doc_version (JDict d0) = Ok (Some (JStr "2.0"))) by (apply doc_version_declares; exact DE).
    rewrite (AppFacts2.load_fresh path2url abspath fetch url None false (fresh_app known3) (JDict d0) (Some (JStr "2.0")) url "#" FE DV SU (or_introl eq_refl)). unfold after_under. cbn [version_key].
    change (store_get_under (a_store (fresh_app known3)) url "#" "2.0" false) with (new_store known3 : store sobj, @Ok (option (list (string * sobj))) None). cbv zeta. unfold parse. cbn [String.eqb Ascii.eqb Bool.eqb overrides]. rewrite CO. cbn [bind].
    destruct (construct_cls_obj _ _ _ _ _ CO) as (kids & ->). reflexivity.
  Qed.
  Lemma opened_inv : (forall u p, there u p = None) -> (forall u, routed u = []) -> Inv (fun l => False \/ l = (url, "#")) opened.
  Proof.
    intros T0 R0. destruct (construct_cls_obj _ _ _ _ _ CO) as (kids & ER).
    assert (EN : forall u p v o, entry (a_store opened) u p v = Some o -> u = url /\ p = "#" /\ v = "2.0" /\ o = oroot).
    { intros u p v o. unfold entry. cbn [a_store s_objs lookup]. destruct (String.eqb_spec u url) as [->|]; [|discriminate]. cbn [lookup]. destruct (String.eqb_spec p "#") as [->|]; [|discriminate]. cbn [lookup]. destruct (String.eqb_spec v "2.0") as [->|]; [|discriminate]. intros [= <-]. auto. }
    split.
    - assert (G := run_ops_good so_base known3 [SetOp oroot url "#" "2.0"]). unfold run_ops in G. cbn [fold_left run_op] in G. unfold store_set in G. assert (B : so_base oroot = true) by (rewrite ER; reflexivity). rewrite B in G. exact G.
    - reflexivity.
    - reflexivity.
    - discriminate.
    - intros u p v o E. destruct (EN _ _ _ _ E) as (-> & -> & -> & ->). right. split; [reflexivity|]. split; [reflexivity|]. split; [reflexivity|]. left. auto.
    - intros u p. rewrite T0. destruct (entry _ u p "3.0.0") eqn:E; [|reflexivity]. destruct (EN _ _ _ _ E) as (_ & _ & H & _). discriminate H.
    - intros u. rewrite R0. reflexivity.
    - unfold entry. cbn [a_store s_objs lookup]. rewrite String.eqb_refl. reflexivity.
    - intros u p o m b l E NQ. exfalso. apply NQ. right. destruct (EN _ _ _ _ E) as (-> & -> & _). reflexivity.
  Qed.
  Theorem opens fuel : (forall u p, there u p = None) -> (forall u, routed u = []) -> length locs < fuel -> exists a, open_document path2url abspath app_url known3 fetch upgrade prepare "2.0" fuel url (fresh_app known3) = (a, Ok oroot) /\ Inv (fun _ => False) a.
  Proof.
    intros T0 R0 LF. unfold open_document, bindm. rewrite load_root. assert (SO : stored_ok url "#" root) by (left; auto).
    destruct (migrate_ok (resolving fuel) (length locs) (fun _ => False) opened url "#" root url (resolve_ok fuel (length locs) LF) SO SU (opened_inv T0 R0) (uncov_le _ _ _)) as (a & E & I & _).
    exists a. split; [exact E|exact I].
  Qed.
  Theorem answered a f u p o n b rm : Inv (fun _ => False) a -> entry (a_store a) u p "2.0" = Some o -> refers u (so_obj o) n b ->
    exists u' ts c q s kids, split n = Ok (u', pointer ts) /\
      resolving (S f) (mk_query n "2.0" (Some ("2.0", b)) None rm) a = (a, Ok (mk_sobj "2.0" (OObj c q s kids) [], (u' ++ pointer ts)%string)) /\
      ((u' = url /\ jget (JDict d0) ts s) \/ (u' <> url /\ exists n1 b1 ts1 rest j1, In (n1, b1) places /\ split n1 = Ok (u', pointer ts1) /\ ts = (ts1 ++ rest)%list /\ fetch n1 = Ok j1 /\ jget j1 rest s)).
  Proof.
    intros I EN RF. destruct (ent20 _ _ _ _ _ I EN) as (_ & _ & SO). assert (IN : In (n, b) places) by (destruct (stored_closed _ _ _ SO) as (_ & R2); exact (R2 _ _ RF)).
    destruct (cw_places _ _ _ _ _ _ CW _ b IN) as (u' & ts & S & NU' & _). assert (CV := i_done _ _ I _ _ _ _ _ _ EN (fun F => F) RF S).
    destruct (get_cov _ a _ b _ _ I IN S CV) as (y & G & A & ts' & ts1 & rest & X & EP & ET & SX & W). apply pointer_inj in EP. subst ts'. assert (TU : truthy_str u' = true) by (destruct u'; [congruence|reflexivity]).
    assert (NQ : n <> "") by (intros E; rewrite E in S; vm_compute in S; injection S as <- _; congruence). destruct A as (c & q & s & kids & -> & _).
    exists u', ts, c, q, s, kids. split; [exact S|]. split.
    - rewrite (resolve_cached path2url abspath app_url known3 fetch upgrade prepare f (mk_query n "2.0" (Some ("2.0", b)) None rm) a u' (pointer ts) (pointer ts) (mk_sobj "2.0" (OObj c q s kids) []) NQ S eq_refl); [now rewrite TU| |reflexivity].
      rewrite TU. exact G.
    - assert (SP : forall j b0 base, construct v20_table j b0 base [] = Ok X -> jget j rest s).
      { intros j b0 base C. destruct (within_resolve v20_table rest (repo_wd _ rt_v20) j b0 base X _ C W) as (_ & _ & j' & b' & J & C'); [intros (? & [=])|].
        assert (C2 := as_class _ _ _ _ _ _ _ _ C'). destruct (construct_cls_obj _ _ _ _ _ C2) as (k' & E). injection E as _ -> _. exact J. }
      destruct SX as [(-> & EP & ->)|(NE & n1 & b1 & t1 & I1 & S1 & EP & d & F & _ & _ & C)].
      + left. split; [reflexivity|]. change "#" with (pointer []) in EP. apply pointer_inj in EP. subst ts1. cbn [List.app] in ET. subst ts. exact (SP _ _ _ CO).
      + right. split; [exact NE|]. exists n1, b1, ts1, rest, (JDict d). split; [exact I1|]. split; [exact S1|]. split; [exact ET|]. split; [exact F|exact (SP _ _ _ C)].
  Qed.
End Closed.
