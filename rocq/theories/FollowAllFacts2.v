(** * Documents with schemas of other documents: conditions on the documents imply conditions on the objects. *)
From Coq Require Import String Ascii List Bool Arith Lia.
From Verif Require Import PyStr PyStrFacts PyVal PyValFacts Jp JpFacts UrlLib Urls SpecUrl UrlFacts UrlFacts2 Obj ObjFacts Classes_v2_0 TablesFacts SpecTables SpecJson ShapeFacts DumpFacts ReloadFacts NatDecFacts SpecObj OverrideFacts ResolveFacts SpecSchema SpecConv SpecBody SpecOp SpecDoc SpecStore StoreFacts
  Store App AppFacts4 Main SpecScan SpecLocal SpecInside Shape30Facts TightFacts SpecGiven SpecMigrate SpecWhole SpecFollow SpecClosed SpecClosed30 SpecLibrary SpecFollowAll PropertiesObjAux SpecOpen WfFacts Conv20 Up30 Whole Follow FollowAll ConvFacts RelocFacts RefFacts LocalFacts LocalFacts2 FollowFacts FollowFacts2 FollowFacts3 FollowAllFacts LibraryFacts.
From Verif Require ClosedFacts ClosedFacts30.
Import ListNotations.
Open Scope string_scope. Open Scope nat_scope.
Notation within := SpecObj.within (only parsing).
Notation split := App.split (only parsing).
Notation place := SpecClosed30.place (only parsing).
Notation refers_given := SpecGiven.refers (only parsing).

Lemma inside_through j x y : inside j x -> inside x y -> inside j y.
Proof. induction 1; intros J; [exact J|eapply in_entry; eauto|eapply in_element; eauto]. Qed.
Lemma val_inside d k y : val d k = y -> y <> JNull -> inside (JDict d) y.
Proof. intros E N. unfold val in E. destruct (lookup k d) as [v|] eqn:L; [|congruence]. subst v. exact (in_entry _ _ _ _ (PyValFacts.lookup_In _ _ _ L) (in_here _)). Qed.
Lemma subschema_inside s ts r : subschema s ts r -> r <> JNull -> inside s r.
Proof.
  intros H. induction H as [s|d ts r Pl Hi S IH|d l i s t ts r Pl Hl Hn Ht S IH|d p k s ts r Pl Hp Hk S IH|d a ts r Pl Ha S IH]; intros N.
  - apply in_here.
  - refine (inside_through _ _ _ (val_inside _ _ _ eq_refl _) (IH N)). intros Z. now apply Hi.
  - refine (inside_through _ _ _ (val_inside _ _ _ Hl ltac:(discriminate)) _). exact (in_element _ _ _ (nth_error_In _ _ Hn) (IH N)).
  - refine (inside_through _ _ _ (val_inside _ _ _ Hp ltac:(discriminate)) _). exact (in_entry _ _ _ _ (PyValFacts.lookup_In _ _ _ Hk) (IH N)).
  - refine (inside_through _ _ _ (val_inside _ _ _ Ha ltac:(discriminate)) (IH N)).
Qed.
Lemma section_inside d sec n v : lookup n (entries_of (val d sec)) = Some v -> inside (JDict d) v.
Proof.
  intros L. unfold val in L. destruct (lookup sec d) as [[| | | | | |l]|] eqn:E; try discriminate L. cbn [entries_of] in L.
  exact (in_entry _ _ _ _ (PyValFacts.lookup_In _ _ _ E) (in_entry _ _ _ _ (PyValFacts.lookup_In _ _ _ L) (in_here _))).
Qed.
Lemma entry_stored20 st u p o : entry st u p "2.0" = Some o -> In (u, so_obj o) (stored20 st).
Proof.
  unfold entry. destruct (lookup u (s_objs st)) as [uc|] eqn:E1; [|discriminate]. destruct (lookup p uc) as [pc|] eqn:E2; [|discriminate]. intros E3.
  apply in_flat_map. exists (u, uc). split; [now apply PyValFacts.lookup_In|]. apply in_flat_map. exists (p, pc). split; [now apply PyValFacts.lookup_In|]. cbn [fst snd]. rewrite E3. now left.
Qed.

Section Documents.
  Variables (path2url abspath : string -> string) (app_url : string) (fetch : string -> res json) (merge_fuel : nat)
    (from12 : sobj -> res sobj) (from20 : sobj -> string -> string -> override -> res (sobj * routes)).
  Variables (url : string) (d : doc) (root : obj) (places : list (string * builder)) (used : list (string * list string)).
  Hypothesis CL : clean url.
  Hypothesis C : construct v20_table (JDict d) (BCls "Swagger") (Some url) [] = Ok root.
  Hypothesis CW : closed_world path2url abspath fetch url root places.
  Hypothesis LB : library fetch url d places used.
  Hypothesis ONLY : only_references root (JDict d).
  Variable a : app.
  Hypothesis IV : ClosedFacts.Inv path2url abspath fetch url root places (fun _ _ => None) (fun _ => []) (fun _ => False) a.
  Notation st := (a_store a).
  Notation noted := (noted_all path2url abspath st).
  Notation deref := (deref_all path2url abspath st url).
  Notation leads := (leads_all path2url abspath st).
  Hypothesis WJ : wf_json (JDict d).
  Lemma stored_root : entry st url "#" "2.0" = Some (mk_sobj "2.0" root []). Proof. exact (ClosedFacts.i_root _ _ _ _ _ _ _ _ _ _ IV). Qed.
  Lemma url_ne : url <> "". Proof. pose proof (ClosedFacts30.place_ne url [] CL) as H. exact H. Qed.
  (** what is found in the store for a place *)
  Lemma found n b u jp : In (n, b) places -> split path2url abspath n = Ok (u, jp) -> covb "2.0" st (u, jp) = true ->
    exists ts ts1 rest X y, jp = pointer ts /\ ts = (ts1 ++ rest)%list /\ entry st u (pointer ts1) "2.0" = Some (mk_sobj "2.0" X []) /\
      ClosedFacts.stored_ok path2url abspath fetch url root places u (pointer ts1) X /\ within X rest y /\ store_get so_resolve st u jp "2.0" = Ok (Some (mk_sobj "2.0" y [])).
  Proof.
    intros IN S CV. unfold covb in CV. cbn [fst snd] in CV. unfold store_get. destruct (first_match jp "2.0" (sub u (s_objs st))) as [[p o]|] eqn:FM; [|discriminate CV].
    destruct (first_match_some _ _ _ _ _ (good_sub _ _ (ClosedFacts.i_good _ _ _ _ _ _ _ _ _ _ IV)) FM) as (PF & LK). rewrite <- entry_sub in LK.
    destruct (ClosedFacts.ent20 _ _ _ _ _ _ _ _ _ _ _ _ _ IV LK) as (SV & SA & SO).
    destruct o as [V X A]. cbn [so_version so_apis so_obj] in SV, SA, SO. subst V A.
    destruct (cw_places _ _ _ _ _ _ CW n b IN) as (u' & ts & S' & NE & Pl). rewrite S in S'. apply Ok_inj_local in S'. assert (E1 := f_equal fst S'). assert (E2 := f_equal snd S'). cbn [fst snd] in E1, E2. subst u' jp.
    assert (F : exists ts1 rest, p = pointer ts1 /\ ts = (ts1 ++ rest)%list /\ SpecClosed.object_at X rest b).
    { destruct SO as [(-> & -> & ->)|(NU' & n1 & b1 & ts1 & I1 & S1 & -> & P1)].
      - exists [], ts. split; [reflexivity|]. split; [reflexivity|]. destruct Pl as [(_ & O)|(N & _)]; [exact O|now elim N].
      - destruct (cw_prefix _ _ _ _ _ _ CW n1 b1 n b u ts1 ts X I1 IN NU' S1 S) as (rest & E & O); [now apply prefix_startswith|exact P1|]. exists ts1, rest. auto. }
    destruct F as (ts1 & rest & -> & -> & c & q & s & kids & W & _). rewrite ClosedFacts.drop_pointer, ClosedFacts.tail_split.
    destruct (ClosedFacts.stored_built path2url abspath fetch url d root places CW url_ne WJ C _ _ _ SO) as (c1 & q1 & s1 & k1 & j & base & EX & WF & CX & _).
    destruct (within_resolve v20_table rest (repo_wd _ rt_v20) j (BCls c1) base X _ CX W) as (_ & R & _); [intros (? & [=])|].
    exists (ts1 ++ rest)%list, ts1, rest, X, (OObj c q s kids). split; [reflexivity|]. split; [reflexivity|]. split; [exact LK|]. split; [exact SO|]. split; [exact W|].
    unfold so_resolve. cbn [so_version so_obj so_apis]. change (table_of "2.0") with v20_table. rewrite R. reflexivity.
  Qed.
  (** *** the documents: a value [J] in the document at [u], made into an object [X] that is stored *)
  Definition held (u : string) (J : json) (X : obj) : Prop :=
    exists p, entry st u p "2.0" = Some (mk_sobj "2.0" X []) /\ refs_closed u X places /\ only_references X J.
  Lemma held_root : held url (JDict d) root.
  Proof. exists "#". split; [exact stored_root|]. split; [exact (cw_root _ _ _ _ _ _ CW)|exact ONLY]. Qed.
  Lemma located n b u ts : In (n, b) places -> split path2url abspath n = Ok (u, pointer ts) -> clean u /\ n = place u ts /\ ((u = url /\ target d ts) \/ (u <> url /\ In (u, ts) used /\ b = BCls "Schema")).
  Proof.
    intros I S. destruct (lb_places _ _ _ _ _ LB n b I) as (u' & ts' & CL' & -> & H). rewrite (ClosedFacts30.split_place path2url abspath u' ts' CL') in S. apply Ok_inj_local in S.
    assert (E1 := f_equal fst S). assert (E2 := f_equal snd S). cbn [fst snd] in E1, E2. apply ClosedFacts.pointer_inj in E2. subst u' ts'. split; [exact CL'|]. split; [reflexivity|].
    destruct H as [(-> & T & _)|(N & I' & ->)]; [left|right]; auto.
  Qed.
  Theorem noted_at_all u J X e ref u' ts : held u J X -> inside J (JDict e) -> lookup "$ref" e = Some (JStr ref) -> normalize_jr (Some ref) (Some u) = Ok (Some (place u' ts)) -> clean u' ->
    forall o, refers_by o ref ->
      (u' = url -> exists y, within root ts y /\ noted u o = Some (url, y)) /\
      (u' <> url -> In (u', ts) used /\ exists s X', fetch (place u' ts) = Ok (JDict s) /\ construct v20_table (JDict s) (BCls "Schema") (Some (place u' ts)) [] = Ok X' /\ held u' (JDict s) X' /\ noted u o = Some (u', X')).
  Proof.
    intros (p & EN & RC & OR) Ie L NZ CL' o R. destruct (referred_place u X places _ RC (OR _ _ Ie L)) as (ref' & n & b & Er & Ne & N & RF & IN). injection Er as <-. rewrite NZ in N. apply Ok_inj_local in N. assert (En : place u' ts = n) by congruence. subst n.
    pose proof (ClosedFacts30.split_place path2url abspath u' ts CL') as S. assert (CV := ClosedFacts.i_done _ _ _ _ _ _ _ _ _ _ IV _ _ _ _ _ _ EN (fun F => F) RF S).
    destruct (found _ b u' _ IN S CV) as (ts0 & ts1 & rest & X1 & y & EP & ET & EN1 & SO & W & G). apply ClosedFacts.pointer_inj in EP. subst ts0.
    assert (NO : noted u o = Some (u', y)). { unfold refers_by in R. unfold noted_all, normalized. rewrite R. cbn [bind]. assert (T : truthy_str ref = true) by (destruct ref; [congruence|reflexivity]). rewrite T, NZ, S, G. reflexivity. }
    split; intros E.
    - subst u'. exists y. split; [|exact NO]. destruct SO as [(_ & EP & ->)|(N0 & _)]; [|now elim N0]. change "#" with (pointer []) in EP. apply ClosedFacts.pointer_inj in EP. subst ts1. cbn [List.app] in ET. now subst rest.
    - destruct SO as [(Z & _)|(N0 & n1 & b1 & t1 & I1 & S1 & EP & P)]; [contradiction|]. apply ClosedFacts.pointer_inj in EP. subst t1.
      destruct (located _ _ _ _ I1 S1) as (_ & -> & [(Z & _)|(_ & U1 & ->)]); [contradiction|]. destruct (located _ _ _ _ IN S) as (_ & _ & [(Z & _)|(_ & U2 & _)]); [contradiction|].
      assert (ts1 = ts). { apply (lb_apart _ _ _ _ _ LB u' ts1 ts U1 U2). rewrite ET. apply prefix_startswith. exists (tail_of rest). change (pointer (ts1 ++ rest)) with ("#" ++ tail_of (ts1 ++ rest))%string. rewrite ClosedFacts.tail_app. reflexivity. }
      subst ts1. assert (rest = []) by (apply (app_inv_head ts); rewrite app_nil_r; now symmetry). subst rest. inversion W; subst y; clear W.
      assert (RC1 : refs_closed u' X1 places) by (apply (ClosedFacts.stored_closed path2url abspath fetch url root places CW u' (pointer ts)); right; split; [exact N0|]; eauto 8).
      destruct P as (s & F & _ & _ & CX). destruct (lb_used _ _ _ _ _ LB u' ts U1) as [_ LU]. destruct (LU s X1 F CX) as [_ OR1].
      split; [exact U1|]. exists s, X1. split; [exact F|]. split; [exact CX|]. split; [|exact NO]. exists (pointer ts). auto.
  Qed.
  (** *** the document *)
  Hypothesis WF : well_formed_with fetch url d.
  Lemma all_definitions n s0 ts r : lookup n (entries_of (val d "definitions")) = Some s0 -> subschema s0 ts r ->
    exists x path kids, r = JDict x /\ within root ("definitions" :: n :: ts) (OObj "Schema" path r kids) /\ construct v20_table r (BCls "Schema") path [] = Ok (OObj "Schema" path r kids).
  Proof. intros L. destruct WF as (_ & _ & _ & HD & _). exact (definition_object0 path2url abspath url d url root C n s0 ts r (HD n s0 L) L). Qed.
  Lemma ends_leads_all u s e : ends_at fetch url d u s e -> forall J X, held u J X -> inside J s -> forall so, loaded (BCls "Schema") s so -> exists n sr, leads u so n sr /\ loaded (BCls "Schema") (JDict e) sr.
  Proof.
    induction 1 as [u s L|u s ref n s0 ts r e L N Ln Sb _ IH|u s ref u' ts r e L N NU CU F _ IH]; intros J X H I so [path Lo]; destruct (construct_cls_obj _ _ _ _ _ Lo) as (kids & ->).
    - exists 0. eexists. split; [apply la_end; right; apply attr_none; [cbn; tauto|exact L]|now exists path].
    - assert (R : refers_by (OObj "Schema" path (JDict s) kids) ref) by (apply (ref_attr "2.0"); [now left|cbn; tauto|exact L]).
      destruct (all_definitions n s0 ts r Ln Sb) as (x & path' & kids' & -> & W & Cy). destruct (noted_at_all u J X s ref url _ H I L N CL _ R) as [H1 _]. destruct (H1 eq_refl) as (y & Wy & NO). assert (y = OObj "Schema" path' (JDict x) kids') by exact (within_fun _ _ _ _ Wy W). subst y.
      destruct (IH (JDict d) root held_root (inside_through _ _ _ (section_inside _ _ _ _ Ln) (subschema_inside _ _ _ Sb ltac:(discriminate))) _ (ex_intro _ path' Cy)) as (k & sr & Lk & Lr).
      exists (S k), sr. split; [|exact Lr]. eapply la_step; [exact R|exact NO| |exact Lk]. exists root. eexists. split; [exact (entry_stored20 _ _ _ _ stored_root)|exact W].
    - assert (R : refers_by (OObj "Schema" path (JDict s) kids) ref) by (apply (ref_attr "2.0"); [now left|cbn; tauto|exact L]).
      destruct (noted_at_all u J X s ref u' ts H I L N CU _ R) as [_ H2]. destruct (H2 NU) as (_ & s' & X' & F' & CX & H' & NO). rewrite F in F'. apply Ok_inj_local in F'. subst r.
      destruct (IH (JDict s') X' H' (in_here _) X' (ex_intro _ _ CX)) as (k & sr & Lk & Lr). exists (S k), sr. split; [|exact Lr]. eapply la_step; [exact R|exact NO| |exact Lk].
      destruct H' as (p' & EN & _). exists X', []. split; [exact (entry_stored20 _ _ _ _ EN)|constructor].
  Qed.
  Lemma plain_end_all u c path q kids : In c ["Parameter"; "Response"] -> leads u (OObj c path (JDict q) kids) 0 (OObj c path (JDict q) kids).
  Proof. intros I. apply la_end. left. repeat (destruct I as [<-|I]; [reflexivity|]). destruct I. Qed.
  Lemma meant_refers_all sec cls p q : In (sec, cls) [("parameters", "Parameter"); ("responses", "Response")] -> inside (JDict d) (JDict p) -> meant sec d p q -> refers_given deref cls p q.
  Proof.
    intros Is Ip M. assert (Ic : In cls ["Parameter"; "Response"]) by (destruct Is as [[= <- <-]|[[= <- <-]|[]]]; cbn; tauto).
    assert (Ich : In (mk_child sec (BMapOf (BCls cls)) false) (c_children v20_Swagger)) by (destruct Is as [[= <- <-]|[[= <- <-]|[]]]; cbn; tauto).
    destruct M as [[L ->]|(n & Nn & L & Lq)].
    - split; [intros v H; congruence|]. intros o Lo. exists o. apply loaded_ref_else in Lo. unfold mem in Lo. rewrite L in Lo. split; [|auto]. destruct Lo as [path Lo]. destruct (construct_cls_obj _ _ _ _ _ Lo) as (kids & ->). apply leads_deref_all with 0. now apply plain_end_all.
    - split; [intros v H; rewrite L in H; injection H as <-; reflexivity|]. intros o Lo. apply loaded_ref_else in Lo. unfold mem in Lo. rewrite L in Lo. destruct Lo as [path Lo]. destruct (construct_cls_obj _ _ _ _ _ Lo) as (kids & ->).
      destruct (section_object d url root C sec cls n q Ich Lq) as (path' & kids' & W & Cy). exists (OObj cls path' (JDict q) kids'). split; [|split; [now exists path'|intros Z; exfalso; revert Z; unfold SpecConv.is_reference, mem; rewrite L; discriminate]].
      assert (R : refers_by (OObj "Reference" path (JDict p) kids) (pointer [sec; n])) by (apply (ref_attr "2.0"); [now left|cbn; tauto|exact L]).
      assert (NZ : normalize_jr (Some (pointer [sec; n])) (Some url) = Ok (Some (place url [sec; n]))). { destruct CL as (us & uh & up & uq & CU & ->). exact (normalize_pointer us uh up uq CU [sec; n] ltac:(discriminate)). }
      destruct (noted_at_all url (JDict d) root p _ url _ held_root Ip L NZ CL _ R) as [H1 _]. destruct (H1 eq_refl) as (y & Wy & NO). rewrite (within_fun _ _ _ _ Wy W) in NO.
      apply leads_deref_all with 1. eapply la_step; [exact R|exact NO| |now apply plain_end_all]. exists root, [sec; n]. split; [exact (entry_stored20 _ _ _ _ stored_root)|exact W].
  Qed.
  Lemma usable_with_all q : inside (JDict d) (JDict q) -> usable_with fetch url d q -> usable deref q.
  Proof.
    intros In_ [U|[U|(B & e & E & Nf)]]; [now left|right; now left|right; right]. split; [exact B|]. split; [exact (wf_inside _ _ In_ WJ)|].
    intros so Lo. assert (Is : inside (JDict d) (val q "schema")) by (refine (inside_through _ _ _ In_ (val_inside _ _ _ eq_refl _)); inversion E; discriminate).
    destruct (ends_leads_all _ _ _ E _ _ held_root Is so Lo) as (n & sr & Lk & Lr). exists sr, e. split; [exact (leads_deref_all _ _ _ _ _ _ _ Lk)|]. auto.
  Qed.
  Lemma meant_inside_all sec p q : inside (JDict d) (JDict p) -> meant sec d p q -> inside (JDict d) (JDict q).
  Proof. intros In_ [[_ ->]|(n & _ & _ & L)]; [exact In_|]. exact (section_inside _ _ _ _ L). Qed.
  Notation pair_ok := (fun pq : doc * doc => inside (JDict d) (JDict (fst pq)) /\ inside (JDict d) (JDict (snd pq))).
  Lemma params_all x ps : inside (JDict d) (JDict x) -> params_with fetch url d (val x "parameters") ps -> params_at deref (val x "parameters") ps /\ Forall (fun pq => usable deref (snd pq)) ps /\ Forall pair_ok ps.
  Proof.
    intros Ix (LA & F). assert (P : Forall pair_ok ps).
    { destruct LA as [[_ ->]|LA]; [constructor|]. pose proof (inside_through _ _ _ Ix (val_inside x "parameters" _ LA ltac:(discriminate))) as Il. rewrite Forall_forall in F |- *. intros pq Ip. destruct (F pq Ip) as [M _].
      assert (I1 : inside (JDict d) (JDict (fst pq))) by (refine (inside_through _ _ _ Il (in_element _ _ _ _ (in_here _))); now apply (in_map (fun pq => JDict (fst pq)))). split; [exact I1|exact (meant_inside_all _ _ _ I1 M)]. }
    split; [split; [exact LA|]|split; [|exact P]]; rewrite Forall_forall in *; intros pq Ip; destruct (F pq Ip) as [M U].
    - refine (meant_refers_all "parameters" "Parameter" _ _ _ (proj1 (P pq Ip)) M). cbn. tauto.
    - exact (usable_with_all _ (proj2 (P pq Ip)) U).
  Qed.
  Lemma responses_all x rs : inside (JDict d) (JDict x) -> responses_in d (val x "responses") rs -> responses_at deref (val x "responses") rs /\ Forall (fun kr => pair_ok (snd kr)) rs.
  Proof.
    intros Ix (LA & F). assert (P : Forall (fun kr => pair_ok (snd kr)) rs).
    { destruct LA as [[_ ->]|LA]; [constructor|]. pose proof (inside_through _ _ _ Ix (val_inside x "responses" _ LA ltac:(discriminate))) as Il. rewrite Forall_forall in F |- *. intros kr Ip. destruct (F kr Ip) as [M _].
      assert (I1 : inside (JDict d) (JDict (fst (snd kr)))) by (refine (inside_through _ _ _ Il (in_entry _ (fst kr) _ _ _ (in_here _))); now apply (in_map (fun kr => (fst kr, JDict (fst (snd kr)))))). split; [exact I1|exact (meant_inside_all _ _ _ I1 M)]. }
    split; [split; [exact LA|]|exact P]; rewrite Forall_forall in *; intros kr Ip; destruct (F kr Ip) as [M U].
    split; [refine (meant_refers_all "responses" "Response" _ _ _ (proj1 (P kr Ip)) M); cbn; tauto|]. split; [exact U|]. exact (wf_inside _ _ (proj2 (P kr Ip)) WJ).
  Qed.
  Lemma path_all p ps ops : inside (JDict d) (JDict p) -> path_with fetch url d p ps ops ->
    path_given deref p ps ops /\ Forall pair_ok (ps ++ concat (map fst ops)) /\ Forall (fun kr => pair_ok (snd kr)) (concat (map snd ops)).
  Proof.
    intros Ip (HP & HO). destruct (params_all p ps Ip HP) as (P1 & P2 & P3).
    assert (O : Forall2 (fun m op => (val p m = JNull /\ op = ([], [])) \/ exists od, val p m = JDict od /\ operation_given deref od op) methods ops /\ Forall pair_ok (concat (map fst ops)) /\ Forall (fun kr => pair_ok (snd kr)) (concat (map snd ops))).
    { clear HP P1 P2 P3. induction HO as [|m op ms ops H _ (I1 & I2 & I3)]; [split; [constructor|split; constructor]|]. cbn [map concat].
      destruct H as [[H ->]|(od & H & OI)]; [split; [constructor; [now left|exact I1]|split; assumption]|]. destruct OI as (O1 & O2 & O3).
      pose proof (inside_through _ _ _ Ip (val_inside p m _ H ltac:(discriminate))) as Iod. destruct (params_all od _ Iod O1) as (Q1 & Q2 & Q3). destruct (responses_all od _ Iod O2) as (R1 & R2).
      split; [constructor; [right; exists od; split; [exact H|]; split; [exact Q1|]; split; [exact Q2|]; split; [exact R1|exact O3]|exact I1]|]. split; apply Forall_app; auto. }
    destruct O as (O1 & O2 & O3). split; [split; [exact P1|split; [exact P2|exact O1]]|]. split; [apply Forall_app; auto|exact O3].
  Qed.
  Theorem migrates_all : migratable deref (normalized_in url) (path_inside d) d.
  Proof.
    destruct WF as (W1 & W2 & W3 & W4 & W5 & W6 & W7 & W8). split; [exact W1|]. split; [exact W2|]. split; [exact W3|]. split; [exact W4|].
    split. { intros n v L. destruct (W5 n v L) as (q & -> & Nr & U). exists q. split; [reflexivity|]. split; [unfold SpecConv.is_reference, mem; now rewrite Nr|]. split; [apply (meant_refers_all "parameters" "Parameter"); [cbn; tauto|exact (section_inside _ _ _ _ L)|left; auto]|]. exact (usable_with_all q (section_inside _ _ _ _ L) U). }
    split. { intros n v L. destruct (W6 n v L) as (q & -> & Nr & U). exists q. split; [reflexivity|]. split; [unfold SpecConv.is_reference, mem; now rewrite Nr|]. split; [apply (meant_refers_all "responses" "Response"); [cbn; tauto|exact (section_inside _ _ _ _ L)|left; auto]|]. exact U. }
    split; [exact W7|]. intros k v L. destruct (W8 k v L) as (p & ps & ops & -> & NR & PI & G). destruct (path_all p ps ops (section_inside _ _ _ _ L) PI) as (P1 & P2 & P3).
    exists p, ps, ops. split; [reflexivity|]. split; [exact P1|]. split; [split; [exact G|split; [exact P2|exact P3]]|]. intros T. unfold val in T. rewrite NR in T. discriminate T.
  Qed.
  Theorem deref_of_store_wf u o x : wf_obj o -> deref_all path2url abspath st u o = Ok x -> wf_obj x.
  Proof.
    apply deref_all_wf.
    - intros v p o1 EN. destruct (ClosedFacts.ent20 _ _ _ _ _ _ _ _ _ _ _ _ _ IV EN) as (SV & _ & SO). split; [exact SV|].
      destruct (ClosedFacts.stored_built path2url abspath fetch url d root places CW url_ne WJ C _ _ _ SO) as (c1 & q1 & s1 & k1 & j & base & EX & WFj & CX & _). exact (construct_wf v20_table j WFj _ _ _ CX).
    - intros v jp o1 G. unfold store_get in G. destruct (first_match jp "2.0" (sub v (s_objs st))) as [[p o2]|] eqn:FM; [|discriminate G].
      destruct (first_match_some _ _ _ _ _ (good_sub _ _ (ClosedFacts.i_good _ _ _ _ _ _ _ _ _ _ IV)) FM) as (PF & LK). rewrite <- entry_sub in LK.
      match type of G with rmap _ ?r = _ => destruct r as [z|] eqn:R; [|discriminate G] end. cbn [rmap] in G. assert (z = o1) by congruence. subst z. eexists p, o2, _. split; [exact LK|exact R].
  Qed.
  (** *** every chain of schema references ends or comes back *)
  Hypothesis SD : forall ts, In (place url ts, BCls "Schema") places -> exists n ts', ts = "definitions" :: n :: ts'.
  Definition schema_in (u : string) (s : doc) (so : obj) : Prop := exists J X ts, held u J X /\ inside J (JDict s) /\ within X ts so /\ loaded (BCls "Schema") (JDict s) so.
  Lemma next_schema u s so v : schema_in u s so -> lookup "$ref" s = Some v ->
    exists ref u' x y, refers_by so ref /\ noted u so = Some (u', y) /\ schema_in u' x y /\ In (u', label y) (all_labels st) /\ (forall e, ends_at fetch url d u' (JDict x) e -> ends_at fetch url d u (JDict s) e).
  Proof.
    intros (J & X & ts & H & I & W & [path Lo]) L. destruct (construct_cls_obj _ _ _ _ _ Lo) as (kids & ->). pose proof H as (p & EN & RC & OR).
    assert (IC : In "Schema" (referring_classes "2.0")) by (cbn; tauto). destruct (proj1 RC _ _ _ _ _ W IC) as (s' & E & M). injection E as <-. rewrite L in M. destruct M as (ref & n & -> & NE & NZ & Nn).
    assert (IN : In (n, BCls "Schema") places) by (apply (proj2 RC); exists ts, "Schema", path, s, kids, ref; repeat (split; [assumption || reflexivity|]); reflexivity).
    assert (R : refers_by (OObj "Schema" path (JDict s) kids) ref) by (apply (ref_attr "2.0"); [now left|cbn; tauto|exact L]).
    destruct (lb_places _ _ _ _ _ LB n _ IN) as (u' & ts' & CU & -> & Hc). destruct (noted_at_all u J X s ref u' ts' H I L NZ CU _ R) as [H1 H2]. exists ref, u'. destruct Hc as [(-> & T & _)|(NU & _ & _)].
    - destruct (SD _ IN) as (n & t' & ->). inversion T as [n0 s0 t0 r Ln Sb E1| |]; subst. destruct (all_definitions n s0 t' r Ln Sb) as (x & path' & kids' & -> & Wy & Cy). destruct (H1 eq_refl) as (y & W1 & NO).
      assert (y = OObj "Schema" path' (JDict x) kids') by exact (within_fun _ _ _ _ W1 Wy). subst y. exists x. eexists. split; [exact R|]. split; [exact NO|]. split; [|split].
      + exists (JDict d), root. eexists. split; [exact held_root|]. split; [exact (inside_through _ _ _ (section_inside _ _ _ _ Ln) (subschema_inside _ _ _ Sb ltac:(discriminate)))|]. split; [exact Wy|now exists path'].
      + exact (stored_label _ _ _ _ _ (entry_stored20 _ _ _ _ stored_root) Wy).
      + intros e E. exact (ea_own fetch url d u s ref n s0 t' (JDict x) e L NZ Ln Sb E).
    - destruct (H2 NU) as (_ & x & X' & F & CX & H' & NO). exists x, X'. split; [exact R|]. split; [exact NO|]. split; [|split].
      + exists (JDict x), X', []. split; [exact H'|]. split; [apply in_here|]. split; [constructor|now exists (Some (place u' ts'))].
      + destruct H' as (p' & EN' & _). exact (stored_label _ _ _ [] _ (entry_stored20 _ _ _ _ EN') (wi_here _)).
      + intros e E. exact (ea_other fetch url d u s ref u' ts' (JDict x) e L NZ NU CU F E).
  Qed.
  Lemma loop_ends_all l0 fuel : forall seen u s so, schema_in u s so -> NoDup seen -> (forall l, In l seen -> In l (l0 :: all_labels st)) -> length seen + fuel = 3 + stored_size st ->
    (exists e r, ends_at fetch url d u (JDict s) e /\ deref_all_loop path2url abspath st fuel seen u so = Ok r /\ loaded (BCls "Schema") (JDict e) r) \/ deref_all_loop path2url abspath st fuel seen u so = Err CycleDetectionError.
  Proof.
    induction fuel as [|f IH]; intros seen u s so SI ND IN LE.
    - exfalso. pose proof (NoDup_incl_length ND IN) as Le. cbn [length] in Le. rewrite all_labels_size in Le. lia.
    - cbn [deref_all_loop]. destruct (lookup "$ref" s) as [v|] eqn:L.
      + destruct (next_schema u s so v SI L) as (ref & u' & x & y & R & NO & SI' & IL & EA). unfold refers_by in R. rewrite R, NO.
        destruct (existsb (label_all_eqb (u', label y)) seen) eqn:Ex; [now right|].
        destruct (IH ((u', label y) :: seen) u' x y SI') as [(e & r & E & Er & Lr)|E].
        * constructor; [|exact ND]. intros Il. enough (T : existsb (label_all_eqb (u', label y)) seen = true) by congruence. apply existsb_exists. eexists. split; [exact Il|]. unfold label_all_eqb. cbn [fst snd]. now rewrite String.eqb_refl, label_eqb_refl.
        * intros l [<-|Il]; [|exact (IN l Il)]. now right.
        * cbn [length]. lia.
        * left. exists e, r. split; [exact (EA e E)|]. auto.
        * right. exact E.
      + destruct SI as (_ & _ & _ & _ & _ & _ & [path Lo]). destruct (construct_cls_obj _ _ _ _ _ Lo) as (kids & ->). rewrite (attr_none "Schema" path s kids (or_introl eq_refl) L). left. exists s. eexists. split; [now apply ea_here|]. split; [reflexivity|now exists path].
  Qed.
  Lemma stored_schema u jp o ts p s kids : entry st u jp "2.0" = Some o -> within (so_obj o) ts (OObj "Schema" p (JDict s) kids) -> schema_in u s (OObj "Schema" p (JDict s) kids).
  Proof.
    intros EN W. destruct (ClosedFacts.ent20 _ _ _ _ _ _ _ _ _ _ _ _ _ IV EN) as (SV & SA & SO). destruct o as [V X A]. cbn [so_version so_apis so_obj] in *. subst V A.
    assert (K : forall J b base, construct v20_table J b base [] = Ok X -> inside J (JDict s) /\ loaded (BCls "Schema") (JDict s) (OObj "Schema" p (JDict s) kids)).
    { intros J b base CX. destruct (within_resolve v20_table ts (repo_wd _ rt_v20) J b base X _ CX W) as (_ & _ & j' & b' & JG & C'); [intros (? & [=])|].
      assert (C2 := ClosedFacts.as_class _ _ _ _ _ _ _ _ C'). destruct (construct_cls_obj _ _ _ _ _ C2) as (k' & E). assert (j' = JDict s) by congruence. subst j'. split; [exact (jget_inside _ _ _ JG)|eexists; exact C2]. }
    pose proof (ClosedFacts.stored_closed path2url abspath fetch url root places CW u jp X SO) as RC.
    destruct SO as [(-> & EP & ->)|(NU & n1 & b1 & ts1 & I1 & S1 & EP & s1 & F & DN & WF1 & CX)].
    - destruct (K _ _ _ C) as [K1 K2]. exists (JDict d), root, ts. split; [exact held_root|]. auto.
    - destruct (K _ _ _ CX) as [K1 K2]. subst jp. destruct (located _ _ _ _ I1 S1) as (_ & -> & [(Z & _)|(_ & U1 & ->)]); [contradiction|]. destruct (lb_used _ _ _ _ _ LB u ts1 U1) as [_ LU]. destruct (LU s1 X F CX) as [_ OR1].
      exists (JDict s1), X, ts. split; [|auto]. exists (pointer ts1). split; [exact EN|]. split; [|exact OR1].
      exact RC.
  Qed.
  Theorem deref_all_ends u jp o ts p s kids : entry st u jp "2.0" = Some o -> within (so_obj o) ts (OObj "Schema" p (JDict s) kids) ->
    (exists e p' kids', ends_at fetch url d u (JDict s) e /\ deref_all path2url abspath st u (OObj "Schema" p (JDict s) kids) = Ok (OObj "Schema" p' (JDict e) kids')) \/
    (deref_all path2url abspath st u (OObj "Schema" p (JDict s) kids) = Err CycleDetectionError /\ forall e, ~ ends_at fetch url d u (JDict s) e).
  Proof.
    intros EN W. pose proof (stored_schema _ _ _ _ _ _ _ EN W) as SI. set (so := OObj "Schema" p (JDict s) kids) in *. destruct (loop_ends_all (u, label so) (S (S (stored_size st))) [(u, label so)] u s so SI) as [(e & r & E & Er & [p' Lr])|H].
    - repeat constructor. intros [].
    - intros l [<-|[]]. now left.
    - cbn [length]. lia.
    - left. destruct (construct_cls_obj _ _ _ _ _ Lr) as (kids' & ->). exists e, p', kids'. auto.
    - right. split; [exact H|]. intros e E. destruct SI as (J & X & ts' & HH & I & _ & Lo). destruct (ends_leads_all _ _ _ E J X HH I so Lo) as (n & sr & Lk & _). pose proof (leads_deref_all _ _ _ _ _ _ _ Lk) as Z. unfold deref_all in Z. congruence.
  Qed.
End Documents.
