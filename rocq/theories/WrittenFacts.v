(** * Path items of other documents, in which everything is written out, and the documents that use them. *)
From Coq Require Import String Ascii List Bool Arith Lia.
From Verif Require Import PyStr PyVal Obj Classes_v2_0 SpecJson SpecObj SpecSchema SpecConv SpecBody SpecOp SpecDoc SpecGiven SpecMigrate SpecLocal SpecInside SpecWhole SpecFollow SpecUrl Urls SpecClosed SpecClosed30 SpecLibrary SpecFollowAll Store App Main Conv20 Up30 Whole Follow FollowAll RelocFacts RefFacts FollowFacts2 FollowFacts3 ConvFacts PropertiesObjAux LocalFacts LocalFacts2 LibraryFacts FollowFacts FollowAllFacts FollowAllFacts2 OverrideFacts.
From Verif Require ClosedFacts ClosedFacts30 StoreFacts.
Import ListNotations.
Open Scope string_scope.

(** a path item [s] inside [R], the references of which are given their meaning by the document [D] *)
Section Given.
  Variables (deref : obj -> res obj) (D : doc) (Us : doc -> Prop) (R : json) (s : doc).
  Notation params_by j ps := (list_at j ps /\ Forall (fun pq => meant "parameters" D (fst pq) (snd pq) /\ Us (snd pq)) ps).
  Notation operation_by od op := (params_by (val od "parameters") (fst op) /\ responses_in D (val od "responses") (snd op) /\ object_or_null (val od "externalDocs")).
  Hypothesis WS : wf_json R.
  Hypothesis Is : inside R (JDict s).
  Hypothesis WR : forall sec cls p q, In (sec, cls) [("parameters", "Parameter"); ("responses", "Response")] -> inside R (JDict p) -> meant sec D p q -> SpecGiven.refers deref cls p q /\ inside R (JDict q).
  Hypothesis WU : forall q, inside R (JDict q) -> Us q -> usable deref q.
  Notation pair_ok := (fun pq : doc * doc => inside R (JDict (fst pq)) /\ inside R (JDict (snd pq))).
  Lemma given_params x ps : inside R (JDict x) -> params_by (val x "parameters") ps -> params_at deref (val x "parameters") ps /\ Forall (fun pq => usable deref (snd pq)) ps /\ Forall pair_ok ps.
  Proof.
    intros Ix (LA & F). assert (P : Forall pair_ok ps).
    { destruct LA as [[_ ->]|LA]; [constructor|]. pose proof (inside_through _ _ _ Ix (val_inside x "parameters" _ LA ltac:(discriminate))) as Il. rewrite Forall_forall in F |- *. intros pq Ip. destruct (F pq Ip) as [M _].
      assert (I1 : inside R (JDict (fst pq))) by (refine (inside_through _ _ _ Il (in_element _ _ _ _ (in_here _))); now apply (in_map (fun pq => JDict (fst pq)))). split; [exact I1|].
      exact (proj2 (WR "parameters" "Parameter" _ _ ltac:(cbn; tauto) I1 M)). }
    split; [split; [exact LA|]|split; [|exact P]]; rewrite Forall_forall in *; intros pq Ip; destruct (F pq Ip) as [M Uq].
    - exact (proj1 (WR "parameters" "Parameter" _ _ ltac:(cbn; tauto) (proj1 (P pq Ip)) M)).
    - exact (WU _ (proj2 (P pq Ip)) Uq).
  Qed.
  Lemma given_responses x rs : inside R (JDict x) -> responses_in D (val x "responses") rs -> responses_at deref (val x "responses") rs /\ Forall (fun kr => pair_ok (snd kr)) rs.
  Proof.
    intros Ix (LA & F). assert (P : Forall (fun kr => pair_ok (snd kr)) rs).
    { destruct LA as [[_ ->]|LA]; [constructor|]. pose proof (inside_through _ _ _ Ix (val_inside x "responses" _ LA ltac:(discriminate))) as Il. rewrite Forall_forall in F |- *. intros kr Ip. destruct (F kr Ip) as [M _].
      assert (I1 : inside R (JDict (fst (snd kr)))) by (refine (inside_through _ _ _ Il (in_entry _ (fst kr) _ _ _ (in_here _))); now apply (in_map (fun kr => (fst kr, JDict (fst (snd kr)))))). split; [exact I1|].
      exact (proj2 (WR "responses" "Response" _ _ ltac:(cbn; tauto) I1 M)). }
    split; [split; [exact LA|]|exact P]; rewrite Forall_forall in *; intros kr Ip; destruct (F kr Ip) as [M U].
    split; [exact (proj1 (WR "responses" "Response" _ _ ltac:(cbn; tauto) (proj1 (P kr Ip)) M))|]. split; [exact U|]. exact (wf_inside _ _ (proj2 (P kr Ip)) WS).
  Qed.
  Lemma given_path ps ops : params_by (val s "parameters") ps /\ Forall2 (fun m op => (val s m = JNull /\ op = ([], [])) \/ exists od, val s m = JDict od /\ operation_by od op) methods ops ->
    path_given deref s ps ops /\ Forall pair_ok (ps ++ concat (map fst ops)) /\ Forall (fun kr => pair_ok (snd kr)) (concat (map snd ops)).
  Proof.
    intros (HP & HO). destruct (given_params s ps Is HP) as (P1 & P2 & P3).
    assert (O : Forall2 (fun m op => (val s m = JNull /\ op = ([], [])) \/ exists od, val s m = JDict od /\ operation_given deref od op) methods ops /\ Forall pair_ok (concat (map fst ops)) /\ Forall (fun kr => pair_ok (snd kr)) (concat (map snd ops))).
    { clear HP P1 P2 P3. induction HO as [|m op ms ops H _ (I1 & I2 & I3)]; [split; [constructor|split; constructor]|]. cbn [map concat].
      destruct H as [[H ->]|(od & H & OI)]; [split; [constructor; [now left|exact I1]|split; assumption]|]. destruct OI as (O1 & O2 & O3).
      pose proof (inside_through _ _ _ Is (val_inside s m _ H ltac:(discriminate))) as Iod. destruct (given_params od _ Iod O1) as (Q1 & Q2 & Q3). destruct (given_responses od _ Iod O2) as (R1 & R2).
      split; [constructor; [right; exists od; split; [exact H|]; split; [exact Q1|]; split; [exact Q2|]; split; [exact R1|exact O3]|exact I1]|]. split; apply Forall_app; auto. }
    destruct O as (O1 & O2 & O3). split; [split; [exact P1|split; [exact P2|exact O1]]|]. split; [apply Forall_app; auto|exact O3].
  Qed.
End Given.

Section Written.
  Variables (deref : obj -> res obj) (s : doc).
  Hypothesis WS : wf_json (JDict s).
  (** objects that are no references are left alone *)
  Hypothesis PD : forall c p x kids, In c ["Parameter"; "Response"; "Schema"] -> lookup "$ref" x = None -> deref (OObj c p (JDict x) kids) = Ok (OObj c p (JDict x) kids).
  Lemma written_refers sec cls p q : In cls ["Parameter"; "Response"] -> meant sec [] p q -> q = p /\ SpecGiven.refers deref cls p q.
  Proof.
    intros I [[L ->]|(n & _ & _ & Z)]; [|discriminate Z]. split; [reflexivity|]. split; [intros v H; congruence|]. intros o Lo. exists o. apply loaded_ref_else in Lo. unfold mem in Lo. rewrite L in Lo.
    split; [|auto]. destruct Lo as [path Lo]. destruct (construct_cls_obj _ _ _ _ _ Lo) as (kids & ->). apply PD; [|exact L]. destruct I as [<-|[<-|[]]]; cbn; tauto.
  Qed.
  Lemma written_usable q : inside (JDict s) (JDict q) -> usable_in [] q -> usable deref q.
  Proof.
    intros In_ [U|[U|(B & e & E & Nf)]]; [now left|right; now left|right; right]. split; [exact B|]. split; [exact (wf_inside _ _ In_ WS)|].
    intros so Lo. inversion E as [s0 L E1|s0 n s1 ts r e0 _ Ln]; [|discriminate Ln]. subst s0. rewrite <- E1 in Lo. destruct Lo as [path Lo]. pose proof Lo as Lo'. destruct (construct_cls_obj _ _ _ _ _ Lo) as (kids & ->).
    eexists. exists e. split; [apply PD; [cbn; tauto|exact L]|]. split; [now exists path|exact Nf].
  Qed.
  Lemma written_path ps ops : path_in [] s ps ops ->
    path_given deref s ps ops /\ Forall (fun pq => inside (JDict s) (JDict (fst pq)) /\ inside (JDict s) (JDict (snd pq))) (ps ++ concat (map fst ops)) /\
    Forall (fun kr => inside (JDict s) (JDict (fst (snd kr))) /\ inside (JDict s) (JDict (snd (snd kr)))) (concat (map snd ops)).
  Proof.
    apply (given_path deref [] (usable_in []) (JDict s) s WS (in_here _)); [|exact written_usable]. intros sec cls p q Is Ip M. destruct (written_refers sec cls p q ltac:(destruct Is as [[= <- <-]|[[= <- <-]|[]]]; cbn; tauto) M) as [-> H]. auto.
  Qed.
End Written.

Lemma normalized_item u X ts p e kids ref n : SpecObj.within X ts (OObj "PathItem" p (JDict e) kids) -> lookup "$ref" e = Some (JStr ref) -> ref <> "" -> normalize_jr (Some ref) (Some u) = Ok (Some n) ->
  normalized_in u (OObj "PathItem" p (JDict e) kids) = Ok (JStr n).
Proof.
  intros W L Ne N. assert (RB : oattr v20_table (OObj "PathItem" p (JDict e) kids) "ref" = Ok (OPrim (JStr ref))) by (apply (ref_attr "2.0"); [now left|cbn; tauto|exact L]).
  assert (T : truthy_str ref = true) by (destruct ref; [congruence|reflexivity]). unfold normalized_in, normalized. rewrite RB. cbn [bind]. rewrite T, N. reflexivity.
Qed.
(** what is no reference is left alone *)
Lemma deref_all_plain path2url abspath st u c p x kids : In c ["Parameter"; "Response"; "Schema"] -> lookup "$ref" x = None -> deref_all path2url abspath st u (OObj c p (JDict x) kids) = Ok (OObj c p (JDict x) kids).
Proof.
  intros I L. unfold deref_all. cbn [deref_all_loop]. destruct I as [<-|[<-|[<-|[]]]]; [reflexivity|reflexivity|].
  rewrite (attr_none "Schema" p x kids ltac:(cbn; tauto) L). reflexivity.
Qed.

Section WrittenLibrary.
  Variables (path2url abspath : string -> string) (fetch : string -> res json) (url : string) (d : doc) (root : obj) (places : list (string * builder)) (used : list (string * list string)) (st : store sobj).
  Hypothesis C : construct v20_table (JDict d) (BCls "Swagger") (Some url) [] = Ok root.
  Hypothesis CW : closed_world path2url abspath fetch url root places.
  Hypothesis WL : written_library fetch url d places used.
  Notation deref := (deref_all path2url abspath st).
  Lemma written_item_library : item_library deref normalized_in fetch url d root places used.
  Proof.
    split.
    - exact (wl_places _ _ _ _ _ WL).
    - intros u ts I. destruct (wl_used _ _ _ _ _ WL u ts I) as [N LU]. split; [exact N|]. intros b s X CLu I2 F CX. destruct (LU b s X CLu I2 F CX) as (OR & SD & WI). split; [exact OR|]. split; [exact SD|]. intros E. split.
      + destruct (WI E) as (ps & ops & PI & Ex & NM).
        assert (WS : wf_json (JDict s)).
        { pose proof (ClosedFacts30.split_place path2url abspath u ts CLu) as S. destruct (cw_places _ _ _ _ _ _ CW _ _ I2) as (u2 & ts2 & S2 & _ & H2). rewrite S in S2. apply Ok_inj_local in S2. assert (E1 := f_equal fst S2). cbn [fst] in E1. subst u2.
          destruct H2 as [(Z & _)|(_ & X2 & (s2 & F2 & _ & W2 & _) & _)]; [congruence|]. rewrite F in F2. apply Ok_inj_local in F2. injection F2 as <-. exact W2. }
        destruct (written_path (deref u) s WS (fun c p x kids => deref_all_plain path2url abspath st u c p x kids) ps ops PI) as (G & P1 & P2). exists ps, ops. auto.
      + intros qs p e kids ref n W L Ne Nz. exact (normalized_item u X qs p e kids ref n W L Ne Nz).
    - intros qs p e kids ref n W L Ne Nz. exact (normalized_item url root qs p e kids ref n W L Ne Nz).
    - exact (wl_apart _ _ _ _ _ WL).
  Qed.
End WrittenLibrary.

(** *** a document the references of which are to its own parameters, responses and definitions, and which may refer
    to path items and (other) schemas of other documents *)
Section Own.
  Variables (path2url abspath : string -> string) (app_url : string) (fetch : string -> res json).
  Variables (url : string) (d : doc) (root : obj) (places : list (string * builder)) (used : list (string * list string)).
  Hypothesis CL : clean url.
  Hypothesis C : construct v20_table (JDict d) (BCls "Swagger") (Some url) [] = Ok root.
  Hypothesis CW : closed_world path2url abspath fetch url root places.
  Hypothesis ONLY : only_references root (JDict d).
  Variable a : app.
  Hypothesis IV : ClosedFacts.Inv path2url abspath fetch url root places (fun _ _ => None) (fun _ => []) (fun _ => False) a.
  Notation st := (a_store a).
  Notation deref := (deref_all path2url abspath st url).
  Notation leads := (leads_all path2url abspath st).
  Hypothesis WL : written_library fetch url d places used.
  Hypothesis WF : well_formed_items fetch url d places.
  Lemma own_wf : wf_json (JDict d). Proof. destruct WF as ((W & _) & _). exact W. Qed.
  Lemma own_root : In (url, root) (stored20 st). Proof. exact (entry_stored20 _ _ _ _ (ClosedFacts.i_root _ _ _ _ _ _ _ _ _ _ IV)). Qed.
  Notation held := (held places a).
  Lemma own_held : held url (JDict d) root.
  Proof. exists "#". split; [exact (ClosedFacts.i_root _ _ _ _ _ _ _ _ _ _ IV)|]. split; [exact (cw_root _ _ _ _ _ _ CW)|exact ONLY]. Qed.
  Lemma item_located n b u ts : In (n, b) places -> split path2url abspath n = Ok (u, pointer ts) -> clean u /\ n = place u ts /\ (u <> url -> In (u, ts) used).
  Proof.
    intros I S. destruct (wl_places _ _ _ _ _ WL n b I) as (u' & ts' & CL' & -> & H). rewrite (ClosedFacts30.split_place path2url abspath u' ts' CL') in S. apply Ok_inj_local in S.
    assert (E1 := f_equal fst S). assert (E2 := f_equal snd S). cbn [fst snd] in E1, E2. apply ClosedFacts.pointer_inj in E2. subst u' ts'. split; [exact CL'|]. split; [reflexivity|].
    intros N. destruct H as [(Z & _)|(_ & I' & _)]; [contradiction|exact I'].
  Qed.
  Lemma item_noted u J X e ref u' ts : held u J X -> inside J (JDict e) -> lookup "$ref" e = Some (JStr ref) -> normalize_jr (Some ref) (Some u) = Ok (Some (place u' ts)) -> clean u' ->
    forall o, refers_by o ref ->
      (u' = url -> exists y, SpecObj.within root ts y /\ noted_all path2url abspath st u o = Some (url, y)) /\
      (u' <> url -> In (place u' ts, BCls "Schema") places -> exists s X', fetch (place u' ts) = Ok (JDict s) /\ construct v20_table (JDict s) (BCls "Schema") (Some (place u' ts)) [] = Ok X' /\ held u' (JDict s) X' /\ noted_all path2url abspath st u o = Some (u', X')).
  Proof.
    intros (p & EN & RC & OR) Ie L NZ CL' o R. destruct (referred_place u X places _ RC (OR _ _ Ie L)) as (ref' & n & b & Er & Ne & N & RF & IN). injection Er as <-. rewrite NZ in N. apply Ok_inj_local in N. assert (En : place u' ts = n) by congruence. subst n.
    pose proof (ClosedFacts30.split_place path2url abspath u' ts CL') as S. assert (CV := ClosedFacts.i_done _ _ _ _ _ _ _ _ _ _ IV _ _ _ _ _ _ EN (fun F => F) RF S).
    destruct (found path2url abspath fetch url d root places CL C CW a IV own_wf _ b u' _ IN S CV) as (ts0 & ts1 & rest & X1 & y & EP & ET & EN1 & SO & W & G). apply ClosedFacts.pointer_inj in EP. subst ts0.
    assert (NO : noted_all path2url abspath st u o = Some (u', y)). { unfold refers_by in R. unfold noted_all, normalized. rewrite R. cbn [bind]. assert (T : truthy_str ref = true) by (destruct ref; [congruence|reflexivity]). rewrite T, NZ, S, G. reflexivity. }
    split; [intros E|intros E IS].
    - subst u'. exists y. split; [|exact NO]. destruct SO as [(_ & EP & ->)|(N0 & _)]; [|now elim N0]. change "#" with (pointer []) in EP. apply ClosedFacts.pointer_inj in EP. subst ts1. cbn [List.app] in ET. now subst rest.
    - destruct SO as [(Z & _)|(N0 & n1 & b1 & t1 & I1 & S1 & EP & P)]; [contradiction|]. apply ClosedFacts.pointer_inj in EP. subst t1.
      destruct (item_located _ _ _ _ I1 S1) as (_ & -> & U1). destruct (item_located _ _ _ _ IN S) as (_ & _ & U2). specialize (U1 E). specialize (U2 E).
      assert (ts1 = ts). { apply (wl_apart _ _ _ _ _ WL u' ts1 ts U1 U2). rewrite ET. apply StoreFacts.prefix_startswith. exists (tail_of rest). change (pointer (ts1 ++ rest)) with ("#" ++ tail_of (ts1 ++ rest))%string. rewrite ClosedFacts.tail_app. reflexivity. }
      subst ts1. assert (rest = []) by (apply (app_inv_head ts); rewrite app_nil_r; now symmetry). subst rest. inversion W; subst y; clear W.
      assert (b1 = BCls "Schema") by exact (wl_one _ _ _ _ _ WL u' ts b1 (BCls "Schema") U1 CL' I1 IS). subst b1.
      assert (RC1 : refs_closed u' X1 places) by (apply (ClosedFacts.stored_closed path2url abspath fetch url root places CW u' (pointer ts)); right; split; [exact N0|]; eauto 8).
      destruct P as (s & F & _ & _ & CX). destruct (wl_used _ _ _ _ _ WL u' ts U1) as [_ LU]. destruct (LU (BCls "Schema") s X1 CL' I1 F CX) as (OR1 & _ & _).
      exists s, X1. split; [exact F|]. split; [exact CX|]. split; [|exact NO]. exists (pointer ts). auto.
  Qed.
  Lemma own_ends u s e : item_ends_at fetch url d places u s e -> forall J X, held u J X -> inside J s -> forall so, loaded (BCls "Schema") s so -> exists n sr, leads u so n sr /\ loaded (BCls "Schema") (JDict e) sr.
  Proof.
    induction 1 as [u s L|u s ref n s0 ts r e L N Ln Sb _ IH|u s ref u' ts r e L N NU CU IP F _ IH]; intros J X H I so [path Lo]; destruct (construct_cls_obj _ _ _ _ _ Lo) as (kids & ->).
    - exists 0. eexists. split; [apply la_end; right; apply attr_none; [cbn; tauto|exact L]|now exists path].
    - assert (R : refers_by (OObj "Schema" path (JDict s) kids) ref) by (apply (ref_attr "2.0"); [now left|cbn; tauto|exact L]).
      destruct WF as (_ & _ & _ & HD & _). destruct (definition_object0 path2url abspath url d url root C n s0 ts r (HD n s0 Ln) Ln Sb) as (x & path' & kids' & -> & W & Cy).
      destruct (item_noted u J X s ref url _ H I L N CL _ R) as [H1 _]. destruct (H1 eq_refl) as (y & Wy & NO). assert (y = OObj "Schema" path' (JDict x) kids') by exact (within_fun _ _ _ _ Wy W). subst y.
      destruct (IH (JDict d) root own_held (inside_through _ _ _ (section_inside _ _ _ _ Ln) (subschema_inside _ _ _ Sb ltac:(discriminate))) _ (ex_intro _ path' Cy)) as (k & sr & Lk & Lr).
      exists (S k), sr. split; [|exact Lr]. eapply la_step; [exact R|exact NO| |exact Lk]. exists root. eexists. split; [exact own_root|exact W].
    - assert (R : refers_by (OObj "Schema" path (JDict s) kids) ref) by (apply (ref_attr "2.0"); [now left|cbn; tauto|exact L]).
      destruct (item_noted u J X s ref u' ts H I L N CU _ R) as [_ H2]. destruct (H2 NU IP) as (s' & X' & F' & CX & H' & NO). rewrite F in F'. apply Ok_inj_local in F'. subst r.
      destruct (IH (JDict s') X' H' (in_here _) X' (ex_intro _ _ CX)) as (k & sr & Lk & Lr). exists (S k), sr. split; [|exact Lr]. eapply la_step; [exact R|exact NO| |exact Lk].
      destruct H' as (p' & EN & _). exists X', []. split; [exact (entry_stored20 _ _ _ _ EN)|constructor].
  Qed.
  Lemma own_refers sec cls p q : In (sec, cls) [("parameters", "Parameter"); ("responses", "Response")] -> inside (JDict d) (JDict p) -> meant sec d p q -> SpecGiven.refers deref cls p q /\ inside (JDict d) (JDict q).
  Proof.
    intros Is Ip M. assert (Ic : In cls ["Parameter"; "Response"]) by (destruct Is as [[= <- <-]|[[= <- <-]|[]]]; cbn; tauto).
    assert (Ich : In (mk_child sec (BMapOf (BCls cls)) false) (c_children v20_Swagger)) by (destruct Is as [[= <- <-]|[[= <- <-]|[]]]; cbn; tauto).
    split; [|exact (meant_inside_all d sec p q Ip M)]. destruct M as [[L ->]|(n & Nn & L & Lq)].
    - split; [intros v H; congruence|]. intros o Lo. exists o. apply loaded_ref_else in Lo. unfold mem in Lo. rewrite L in Lo. split; [|auto]. destruct Lo as [path Lo]. destruct (construct_cls_obj _ _ _ _ _ Lo) as (kids & ->).
      apply leads_deref_all with 0. now apply plain_end_all.
    - split; [intros v H; rewrite L in H; injection H as <-; reflexivity|]. intros o Lo. apply loaded_ref_else in Lo. unfold mem in Lo. rewrite L in Lo. destruct Lo as [path Lo]. destruct (construct_cls_obj _ _ _ _ _ Lo) as (kids & ->).
      destruct (section_object d url root C sec cls n q Ich Lq) as (path' & kids' & W & Cy). exists (OObj cls path' (JDict q) kids'). split; [|split; [now exists path'|intros Z; exfalso; revert Z; unfold SpecConv.is_reference, mem; rewrite L; discriminate]].
      assert (R : refers_by (OObj "Reference" path (JDict p) kids) (pointer [sec; n])) by (apply (ref_attr "2.0"); [now left|cbn; tauto|exact L]).
      assert (NZ : normalize_jr (Some (pointer [sec; n])) (Some url) = Ok (Some (place url [sec; n]))). { destruct CL as (us & uh & up & uq & CU & ->). exact (normalize_pointer us uh up uq CU [sec; n] ltac:(discriminate)). }
      destruct (item_noted url (JDict d) root p _ url _ own_held Ip L NZ CL _ R) as [H1 _]. destruct (H1 eq_refl) as (y & Wy & NO). rewrite (within_fun _ _ _ _ Wy W) in NO.
      apply leads_deref_all with 1. eapply la_step; [exact R|exact NO| |now apply plain_end_all]. exists root, [sec; n]. split; [exact own_root|exact W].
  Qed.
  Lemma own_usable q : inside (JDict d) (JDict q) -> item_usable fetch url d places q -> usable deref q.
  Proof.
    intros In_ [U|[U|(B & e & E & Nf)]]; [now left|right; now left|right; right]. split; [exact B|]. split; [exact (wf_inside _ _ In_ own_wf)|].
    intros so Lo. assert (Is : inside (JDict d) (val q "schema")) by (refine (inside_through _ _ _ In_ (val_inside _ _ _ eq_refl _)); inversion E; discriminate).
    destruct (own_ends _ _ _ E _ _ own_held Is so Lo) as (n & sr & Lk & Lr). exists sr, e. split; [exact (leads_deref_all _ _ _ _ _ _ _ Lk)|]. auto.
  Qed.
  Theorem own_migrates : migratable deref (normalized_in url) (path_inside d) d.
  Proof.
    destruct WF as (W1 & W2 & W3 & W4 & W5 & W6 & W7 & W8). split; [exact W1|]. split; [exact W2|]. split; [exact W3|]. split; [exact W4|].
    split. { intros n v L. destruct (W5 n v L) as (q & -> & Nr & U). exists q. split; [reflexivity|]. split; [unfold SpecConv.is_reference, mem; now rewrite Nr|].
      split; [refine (proj1 (own_refers "parameters" "Parameter" q q _ (section_inside _ _ _ _ L) (or_introl (conj Nr eq_refl)))); cbn; tauto|]. exact (own_usable q (section_inside _ _ _ _ L) U). }
    split. { intros n v L. destruct (W6 n v L) as (q & -> & Nr & U). exists q. split; [reflexivity|]. split; [unfold SpecConv.is_reference, mem; now rewrite Nr|].
      split; [refine (proj1 (own_refers "responses" "Response" q q _ (section_inside _ _ _ _ L) (or_introl (conj Nr eq_refl)))); cbn; tauto|exact U]. }
    split; [exact W7|]. intros k v L. destruct (W8 k v L) as (p & ps & ops & -> & PI & G). pose proof (section_inside _ _ _ _ L) as Ip.
    destruct (given_path deref d (item_usable fetch url d places) (JDict d) p own_wf Ip own_refers own_usable ps ops PI) as (P1 & P2 & P3). exists p, ps, ops. split; [reflexivity|]. split; [exact P1|]. split; [split; [exact G|split; [exact P2|exact P3]]|].
    intros T o [path Lo]. destruct (construct_cls_obj _ _ _ _ _ Lo) as (kids & ->). unfold val in T. destruct (lookup "$ref" p) as [r|] eqn:Lr; [|discriminate T].
    destruct (section_object d url root C "paths" "PathItem" k p ltac:(cbn; tauto) L) as (path' & kids' & W & _). destruct (proj1 (cw_root _ _ _ _ _ _ CW) _ _ _ _ _ W ltac:(cbn; tauto)) as (d2 & E2 & M2). injection E2 as <-. rewrite Lr in M2. destruct M2 as (ref & n & -> & Ne & N & _).
    exists (JStr n). exact (normalized_item url _ [] path p kids ref n (SpecObj.wi_here _) Lr Ne N).
  Qed.
End Own.
