(** * Swagger 2.0 documents: conditions on the document imply conditions on its objects. *)
From Coq Require Import String Ascii List Bool Arith Lia.
From Verif Require Import PyStr PyStrFacts PyVal PyValFacts Jp JpFacts UrlLib Urls SpecUrl UrlFacts UrlFacts2 Obj ObjFacts Classes_v2_0 TablesFacts SpecTables SpecJson ShapeFacts DumpFacts ReloadFacts NatDecFacts SpecObj OverrideFacts ResolveFacts SpecSchema SpecConv SpecBody SpecOp SpecDoc SpecStore
  Store App Main SpecScan SpecLocal SpecInside Shape30Facts TightFacts SpecGiven SpecMigrate SpecWhole SpecFollow PropertiesObjAux SpecOpen WfFacts Conv20 Up30 Whole Follow ConvFacts RelocFacts RefFacts LocalFacts FollowFacts FollowFacts2.
Import ListNotations.
Open Scope string_scope. Open Scope nat_scope.
Notation within := SpecObj.within (only parsing).

Lemma schema_doc_dict s : schema_doc s -> exists d, s = JDict d. Proof. intros H. inversion H. eauto. Qed.
Lemma attr_none c path d kids : In c ["Schema"; "PathItem"] -> lookup "$ref" d = None -> oattr v20_table (OObj c path (JDict d) kids) "ref" = Ok (OPrim JNull).
Proof. intros I L. assert (M : mem "$ref" d = false) by (unfold mem; now rewrite L). repeat (destruct I as [<-|I]; [cbn; rewrite M; reflexivity|]). destruct I. Qed.

Lemma opt_eqb_refl x : opt_eqb x x = true. Proof. destruct x; [apply String.eqb_refl|reflexivity]. Qed.
Lemma label_eqb_refl x : label_eqb x x = true. Proof. unfold label_eqb. now rewrite !opt_eqb_refl. Qed.

Lemma typed_class T P c j : SpecFollow.typed T P (BCls c) j -> exists q, j = JDict q. Proof. intros H. inversion H. eauto. Qed.
Lemma typed_val T P c cd d ch : SpecFollow.typed T P (BCls c) (JDict d) -> lookup c T = Some cd -> In ch (c_children cd) -> val d (ch_name ch) = JNull \/ SpecFollow.typed T P (ch_builder ch) (val d (ch_name ch)).
Proof.
  intros H E I. inversion H as [| | |c0 cd0 x Ec _ K _| | | |]; subst. assert (cd0 = cd) by congruence. subst cd0. unfold val. destruct (lookup (ch_name ch) d) as [v|] eqn:L; [|now left].
  destruct v; [now left|right; eapply K; eauto; discriminate..].
Qed.
Definition schema_slot (b : builder) (j : json) : Prop :=
  (b = BCls "Schema" -> schema_doc j) /\ (b = BListOf (BCls "Schema") -> exists l, j = JList l /\ Forall schema_doc l) /\
  (b = BMapOf (BCls "Schema") -> exists p, j = JDict p /\ Forall (fun kv => schema_doc (snd kv)) p) /\ (b = BBoolElse (BCls "Schema") -> (exists v, j = JBool v) \/ schema_doc j).
Lemma typed_slot P b j : SpecFollow.typed v20_table P b j -> schema_slot b j.
Proof.
  induction 1 as [s|b l H IH|b d H IH|c cd d E Pc K IH Rq|r b d v L H IH|r b d L H IH|b v|b j N H IH]; (split; [|split; [|split]]); intros Z; try discriminate Z.
  - injection Z as ->. exists l. split; [reflexivity|]. apply Forall_forall. intros x Ix. exact (proj1 (IH x Ix) eq_refl).
  - injection Z as ->. exists d. split; [reflexivity|]. apply Forall_forall. intros [k x] Ix. exact (proj1 (IH k x Ix) eq_refl).
  - injection Z as ->. injection E as <-.
    assert (Q : forall n b, In (mk_child n b false) (c_children v20_Schema) -> val d n = JNull \/ (schema_slot b (val d n) /\ SpecFollow.typed v20_table P b (val d n))).
    { intros n b I. unfold val. destruct (lookup n d) as [v|] eqn:L; [|now left]. destruct v; [now left|right; split; [eapply (IH (mk_child n b false)); eauto; discriminate|eapply (K (mk_child n b false)); eauto; discriminate]..]. }
    constructor.
    + destruct (Q "items" (BCls "Schema") ltac:(cbn; tauto)) as [X|(X & _)]; [now left|right]. now apply X.
    + destruct (Q "allOf" (BListOf (BCls "Schema")) ltac:(cbn; tauto)) as [X|(X & _)]; [now left|right]. now apply X.
    + destruct (Q "properties" (BMapOf (BCls "Schema")) ltac:(cbn; tauto)) as [X|(X & _)]; [now left|right]. now apply X.
    + destruct (Q "additionalProperties" (BBoolElse (BCls "Schema")) ltac:(cbn; tauto)) as [X|(X & _)]; [now left|right]. now apply X.
    + destruct (Q "xml" (BCls "XMLObject") ltac:(cbn; tauto)) as [X|(_ & X)]; [now left|right]. now apply typed_class in X.
    + destruct (Q "externalDocs" (BCls "ExternalDocumentation") ltac:(cbn; tauto)) as [X|(_ & X)]; [now left|right]. now apply typed_class in X.
  - left. eauto.
  - injection Z as ->. right. now apply (proj1 IH).
Qed.
Lemma typed_schema P j : SpecFollow.typed v20_table P (BCls "Schema") j -> schema_doc j.
Proof. intros H. exact (proj1 (typed_slot _ _ _ H) eq_refl). Qed.
Section Doc.
  Variables (path2url abspath : string -> string) (us uh up uq : string).
  Hypothesis CU : clean_url us uh up uq.
  Notation url := (abs_url us uh up uq).
  Variables (d : doc) (base : string) (root : obj).
  Hypothesis C : construct v20_table (JDict d) (BCls "Swagger") (Some base) [] = Ok root.
  Notation noted := (noted path2url abspath url root).
  Notation deref := (deref_in path2url abspath url root).
  Notation leads := (leads path2url abspath url root).
  Lemma noted_at o ts y : refers_by o (pointer ts) -> ts <> [] -> within root ts y -> is_object y -> noted o = Some y.
  Proof.
    intros R NE W O. unfold refers_by in R. unfold Follow.noted, normalized. rewrite R. cbn [bind]. assert (Tp : truthy_str (pointer ts) = true) by reflexivity. rewrite Tp, (normalize_pointer us uh up uq CU ts NE), (split_pointer path2url abspath us uh up uq CU ts).
    assert (Rs : resolve v20_table root ts = Ok y) by (refine (proj1 (proj2 (within_resolve v20_table ts wd20 _ _ _ _ _ C W _))); destruct O as (? & ? & ? & ? & ->); intros (? & [=])).
    pose proof (get_stored us uh up uq (mk_app (mk_store [(url, [("#", [("2.0", mk_sobj "2.0" root [])])])] [] known3) "2.0" None []) "2.0" (mk_sobj "2.0" root []) ts y) as G.
    cbn [a_store] in G. unfold known3 in G. rewrite G; [reflexivity| |exact NE|exact Rs]. exists [("2.0", mk_sobj "2.0" root [])]. split; [cbn; now rewrite String.eqb_refl|reflexivity].
  Qed.
  Hypothesis SD : swagger_doc d.
  Lemma section_object sec cls n q : In (mk_child sec (BMapOf (BCls cls)) false) (c_children v20_Swagger) -> lookup n (entries_of (val d sec)) = Some (JDict q) ->
    exists path kids, within root [sec; n] (OObj cls path (JDict q) kids) /\ construct v20_table (JDict q) (BCls cls) path [] = Ok (OObj cls path (JDict q) kids).
  Proof.
    intros Ic L. pose proof (section_addresses d sec cls n (JDict q) [] (BCls cls) (JDict q) Ic L (ad_here _ _ _)) as A.
    destruct (object_at v20_table _ _ _ _ _ cls _ _ wd20 C A (dn_cls _ _)) as (kids & W & Cy). eauto.
  Qed.
  Lemma section_typed sec b n v : In (mk_child sec (BMapOf b) false) (c_children v20_Swagger) -> lookup n (entries_of (val d sec)) = Some v -> SpecFollow.typed v20_table (fun c x => c = "PathItem" -> lookup "$ref" x = None) b v.
  Proof.
    intros Ic L. unfold val in L. destruct (lookup sec d) as [j|] eqn:E; [|discriminate L]. inversion SD as [| | |c0 cd x Ec _ K _| | | |]; subst. injection Ec as <-.
    assert (N : j <> JNull) by (intros ->; discriminate L). pose proof (K _ j Ic E N) as T. cbn [ch_builder] in T. inversion T as [| |b0 l H| | | | |]; subst. exact (H n v (PyValFacts.lookup_In _ _ _ L)).
  Qed.
  Lemma definition_object0 n s0 ts r : schema_doc s0 -> lookup n (entries_of (val d "definitions")) = Some s0 -> subschema s0 ts r ->
    exists x path kids, r = JDict x /\ within root ("definitions" :: n :: ts) (OObj "Schema" path r kids) /\ construct v20_table r (BCls "Schema") path [] = Ok (OObj "Schema" path r kids).
  Proof.
    intros HD L S. destruct (subschema_addresses s0 ts r S HD (BCls "Schema") (or_introl eq_refl)) as (b' & A & Sb & Sr).
    destruct (schema_doc_dict _ Sr) as (x & ->). pose proof (section_addresses d "definitions" "Schema" n s0 ts b' _ ltac:(cbn; tauto) L A) as A'.
    destruct (object_at v20_table _ _ _ _ _ "Schema" _ _ wd20 C A' (schema20_denotes _ _ Sb)) as (kids & W & Cy). eauto 6.
  Qed.
  Lemma target_object ts : target d ts -> holds_object root ts.
  Proof.
    intros T. inversion T as [n s ts' r L S|n v L|n v Nn L]; subst.
    - destruct (definition_object0 n s ts' r (typed_schema _ _ (section_typed "definitions" (BCls "Schema") n s ltac:(cbn; tauto) L)) L S) as (x & path & kids & -> & W & _). eexists. split; [exact W|]. do 4 eexists. reflexivity.
    - destruct (typed_class _ _ _ _ (section_typed "responses" (BCls "Response") n v ltac:(cbn; tauto) L)) as (q & ->). destruct (section_object "responses" "Response" n q ltac:(cbn; tauto) L) as (path & kids & W & _). eexists. split; [exact W|]. do 4 eexists. reflexivity.
    - destruct (typed_class _ _ _ _ (section_typed "parameters" (BCls "Parameter") n v ltac:(cbn; tauto) L)) as (q & ->). destruct (section_object "parameters" "Parameter" n q ltac:(cbn; tauto) L) as (path & kids & W & _). eexists. split; [exact W|]. do 4 eexists. reflexivity.
  Qed.
  Lemma target_ne ts : target d ts -> ts <> []. Proof. intros T. inversion T; discriminate. Qed.
  Lemma contained : refers_to_targets d -> self_contained "2.0" root.
  Proof.
    intros RT ts c p s kids W Ic. pose proof (typed_within _ ts root _ (typed_built _ _ _ _ _ C eq_refl SD) W) as (T & HR & _). inversion T as [| | |c0 cd x Ec PI _ _| | | |]; subst. exists x. split; [reflexivity|].
    assert (In_ : inside (JDict d) (JDict x)).
    { destruct (within_resolve v20_table ts wd20 _ _ _ _ _ C W) as (_ & _ & j' & b' & G & C'); [intros (? & [=])|]. assert (B : built v20_table j' (path_after (Some base) ts) (OObj c p (JDict x) kids)) by (apply (construct_built _ _ _ _ _ C'); intros (? & [=])). inversion B; subst. exact (jget_inside _ _ _ G). }
    destruct (lookup "$ref" x) as [v|] eqn:L.
    - split; [intros ->; discriminate (PI eq_refl)|]. destruct (RT x v In_ L) as (us0 & -> & Tg). exists us0. split; [reflexivity|]. split; [exact (target_ne _ Tg)|exact (target_object _ Tg)].
    - intros Z. destruct (HR Z) as (x' & v & E & Lv). injection E as <-. congruence.
  Qed.
  Hypothesis WF : well_formed d.
  Lemma WJ : wf_json (JDict d). Proof. destruct WF as ((W & _) & _). exact W. Qed.
  Lemma definition_object n s0 ts r : lookup n (entries_of (val d "definitions")) = Some s0 -> subschema s0 ts r ->
    exists x path kids, r = JDict x /\ within root ("definitions" :: n :: ts) (OObj "Schema" path r kids) /\ construct v20_table r (BCls "Schema") path [] = Ok (OObj "Schema" path r kids).
  Proof. intros L. destruct WF as (_ & _ & _ & HD & _). exact (definition_object0 n s0 ts r (HD n s0 L) L). Qed.
  (** parameters and responses *)
  Lemma plain_end c path q kids : In c ["Parameter"; "Response"] -> leads (OObj c path (JDict q) kids) 0 (OObj c path (JDict q) kids).
  Proof. intros I. apply ld_end. left. repeat (destruct I as [<-|I]; [reflexivity|]). destruct I. Qed.
  Lemma meant_refers sec cls p q : In (sec, cls) [("parameters", "Parameter"); ("responses", "Response")] -> meant sec d p q -> refers deref cls p q.
  Proof.
    intros Is M. assert (Ic : In cls ["Parameter"; "Response"]) by (destruct Is as [[= <- <-]|[[= <- <-]|[]]]; cbn; tauto).
    assert (Ich : In (mk_child sec (BMapOf (BCls cls)) false) (c_children v20_Swagger)) by (destruct Is as [[= <- <-]|[[= <- <-]|[]]]; cbn; tauto).
    destruct M as [[L ->]|(n & Nn & L & Lq)].
    - split; [intros v H; congruence|]. intros o Lo. exists o. apply loaded_ref_else in Lo. unfold mem in Lo. rewrite L in Lo. split; [|auto]. destruct Lo as [path Lo]. destruct (construct_cls_obj _ _ _ _ _ Lo) as (kids & ->). apply leads_deref with 0. now apply plain_end.
    - split; [intros v H; rewrite L in H; injection H as <-; reflexivity|]. intros o Lo. apply loaded_ref_else in Lo. unfold mem in Lo. rewrite L in Lo. destruct Lo as [path Lo]. destruct (construct_cls_obj _ _ _ _ _ Lo) as (kids & ->).
      destruct (section_object sec cls n q Ich Lq) as (path' & kids' & W & Cy). exists (OObj cls path' (JDict q) kids'). split; [|split; [now exists path'|intros Z; exfalso; revert Z; unfold is_reference, SpecConv.is_reference, mem; rewrite L; discriminate]].
      assert (R : refers_by (OObj "Reference" path (JDict p) kids) (pointer [sec; n])) by (apply (ref_attr "2.0"); [now left|cbn; tauto|exact L]).
      apply leads_deref with 1. eapply ld_step; [exact R| | |now apply plain_end]; [|exists [sec; n]; exact W].
      apply noted_at with [sec; n]; [exact R|discriminate|exact W|]. do 4 eexists. reflexivity.
  Qed.
  Lemma ends_leads s e : schema_ends d s e -> forall so, loaded (BCls "Schema") s so -> exists n sr, leads so n sr /\ loaded (BCls "Schema") (JDict e) sr.
  Proof.
    induction 1 as [s L|s n s0 ts r e L Ln Sc _ IH]; intros so [path Lo]; destruct (construct_cls_obj _ _ _ _ _ Lo) as (kids & ->).
    - exists 0. eexists. split; [apply ld_end; right; apply attr_none; [cbn; tauto|exact L]|now exists path].
    - destruct (definition_object n s0 ts r Ln Sc) as (x & path' & kids' & -> & W & Cy). destruct (IH _ (ex_intro _ path' Cy)) as (k & sr & Lk & Lr).
      assert (R : refers_by (OObj "Schema" path (JDict s) kids) (pointer ("definitions" :: n :: ts))) by (apply (ref_attr "2.0"); [now left|cbn; tauto|exact L]).
      exists (S k), sr. split; [|exact Lr]. eapply ld_step; [exact R| |exists ("definitions" :: n :: ts); exact W|exact Lk].
      apply noted_at with ("definitions" :: n :: ts); [exact R|discriminate|exact W|]. do 4 eexists. reflexivity.
  Qed.
  Lemma usable_all q : inside (JDict d) (JDict q) -> usable_in d q -> usable deref q.
  Proof.
    intros In_ [U|[U|(B & e & E & Nf)]]; [now left|right; now left|right; right]. split; [exact B|]. split; [exact (wf_inside _ _ In_ WJ)|].
    intros so Lo. destruct (ends_leads _ _ E so Lo) as (n & sr & Lk & Lr). exists sr, e. split; [exact (leads_deref _ _ _ _ _ _ _ Lk)|]. auto.
  Qed.
  Lemma meant_inside sec p q : inside (JDict d) (JDict p) -> meant sec d p q -> inside (JDict d) (JDict q).
  Proof.
    intros In_ [[_ ->]|(n & _ & _ & L)]; [exact In_|]. unfold val in L. destruct (lookup sec d) as [[| | | | | |l]|] eqn:E; try discriminate L. cbn [entries_of] in L.
    exact (in_entry _ _ _ _ (PyValFacts.lookup_In _ _ _ E) (in_entry _ _ _ _ (PyValFacts.lookup_In _ _ _ L) (in_here _))).
  Qed.
  Lemma inside_val x k y : inside (JDict d) (JDict x) -> val x k = y -> y <> JNull -> inside (JDict d) y.
  Proof.
    intros I E N. unfold val in E. destruct (lookup k x) as [v|] eqn:L; [|congruence]. subst v. assert (J : inside (JDict x) y) by exact (in_entry _ _ _ _ (PyValFacts.lookup_In _ _ _ L) (in_here _)).
    clear -I J. remember (JDict x) as z. induction I; subst; [exact J|eapply in_entry; eauto|eapply in_element; eauto].
  Qed.
  Lemma inside_trans j x y : inside j x -> inside x y -> inside j y.
  Proof. induction 1; intros J; [exact J|eapply in_entry; eauto|eapply in_element; eauto]. Qed.
  Definition pair_ok (pq : doc * doc) : Prop := inside (JDict d) (JDict (fst pq)) /\ inside (JDict d) (JDict (snd pq)).
  Lemma params_ok x ps : inside (JDict d) (JDict x) -> params_in d (val x "parameters") ps -> params_at deref (val x "parameters") ps /\ Forall (fun pq => usable deref (snd pq)) ps /\ Forall pair_ok ps.
  Proof.
    intros Ix (LA & F). assert (P : Forall pair_ok ps).
    { destruct LA as [[_ ->]|LA]; [constructor|]. pose proof (inside_val x "parameters" _ Ix LA ltac:(discriminate)) as Il. rewrite Forall_forall in F |- *. intros pq Ip. destruct (F pq Ip) as [M _].
      assert (I1 : inside (JDict d) (JDict (fst pq))) by (refine (inside_trans _ _ _ Il (in_element _ _ _ _ (in_here _))); now apply (in_map (fun pq => JDict (fst pq)))). split; [exact I1|exact (meant_inside _ _ _ I1 M)]. }
    split; [split; [exact LA|]|split; [|exact P]]; rewrite Forall_forall in *; intros pq Ip; destruct (F pq Ip) as [M U].
    - refine (meant_refers "parameters" "Parameter" _ _ _ M). cbn. tauto.
    - exact (usable_all _ (proj2 (P pq Ip)) U).
  Qed.
  Lemma responses_ok x rs : inside (JDict d) (JDict x) -> responses_in d (val x "responses") rs -> responses_at deref (val x "responses") rs /\ Forall (fun kr => pair_ok (snd kr)) rs.
  Proof.
    intros Ix (LA & F). assert (P : Forall (fun kr => pair_ok (snd kr)) rs).
    { destruct LA as [[_ ->]|LA]; [constructor|]. pose proof (inside_val x "responses" _ Ix LA ltac:(discriminate)) as Il. rewrite Forall_forall in F |- *. intros kr Ip. destruct (F kr Ip) as [M _].
      assert (I1 : inside (JDict d) (JDict (fst (snd kr)))) by (refine (inside_trans _ _ _ Il (in_entry _ (fst kr) _ _ _ (in_here _))); now apply (in_map (fun kr => (fst kr, JDict (fst (snd kr)))))). split; [exact I1|exact (meant_inside _ _ _ I1 M)]. }
    split; [split; [exact LA|]|exact P]; rewrite Forall_forall in *; intros kr Ip; destruct (F kr Ip) as [M U].
    split; [refine (meant_refers "responses" "Response" _ _ _ M); cbn; tauto|]. split; [exact U|]. exact (wf_inside _ _ (proj2 (P kr Ip)) WJ).
  Qed.
  Lemma path_ok p ps ops : inside (JDict d) (JDict p) -> path_in d p ps ops ->
    path_given deref p ps ops /\ Forall pair_ok (ps ++ concat (map fst ops)) /\ Forall (fun kr => pair_ok (snd kr)) (concat (map snd ops)).
  Proof.
    intros Ip (HP & HO). destruct (params_ok p ps Ip HP) as (P1 & P2 & P3).
    assert (O : Forall2 (fun m op => (val p m = JNull /\ op = ([], [])) \/ exists od, val p m = JDict od /\ operation_given deref od op) methods ops /\ Forall pair_ok (concat (map fst ops)) /\ Forall (fun kr => pair_ok (snd kr)) (concat (map snd ops))).
    { clear HP P1 P2 P3. induction HO as [|m op ms ops H _ (I1 & I2 & I3)]; [split; [constructor|split; constructor]|]. cbn [map concat].
      destruct H as [[H ->]|(od & H & OI)]; [split; [constructor; [now left|exact I1]|split; assumption]|]. destruct OI as (O1 & O2 & O3).
      pose proof (inside_val p m _ Ip H ltac:(discriminate)) as Iod. destruct (params_ok od _ Iod O1) as (Q1 & Q2 & Q3). destruct (responses_ok od _ Iod O2) as (R1 & R2).
      split; [constructor; [right; exists od; split; [exact H|]; split; [exact Q1|]; split; [exact Q2|]; split; [exact R1|exact O3]|exact I1]|]. split; apply Forall_app; auto. }
    destruct O as (O1 & O2 & O3). split; [split; [exact P1|split; [exact P2|exact O1]]|]. split; [apply Forall_app; auto|exact O3].
  Qed.
  Lemma entry_inside sec n v : lookup n (entries_of (val d sec)) = Some v -> inside (JDict d) v.
  Proof.
    intros L. unfold val in L. destruct (lookup sec d) as [[| | | | | |l]|] eqn:E; try discriminate L. cbn [entries_of] in L.
    exact (in_entry _ _ _ _ (PyValFacts.lookup_In _ _ _ E) (in_entry _ _ _ _ (PyValFacts.lookup_In _ _ _ L) (in_here _))).
  Qed.
  Lemma no_path_refs k p : lookup k (entries_of (val d "paths")) = Some (JDict p) -> lookup "$ref" p = None.
  Proof.
    intros L. destruct (section_object "paths" "PathItem" k p ltac:(cbn; tauto) L) as (path & kids & W & _). pose proof (typed_within _ _ root _ (typed_built _ _ _ _ _ C eq_refl SD) W) as (T & _). inversion T as [| | |c0 cd x Ec PI _ _| | | |]; subst. now apply PI.
  Qed.
  Theorem migrates : migratable deref (normalized_in url) (path_inside d) d.
  Proof.
    destruct WF as (W1 & W2 & W3 & W4 & W5 & W6 & W7 & W8). split; [exact W1|]. split; [exact W2|]. split; [exact W3|]. split; [exact W4|].
    split. { intros n v L. destruct (W5 n v L) as (q & -> & Nr & U). exists q. split; [reflexivity|]. split; [unfold SpecConv.is_reference, mem; now rewrite Nr|]. split; [apply (meant_refers "parameters" "Parameter"); [cbn; tauto|left; auto]|]. exact (usable_all q (entry_inside _ _ _ L) U). }
    split. { intros n v L. destruct (W6 n v L) as (q & -> & Nr & U). exists q. split; [reflexivity|]. split; [unfold SpecConv.is_reference, mem; now rewrite Nr|]. split; [apply (meant_refers "responses" "Response"); [cbn; tauto|left; auto]|]. exact U. }
    split; [exact W7|]. intros k v L. destruct (W8 k v L) as (p & ps & ops & -> & PI & G). destruct (path_ok p ps ops (entry_inside _ _ _ L) PI) as (P1 & P2 & P3).
    exists p, ps, ops. split; [reflexivity|]. split; [exact P1|]. split; [split; [exact G|split; [exact P2|exact P3]]|]. intros T. unfold val in T. rewrite (no_path_refs _ _ L) in T. discriminate T.
  Qed.
  (** every chain of schema references ends or comes back *)
  Hypothesis DR : forall n s0 ts x, lookup n (entries_of (val d "definitions")) = Some s0 -> subschema s0 ts (JDict x) -> definition_ref d x.
  Lemma loop_ends l0 fuel : forall seen s so, definition_ref d s -> loaded (BCls "Schema") (JDict s) so -> NoDup seen -> (forall l, In l seen -> In l (l0 :: map label (objs root))) ->
    length seen + fuel = 3 + Main.osize root ->
    (exists e r, schema_ends d (JDict s) e /\ deref_loop path2url abspath url root fuel seen so = Ok r /\ loaded (BCls "Schema") (JDict e) r) \/ deref_loop path2url abspath url root fuel seen so = Err CycleDetectionError.
  Proof.
    induction fuel as [|f IH]; intros seen s so D L ND IN LE.
    - exfalso. pose proof (NoDup_incl_length ND IN) as Le. cbn [length] in Le. rewrite map_length, objs_size in Le. lia.
    - destruct L as [path Lo]. destruct (construct_cls_obj _ _ _ _ _ Lo) as (kids & ->). cbn [deref_loop]. destruct D as [N|(n & s0 & ts & r & R & Ln & Sb)].
      + rewrite (attr_none "Schema" path s kids (or_introl eq_refl) N). left. exists s. eexists. split; [now apply se_here|]. split; [reflexivity|now exists path].
      + assert (Rb : refers_by (OObj "Schema" path (JDict s) kids) (pointer ("definitions" :: n :: ts))) by (apply (ref_attr "2.0"); [now left|cbn; tauto|exact R]).
        destruct (definition_object n s0 ts r Ln Sb) as (x & path' & kids' & -> & W & Cy). unfold refers_by in Rb. rewrite Rb.
        rewrite (noted_at _ _ _ Rb ltac:(discriminate) W ltac:(do 4 eexists; reflexivity)).
        destruct (existsb (label_eqb (label (OObj "Schema" path' (JDict x) kids'))) seen) eqn:Ex; [now right|].
        destruct (IH (label (OObj "Schema" path' (JDict x) kids') :: seen) x (OObj "Schema" path' (JDict x) kids')) as [(e & r & E & Er & Lr)|E].
        * exact (DR n s0 ts x Ln Sb).
        * now exists path'.
        * constructor; [|exact ND]. intros Il. enough (T : existsb (label_eqb (label (OObj "Schema" path' (JDict x) kids'))) seen = true) by congruence. apply existsb_exists. eexists. split; [exact Il|]. apply label_eqb_refl.
        * intros l [<-|Il]; [|exact (IN l Il)]. right. apply in_map. exact (objs_within _ _ _ W).
        * cbn [length]. lia.
        * left. exists e, r. split; [eapply se_ref; eauto|]. auto.
        * right. exact E.
  Qed.
  Theorem deref_ends s so : definition_ref d s -> loaded (BCls "Schema") (JDict s) so ->
    (exists e r, schema_ends d (JDict s) e /\ deref so = Ok r /\ loaded (BCls "Schema") (JDict e) r) \/ (deref so = Err CycleDetectionError /\ forall e, ~ schema_ends d (JDict s) e).
  Proof.
    intros D L. destruct (loop_ends (label so) (S (S (Main.osize root))) [label so] s so D L) as [H|H].
    - repeat constructor. intros [].
    - intros l [<-|[]]. now left.
    - cbn [length]. lia.
    - left. exact H.
    - right. split; [exact H|]. intros e E. destruct (ends_leads _ _ E so L) as (n & sr & Lk & _). pose proof (leads_deref _ _ _ _ _ _ _ Lk) as Z. unfold deref_in in Z. congruence.
  Qed.
End Doc.
