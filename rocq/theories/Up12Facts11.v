(** Conversion of Swagger 1.2 objects: the resulting document can be loaded. *)
From Coq Require Import String Ascii List Bool Arith ZArith Lia.
From Verif Require Import PyStr PyStrFacts PyVal PyValFacts Jp JpFacts Scope SpecUrl UrlLib UrlFacts Obj SpecObj SpecJson ObjFacts ShapeFacts TablesFacts SpecTables Classes_v1_2 Classes_v2_0 Scan ScanFacts ScanFacts2 TraverseFacts PropertiesObjAux Up12 SpecUp12 Up12Facts NumeralFacts Up12Facts2 Up12Facts3 Up12Facts4 Up12Facts5 Up12Facts6 Up12Facts7 Up12Facts8 Up12Facts9 Up12Facts10.
Import ListNotations.
Open Scope string_scope. Open Scope nat_scope.

Notation fits := (shaped v20_table).
(** the children of a class that may occur in a document with the keys [ks] *)
Definition kids_in (cd : classdef) (ks : list string) : list childdef := filter (fun ch => existsb (String.eqb (ch_name ch)) ks) (c_children cd).
Lemma not_in_eqb k ks : existsb (String.eqb k) ks = false -> ~ In k ks.
Proof. intros H I. assert (existsb (String.eqb k) ks = true); [|congruence]. apply existsb_exists. exists k. split; [exact I|apply String.eqb_refl]. Qed.
Lemma in_eqb k ks : existsb (String.eqb k) ks = true -> In k ks.
Proof. intros H. apply existsb_exists in H as (x & I & E). apply String.eqb_eq in E. now subst. Qed.
Lemma fits_class c cd ks d : lookup c v20_table = Some cd -> forallb (fun ch => negb (ch_required ch)) (c_children cd) = true -> only_keys ks d ->
  Forall (fun ch => forall v, lookup (ch_name ch) d = Some v -> v <> JNull -> fits (ch_builder ch) v) (kids_in cd ks) -> fits (BCls c) (JDict d).
Proof.
  intros Hc R O F. apply sh_object with cd; [exact Hc| |].
  - intros ch v I L N. rewrite Forall_forall in F. apply (F ch); [|exact L|exact N]. apply filter_In. split; [exact I|].
    destruct (existsb (String.eqb (ch_name ch)) ks) eqn:E; [reflexivity|]. rewrite (O _ (not_in_eqb _ _ E)) in L. discriminate.
  - intros ch I _. rewrite forallb_forall in R. specialize (R ch I). now destruct (ch_required ch).
Qed.
Ltac fit ks := eapply (fits_class _ _ ks); [reflexivity|reflexivity| |vm_compute; repeat (first [apply Forall_nil|apply Forall_cons])].
Lemma schema_fits sep scope t d ks : datatype_image sep scope t d -> only_keys ks d -> ks = datatype_keys \/ ks = "description" :: datatype_keys -> fits (BCls "Schema") (JDict d).
Proof.
  intros (_ & _ & _ & _ & _ & _ & _ & It) O Hk.
  assert (K : kids_in v20_Schema ks = [mk_child "items" (BCls "Schema") false]) by (destruct Hk; subst ks; reflexivity).
  eapply (fits_class "Schema" v20_Schema ks); [reflexivity|reflexivity|exact O|]. rewrite K. constructor; [|constructor]. cbn [ch_name ch_builder]. intros v L _.
  destruct (match get t "items" with JNull => true | _ => false end); [rewrite It in L; discriminate|]. destruct It as (i & Li & _ & _ & Oi). rewrite Li in L. assert (v = JDict i) by congruence. subst v.
  eapply (fits_class "Schema" v20_Schema _ i); [reflexivity|reflexivity|exact Oi|]. vm_compute. constructor.
Qed.
Lemma no_ref_in ks d : only_keys ks d -> existsb (String.eqb "$ref") ks = false -> ~ occurs_in "$ref" (JDict d).
Proof. intros O E H. inversion H as [d' v L| |]. subst. rewrite (O _ (not_in_eqb _ _ E)) in L. discriminate. Qed.
Lemma items_fits i ks : only_keys ks i -> existsb (String.eqb "items") ks = false -> fits (BCls "Items") (JDict i).
Proof.
  intros O E. eapply (fits_class "Items" v20_Items ks i); [reflexivity|reflexivity|exact O|]. unfold kids_in. cbn [c_children v20_Items filter ch_name]. rewrite E. constructor.
Qed.
Lemma parameter_fits sep scope p d : parameter_image sep scope p d -> fits (BRefElse "Reference" (BCls "Parameter")) (JDict d).
Proof.
  intros (_ & _ & _ & _ & H). destruct (match get p "paramType" with JStr "body" => true | _ => false end).
  - destruct H as ((s & Ls & Is & Os) & O). apply sh_noref; [exact I|eapply no_ref_in; [exact O|reflexivity]|].
    eapply (fits_class "Parameter" v20_Parameter _ d); [reflexivity|reflexivity|exact O|]. vm_compute. constructor; [|constructor]. intros v L _. change (lookup "schema" d = Some v) in L. rewrite Ls in L.
    assert (v = JDict s) by congruence. subst v. eapply schema_fits; [exact Is|exact Os|now left].
  - destruct H as (_ & H). destruct (match get p "allowMultiple" with JBool true => true | _ => false end && is_null (get p "items")).
    + destruct H as (_ & _ & _ & _ & (i & Li & _ & _ & Oi) & O). apply sh_noref; [exact I|eapply no_ref_in; [exact O|reflexivity]|].
      eapply (fits_class "Parameter" v20_Parameter _ d); [reflexivity|reflexivity|exact O|]. vm_compute. constructor; [|constructor]. intros v L _. change (lookup "items" d = Some v) in L. rewrite Li in L.
      assert (v = JDict i) by congruence. subst v. eapply items_fits; [exact Oi|reflexivity].
    + destruct H as (_ & _ & _ & _ & _ & _ & H). destruct (is_null (get p "items")).
      * apply sh_noref; [exact I|eapply no_ref_in; [exact H|reflexivity]|]. eapply (fits_class "Parameter" v20_Parameter _ d); [reflexivity|reflexivity|exact H|]. vm_compute. constructor.
      * destruct H as (_ & _ & (i & Li & _ & Oi) & O). apply sh_noref; [exact I|eapply no_ref_in; [exact O|reflexivity]|].
        eapply (fits_class "Parameter" v20_Parameter _ d); [reflexivity|reflexivity|exact O|]. vm_compute. constructor; [|constructor]. intros v L _. change (lookup "items" d = Some v) in L. rewrite Li in L.
        assert (v = JDict i) by congruence. subst v. eapply items_fits; [exact Oi|reflexivity].
Qed.
Lemma texts_fit j : (exists l, j = JList l /\ Forall a_text l) -> fits (BListOf BStr) j.
Proof. intros (l & -> & F). apply sh_list. intros x I. rewrite Forall_forall in F. destruct (F x I) as [s ->]. constructor. Qed.
Lemma requirements_fit j : truthy j = true -> good_requirements j -> fits (BListOf (BMapOf (BListOf BStr))) (JList (requirements j)).
Proof.
  intros T G. specialize (G T). apply sh_list. intros x I. unfold requirements in I. apply in_map_iff in I as ([n v] & <- & I). rewrite Forall_forall in G. specialize (G _ I). cbn [fst snd] in *.
  apply sh_map. intros k x [E|[]]. injection E as <- <-. apply texts_fit. eexists. split; [reflexivity|]. rewrite Forall_forall in *. intros y Iy. apply in_map_iff in Iy as (e & <- & Ie). exact (proj2 (G e Ie)).
Qed.
Lemma inherited_good (P : json -> Prop) s k : P (get (at_op s) k) -> P (get (at_decl s) k) -> P (inherited s k).
Proof. intros A B. unfold inherited. destruct (truthy _); assumption. Qed.
Lemma operation_fits sep s d : operation_image sep s d -> good_operation (at_op s) -> good_declaration (at_decl s) -> fits (BCls "Operation") (JDict d).
Proof.
  intros (Ht & _ & _ & _ & _ & Hc & Hp & (ps & Hps & Fps) & Hs & (r & Hr & _ & Or & Hsc) & O) (_ & _ & _ & Gc & Gp & Ga & _) (_ & _ & _ & Gdc & Gdp & Gda & _).
  eapply (fits_class "Operation" v20_Operation _ d); [reflexivity|reflexivity|exact O|]. vm_compute (kids_in _ _). repeat (apply Forall_cons); cbn [ch_name ch_builder]; [| | | | | |apply Forall_nil]; intros v L _.
  - rewrite Ht in L. unfold some_if in L. destruct (negb _); [|discriminate]. injection L as <-. apply texts_fit. eexists. split; [reflexivity|]. constructor; [now eexists|constructor].
  - rewrite Hc in L. unfold some_if in L. destruct (truthy (inherited s "consumes")) eqn:T; [|discriminate]. injection L as <-. apply texts_fit. revert T. apply (inherited_good texts_or_none); assumption.
  - rewrite Hp in L. unfold some_if in L. destruct (truthy (inherited s "produces")) eqn:T; [|discriminate]. injection L as <-. apply texts_fit. revert T. apply (inherited_good texts_or_none); assumption.
  - rewrite Hps in L. injection L as <-. apply sh_list. intros x I. apply in_map_iff in I as (pd & <- & I). destruct (Forall2_in_right _ _ _ _ Fps I) as (pj & _ & Hi). eapply parameter_fits; exact Hi.
  - rewrite Hr in L. injection L as <-. apply sh_map. intros k x [E|[]]. injection E as <- <-. apply sh_noref; [exact I|eapply no_ref_in; [exact Or|reflexivity]|].
    eapply (fits_class "Response" v20_Response _ r); [reflexivity|reflexivity|exact Or|]. vm_compute (kids_in _ _). constructor; [|constructor]. cbn [ch_name ch_builder]. intros v L _.
    destruct (match get (at_op s) "type" with JStr "void" => true | _ => false end); [rewrite Hsc in L; discriminate|]. destruct Hsc as (sd & Lsd & Is & Os). rewrite Lsd in L. injection L as <-. eapply schema_fits; [exact Is|exact Os|now left].
  - rewrite Hs in L. unfold some_if in L. destruct (truthy (inherited s "authorizations")) eqn:T; [|discriminate]. injection L as <-. apply requirements_fit; [exact T|]. apply (inherited_good good_requirements); assumption.
Qed.
(** ** paths *)
Lemma in_set {A} k k' (v v' : A) d : In (k', v') (dict_set k v d) -> (k', v') = (k, v) \/ In (k', v') d.
Proof.
  induction d as [|[k0 v0] d IH]; cbn [dict_set]; [intros [E|[]]; left; congruence|]. destruct (String.eqb k k0) eqn:E.
  - apply String.eqb_eq in E. subst k0. intros [I|I]; [left; congruence|right; now right].
  - intros [I|I]; [right; now left|]. destruct (IH I) as [?|?]; [now left|right; now right].
Qed.
Definition table_fits (t : path_table) : Prop := forall p ms m d, In (p, ms) t -> In (m, d) ms -> In m verbs /\ fits (BCls "Operation") (JDict d).
Lemma put_site_fits t s d : table_fits t -> In (method_of s) verbs -> fits (BCls "Operation") (JDict d) -> table_fits (put_site t (s, d)).
Proof.
  intros T V F p ms m x I J. unfold put_site, add_operation in I. cbn [fst snd] in I. apply in_set in I as [E|I]; [|exact (T _ _ _ _ I J)]. assert (Em := f_equal snd E). cbn [snd] in Em. subst ms.
  apply in_set in J as [E'|J]; [assert (E1 := f_equal fst E'); assert (E2 := f_equal snd E'); cbn [fst snd] in *; subst; auto|].
  destruct (lookup (full_path s) t) as [ms|] eqn:L; [|contradiction]. exact (T _ _ _ _ (PyValFacts.lookup_In _ _ _ L) J).
Qed.
Lemma fold_sites_fit sites specs : Forall2 (fun s d => In (method_of s) verbs /\ fits (BCls "Operation") (JDict d)) sites specs -> forall t, table_fits t -> table_fits (fold_left put_site (combine sites specs) t).
Proof. induction 1 as [|s d sites specs [V Fd] F IH]; intros t T; [exact T|]. cbn [combine fold_left]. apply IH. now apply put_site_fits. Qed.
Lemma path_item_fits t p ms : table_fits t -> In (p, ms) t -> fits (BCls "PathItem") (in_dict ms).
Proof.
  intros T I. unfold in_dict. apply sh_object with v20_PathItem; [reflexivity| |].
  - intros ch v Ic L N. rewrite lookup_map_snd in L. destruct (lookup (ch_name ch) ms) as [d|] eqn:E; [|discriminate]. cbn [option_map] in L. injection L as <-.
    destruct (T _ _ _ _ I (PyValFacts.lookup_In _ _ _ E)) as [V F].
    assert (B : ch_builder ch = BCls "Operation"); [|rewrite B; exact F].
    assert (Q : forallb (fun ch => match ch_builder ch with BCls "Operation" => true | _ => negb (existsb (String.eqb (ch_name ch)) verbs) end) (c_children v20_PathItem) = true) by reflexivity.
    rewrite forallb_forall in Q. specialize (Q _ Ic). assert (V' : existsb (String.eqb (ch_name ch)) verbs = true) by (apply existsb_exists; exists (ch_name ch); split; [exact V|apply String.eqb_refl]).
    rewrite V' in Q. cbn [negb] in Q. clear -Q. destruct (ch_builder ch) as [c| | | | |]; try discriminate. f_equal. revert Q.
    repeat (destruct c as [|[[] [] [] [] [] [] [] []] c]; try discriminate; try reflexivity).
  - intros ch Ic _. assert (Q : forallb (fun ch => negb (ch_required ch)) (c_children v20_PathItem) = true) by reflexivity. rewrite forallb_forall in Q. specialize (Q _ Ic). now destruct (ch_required ch).
Qed.
Lemma strip_fits t host t' : table_fits t -> strip_host t = Ok (host, t') -> table_fits t'.
Proof.
  intros T H. unfold strip_host in H. destruct (drop_slash _) as [c|]; [|discriminate]. cbn [bind] in H. destruct (truthy_str c); apply Ok_inj in H; assert (E := f_equal snd H); cbn [snd] in E; subst t'; [|exact T].
  set (n := String.length _). clearbody n. intros p ms m d I J.
  assert (Q : forall l acc, (forall p ms, In (p, ms) l -> In (p, ms) t) -> (forall p ms, In (p, ms) acc -> exists q, In (q, ms) t) ->
            forall p ms, In (p, ms) (fold_left (fun acc kv => dict_set (sdrop n (fst kv)) (snd kv) acc) l acc) -> exists q, In (q, ms) t).
  { induction l as [|[k v] l IH]; intros acc Hl Ha q qs; [apply Ha|]. cbn [fold_left fst snd]. apply IH; [intros; apply Hl; now right|]. intros p' ms' I'. apply in_set in I' as [E|I']; [|eapply Ha; exact I'].
    assert (E2 := f_equal snd E). cbn [snd] in E2. subst ms'. exists k. apply Hl. now left. }
  destruct (Q t [] (fun _ _ x => x) (fun _ _ x => match x with end) _ _ I) as (q & Iq). exact (T _ _ _ _ Iq J).
Qed.
Lemma site_in ds s : In s (all_sites ds) -> exists u d api, In (u, d) ds /\ at_decl s = d /\ In api (elements (get d "apis")) /\ In (at_op s) (elements (get api "operations")).
Proof.
  intros I. apply in_flat_map in I as ([u d] & Id & I). cbn [snd] in I. apply in_flat_map in I as (api & Ia & I). apply in_map_iff in I as (op & <- & Io). exists u, d, api. auto.
Qed.
Lemma sites_good ld ds s : good12 ld ds -> In s (all_sites ds) -> good_operation (at_op s) /\ good_declaration (at_decl s) /\ In (method_of s) verbs.
Proof.
  intros [_ G] I. destruct (site_in _ _ I) as (u & d & api & Id & E & Ia & Io). rewrite Forall_forall in G. specialize (G _ Id). cbn [snd] in G. rewrite E. assert (Gd := G).
  destruct G as (_ & _ & _ & _ & _ & _ & (apis & Ea & Ga) & _). rewrite Ea in Ia. cbn [elements] in Ia. rewrite Forall_forall in Ga. destruct (Ga _ Ia) as (_ & _ & (ops & Eo & Go)).
  rewrite Eo in Io. cbn [elements] in Io. rewrite Forall_forall in Go. pose proof (Go _ Io) as Gop. split; [exact Gop|]. split; [exact Gd|]. destruct Gop as (_ & (m & Em & V) & _). unfold method_of. rewrite Em. exact V.
Qed.
(** ** definitions *)
Lemma last_such_in {A} (f : A -> bool) l x : last_such f l = Some x -> In x l /\ f x = true.
Proof.
  induction l as [|y l IH]; cbn [last_such]; [discriminate|]. destruct (last_such f l) as [z|]; [intros E; injection E as ->; destruct (IH eq_refl); split; [now right|assumption]|].
  destruct (f y) eqn:F; [|discriminate]. intros E. injection E as ->. split; [now left|exact F].
Qed.
Lemma properties_fit sep n ms props : NoDup (keys props) ->
  (forall k, match last_giving sep n (fun dm => given (get (snd dm) "properties") k) ms with
             | None => lookup k props = None
             | Some dm => exists p, lookup k props = Some p /\ property_image sep (resource (fst dm)) (get (get (snd dm) "properties") k) p
             end) -> fits (BMapOf (BCls "Schema")) (JDict props).
Proof.
  intros N H. apply sh_map. intros k x I. specialize (H k). pose proof (lookup_nodup _ _ _ N I) as L. destruct (last_giving _ _ _ _) as [dm|]; [|congruence].
  destruct H as (p & Lp & d & -> & Hi & _ & O). rewrite Lp in L. injection L as <-. eapply schema_fits; [exact Hi|exact O|now right].
Qed.
Definition doc_fits (d : doc) : Prop :=
  (forall v, lookup "properties" d = Some v -> fits (BMapOf (BCls "Schema")) v) /\
  (forall v, lookup "allOf" d = Some v -> fits (BListOf (BCls "Schema")) v) /\
  only_keys ["properties"; "required"; "discriminator"; "description"; "allOf"] d.
Definition defs_fit (defs : list (string * doc)) : Prop := forall n d, In (n, d) defs -> doc_fits d.
Lemma entry_fits n defs : defs_fit defs -> doc_fits (entry_of n defs).
Proof.
  intros D. unfold entry_of. destruct (lookup n defs) as [d|] eqn:L; [exact (D _ _ (PyValFacts.lookup_In _ _ _ L))|]. split; [discriminate|]. split; [discriminate|]. intros k _. reflexivity.
Qed.
Lemma set_fits n d defs : defs_fit defs -> doc_fits d -> defs_fit (dict_set n d defs).
Proof. intros D F m x I. apply in_set in I as [E|I]; [assert (E2 := f_equal snd E); cbn [snd] in E2; now subst|exact (D _ _ I)]. Qed.
Lemma in_update {A} (l d : list (string * A)) k v : In (k, v) (dict_update d l) -> In (k, v) d \/ In (k, v) l.
Proof.
  unfold dict_update. revert d. induction l as [|[k0 v0] l IH]; intros d I; [now left|]. cbn [fold_left fst snd] in I. destruct (IH _ I) as [J|J]; [|right; now right].
  apply in_set in J as [E|J]; [right; left; congruence|now left].
Qed.
Lemma lookup_opt_set k k' o d : lookup k (opt_set k' o d) = if String.eqb k k' then match o with Some v => Some v | None => lookup k d end else lookup k d.
Proof. unfold opt_set. destruct o; [apply lookup_dict_set|]. destruct (String.eqb k k'); reflexivity. Qed.
Lemma model_doc_fits dm props old : doc_fits old -> (forall k x, In (k, x) props -> fits (BCls "Schema") x) -> doc_fits (model_doc dm props old).
Proof.
  intros (P & A & O) F. unfold model_doc. split; [|split].
  - intros v. rewrite !lookup_opt_set, lookup_dict_set. cbn [String.eqb Ascii.eqb Bool.eqb]. intros E. injection E as <-. apply sh_map. intros k x I. apply in_update in I as [I|I]; [|eauto].
    destruct (lookup "properties" old) as [[| | | | | |d]|]; try contradiction. specialize (P _ eq_refl). inversion P; subst. eauto.
  - intros v. rewrite !lookup_opt_set, lookup_dict_set. cbn [String.eqb Ascii.eqb Bool.eqb]. apply A.
  - intros k N. rewrite !lookup_opt_set, lookup_dict_set.
    destruct (String.eqb_spec k "description"); [subst; exfalso; apply N; cbn; tauto|]. destruct (String.eqb_spec k "discriminator"); [subst; exfalso; apply N; cbn; tauto|].
    destruct (String.eqb_spec k "required"); [subst; exfalso; apply N; cbn; tauto|]. destruct (String.eqb_spec k "properties"); [subst; exfalso; apply N; cbn; tauto|]. now apply O.
Qed.
Lemma ref_fits r : fits (BCls "Schema") (JDict [("$ref", r)]).
Proof.
  eapply (fits_class "Schema" v20_Schema ["$ref"]); [reflexivity|reflexivity| |vm_compute; constructor]. intros k N. cbn [lookup]. destruct (String.eqb_spec k "$ref"); [subst; exfalso; apply N; now left|reflexivity].
Qed.
Lemma append_fits r d : doc_fits d -> doc_fits (append_all_of r d).
Proof.
  intros (P & A & O). unfold append_all_of. split; [|split].
  - intros v. rewrite lookup_dict_set. cbn [String.eqb Ascii.eqb Bool.eqb]. apply P.
  - intros v. rewrite lookup_dict_set. cbn [String.eqb Ascii.eqb Bool.eqb]. intros E. injection E as <-. apply sh_list. intros x I. apply in_app_or in I as [I|[<-|[]]]; [|apply ref_fits].
    destruct (lookup "allOf" d) as [[| | | | |l|]|]; try contradiction. specialize (A _ eq_refl). inversion A; subst. auto.
  - intros k N. rewrite lookup_dict_set. destruct (String.eqb_spec k "allOf"); [subst; exfalso; apply N; cbn; tauto|]. now apply O.
Qed.
Lemma supers_fit n subs : forall defs, defs_fit defs -> defs_fit (fold_left (add_super n) subs defs).
Proof. induction subs as [|t subs IH]; intros defs D; [exact D|]. cbn [fold_left]. apply IH. unfold add_super. apply set_fits; [exact D|]. apply append_fits, entry_fits, D. Qed.
Lemma models_fit sep ms props : Forall2 (props_image sep) ms props -> forall defs, defs_fit defs -> defs_fit (fold_left (model_step sep) (combine ms props) defs).
Proof.
  induction 1 as [|dm ps ms props Hp F IH]; intros defs D; [exact D|]. cbn [combine fold_left]. apply IH. unfold model_step. cbn [fst snd]. apply supers_fit, set_fits; [exact D|].
  apply model_doc_fits; [apply entry_fits, D|]. intros k x I. unfold props_image in Hp. destruct (Forall2_in_right _ _ _ _ Hp I) as (a & _ & _ & d & E & Hi & _ & O). cbn [snd] in E. subst x.
  eapply schema_fits; [exact Hi|exact O|now right].
Qed.
Lemma definition_fits d : doc_fits d -> fits (BCls "Schema") (JDict d).
Proof.
  intros (P & A & O). eapply (fits_class "Schema" v20_Schema _ d); [reflexivity|reflexivity|exact O|]. vm_compute (kids_in _ _). repeat apply Forall_cons; [| |apply Forall_nil]; cbn [ch_name ch_builder]; intros v L _; auto.
Qed.
(** ** the other parts *)
Lemma security_fits a d : security_image a d -> good_authorization a -> fits (BCls "SecurityScheme") (JDict d).
Proof.
  intros (_ & (ss & Ls & N & Hs) & _ & _ & _ & _ & _ & O) (_ & G & _). eapply (fits_class "SecurityScheme" v20_SecurityScheme _ d); [reflexivity|reflexivity|exact O|].
  vm_compute (kids_in _ _). apply Forall_cons; [|apply Forall_nil]. cbn [ch_name ch_builder]. intros v L _. rewrite Ls in L. injection L as <-. apply sh_map. intros k x I.
  pose proof (lookup_nodup _ _ _ N I) as L. rewrite Hs in L. destruct (last_such _ _) as [e|] eqn:E; [|discriminate]. cbn [option_map] in L. injection L as <-. apply last_such_in in E as [Ie _].
  rewrite Forall_forall in G. destruct (G _ Ie) as (_ & _ & (t & ->)). constructor.
Qed.
Lemma info_fits ld d : info_image ld d -> fits (BCls "Info") (JDict d).
Proof.
  intros (_ & _ & _ & _ & C & L & O). eapply (fits_class "Info" v20_Info _ d); [reflexivity|reflexivity|exact O|]. vm_compute (kids_in _ _). repeat apply Forall_cons; [| |apply Forall_nil]; cbn [ch_name ch_builder]; intros v E _.
  - rewrite C in E. unfold some_if in E. destruct (truthy _); [|discriminate]. injection E as <-. apply sh_object with v20_Contact; [reflexivity|intros ch w []|intros ch []].
  - destruct (_ || _); [|rewrite L in E; discriminate]. destruct L as (l & El & _). rewrite El in E. injection E as <-. apply sh_object with v20_License; [reflexivity|intros ch w []|intros ch []].
Qed.
Lemma fits_dict_map {A} b (f : A -> json) (d : list (string * A)) : (forall k x, In (k, x) d -> fits b (f x)) -> fits (BMapOf b) (JDict (map (fun kv => (fst kv, f (snd kv))) d)).
Proof. intros H. apply sh_map. intros k x I. apply in_map_iff in I as ([k' y] & E & I). injection E as <- <-. eauto. Qed.
Lemma swagger_fits sep ld ds s d : good12 ld ds -> distinct12 ld ds -> state_ok sep ld ds s ->
  (exists props, Forall2 (props_image sep) (all_models ds) props /\ s_defs s = fold_left (model_step sep) (combine (all_models ds) props) []) ->
  swagger_spec s = Ok d -> fits (BCls "Swagger") (JDict d).
Proof.
  intros G [W _] (Hi & _ & _ & _ & (specs & Fs & Ep) & (Nsec & S1 & S2)) (props & Fp & Ed) H. unfold swagger_spec in H. apply bind_ok in H as ([host t] & Hs & H). apply Ok_inj in H.
  assert (T : table_fits t).
  { eapply strip_fits; [|exact Hs]. rewrite Ep. apply fold_sites_fit; [|intros ? ? ? ? []]. clear Ep. assert (Q : forall x, In x (all_sites ds) -> In x (all_sites ds)) by auto. revert Q Fs. generalize (all_sites ds) at 1 3 4. intros l Q Fs.
    induction Fs as [|x y l specs Hx F IH]; constructor; [|apply IH; intros; apply Q; now right]. destruct (sites_good _ _ _ G (Q x (or_introl eq_refl))) as (Go & Gd & V). split; [exact V|]. eapply operation_fits; eauto. }
  assert (D : defs_fit (s_defs s)) by (rewrite Ed; apply models_fit; [exact Fp|intros ? ? []]).
  assert (SF : forall n x, In (n, x) (s_secs s) -> fits (BCls "SecurityScheme") (JDict x)).
  { intros n x I. pose proof (lookup_nodup _ _ _ Nsec I) as L. destruct (S2 n) as (n' & v & Iv & ->); [congruence|]. destruct (S1 _ _ Iv) as (x' & L' & Im). assert (x' = x) by congruence. subst x'.
    eapply security_fits; [exact Im|]. destruct G as [(_ & _ & _ & _ & Ga) _]. rewrite Forall_forall in Ga. exact (Ga _ Iv). }
  apply sh_object with v20_Swagger; [reflexivity| |].
  - intros ch v Ic L _. subst d. cbn [c_children v20_Swagger] in Ic.
    repeat (destruct Ic as [<-|Ic]; [cbn [ch_name ch_builder lookup String.eqb Ascii.eqb Bool.eqb] in *; try (injection L as <-)|]); [| | | | | | | | | | | |contradiction].
    + apply info_fits with ld. exact Hi.
    + apply texts_fit. eexists. split; [reflexivity|]. repeat constructor; eexists; reflexivity.
    + apply sh_list. intros x [].
    + apply sh_list. intros x [].
    + apply fits_dict_map. intros k x I. eapply path_item_fits; [exact T|exact I].
    + apply fits_dict_map. intros k x I. apply definition_fits, (D k), I.
    + apply sh_map. intros k x [].
    + apply sh_map. intros k x [].
    + apply fits_dict_map. exact SF.
    + apply sh_list. intros x [].
    + apply sh_list. intros x I. apply in_map_iff in I as (n & <- & _). eapply (fits_class "Tag" v20_Tag ["name"]); [reflexivity|reflexivity| |vm_compute; constructor].
      intros k N. cbn [lookup]. destruct (String.eqb_spec k "name"); [subst; exfalso; apply N; now left|reflexivity].
    + discriminate.
  - intros ch Ic _. assert (Q : forallb (fun ch => negb (ch_required ch)) (c_children v20_Swagger) = true) by reflexivity. rewrite forallb_forall in Q. specialize (Q _ Ic). now destruct (ch_required ch).
Qed.
Lemma no_longest : ~ exists c, common_prefix [] c.
Proof.
  intros (c & _ & H). destruct (H (c ++ "x")%string (fun _ I => match I with end)) as (r & E). apply (f_equal String.length) in E. rewrite !slength_app in E. cbn in E. lia.
Qed.
(** well-formed documents: the conversion succeeds exactly if the urls of the operations have something in common *)
Lemma upgrade_total sep ld ds listing apis : app_made ld ds listing apis -> good12 ld ds -> distinct12 ld ds ->
  (exists c, c <> "" /\ common_prefix (map full_path (all_sites ds)) c) -> exists o, upgrade12 sep listing apis = Ok o.
Proof.
  intros M G W (c & Nc & C). destruct (spec_total sep _ _ _ _ M G W) as (s & St & Hp & E). pose proof St as St'. destruct St' as (_ & _ & _ & _ & (specs & Fs & Ep) & _).
  assert (H : exists d, swagger_spec s = Ok d).
  { assert (C' : commonprefix (keys (s_paths s)) = c).
    { apply (common_prefix_unique (keys (s_paths s)) (map full_path (all_sites ds))); [|apply commonprefix_spec|exact C].
      - rewrite Ep. apply site_keys_same with sep. exact Fs.
      - intros N. apply no_longest. exists c. eapply common_prefix_same; [|exact C]. intros x. rewrite <- (site_keys_same _ _ _ Fs), <- Ep, N. reflexivity. }
    unfold swagger_spec, strip_host. rewrite C'. destruct (trimmed_exists c Nc) as (c' & Tr). rewrite (drop_slash_ok _ _ Tr). cbn [bind]. destruct (truthy_str c'); eexists; reflexivity. }
  destruct H as (d & Hd). unfold upgrade12. rewrite E, Hd. cbn [bind]. apply construct_shaped. eapply swagger_fits; eauto.
Qed.
