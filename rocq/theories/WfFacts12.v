(** The 2.0 documents made from 1.2 objects have no two entries with the same key. *)
From Coq Require Import String Ascii List Bool Arith Lia.
From Verif Require Import PyStr PyStrFacts PyVal PyValFacts Jp Scope Obj ObjFacts SpecJson SpecObj ShapeFacts DumpFacts Classes_v1_2 Classes_v2_0 Scan ScanFacts Up12 SpecOpen WfFacts.
Import ListNotations.
Open Scope string_scope. Open Scope nat_scope.

Lemma v12_simple : simple_defaults v12_table = true.
Proof. vm_compute. reflexivity. Qed.
Lemma attr12_wf o n : wf_obj o -> okp wf_obj (attr12 o n).
Proof.
  intros W x E. destruct o as [|c p s kids| |]; try discriminate E. unfold attr12 in E.
  destruct (lookup c v12_table) as [cd|] eqn:L; [|discriminate E]. exact (getattr_wf v12_table c cd p s kids n v12_simple L W x E).
Qed.
Lemma field12_wf o n : wf_obj o -> okp wf_json (field12 o n).
Proof. intros W. eapply okp_bind; [apply attr12_wf; exact W|]. intros v Wv x E. destruct v; try discriminate E. injection E as <-. now inversion Wv. Qed.
Lemma elems12_wf o : wf_obj o -> okp (fun es => forall e, In e es -> wf_obj e) (elems12 o).
Proof. intros W x E. destruct o; try discriminate E. injection E as <-. now inversion W. Qed.
Lemma entries12_wf o : wf_obj o -> okp wfes (entries12 o).
Proof. intros W x E. destruct o; try discriminate E. injection E as <-. inversion W; subst. intros [k y] I. eauto. Qed.
Lemma get_or_none_wf : forall ns o, wf_obj o -> okp wf_obj (get_or_none o ns).
Proof.
  induction ns as [|n ns IH]; intros o W; cbn [get_or_none]; [now apply okp_ok|].
  pose proof (attr12_wf o n W) as A. destruct (attr12 o n) as [v|e].
  - specialize (A v eq_refl). apply if_okp; [exact (IH v A)|now apply okp_ok].
  - destruct e; try apply okp_err. cbn [truthy_obj]. apply okp_ok. constructor. exact I.
Qed.
Lemma definition_ref_wf s n sep : okp wf_json (definition_ref s n sep).
Proof. unfold definition_ref. eapply okp_bind; [apply okp_any|]. intros x _. apply okp_ok. exact I. Qed.
Lemma put_if_set_wf o k key d : wf_obj o -> wfd d -> okp wfd (put_if_set o k key d).
Proof. intros W Wd. unfold put_if_set. eapply okp_bind; [apply okp_any|]. intros b _. apply if_okp; [|now apply okp_ok]. eapply okp_bind; [apply field12_wf; exact W|]. intros v Wv. apply okp_ok. auto with wf. Qed.
Lemma wfd_del k d : wfd d -> wfd (dict_del k d).
Proof.
  intros W. apply wf_dict in W as [N W]. apply wf_dict. assert (S : forall e, In e (dict_del k d) -> In e d).
  { clear. induction d as [|[k1 v1] d IH]; cbn [dict_del]; [auto|]. destruct (String.eqb k k1); intros e I; [now right|]. destruct I as [I|I]; [now left|right; exact (IH e I)]. }
  split; [|intros k' x I; exact (W k' x (S _ I))]. clear W S. induction d as [|[k1 v1] d IH]; cbn [dict_del map fst]; [constructor|]. cbn [map fst] in N. inversion N as [|? ? NI N']; subst.
  destruct (String.eqb k k1); [exact N'|]. cbn [map fst]. constructor; [|exact (IH N')]. intros I. apply NI. clear -I. induction d as [|[k2 v2] d IH]; cbn [dict_del] in I; [destruct I|].
  destruct (String.eqb k k2); [now right|]. destruct I as [I|I]; [now left|right; exact (IH I)].
Qed.
#[export] Hint Resolve attr12_wf field12_wf elems12_wf entries12_wf get_or_none_wf definition_ref_wf put_if_set_wf wfd_del : wf.
Lemma update_type_and_ref_wf o s sep d : wf_obj o -> wfd d -> okp wfd (update_type_and_ref o s sep d).
Proof. intros W Wd. unfold update_type_and_ref. wfs. Qed.
#[export] Hint Resolve update_type_and_ref_wf : wf.
Lemma convert_bound_wf o n d : wf_obj o -> wfd d -> okp wfd (convert_bound o n d).
Proof. intros W Wd. unfold convert_bound. eapply okp_bind; [apply field12_wf; exact W|]. intros v Wv. apply if_okp; [|apply okp_ok; auto with wf]. 
  eapply okp_bind; [apply okp_any|]. intros t _. apply if_okp; [|apply if_okp; [|apply okp_err]]; (eapply okp_bind; [apply okp_any|]; intros q _; apply okp_ok; apply wfd_set; [exact I|exact Wd]). Qed.
#[export] Hint Resolve convert_bound_wf : wf.
Lemma convert_min_max_wf o d : wf_obj o -> wfd d -> okp wfd (convert_min_max o d).
Proof. intros W Wd. unfold convert_min_max. wfs. Qed.
#[export] Hint Resolve convert_min_max_wf : wf.
Lemma convert_schema_wf o s sep : wf_obj o -> okp wfd (convert_schema o s sep).
Proof. intros W. unfold convert_schema. wfs. Qed.
Lemma convert_items_wf o : wf_obj o -> okp wfd (convert_items o).
Proof. intros W. unfold convert_items. wfs. Qed.
#[export] Hint Resolve convert_schema_wf convert_items_wf : wf.
Lemma convert_parameter_wf o s sep : wf_obj o -> okp wfd (convert_parameter o s sep).
Proof.
  intros W. unfold convert_parameter. do 3 (eapply okp_bind; [apply put_if_set_wf; [exact W|eauto with wf]|]; intros ? ?).
  eapply okp_bind; [apply field12_wf; exact W|]. intros t Wt. cbv zeta. assert (Wi : wf_json (if json_is_str "form" t then JStr "formData" else t)) by (destruct (json_is_str "form" t); [exact I|exact Wt]).
  revert Wi. generalize (if json_is_str "form" t then JStr "formData" else t). intros in_ Wi. wfs.
Qed.
#[export] Hint Resolve convert_parameter_wf : wf.
(** ** the document under construction *)
Definition wfm (m : list (string * dict)) : Prop := NoDup (map fst m) /\ forall k d, In (k, d) m -> wfd d.
Definition wfp (m : list (string * list (string * dict))) : Prop := NoDup (map fst m) /\ forall k d, In (k, d) m -> wfm d.
Definition wfsw (s : sw) : Prop := wfd (s_info s) /\ wfm (s_defs s) /\ wfp (s_paths s) /\ wfm (s_secs s).
Lemma set_all {A} (P : A -> Prop) k v (m : list (string * A)) : P v -> NoDup (map fst m) /\ (forall k d, In (k, d) m -> P d) ->
  NoDup (map fst (dict_set k v m)) /\ (forall k' d, In (k', d) (dict_set k v m) -> P d).
Proof.
  intros V [N H]. split; [exact (nodup_dict_set k v m N)|]. intros k' d I. apply in_dict_set in I as [E|I]; [injection E as _ <-; exact V|exact (H k' d I)].
Qed.
Lemma wfm_set k d m : wfd d -> wfm m -> wfm (dict_set k d m).
Proof. apply (set_all wfd). Qed.
Lemma wfp_set k d m : wfm d -> wfp m -> wfp (dict_set k d m).
Proof. apply (set_all wfm). Qed.
Lemma wfm_nil : wfm [].
Proof. split; [constructor|intros ? ? []]. Qed.
Lemma wfp_nil : wfp [].
Proof. split; [constructor|intros ? ? []]. Qed.
Lemma wfm_in_dict m : wfm m -> wf_json (in_dict m).
Proof.
  intros [N H]. unfold in_dict. apply wf_dict. rewrite map_map. cbn [fst]. split; [exact N|]. intros k x I. apply in_map_iff in I as ([k' d] & E & I). injection E as _ <-. exact (H k' d I).
Qed.
Lemma entry_of_wf k m : wfm m -> wfd (entry_of k m).
Proof. intros [_ H]. unfold entry_of. destruct (lookup k m) as [d|] eqn:L; [|apply wfd_nil]. apply PyValFacts.lookup_In in L. exact (H k d L). Qed.
Lemma requirement_wf n o : wf_obj o -> okp wf_json (requirement n o).
Proof.
  intros W. unfold requirement. eapply okp_bind; [apply elems12_wf; exact W|]. intros es We.
  eapply okp_bind; [apply (okp_map wf_obj wf_json); [intros e Wo; now apply field12_wf|exact We]|]. intros ss Ws. apply okp_ok. apply wfd_one. now apply wf_list.
Qed.
Lemma operation_spec_wf op decl sep : wf_obj op -> wf_obj decl -> okp wfd (operation_spec op decl sep).
Proof.
  intros W Wd. unfold operation_spec. eapply okp_bind; [apply okp_any|]. intros rp _. eapply okp_bind; [apply okp_any|]. intros scope _. cbv zeta.
  assert (W0 : wfd (if truthy_str scope then [("tags", JList [JStr scope])] else [])) by (destruct (truthy_str scope); auto with wf).
  revert W0. generalize (if truthy_str scope then [("tags", JList [JStr scope])] else []). intros d0 W0.
  do 3 (eapply okp_bind; [apply put_if_set_wf; [exact W|eassumption]|]; intros ? ?). eapply okp_bind; [apply okp_any|]. intros dep _.
  eapply okp_bind; [apply field12_wf; exact W|]. intros c1 Wc1. eapply okp_bind; [apply (if_okp wf_json); [apply okp_ok; exact Wc1|apply field12_wf; exact Wd]|]. intros cs Wcs.
  eapply okp_bind; [apply field12_wf; exact W|]. intros p1 Wp1. eapply okp_bind; [apply (if_okp wf_json); [apply okp_ok; exact Wp1|apply field12_wf; exact Wd]|]. intros pr Wpr.
  eapply okp_bind; [apply attr12_wf; exact W|]. intros ps Wps. eapply okp_bind; [apply elems12_wf; exact Wps|]. intros es We.
  eapply okp_bind; [apply (okp_map wf_obj wf_json); [|exact We]|].
  { intros e Wo. eapply okp_bind; [apply convert_parameter_wf; exact Wo|]. intros s Ws. apply okp_ok. exact Ws. }
  intros params Wpm.
  match goal with |- context [dict_set "parameters" (JList params) ?d] => assert (W1 : wfd (dict_set "parameters" (JList params) d)); [|revert W1; generalize (dict_set "parameters" (JList params) d)] end.
  { apply wfd_set; [now apply wf_list|]. destruct (truthy pr), (truthy cs); auto with wf. }
  intros d1 W1. eapply okp_bind; [apply attr12_wf; exact W|]. intros a1 Wa1. eapply okp_bind; [apply (if_okp wf_obj); [apply okp_ok; exact Wa1|apply attr12_wf; exact Wd]|]. intros auth Wa.
  apply (okp_bind wfd).
  { apply if_okp; [|now apply okp_ok]. eapply okp_bind; [apply entries12_wf; exact Wa|]. intros en Wen.
    eapply okp_bind; [apply (okp_map (fun e => wf_obj (snd e)) wf_json); [|exact Wen]|]. { intros e Wo. now apply requirement_wf. }
    intros l Wl. apply okp_ok. apply wfd_set; [now apply wf_list|exact W1]. }
  intros d2 W2. eapply okp_bind; [apply okp_any|]. intros ty _. apply (okp_bind wfd).
  { apply if_okp; [apply okp_ok; apply wfd_nil|]. eapply okp_bind; [apply convert_schema_wf; exact W|]. intros s Ws. apply okp_ok. now apply wfd_one. }
  intros r Wr. apply okp_ok. auto 8 with wf.
Qed.
Lemma convert_operation_wf op api decl sep s : wf_obj op -> wf_obj decl -> wfsw s -> okp wfsw (convert_operation op api decl sep s).
Proof.
  intros W Wd (H1 & H2 & H3 & H4). unfold convert_operation. eapply okp_bind; [apply operation_spec_wf; assumption|]. intros d Wdd. eapply okp_bind; [apply okp_any|]. intros bp _.
  eapply okp_bind; [apply okp_any|]. intros ap _. destruct bp; try apply okp_err. destruct ap; try apply okp_err. eapply okp_bind; [apply okp_any|]. intros m _. eapply okp_bind; [apply okp_any|]. intros mm _.
  apply okp_ok. unfold wfsw. cbn [s_info s_defs s_paths s_secs]. split; [exact H1|]. split; [exact H2|]. split; [|exact H4]. unfold add_operation. apply wfp_set; [|exact H3]. apply wfm_set; [exact Wdd|].
  destruct (lookup _ (s_paths s)) as [x|] eqn:L; [|apply wfm_nil]. apply PyValFacts.lookup_In in L. exact (proj2 H3 _ _ L).
Qed.
Lemma property_spec_wf scope sep o : wf_obj o -> okp wf_json (property_spec scope sep o).
Proof. intros W. unfold property_spec. eapply okp_bind; [apply convert_schema_wf; exact W|]. intros d Wd. eapply okp_bind; [apply field12_wf; exact W|]. intros v Wv. apply okp_ok. now apply wfd_set. Qed.
Lemma append_all_of_wf r d : wf_json r -> wfd d -> wfd (append_all_of r d).
Proof.
  intros Wr Wd. unfold append_all_of. apply wfd_set; [|exact Wd]. apply wf_list. intros x I. apply in_app_or in I as [I|[<-|[]]]; [|now apply wfd_one].
  destruct (lookup "allOf" d) as [v|] eqn:L; [|destruct I]. pose proof (wfd_lookup _ _ _ Wd L) as Wv. destruct v; try destruct I. rewrite wf_list in Wv. exact (Wv x I).
Qed.
Lemma convert_model_wf m decl sep s : wf_obj m -> wf_obj decl -> wfsw s -> okp wfsw (convert_model m decl sep s).
Proof.
  intros W Wd (H1 & H2 & H3 & H4). unfold convert_model. eapply okp_bind; [apply okp_any|]. intros rp _. eapply okp_bind; [apply okp_any|]. intros scope _. eapply okp_bind; [apply okp_any|]. intros id _.
  eapply okp_bind; [apply okp_any|]. intros ns _. eapply okp_bind; [apply attr12_wf; exact W|]. intros ps Wps. eapply okp_bind; [apply entries12_wf; exact Wps|]. intros es We.
  eapply okp_bind; [apply (okp_map (fun e => wf_obj (snd e)) (fun kv => wf_json (snd kv))); [|exact We]|].
  { intros e Wo. eapply okp_bind; [apply property_spec_wf; exact Wo|]. intros p Wp. apply okp_ok. exact Wp. }
  intros props Wpr. cbv zeta. pose proof (entry_of_wf ns _ H2) as Wo.
  assert (Wop : wfd (match lookup "properties" (entry_of ns (s_defs s)) with Some (JDict x) => x | _ => [] end)).
  { destruct (lookup "properties" (entry_of ns (s_defs s))) as [v|] eqn:L; [|apply wfd_nil]. pose proof (wfd_lookup _ _ _ Wo L) as Wv. destruct v; try apply wfd_nil. exact Wv. }
  match goal with |- context [put_if_set m "required" "required" ?d] => assert (W1 : wfd d); [|revert W1; generalize d] end.
  { apply wfd_set; [|exact Wo]. apply wfd_update; [|exact Wop]. intros k v I. exact (Wpr _ I). }
  intros d1 W1. do 3 (eapply okp_bind; [apply put_if_set_wf; [exact W|eassumption]|]; intros ? ?). eapply okp_bind; [apply okp_any|]. intros sb _. eapply okp_bind; [apply okp_any|]. intros subs _.
  apply (okp_bind wfm).
  - apply (okp_fold (fun _ => True)); [|auto|now apply wfm_set]. intros defs t Wdf _. eapply okp_bind; [apply okp_any|]. intros sub _. apply okp_ok. apply wfm_set; [|exact Wdf].
    apply append_all_of_wf; [exact I|]. now apply entry_of_wf.
  - intros defs Wdf. apply okp_ok. unfold wfsw. cbn [s_info s_defs s_paths s_secs]. auto.
Qed.
Lemma put_truthy_wf k o d : wf_obj o -> wfd d -> wfd (put_truthy k o d).
Proof. intros W Wd. unfold put_truthy. destruct o; try exact Wd. destruct (truthy j); [|exact Wd]. inversion W. now apply wfd_set. Qed.
Lemma resource_listing_wf o : wf_obj o -> okp wfsw (resource_listing o).
Proof.
  intros W. unfold resource_listing. eapply okp_bind; [apply field12_wf; exact W|]. intros v Wv. cbv zeta.
  do 3 (eapply okp_bind; [apply get_or_none_wf; exact W|]; intros ? ?). eapply okp_bind; [apply attr12_wf; exact W|]. intros info Wi.
  do 3 (eapply okp_bind; [apply field12_wf; exact Wi|]; intros ? ?). apply okp_ok. unfold wfsw. cbn [s_info s_defs s_paths s_secs].
  split; [|split; [apply wfm_nil|split; [apply wfp_nil|apply wfm_nil]]].
  assert (P : forall k o d, wf_obj o -> wfd d -> wfd (put_truthy k o d)) by exact put_truthy_wf.
  assert (Q : forall j, wf_json j -> wf_obj (OPrim j)) by (intros; now constructor).
  repeat match goal with |- wfd (if ?b then _ else _) => destruct b | |- wfd (dict_set _ _ _) => apply wfd_set | |- wfd (put_truthy _ _ _) => apply P end;
  auto with wf; repeat match goal with |- wf_json (JDict (if ?b then _ else _)) => destruct b | |- wfd (if ?b then _ else _) => destruct b | |- wfd (dict_set _ _ _) => apply wfd_set | |- wf_json (JDict ?d) => change (wfd d) | |- wfd (put_truthy _ _ _) => apply P end; auto with wf.
Qed.
Lemma api_declaration_wf sep o s : wf_obj o -> wfsw s -> okp wfsw (api_declaration sep o s).
Proof.
  intros W H. unfold api_declaration. eapply okp_bind; [apply okp_any|]. intros rp _. eapply okp_bind; [apply okp_any|]. intros name _. cbv zeta.
  eapply okp_bind; [apply attr12_wf; exact W|]. intros apis Wa. eapply okp_bind; [apply elems12_wf; exact Wa|]. intros es We. apply (okp_bind wfsw).
  - apply (okp_fold wf_obj); [|exact We|]. 2:{ destruct H as (H1 & H2 & H3 & H4). unfold wfsw. cbn. auto. }
    intros s1 api Hs Wap. eapply okp_bind; [apply attr12_wf; exact Wap|]. intros ops Wo. eapply okp_bind; [apply elems12_wf; exact Wo|]. intros ol Wol.
    apply (okp_fold wf_obj); [|exact Wol|exact Hs]. intros s2 op Hs2 Wop. now apply convert_operation_wf.
  - intros s1 Hs. eapply okp_bind; [apply attr12_wf; exact W|]. intros ms Wm. eapply okp_bind; [apply entries12_wf; exact Wm|]. intros ml Wml.
    apply (okp_fold (fun e => wf_obj (snd e))); [|exact Wml|exact Hs]. intros s2 m Hs2 Wm2. now apply convert_model_wf.
Qed.
Lemma authorization_spec_wf o : wf_obj o -> okp wfd (authorization_spec o).
Proof.
  intros W. unfold authorization_spec. eapply okp_bind; [apply field12_wf; exact W|]. intros t0 Wt0. cbv zeta.
  assert (Wt : wf_json (if json_is_str "basicAuth" t0 then JStr "basic" else t0)) by (destruct (json_is_str "basicAuth" t0); [exact I|exact Wt0]).
  revert Wt. generalize (if json_is_str "basicAuth" t0 then JStr "basic" else t0). intros t Wt. eapply okp_bind; [apply attr12_wf; exact W|]. intros so Wso.
  apply (okp_bind (fun l => forall e, In e l -> wf_obj e)); [apply if_okp; [now apply elems12_wf|apply okp_ok; intros e []]|]. intros ss Wss.
  apply (okp_bind wfd).
  { apply (okp_fold wf_obj); [|exact Wss|apply wfd_nil]. intros d e Wd We. eapply okp_bind; [apply okp_any|]. intros k _. eapply okp_bind; [apply field12_wf; exact We|]. intros v Wv.
    destruct k; try apply okp_err. apply okp_ok. now apply wfd_set. }
  intros scopes Ws. assert (W0 : wfd [("type", t); ("scopes", JDict scopes)]) by (apply wfd_two; [discriminate|exact Wt|exact Ws]).
  revert W0. generalize [("type", t); ("scopes", JDict scopes)]. intros d W0. apply if_okp; [|apply if_okp; [|now apply okp_ok]].
  - eapply okp_bind; [apply get_or_none_wf; exact W|]. intros au Wau. eapply okp_bind; [apply get_or_none_wf; exact W|]. intros tu Wtu. apply okp_ok.
    pose proof (put_truthy_wf "tokenUrl" tu _ Wtu (put_truthy_wf "authorizationUrl" au d Wau W0)) as Wd.
    destruct (truthy_obj au); [apply wfd_set; [exact I|exact Wd]|]. destruct (truthy_obj tu); [apply wfd_set; [exact I|exact Wd]|exact Wd].
  - do 2 (eapply okp_bind; [apply field12_wf; exact W|]; intros ? ?). apply okp_ok. auto with wf.
Qed.
Lemma authorization_wf path o s : wf_obj o -> wfsw s -> okp wfsw (authorization path o s).
Proof.
  intros W (H1 & H2 & H3 & H4). unfold authorization. eapply okp_bind; [apply authorization_spec_wf; exact W|]. intros d Wd. eapply okp_bind; [apply okp_any|]. intros n _. apply okp_ok.
  unfold wfsw. cbn [s_info s_defs s_paths s_secs]. split; [exact H1|]. split; [exact H2|]. split; [exact H3|]. now apply wfm_set.
Qed.
Definition wfst (st : option sw) : Prop := match st with Some s => wfsw s | None => True end.
Lemma handle12_wf sep st po : wf_obj (snd po) -> wfst st -> okp wfst (handle12 sep st po).
Proof.
  intros W H. unfold handle12. destruct (snd po) as [|c p s kids| |] eqn:E; try (apply okp_ok; exact H).
  apply if_okp; [|apply if_okp; [|apply if_okp]].
  - eapply okp_bind; [apply resource_listing_wf; exact W|]. intros x Wx. apply okp_ok. exact Wx.
  - destruct st as [x|]; [|apply okp_err]. eapply okp_bind; [apply (api_declaration_wf sep _ _ W H)|]. intros y Wy. apply okp_ok. exact Wy.
  - destruct st as [x|]; [|apply okp_err]. eapply okp_bind; [apply (authorization_wf _ _ _ W H)|]. intros y Wy. apply okp_ok. exact Wy.
  - apply okp_ok. exact H.
Qed.
(** ** the visited objects *)
Lemma slots_wf T o k x : wf_obj o -> In (k, x) (slots T o) -> wf_obj x.
Proof.
  intros H. destruct o as [|c p s kids|b p es|b p es]; cbn [slots]; [intros []| | |]; inversion H; subst.
  - destruct (lookup c T) as [cd|]; [|intros []]. intros I. apply in_flat_map in I as (ch & _ & I). destruct (lookup (ch_name ch) kids) as [y|] eqn:L; [|destruct I].
    destruct I as [[= _ <-]|[]]. apply PyValFacts.lookup_In in L. eauto.
  - intros I. apply indexed_in in I as (n & _ & E). apply nth_error_In in E. auto.
  - eauto.
Qed.
Lemma children_wf T n : forall o, odepth o <= n -> wf_obj o -> forall k x, In (k, x) (get_children T o) -> wf_obj x.
Proof.
  induction n as [|n IH]; intros o Hn HO.
  - intros k x. destruct o; cbn in Hn; try lia. intros [].
  - rewrite get_children_slots. assert (D := slots_depth T o). assert (HR := fun k x => slots_wf T o k x HO). revert D HR. generalize (slots T o) as l.
    assert (G : forall l acc, (forall k e, In (k, e) l -> odepth e < odepth o) -> (forall k e, In (k, e) l -> wf_obj e) -> (forall k x, In (k, x) acc -> wf_obj x) ->
                forall k x, In (k, x) (fold_left (add_slot (get_children T)) l acc) -> wf_obj x).
    { induction l as [|[k' e] l IHl]; intros acc Hd Hl Ha k0 x0 H; cbn in H; [eauto|].
      eapply IHl; [| | |exact H]; [intros; eapply Hd; right; eauto|intros; eapply Hl; right; eauto|]. intros k1 x1 H1. unfold add_slot in H1. cbn [fst snd] in H1.
      assert (De : odepth e < odepth o) by (eapply Hd; left; reflexivity). assert (Re : wf_obj e) by (eapply Hl; left; reflexivity).
      destruct e as [j|c p s ks|b p es|b p es]; [eauto| | |].
      - apply in_dict_set in H1 as [E|H1]; [injection E as -> ->; exact Re|eauto].
      - apply fold_set_in in H1 as [H1|([k2 x2] & Hi & E)]; [eauto|]. cbn [snd] in E. subst x2. eapply IH; [|exact Re|exact Hi]. lia.
      - apply fold_set_in in H1 as [H1|([k2 x2] & Hi & E)]; [eauto|]. cbn [snd] in E. subst x2. eapply IH; [|exact Re|exact Hi]. lia. }
    intros l D HR. apply G; [exact D|exact HR|intros ? ? []].
Qed.
Lemma traverse_wf T fuel : forall stack, (forall e, In e stack -> wf_obj (snd e)) -> okp (fun r => forall e, In e r -> wf_obj (snd e)) (traverse T fuel [] stack).
Proof.
  induction fuel as [|f IH]; intros [|[p o] rest] HS; cbn [traverse]; try (apply okp_ok; intros e []); [apply okp_err|].
  eapply okp_bind; [apply IH|].
  - intros [q x] I. apply in_app_or in I as [I|I]; [|apply HS; now right]. apply in_rev in I. unfold pushed in I. destruct (is_leaf [] o); [destruct I|].
    apply in_map_iff in I as ([k y] & [= _ <-] & I). cbn [snd]. exact (children_wf T (odepth o) o (le_n _) (HS (p, o) (or_introl eq_refl)) k y I).
  - intros r Hr. apply okp_ok. intros e [<-|I]; [apply (HS (p, o)); now left|exact (Hr e I)].
Qed.
Lemma scan12_wf sep o st : wf_obj o -> wfst st -> okp wfst (scan12 sep o st).
Proof.
  intros W H. unfold scan12. eapply okp_bind; [apply traverse_wf; intros e [<-|[]]; exact W|]. intros l Hl.
  apply (okp_fold (fun e => wf_obj (snd e))); [|exact Hl|exact H]. intros b a Hb Ha. now apply handle12_wf.
Qed.
Lemma strip_host_wf m : wfp m -> okp (fun x => wfp (snd x)) (strip_host m).
Proof.
  intros H. unfold strip_host. eapply okp_bind; [apply okp_any|]. intros c _. apply if_okp; [|apply okp_ok; exact H]. apply okp_ok. cbn [snd].
  generalize (String.length (UrlLib.urlunparse (UrlLib.mk_purl (UrlLib.u_scheme (UrlLib.urlparse c)) (UrlLib.u_netloc (UrlLib.urlparse c)) "" "" "" ""))). intros n.
  destruct H as [_ H]. assert (G : wfp []) by apply wfp_nil. revert G. generalize (@nil (string * list (string * dict))). induction m as [|[k x] m IH]; intros acc G; cbn [fold_left fst snd]; [exact G|].
  apply IH; [intros k' d I; apply (H k'); now right|]. apply wfp_set; [apply (H k); now left|exact G].
Qed.
Theorem upgrade12_spec_wf sep listing apis : wf_obj listing -> (forall e, In e apis -> wf_obj (snd e)) -> okp wfd (upgrade12_spec sep listing apis).
Proof.
  intros W Wa. unfold upgrade12_spec. assert (G : okp wfd (st <- scan12 sep listing None ;; st <- foldM (fun st a => scan12 sep (snd a) st) apis st ;; match st with None => Err PyException | Some s => swagger_spec s end)).
  { eapply okp_bind; [apply scan12_wf; [exact W|exact I]|]. intros st Hs. eapply okp_bind; [apply (okp_fold (fun e => wf_obj (snd e)) wfst); [|exact Wa|exact Hs]|].
    - intros b a Hb Ha. now apply scan12_wf.
    - intros st2 Hs2. destruct st2 as [s|]; [|apply okp_err]. destruct Hs2 as (H1 & H2 & H3 & H4). unfold swagger_spec. eapply okp_bind; [apply strip_host_wf; exact H3|]. intros [h paths] [Np Hp]. cbn [fst snd] in *. apply okp_ok.
      apply wf_dict. split.
      + vm_compute. repeat (constructor; [intros X; vm_compute in X; repeat (destruct X as [X|X]; [discriminate X|]); exact X|]). constructor.
      + intros k x Ix.
        assert (N0 : wf_json (JDict [])) by (split; [constructor|exact I]).
        assert (T0 : wf_json (JList (map (fun n => JDict [("name", JStr n)]) (s_tags s)))).
        { apply wf_list. intros y Iy. apply in_map_iff in Iy as (t & <- & _). now apply wfd_one. }
        assert (P0 : wf_json (JDict (map (fun kv => (fst kv, in_dict (snd kv))) paths))).
        { apply wf_dict. rewrite map_map. cbn [fst]. split; [exact Np|]. intros k' y Iy. apply in_map_iff in Iy as ([k2 d] & E & Iy). injection E as _ <-. apply wfm_in_dict. exact (Hp k2 d Iy). }
        pose proof (wfm_in_dict _ H2) as D0. pose proof (wfm_in_dict _ H4) as S0.
        repeat (destruct Ix as [E|Ix]; [apply (f_equal snd) in E; cbn [snd] in E; subst x; first [assumption|exact I|cbn; auto; fail]|]). destruct Ix. }
  destruct listing as [|c p s kids| |]; try apply okp_err.
  repeat first [exact G | apply okp_err | match goal with |- okp _ (match ?x with _ => _ end) => destruct x end].
Qed.
