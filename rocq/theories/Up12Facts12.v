(** Conversion of Swagger 1.2 objects: errors, tags. *)
From Coq Require Import String Ascii List Bool Arith ZArith Lia.
From Verif Require Import PyStr PyStrFacts PyVal PyValFacts Jp JpFacts Scope SpecUrl UrlLib UrlFacts Obj SpecObj SpecJson ObjFacts ShapeFacts TablesFacts SpecTables Classes_v1_2 Classes_v2_0 Scan ScanFacts ScanFacts2 TraverseFacts PropertiesObjAux SpecJp Up12 SpecUp12 Up12Facts NumeralFacts Up12Facts2 Up12Facts3 Up12Facts4 Up12Facts5 Up12Facts6 Up12Facts7 Up12Facts8 Up12Facts9 Up12Facts10 Up12Facts11.
From Verif Require SpecDoc RelocFacts.
Import ListNotations.
Open Scope string_scope. Open Scope nat_scope.

Definition has_datatype (c : string) : Prop := In c ["Property"; "Parameter"; "Operation"].
Lemma has_datatype_ok c : has_datatype c -> datatype c /\ data_optional c = true.
Proof.
  intros [<-|[<-|[<-|[]]]]; (split; [|reflexivity]); [exact property_datatype|exact parameter_datatype|exact operation_datatype].
Qed.
Lemma datatype_result c j o scope sep out : has_datatype c -> made c j o -> convert_schema o scope sep = Ok out -> datatype_image sep scope j out /\ only_keys datatype_keys out.
Proof. intros H. apply convert_schema_ok. exact (proj1 (has_datatype_ok _ H)). Qed.
Lemma datatype_total c j o scope sep : has_datatype c -> made c j o -> good_datatype j -> exists out, convert_schema o scope sep = Ok out.
Proof. intros H M G. destruct G as (((d & ->) & R) & G). destruct (has_datatype_ok _ H). eapply schema_total; eauto. split; [split; [now eexists|exact R]|exact G]. Qed.
Lemma bound_err c d o name dst : made c (JDict d) o -> all_optional c [name; "type"] = true -> truthy (get (JDict d) name) = true ->
  get (JDict d) "type" <> JStr "integer" -> get (JDict d) "type" <> JStr "number" -> convert_bound o name dst = Err SchemaError.
Proof.
  intros M A T N1 N2. unfold convert_bound. rewrite (opt_read c d o _ name M A) by (cbn; tauto). cbn [bind]. rewrite T. rewrite (opt_read c d o _ "type" M A) by (cbn; tauto). cbn [bind].
  destruct (json_is_str "integer" _) eqn:E1; [apply is_str_eq in E1; contradiction|]. destruct (json_is_str "number" _) eqn:E2; [apply is_str_eq in E2; contradiction|]. reflexivity.
Qed.
Lemma bound_none c d o name dst : made c (JDict d) o -> all_optional c [name; "type"] = true -> truthy (get (JDict d) name) = false -> convert_bound o name dst = Ok (dict_del name dst).
Proof. intros M A T. unfold convert_bound. rewrite (opt_read c d o _ name M A) by (cbn; tauto). cbn [bind]. now rewrite T. Qed.
Lemma min_max_err c d o dst : made c (JDict d) o -> data_optional c = true -> truthy (get (JDict d) "minimum") = true \/ truthy (get (JDict d) "maximum") = true ->
  get (JDict d) "type" <> JStr "integer" -> get (JDict d) "type" <> JStr "number" -> convert_min_max o dst = Err SchemaError.
Proof.
  intros M A H N1 N2. unfold convert_min_max.
  assert (A1 : all_optional c ["minimum"; "type"] = true) by (eapply all_optional_incl; [exact A|incl_tac]). assert (A2 : all_optional c ["maximum"; "type"] = true) by (eapply all_optional_incl; [exact A|incl_tac]).
  destruct (truthy (get (JDict d) "minimum")) eqn:T; [rewrite (bound_err c d); auto|]. destruct H as [H|H]; [discriminate|]. rewrite (bound_none c d) by auto. cbn [bind]. now apply (bound_err c d).
Qed.
Lemma bound_raises c j o scope sep : has_datatype c -> made c j o -> good_refs j -> truthy (get j "minimum") = true \/ truthy (get j "maximum") = true ->
  get j "type" <> JStr "integer" -> get j "type" <> JStr "number" -> convert_schema o scope sep = Err SchemaError.
Proof.
  intros Hc M R H N1 N2. destruct (has_datatype_ok _ Hc) as [Dt A]. assert (R' := R). destruct R as ((d & ->) & _). unfold convert_schema.
  assert (U : ok (update_type_and_ref o scope sep [])) by (eapply update_total; [exact M| |exact R']; eapply all_optional_incl; [exact A|incl_tac]). destruct U as [d1 ->]. cbn [bind].
  assert (U : ok (put_if_set o "format" "format" d1)) by (eapply put_total; [exact M|apply (data_field c "format" Dt); cbn; tauto]). destruct U as [d2 ->]. cbn [bind].
  assert (U : ok (put_if_set o "defaultValue" "default" d2)) by (eapply put_total; [exact M|apply (data_field c "defaultValue" Dt); cbn; tauto]). destruct U as [d3 ->]. cbn [bind].
  now rewrite (min_max_err c d).
Qed.
Lemma parameter_result j o scope sep out : made "Parameter" j o -> convert_parameter o scope sep = Ok out -> parameter_image sep scope j out.
Proof. apply convert_parameter_ok. Qed.
Lemma parameter_good j o scope sep : made "Parameter" j o -> good_parameter j -> exists out, convert_parameter o scope sep = Ok out.
Proof. intros M G. assert (G' := G). destruct G as ((d & ->) & _). now apply (parameter_total d). Qed.
Lemma parameter_ref j o scope sep : made "Parameter" j o -> a_dict j -> given j "paramType" <> None -> get j "paramType" <> JStr "body" -> truthy (get j "$ref") = true ->
  convert_parameter o scope sep = Err SchemaError.
Proof.
  intros M (d & ->) Pt Nb R. assert (A : data_optional "Parameter" = true) by reflexivity. unfold convert_parameter.
  assert (U : forall k dst, is_field "Parameter" k k = true -> ok (put_if_set o k k dst)) by (intros; eapply put_total; [exact M|assumption]).
  destruct (U "name" [] eq_refl) as [d1 ->]. cbn [bind]. destruct (U "required" d1 eq_refl) as [d2 ->]. cbn [bind]. destruct (U "description" d2 eq_refl) as [d3 ->]. cbn [bind].
  rewrite (field12_total "Parameter" d o "paramType" "paramType" M eq_refl) by (right; exact Pt). cbn [bind]. cbv zeta. rewrite form_match, body_match.
  destruct (match get (JDict d) "paramType" with JStr "body" => true | _ => false end) eqn:B.
  - exfalso. apply Nb. rewrite <- body_match in B. rewrite <- form_match in B. destruct (json_is_str "form" _); [discriminate|]. now apply is_str_eq in B.
  - rewrite (opt_read _ d o _ "$ref" M A) by (cbn; tauto). cbn [bind]. now rewrite R.
Qed.
(** ** tags *)
Lemma first_seen_in l : forall seen x, In x (first_seen l seen) <-> In x l /\ existsb (String.eqb x) seen = false.
Proof.
  induction l as [|y l IH]; intros seen x; cbn [first_seen]; [cbn; tauto|]. destruct (existsb (String.eqb y) seen) eqn:E.
  - rewrite IH. cbn [In]. split; [tauto|]. intros [[->|I] H]; [congruence|tauto].
  - cbn [In]. rewrite IH. cbn [existsb]. destruct (String.eqb_spec x y) as [->|N]; cbn [orb].
    + split; [intros [_|[_ H]]; [auto|discriminate]|auto].
    + split; [intros [->|[I H]]; [contradiction|auto]|intros [[->|I] H]; [contradiction|auto]].
Qed.
Lemma first_seen_nodup l : forall seen, NoDup (first_seen l seen).
Proof.
  induction l as [|y l IH]; intros seen; cbn [first_seen]; [constructor|]. destruct (existsb (String.eqb y) seen); [apply IH|]. constructor; [|apply IH]. rewrite first_seen_in. intros [_ H]. cbn [existsb] in H. now rewrite String.eqb_refl in H.
Qed.
(** the order is that of the first occurrences: the names seen so far are the start of the list *)
Lemma first_seen_app a b : forall seen, first_seen (a ++ b) seen = (first_seen a seen ++ first_seen b (rev a ++ seen))%list.
Proof.
  induction a as [|x a IH]; intros seen; cbn [app first_seen rev]; [reflexivity|]. rewrite <- app_assoc. cbn [app]. destruct (existsb (String.eqb x) seen) eqn:E; [|cbn [app]; f_equal; apply IH].
  rewrite IH. f_equal. apply first_seen_ext. intros y. rewrite !existsb_app. cbn [existsb]. destruct (String.eqb_spec y x) as [->|]; [rewrite E; cbn; reflexivity|reflexivity].
Qed.
Lemma tags_names sep ld ds listing apis o : app_made ld ds listing apis -> distinct12 ld ds -> upgrade12 sep listing apis = Ok o ->
  exists names, get (document_of o) "tags" = JList (map (fun n => JDict [("name", JStr n)]) names) /\ NoDup names /\
    (forall n, In n names <-> In n (map (fun d => resource (snd d)) ds)) /\ names = first_seen (map (fun d => resource (snd d)) ds) [].
Proof.
  intros M W H. eexists. split; [eapply tags_final; eauto|]. split; [apply first_seen_nodup|]. split; [|reflexivity]. intros n. rewrite first_seen_in. cbn. tauto.
Qed.
Lemma tags_declaration_order sep ld a b listing la lb o o' : app_made ld (a ++ b) listing (la ++ lb) -> app_made ld a listing la -> distinct12 ld (a ++ b) ->
  upgrade12 sep listing (la ++ lb) = Ok o -> upgrade12 sep listing la = Ok o' ->
  exists more, elements (get (document_of o) "tags") = (elements (get (document_of o') "tags") ++ more)%list.
Proof.
  intros M M' W H H'. assert (W' : distinct12 ld a) by (destruct W as [W1 W2]; split; [exact W1|]; apply Forall_app in W2; tauto).
  rewrite (tags_final _ _ _ _ _ _ M W H), (tags_final _ _ _ _ _ _ M' W' H'). cbn [elements]. rewrite map_app, first_seen_app, map_app. eexists. reflexivity.
Qed.
(** ** securities *)
Lemma securities_names sep ld ds listing apis o : app_made ld ds listing apis -> distinct12 ld ds -> upgrade12 sep listing apis = Ok o ->
  NoDup (keys (fields (get (document_of o) "securityDefinitions"))) /\
  (forall n v, given (get ld "authorizations") n = Some v -> exists d, given (get (document_of o) "securityDefinitions") (SpecDoc.rfc_escape n) = Some (JDict d) /\ security_image v d) /\
  (forall k, given (get (document_of o) "securityDefinitions") k <> None -> exists n, given (get ld "authorizations") n <> None /\ k = SpecDoc.rfc_escape n).
Proof.
  intros M W H. destruct (securities_final _ _ _ _ _ _ M W H) as (A & B & C). split; [exact A|]. split.
  - intros n v L. rewrite <- RelocFacts.rfc_encode. eauto.
  - intros k L. destruct (C k L) as (n & Ln & ->). exists n. now rewrite RelocFacts.rfc_encode.
Qed.
(** ** the conversion as a whole *)
Lemma common_prefix_cases l : l = [] \/ exists c, common_prefix l c.
Proof. destruct l; [now left|]. right. eexists. apply commonprefix_spec. discriminate. Qed.
Lemma upgrade_iff sep ld ds listing apis : app_made ld ds listing apis -> good12 ld ds -> distinct12 ld ds ->
  ((exists o, upgrade12 sep listing apis = Ok o) <-> exists c, c <> "" /\ common_prefix (map full_path (all_sites ds)) c) /\
  (forall e, upgrade12 sep listing apis = Err e -> e = IndexError).
Proof.
  intros M G W. assert (C : (exists c, c <> "" /\ common_prefix (map full_path (all_sites ds)) c) \/ upgrade12 sep listing apis = Err IndexError).
  { destruct (common_prefix_cases (map full_path (all_sites ds))) as [E|[c C]].
    - right. eapply no_prefix_error; eauto. left. now apply map_eq_nil in E.
    - destruct (string_dec c "") as [->|N]; [right; eapply no_prefix_error; eauto|left; eauto]. }
  split; [split|].
  - intros [o H]. destruct C as [C|C]; [exact C|congruence].
  - intros H. eapply upgrade_total; eauto.
  - intros e H. destruct C as [C|C]; [|congruence]. destruct (upgrade_total sep _ _ _ _ M G W C). congruence.
Qed.
