(** Conversion of Swagger 1.2 objects: well-formed documents are converted. *)
From Coq Require Import String Ascii List Bool Arith ZArith Lia.
From Verif Require Import PyStr PyStrFacts PyVal PyValFacts Jp JpFacts Scope SpecUrl UrlLib UrlFacts Obj SpecObj SpecJson ObjFacts TablesFacts SpecTables Classes_v1_2 Classes_v2_0 Scan ScanFacts ScanFacts2 TraverseFacts PropertiesObjAux Up12 SpecUp12 Up12Facts NumeralFacts Up12Facts2 Up12Facts3 Up12Facts4 Up12Facts5 Up12Facts6 Up12Facts7 Up12Facts8 Up12Facts9.
Import ListNotations.
Open Scope string_scope. Open Scope nat_scope.

Definition ok {A} (r : res A) : Prop := exists a, r = Ok a.
Lemma ok_bind {A B} (r : res A) (f : A -> res B) : ok r -> (forall a, r = Ok a -> ok (f a)) -> ok (bind r f).
Proof. intros [a ->] H. cbn [bind]. exact (H a eq_refl). Qed.
Lemma ok_ok {A} (a : A) : ok (Ok a). Proof. now exists a. Qed.
Lemma mapM_total {A B} (f : A -> res B) l : (forall x, In x l -> ok (f x)) -> ok (mapM f l).
Proof.
  induction l as [|x l IH]; intros H; [apply ok_ok|]. cbn [mapM]. apply ok_bind; [apply H; now left|]. intros a _. apply ok_bind; [apply IH; intros; apply H; now right|]. intros. apply ok_ok.
Qed.
Lemma foldM_total {A B} (f : B -> A -> res B) l : (forall s x, In x l -> ok (f s x)) -> forall s, ok (foldM f l s).
Proof.
  induction l as [|x l IH]; intros H s; [apply ok_ok|]. cbn [foldM]. apply ok_bind; [apply H; now left|]. intros a _. apply IH. intros; apply H; now right.
Qed.
(** reading *)
Definition all_optional (c : string) (ns : list string) : bool := forallb (fun n => is_field c n n && is_optional c n n) ns.
Lemma opt_read c d o ns n : made c (JDict d) o -> all_optional c ns = true -> In n ns -> field12 o n = Ok (get (JDict d) n).
Proof.
  intros M H I. unfold all_optional in H. rewrite forallb_forall in H. specialize (H n I). apply andb_prop in H as [H1 H2]. apply (field12_total c); auto.
Qed.
Lemma put_total c d0 o k key d : made c (JDict d0) o -> is_field c k k = true -> ok (put_if_set o k key d).
Proof. intros M F. rewrite (put_if_set_total c d0 o k key d M F). apply ok_ok. Qed.
Lemma update_total c d o scope sep : made c (JDict d) o -> all_optional c ["$ref"; "type"] = true -> good_refs (JDict d) -> ok (update_type_and_ref o scope sep []).
Proof.
  intros M A (_ & R & Ty). unfold update_type_and_ref. rewrite (opt_read c d o _ "$ref" M A) by (cbn; tauto). cbn [bind].
  apply ok_bind.
  - destruct (truthy (get (JDict d) "$ref")) eqn:E; [|apply ok_ok]. destruct (R E) as [s ->]. unfold definition_ref. rewrite compose12_text. cbn [bind]. apply ok_ok.
  - intros d1 _. rewrite (opt_read c d o _ "type" M A) by (cbn; tauto). cbn [bind]. rewrite is_primitive_eq. destruct (is_primitive_name (get (JDict d) "type")) eqn:P.
    + destruct (primitive_lower_total _ P) as [s ->]. cbn [bind]. apply ok_ok.
    + destruct (truthy (get (JDict d) "type")) eqn:E; [|apply ok_ok]. destruct (Ty E) as [s ->]. unfold definition_ref. rewrite compose12_text. cbn [bind]. apply ok_ok.
Qed.
Lemma bound_total c d o name dst : made c (JDict d) o -> all_optional c [name; "type"] = true -> good_bound name (JDict d) -> ok (convert_bound o name dst).
Proof.
  intros M A G. unfold convert_bound. rewrite (opt_read c d o _ name M A) by (cbn; tauto). cbn [bind]. destruct (truthy (get (JDict d) name)) eqn:E; [|apply ok_ok].
  rewrite (opt_read c d o _ "type" M A) by (cbn; tauto). cbn [bind]. destruct (G E) as [[Ty|Ty] (q & Hq)]; rewrite Ty; destruct (py_float_total _ _ Hq) as (q' & ->); cbn; apply ok_ok.
Qed.
Lemma min_max_total c d o dst : made c (JDict d) o -> all_optional c ["minimum"; "maximum"; "type"] = true -> good_bound "minimum" (JDict d) -> good_bound "maximum" (JDict d) ->
  ok (convert_min_max o dst).
Proof.
  intros M A G1 G2. unfold all_optional in A. cbn [forallb] in A. apply andb_prop in A as [A1 A]. apply andb_prop in A as [A2 A]. apply andb_prop in A as [A3 _].
  unfold convert_min_max. apply ok_bind; [|intros d1 _]; (eapply (bound_total c); [exact M| |assumption]); unfold all_optional; cbn [forallb]; [now rewrite A1, A3|now rewrite A2, A3].
Qed.
Definition data_optional (c : string) : bool := all_optional c data_fields.
Lemma all_optional_incl c ns ms : all_optional c ns = true -> (forall n, In n ms -> In n ns) -> all_optional c ms = true.
Proof. unfold all_optional. rewrite !forallb_forall. intros H I n Hn. apply H, I, Hn. Qed.
Ltac incl_tac := let n := fresh in let H := fresh in intros n H; unfold data_fields; cbn in *; tauto.
Lemma items_total c d o : datatype c -> made c (JDict d) o -> exists x, attr12 o "items" = Ok x /\
  ((get (JDict d) "items" = JNull /\ x = OPrim JNull) \/ (get (JDict d) "items" <> JNull /\ made "Items" (get (JDict d) "items") x)).
Proof.
  intros Dt M. destruct (attr12_child c _ _ "items" (BCls "Items") M (proj2 Dt)) as (x & Hx & Cx). exists x. split; [exact Hx|]. apply child_cls in Cx. exact Cx.
Qed.
Lemma schema_total c d o scope sep : datatype c -> data_optional c = true -> made c (JDict d) o -> good_datatype (JDict d) -> ok (convert_schema o scope sep).
Proof.
  intros Dt A M (R & B1 & B2 & It). unfold convert_schema. apply ok_bind; [eapply update_total; [exact M| |exact R]; eapply all_optional_incl; [exact A|incl_tac]|].
  intros d1 _. apply ok_bind; [eapply put_total; [exact M|apply (data_field c "format" Dt); cbn; tauto]|]. intros d2 _. apply ok_bind; [eapply put_total; [exact M|apply (data_field c "defaultValue" Dt); cbn; tauto]|].
  intros d3 _. apply ok_bind; [eapply min_max_total; [exact M| |exact B1|exact B2]; eapply all_optional_incl; [exact A|incl_tac]|]. intros d4 _.
  rewrite (opt_read c d o _ "uniqueItems" M A) by (cbn; tauto). cbn [bind]. rewrite (opt_read c d o _ "enum" M A) by (cbn; tauto). cbn [bind]. cbv zeta.
  destruct (items_total c d o Dt M) as (x & -> & [[_ ->]|[Ni Mx]]); cbn [bind]; [apply ok_ok|]. rewrite (made_truthy _ _ _ Mx).
  destruct It as [It|It]; [contradiction|]. destruct (get (JDict d) "items") as [| | | | | |di] eqn:E; try (destruct It as ((? & It) & _); discriminate).
  apply ok_bind; [eapply update_total; [exact Mx|reflexivity|exact It]|]. intros i _. rewrite (opt_read "Items" di x ["format"] "format" Mx eq_refl) by (cbn; tauto). apply ok_ok.
Qed.
Lemma plain_total c d o : made c (JDict d) o -> all_optional c ["$ref"; "type"] = true -> is_field c "format" "format" = true ->
  truthy (get (JDict d) "$ref") = false -> is_primitive_name (get (JDict d) "type") = true -> ok (convert_items o).
Proof.
  intros M A Ff R P. unfold convert_items. rewrite (opt_read c d o _ "$ref" M A) by (cbn; tauto). cbn [bind]. rewrite R. rewrite (opt_read c d o _ "type" M A) by (cbn; tauto). cbn [bind].
  rewrite is_primitive_eq, P. destruct (primitive_lower_total _ P) as [s ->]. cbn [bind]. eapply put_total; eauto.
Qed.
Lemma parameter_total d o scope sep : made "Parameter" (JDict d) o -> good_parameter (JDict d) -> ok (convert_parameter o scope sep).
Proof.
  intros M (_ & Pt & G). assert (A : data_optional "Parameter" = true) by reflexivity. assert (Dt := parameter_datatype). unfold convert_parameter.
  apply ok_bind; [eapply put_total; [exact M|reflexivity]|]. intros d1 _. apply ok_bind; [eapply put_total; [exact M|reflexivity]|]. intros d2 _. apply ok_bind; [eapply put_total; [exact M|reflexivity]|]. intros d3 _.
  rewrite (field12_total "Parameter" d o "paramType" "paramType" M eq_refl) by (right; exact Pt). cbn [bind]. cbv zeta. rewrite form_match, body_match.
  destruct (match get (JDict d) "paramType" with JStr "body" => true | _ => false end).
  - apply ok_bind; [eapply (schema_total "Parameter"); eauto|]. intros. apply ok_ok.
  - destruct G as [R G]. rewrite (opt_read _ d o _ "$ref" M A) by (cbn; tauto). cbn [bind]. rewrite R.
    rewrite (opt_read _ d o ["allowMultiple"] "allowMultiple" M eq_refl) by (cbn; tauto). cbn [bind]. rewrite is_true_match.
    destruct (items_total _ d o Dt M) as (x & -> & Hx). cbn [bind].
    assert (En : is_none x = is_null (get (JDict d) "items")). { destruct Hx as [[-> ->]|[N Mx]]; [reflexivity|]. rewrite (made_not_none _ _ _ Mx). destruct (null_or (get (JDict d) "items")) as [[? _]|[_ ->]]; [contradiction|reflexivity]. }
    rewrite En. destruct (match get (JDict d) "allowMultiple" with JBool true => true | _ => false end && is_null (get (JDict d) "items")) eqn:E.
    + apply andb_prop in E as [_ E]. destruct Hx as [[_ ->]|[N _]]; [|destruct (get (JDict d) "items"); try discriminate; contradiction]. cbn [truthy_obj truthy].
      apply ok_bind; [|intros; apply ok_ok]. apply ok_bind; [eapply put_total; [exact M|reflexivity]|]. intros d4 _. apply ok_bind; [eapply plain_total; [exact M|reflexivity|reflexivity|exact R|exact G]|].
      intros i _. apply ok_bind; [destruct (made_shape _ _ _ M) as (? & ? & ? & -> & _); apply ok_ok|]. intros b _. apply ok_bind.
      * destruct b; [|apply ok_ok]. rewrite (opt_read _ d o _ "defaultValue" M A) by (cbn; tauto). apply ok_ok.
      * intros d5 _. rewrite (opt_read _ d o _ "enum" M A) by (cbn; tauto). apply ok_ok.
    + destruct G as ((t & Ty) & B1 & B2 & It). apply ok_bind.
      * rewrite (opt_read _ d o _ "type" M A) by (cbn; tauto). cbn [bind]. rewrite Ty. cbn [lower_of bind]. apply ok_bind; [eapply put_total; [exact M|reflexivity]|]. intros d4 _.
        apply ok_bind; [eapply put_total; [exact M|reflexivity]|]. intros d5 _. apply ok_bind; [eapply (min_max_total "Parameter"); [exact M|reflexivity|exact B1|exact B2]|]. intros d6 _.
        rewrite (opt_read _ d o _ "enum" M A) by (cbn; tauto). apply ok_ok.
      * intros d4 _. destruct Hx as [[_ ->]|[Ni Mx]]; [apply ok_ok|]. rewrite (made_truthy _ _ _ Mx). apply ok_bind; [eapply put_total; [exact M|reflexivity]|]. intros d5 _.
        destruct It as [It|(Di & R1 & P1)]; [contradiction|]. destruct Di as [di Ei]. rewrite Ei in *. apply ok_bind; [eapply plain_total; [exact Mx|reflexivity|reflexivity|exact R1|exact P1]|]. intros. apply ok_ok.
Qed.
Lemma list_total c j o name c' l : made c j o -> is_child c name (BListOf (BCls c')) -> get j name = JList l -> exists es, (x <- attr12 o name ;; elems12 x) = Ok es /\ Forall2 (made c') l es.
Proof.
  intros M C E. destruct (attr12_child _ _ _ _ _ M C) as (x & Hx & Cx). rewrite Hx. cbn [bind]. rewrite E in Cx. apply child_list in Cx as [[? _]|(l' & p & es & E' & -> & F)]; [discriminate|].
  assert (l' = l) by congruence. subst l'. exists es. split; [reflexivity|]. now apply Forall2_made.
Qed.
Lemma map_total c j o name b d : made c j o -> is_child c name (BMapOf b) -> get j name = JDict d ->
  exists es, (x <- attr12 o name ;; entries12 x) = Ok es /\ Forall2 (fun v e => fst v = fst e /\ exists p, construct v12_table (snd v) b p [] = Ok (snd e)) d es.
Proof.
  intros M C E. destruct (attr12_child _ _ _ _ _ M C) as (x & Hx & Cx). rewrite Hx. cbn [bind]. rewrite E in Cx. apply child_map in Cx as [[? _]|(l' & p & es & E' & -> & F)]; [discriminate|].
  assert (l' = d) by congruence. subst l'. exists es. split; [reflexivity|exact F].
Qed.
Lemma bind_assoc {A B C} (r : res A) (f : A -> res B) (g : B -> res C) : bind r (fun a => bind (f a) g) = bind (bind r f) g.
Proof. destruct r; reflexivity. Qed.
Lemma Forall2_forall_left {A B} (P : A -> Prop) (R : A -> B -> Prop) l m y : Forall P l -> Forall2 R l m -> In y m -> exists x, P x /\ R x y.
Proof. intros FP F I. destruct (Forall2_in_right _ _ _ _ F I) as (x & Ix & Hx). exists x. split; [|exact Hx]. rewrite Forall_forall in FP. auto. Qed.
Lemma requirement_total name v e : Forall (fun e => a_dict e /\ a_text (get e "scope")) (elements v) -> (exists p, construct v12_table v (BListOf (BCls "Authorizations")) p [] = Ok e) -> ok (requirement name e).
Proof.
  intros G (p & H). assert (N : v <> JNull) by (intros ->; rewrite construct_eq in H; cbn in H; discriminate).
  apply is_list_construct in H. apply child_list in H as [[? _]|(l & q & es & -> & -> & F)]; [contradiction|]. unfold requirement. cbn [elems12 bind]. apply ok_bind; [|intros; apply ok_ok].
  apply mapM_total. intros x I. apply Forall2_made in F. cbn [elements] in G. destruct (Forall2_forall_left _ _ _ _ _ G F I) as (j & [(d & ->) _] & M).
  rewrite (opt_read "Authorizations" d x ["scope"] "scope" M eq_refl) by (cbn; tauto). apply ok_ok.
Qed.
Lemma requirements_total c j o : made c j o -> is_child c "authorizations" (BMapOf (BListOf (BCls "Authorizations"))) -> good_requirements (get j "authorizations") ->
  exists x, attr12 o "authorizations" = Ok x /\ truthy_obj x = truthy (get j "authorizations") /\ (truthy_obj x = true -> ok (es <- entries12 x ;; mapM (fun e => requirement (fst e) (snd e)) es)).
Proof.
  intros M C G. destruct (attr12_child _ _ _ _ _ M C) as (x & Hx & Cx). exists x. split; [exact Hx|]. pose proof (truthy_map _ _ _ Cx) as E. split; [exact E|]. intros T. rewrite E in T. specialize (G T).
  apply child_map in Cx as [[Ej ->]|(d & p & es & Ej & -> & F)]; [rewrite Ej in T; discriminate|]. rewrite Ej in G. cbn [fields] in G. cbn [entries12 bind].
  apply mapM_total. intros [n e] I. destruct (Forall2_forall_left _ _ _ _ _ G F I) as ([n' v] & Gv & [_ Hv]). cbn [fst snd] in *. eapply requirement_total; eauto.
Qed.
Lemma operation_total d dd op decl sep : made "Operation" (JDict d) op -> made "ApiDeclaration" (JDict dd) decl -> good_operation (JDict d) -> good_declaration (JDict dd) ->
  ok (operation_spec op decl sep).
Proof.
  intros M Md (_ & (m & Em & _) & (ps & Ep & Gp) & _ & _ & Ga & Gt) (_ & (rp & Er) & _ & _ & _ & Gda & _). unfold operation_spec.
  assert (A : all_optional "Operation" ["summary"; "notes"; "produces"; "consumes"; "deprecated"; "type"] = true) by reflexivity.
  assert (Ad : all_optional "ApiDeclaration" ["resourcePath"; "produces"; "consumes"] = true) by reflexivity.
  rewrite (opt_read _ dd decl _ "resourcePath" Md Ad) by (cbn; tauto). cbn [bind]. rewrite Er. cbn [from1 bind]. cbv zeta.
  apply ok_bind; [eapply put_total; [exact M|reflexivity]|]. intros d1 _. apply ok_bind; [eapply put_total; [exact M|reflexivity]|]. intros d2 _. apply ok_bind; [eapply put_total; [exact M|reflexivity]|]. intros d3 _.
  rewrite (opt_read _ d op _ "deprecated" M A) by (cbn; tauto). cbn [bind]. rewrite (opt_read _ d op _ "consumes" M A) by (cbn; tauto). cbn [bind].
  apply ok_bind; [destruct (truthy _); [apply ok_ok|]; rewrite (opt_read _ dd decl _ "consumes" Md Ad) by (cbn; tauto); apply ok_ok|]. intros co _.
  rewrite (opt_read _ d op _ "produces" M A) by (cbn; tauto). cbn [bind].
  apply ok_bind; [destruct (truthy _); [apply ok_ok|]; rewrite (opt_read _ dd decl _ "produces" Md Ad) by (cbn; tauto); apply ok_ok|]. intros pr _.
  destruct (list_total "Operation" _ _ "parameters" "Parameter" ps M eq_refl Ep) as (pes & Hp & Fp). rewrite (bind_assoc (attr12 op "parameters") (fun x => elems12 x)), Hp. cbn [bind].
  apply ok_bind.
  { apply mapM_total. intros x I. destruct (Forall2_forall_left _ _ _ _ _ Gp Fp I) as (j & Gj & Mj). assert (Gj' := Gj). destruct Gj as ((dj & ->) & _). apply ok_bind; [now apply (parameter_total dj)|]. intros. apply ok_ok. }
  intros params _.
  destruct (requirements_total "Operation" _ _ M eq_refl Ga) as (a1 & Ha1 & _ & R1). rewrite Ha1. cbn [bind].
  destruct (requirements_total "ApiDeclaration" _ _ Md eq_refl Gda) as (a2 & Ha2 & _ & R2). rewrite Ha2.
  apply ok_bind; [destruct (truthy_obj a1); apply ok_ok|]. intros au Hau.
  apply ok_bind.
  { destruct (truthy_obj au) eqn:T; [|apply ok_ok]. assert (R : ok (es <- entries12 au ;; mapM (fun e => requirement (fst e) (snd e)) es)).
    { destruct (truthy_obj a1) eqn:T1; apply Ok_inj in Hau; subst au; auto. }
    rewrite (bind_assoc (entries12 au)). apply ok_bind; [exact R|]. intros. apply ok_ok. }
  intros d4 _. rewrite (opt_read _ d op _ "type" M A) by (cbn; tauto). cbn [bind]. apply ok_bind; [|intros; apply ok_ok].
  destruct (json_is_str "void" (get (JDict d) "type")) eqn:V; [apply ok_ok|]. destruct Gt as [Gt|Gt]; [rewrite Gt in V; discriminate|].
  apply ok_bind; [eapply (schema_total "Operation"); [exact operation_datatype|reflexivity|exact M|exact Gt]|]. intros. apply ok_ok.
Qed.
Lemma add_operation_total d dd ad op api decl sep s : made "Operation" (JDict d) op -> made "ApiDeclaration" (JDict dd) decl -> made "Api" (JDict ad) api -> good_operation (JDict d) -> good_declaration (JDict dd) ->
  a_text (get (JDict ad) "path") -> ok (convert_operation op api decl sep s).
Proof.
  intros M Md Ma G Gd (ap & Ea). unfold convert_operation. apply ok_bind; [eapply operation_total; eauto|]. intros spec _.
  destruct Gd as (_ & _ & (b & Eb) & _). destruct G as (_ & (m & Em & _) & _).
  assert (Pb : lookup "basePath" dd <> None) by (intros N; unfold get in Eb; cbn [fields] in Eb; rewrite N in Eb; discriminate).
  assert (Pa : lookup "path" ad <> None) by (intros N; unfold get in Ea; cbn [fields] in Ea; rewrite N in Ea; discriminate).
  assert (Pm : lookup "method" d <> None) by (intros N; unfold get in Em; cbn [fields] in Em; rewrite N in Em; discriminate).
  rewrite (field12_total "ApiDeclaration" dd decl "base_path" "basePath" Md eq_refl (or_intror Pb)). cbn [bind]. rewrite (field12_total "Api" ad api "path" "path" Ma eq_refl (or_intror Pa)). cbn [bind].
  rewrite Eb, Ea. rewrite (field12_total "Operation" d op "method" "method" M eq_refl (or_intror Pm)). cbn [bind]. rewrite Em. cbn [lower_of bind]. apply ok_ok.
Qed.
Lemma texts_iter j : texts_or_none j -> exists l, iter_json j = Ok l /\ Forall a_text l.
Proof.
  intros H. unfold iter_json. destruct (truthy j) eqn:T; [|exists []; split; [reflexivity|constructor]]. destruct (H T) as (l & -> & F). exists l. split; [reflexivity|exact F].
Qed.
Lemma model_total d dd model decl sep s : made "Model" (JDict d) model -> made "ApiDeclaration" (JDict dd) decl -> good_model (JDict d) -> good_declaration (JDict dd) -> ok (convert_model model decl sep s).
Proof.
  intros M Md (_ & (id & Ei) & (ps & Ep & Gp) & Gs) (_ & (rp & Er) & _). unfold convert_model.
  rewrite (opt_read _ dd decl ["resourcePath"] "resourcePath" Md eq_refl) by (cbn; tauto). cbn [bind]. rewrite Er. cbn [from1 bind].
  assert (Pi : lookup "id" d <> None) by (intros N; unfold get in Ei; cbn [fields] in Ei; rewrite N in Ei; discriminate).
  rewrite (field12_total "Model" d model "id" "id" M eq_refl (or_intror Pi)). cbn [bind]. rewrite Ei, compose12_text. cbn [bind].
  destruct (map_total "Model" _ _ "properties" (BCls "Property") ps M eq_refl Ep) as (es & He & Fe). rewrite (bind_assoc (attr12 model "properties") (fun x => entries12 x)), He. cbn [bind].
  apply ok_bind.
  { apply mapM_total. intros [n x] I. destruct (Forall2_forall_left _ _ _ _ _ Gp Fe I) as ([n' v] & Gv & [_ Mv]). cbn [fst snd] in *. assert (Gv' := Gv). destruct Gv as (((dv & ->) & _) & _).
    apply ok_bind; [|intros; apply ok_ok]. unfold property_spec. apply ok_bind; [eapply (schema_total "Property"); [exact property_datatype|reflexivity|exact Mv|exact Gv']|]. intros sp _.
    rewrite (opt_read "Property" dv x ["description"] "description" Mv eq_refl) by (cbn; tauto). apply ok_ok. }
  intros props _. cbv zeta. apply ok_bind; [eapply put_total; [exact M|reflexivity]|]. intros d1 _. apply ok_bind; [eapply put_total; [exact M|reflexivity]|]. intros d2 _. apply ok_bind; [eapply put_total; [exact M|reflexivity]|]. intros d3 _.
  rewrite (opt_read "Model" d model ["subTypes"] "subTypes" M eq_refl) by (cbn; tauto). cbn [bind]. destruct (texts_iter _ Gs) as (l & -> & Fl). cbn [bind]. apply ok_bind; [|intros; apply ok_ok].
  apply foldM_total. intros defs t I. rewrite Forall_forall in Fl. destruct (Fl t I) as [x ->]. rewrite compose12_text. apply ok_ok.
Qed.
Lemma declaration_total dj decl sep s : made "ApiDeclaration" dj decl -> good_declaration dj -> ok (api_declaration sep decl s).
Proof.
  intros M G. assert (G' := G). destruct G as ((dd & ->) & (rp & Er) & _ & _ & _ & _ & (apis & Ea & Ga) & (ms & Em & Gm)). unfold api_declaration.
  rewrite (field12_total "ApiDeclaration" dd decl "resource_path" "resourcePath" M eq_refl) by (left; reflexivity). cbn [bind]. rewrite Er. cbn [from1 bind]. cbv zeta.
  destruct (list_total "ApiDeclaration" _ _ "apis" "Api" apis M eq_refl Ea) as (as_ & Ha & Fa). rewrite (bind_assoc (attr12 decl "apis") (fun x => elems12 x)), Ha. cbn [bind].
  apply ok_bind.
  { apply foldM_total. intros s0 api I. destruct (Forall2_forall_left _ _ _ _ _ Ga Fa I) as (aj & ((ad & ->) & Pa & (ops & Eo & Go)) & Ma).
    destruct (list_total "Api" _ _ "operations" "Operation" ops Ma eq_refl Eo) as (os & Ho & Fo). rewrite (bind_assoc (attr12 api "operations") (fun x => elems12 x)), Ho. cbn [bind].
    apply foldM_total. intros s1 op Io. destruct (Forall2_forall_left _ _ _ _ _ Go Fo Io) as (oj & Goj & Mo). assert (Goj' := Goj). destruct Goj as ((od & ->) & _). eapply add_operation_total; eauto. }
  intros s1 _. destruct (map_total "ApiDeclaration" _ _ "models" (BCls "Model") ms M eq_refl Em) as (es & He & Fe). rewrite (bind_assoc (attr12 decl "models") (fun x => entries12 x)), He. cbn [bind].
  apply foldM_total. intros s2 [n m] I. destruct (Forall2_forall_left _ _ _ _ _ Gm Fe I) as ([n' v] & Gv & [_ Mv]). cbn [fst snd] in *. assert (Gv' := Gv). destruct Gv as ((dv & ->) & _). eapply model_total; eauto.
Qed.
(** ** the listing *)
Lemma gon_field_total c d o n key : made c (JDict d) o -> is_field c n key = true -> is_optional c n key = true \/ lookup key d <> None -> get_or_none o [n] = Ok (OPrim (get (JDict d) key)).
Proof.
  intros M F P. pose proof (field12_total c d o n key M F P) as H. cbn [get_or_none]. unfold field12 in H. destruct (attr12 o n) as [v|e] eqn:Ea; cbn [bind] in H; [|discriminate].
  destruct v; try discriminate. apply Ok_inj in H. subst j. destruct (truthy_obj _); reflexivity.
Qed.
Lemma gon_child_total c j o n c' rest : made c j o -> is_child c n (BCls c') -> (forall o', made c' (get j n) o' -> ok (get_or_none o' rest)) -> ok (get_or_none o (n :: rest)).
Proof.
  intros M C H. destruct (attr12_child _ _ _ _ _ M C) as (v & Ha & Hc). cbn [get_or_none]. rewrite Ha. apply child_cls in Hc as [[_ ->]|[_ Mv]]; [apply ok_ok|].
  destruct (made_shape _ _ _ Mv) as (p & kids & cd & E & _). rewrite E at 1. cbn [truthy_obj]. now apply H.
Qed.
Lemma endpoint_total c e o : made c e o -> e = JNull \/ good_endpoint e -> is_field c "url" "url" = true -> e <> JNull -> ok (get_or_none o ["url"]).
Proof.
  intros M [E|[E|((d & ->) & U)]] F N; try contradiction. rewrite (gon_field_total c d o "url" "url" M F (or_intror U)). apply ok_ok.
Qed.
Lemma gon_step c j o n c' rest : made c j o -> is_child c n (BCls c') -> (forall o', get j n <> JNull -> made c' (get j n) o' -> ok (get_or_none o' rest)) -> ok (get_or_none o (n :: rest)).
Proof.
  intros M C H. destruct (attr12_child _ _ _ _ _ M C) as (v & Ha & Hc). cbn [get_or_none]. rewrite Ha. apply child_cls in Hc as [[_ ->]|[N Mv]]; [apply ok_ok|].
  destruct (made_shape _ _ _ Mv) as (p & kids & cd & E & _). rewrite E at 1. cbn [truthy_obj]. now apply H.
Qed.
Lemma authorization_total j o : made "Authorization" j o -> good_authorization j -> ok (authorization_spec o).
Proof.
  intros M ((d & ->) & Gs & G1 & G2). unfold authorization_spec. assert (A : all_optional "Authorization" ["type"; "passAs"; "keyname"] = true) by reflexivity.
  rewrite (opt_read _ d o _ "type" M A) by (cbn; tauto). cbn [bind]. cbv zeta.
  destruct (attr12_child "Authorization" _ _ "scopes" (BListOf (BCls "Scope")) M eq_refl) as (x & -> & Cx). cbn [bind].
  assert (S1 : exists ss, (if truthy_obj x then elems12 x else Ok []) = Ok ss /\ Forall2 (made "Scope") (elements (get (JDict d) "scopes")) ss).
  { apply child_list in Cx as [[-> ->]|(l & p & es & -> & -> & F)]; [exists []; split; [reflexivity|constructor]|]. exists es. split; [destruct es; reflexivity|]. now apply Forall2_made. }
  destruct S1 as (ss & -> & Fs). cbn [bind]. apply ok_bind.
  { apply foldM_total. intros acc e I. destruct (Forall2_forall_left _ _ _ _ _ Gs Fs I) as (ej & ((ed & ->) & (sc & Esc) & _) & Me).
    assert (Ps : lookup "scope" ed <> None) by (intros N; unfold get in Esc; cbn [fields] in Esc; rewrite N in Esc; discriminate).
    rewrite (field12_total "Scope" ed e "scope" "scope" Me eq_refl (or_intror Ps)). cbn [bind]. rewrite (opt_read "Scope" ed e ["description"] "description" Me eq_refl) by (cbn; tauto). cbn [bind]. rewrite Esc. apply ok_ok. }
  intros scopes _. destruct (json_is_str "oauth2" _).
  - apply ok_bind.
    { eapply (gon_step "Authorization" _ _ "grantTypes" "GrantTypes"); [exact M|reflexivity|]. intros o1 _ M1. eapply (gon_step "GrantTypes" _ _ "implicit" "Implicit"); [exact M1|reflexivity|]. intros o2 _ M2.
      eapply (gon_step "Implicit" _ _ "loginEndpoint" "LoginEndpoint"); [exact M2|reflexivity|]. intros o3 N3 M3. unfold first_of in G1. cbn [fold_left] in G1.
      eapply (endpoint_total "LoginEndpoint"); [exact M3|right; exact G1|reflexivity|exact N3]. }
    intros au _. apply ok_bind.
    { eapply (gon_step "Authorization" _ _ "grantTypes" "GrantTypes"); [exact M|reflexivity|]. intros o1 _ M1. eapply (gon_step "GrantTypes" _ _ "authorization_code" "AuthorizationCode"); [exact M1|reflexivity|]. intros o2 _ M2.
      eapply (gon_step "AuthorizationCode" _ _ "tokenEndpoint" "TokenEndpoint"); [exact M2|reflexivity|]. intros o3 N3 M3. unfold first_of in G2. cbn [fold_left] in G2.
      eapply (endpoint_total "TokenEndpoint"); [exact M3|right; exact G2|reflexivity|exact N3]. }
    intros. apply ok_ok.
  - destruct (json_is_str "apiKey" _); [|apply ok_ok]. rewrite (opt_read _ d o _ "keyname" M A) by (cbn; tauto). cbn [bind]. rewrite (opt_read _ d o _ "passAs" M A) by (cbn; tauto). apply ok_ok.
Qed.
Lemma listing_total j o : made "ResourceListing" j o -> good_listing j -> ok (resource_listing o).
Proof.
  intros M ((d & ->) & (i & Ei) & Ti & De & _). rewrite Ei in *. unfold resource_listing. rewrite (opt_read _ d o ["apiVersion"] "apiVersion" M eq_refl) by (cbn; tauto). cbn [bind]. cbv zeta.
  assert (H : forall k, is_field "Info" k k = true -> is_optional "Info" k k = true \/ lookup k i <> None -> ok (get_or_none o ["info"; k])).
  { intros k F P. eapply (gon_step "ResourceListing" _ _ "info" "Info"); [exact M|reflexivity|]. intros o1 _ M1. rewrite Ei in M1. rewrite (gon_field_total "Info" i o1 k k M1 F P). apply ok_ok. }
  apply ok_bind; [apply H; [reflexivity|right; exact Ti]|]. intros t _. apply ok_bind; [apply H; [reflexivity|right; exact De]|]. intros de _. apply ok_bind; [apply H; [reflexivity|left; reflexivity]|]. intros te _.
  destruct (attr12_child "ResourceListing" _ _ "info" (BCls "Info") M eq_refl) as (x & -> & Cx). cbn [bind]. rewrite Ei in Cx. apply child_cls in Cx as [[? _]|[_ Mx]]; [discriminate|].
  assert (A : all_optional "Info" ["contact"; "license"; "licenseUrl"] = true) by reflexivity.
  rewrite (opt_read _ i x _ "contact" Mx A) by (cbn; tauto). cbn [bind]. rewrite (opt_read _ i x _ "license" Mx A) by (cbn; tauto). cbn [bind]. rewrite (opt_read _ i x _ "licenseUrl" Mx A) by (cbn; tauto). apply ok_ok.
Qed.
Lemma children_total sep d j L : (forall k x, In (k, x) L -> only_in others x \/ exists n v, auth_child j k x n v) -> (forall n v, In (n, v) (fields (get j "authorizations")) -> good_authorization v) ->
  forall s, exists s', foldM (sub_scan sep d) L (Some s) = Ok (Some s').
Proof.
  intros C G. induction L as [|[k x] L IH]; intros s; [exists s; reflexivity|]. cbn [foldM]. assert (C' : forall k x, In (k, x) L -> only_in others x \/ exists n v, auth_child j k x n v) by (intros; apply C; now right).
  destruct (C k x (or_introl eq_refl)) as [Hq|(n & v & Ha)].
  - rewrite (sub_quiet _ _ _ _ _ Hq). cbn [bind]. now apply IH.
  - rewrite (sub_auth _ _ _ _ _ _ _ _ Ha). assert (Ha' := Ha). destruct Ha' as (I & _ & M). destruct (authorization_total _ _ M (G _ _ I)) as [dd ->]. cbn [bind]. now apply IH.
Qed.
Lemma scan_listing_total sep j o : made "ResourceListing" j o -> good_listing j -> exists s, scan12 sep o None = Ok (Some s).
Proof.
  intros M G. rewrite scan12_visits. assert (D : exists d, odepth o = S d) by (destruct (made_shape _ _ _ M) as (p & kids & cd & -> & _); eexists; reflexivity).
  destruct D as (d & D). rewrite D, visits_eq. assert (L : is_leaf [] o = false) by (destruct (made_shape _ _ _ M) as (p & kids & cd & -> & _); reflexivity).
  rewrite L. cbn [map foldM]. unfold shown at 1. cbn [fst snd].
  assert (H0 : handle12 sep None (extend "#" [], o) = (s <- resource_listing o ;; Ok (Some s))) by (destruct (made_shape _ _ _ M) as (p & kids & cd & -> & _); reflexivity).
  rewrite H0. destruct (listing_total _ _ M G) as [s0 ->]. cbn [bind]. rewrite map_flat_map, foldM_flat.
  change (exists s, foldM (sub_scan sep d) (rev (get_children v12_table o)) (Some s0) = Ok (Some s)).
  eapply (children_total sep d j).
  - intros k x I. apply in_rev in I. eapply listing_child_cases; eauto.
  - intros n v I. destruct G as (_ & _ & _ & _ & G). rewrite Forall_forall in G. exact (G (n, v) I).
Qed.
Lemma declarations_total sep ds apis : Forall2 (fun d a => fst d = fst a /\ made "ApiDeclaration" (snd d) (snd a)) ds apis -> Forall (fun d => good_declaration (snd d)) ds ->
  forall s, exists s', foldM (fun st (a : string * obj) => scan12 sep (snd a) st) apis (Some s) = Ok (Some s').
Proof.
  induction 1 as [|[u dj] [u' a] ds apis [_ M] F IH]; intros G s; [exists s; reflexivity|]. inversion_clear G as [|? ? G1 G2]. cbn [foldM fst snd] in *.
  rewrite (scan_declaration _ _ _ _ M). destruct (declaration_total _ _ sep s M G1) as [s1 ->]. cbn [bind]. now apply IH.
Qed.
Lemma spec_total sep ld ds listing apis : app_made ld ds listing apis -> good12 ld ds -> distinct12 ld ds ->
  exists s, state_ok sep ld ds s /\ (exists props, Forall2 (props_image sep) (all_models ds) props /\ s_defs s = fold_left (model_step sep) (combine (all_models ds) props) []) /\
    upgrade12_spec sep listing apis = swagger_spec s.
Proof.
  intros [Ml F] [Gl Gd] [Wl Wd]. destruct (scan_listing_total sep _ _ Ml Gl) as (s0 & H0). destruct (declarations_total sep _ _ F Gd s0) as (s1 & H1).
  destruct (scan_listing _ _ _ _ Ml (wf_fields _ (wf_get _ _ Wl)) H0) as (s & E & Hi & T0 & D0 & P0 & Sec). injection E as <-.
  destruct (declarations_ok _ _ _ F _ _ H1) as (specs & props & s' & E & Hs & Hp & Es). injection E as <-. exists s1. split.
  - rewrite Es, T0, D0, P0. unfold state_ok. cbn [s_info s_tags s_defs s_paths s_secs]. split; [exact Hi|]. split; [apply fold_tags|]. split; [apply model_step_nodup; constructor|]. split.
    + apply INV_definitions. apply (INV_all sep (all_models ds) props Hp (models_nodup _ Wd) [] []). apply INV_start.
    + split; [exists specs; split; [exact Hs|reflexivity]|exact Sec].
  - split; [exists props; split; [exact Hp|]; rewrite Es, D0; reflexivity|]. unfold upgrade12_spec. destruct (made_shape _ _ _ Ml) as (p & kids & cd & E & _). subst listing. rewrite H0. cbn [bind]. rewrite H1. reflexivity.
Qed.
Lemma no_prefix_error sep ld ds listing apis : app_made ld ds listing apis -> good12 ld ds -> distinct12 ld ds ->
  all_sites ds = [] \/ common_prefix (map full_path (all_sites ds)) "" -> upgrade12 sep listing apis = Err IndexError.
Proof.
  intros M G W H. destruct (spec_total sep _ _ _ _ M G W) as (s & (_ & _ & _ & _ & (specs & Fs & Ep) & _) & _ & E). unfold upgrade12. rewrite E. unfold swagger_spec. rewrite strip_host_none; [reflexivity|].
  rewrite Ep. pose proof (site_keys_same _ _ _ Fs) as SK. destruct H as [H|H].
  - left. rewrite H. reflexivity.
  - right. eapply common_prefix_same; [|exact H]. intros x. symmetry. apply SK.
Qed.
