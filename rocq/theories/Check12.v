(** Checkers for the conditions on Swagger 1.2 applications (for examples only). *)
From Coq Require Import String Ascii List Bool Arith ZArith.
From Verif Require Import PyStr PyStrFacts PyVal PyValFacts Obj Classes_v1_2 SpecJson SpecUrl SpecInside SpecDoc SpecFollow PropertiesDeclare PropertiesFollow UrlLib Up12 SpecUp12 SpecOpen12.
Import ListNotations.
Open Scope string_scope. Open Scope nat_scope.

Definition dictb (j : json) : bool := match j with JDict _ => true | _ => false end.
Definition textb (j : json) : bool := match j with JStr _ => true | _ => false end.
Definition nullb (j : json) : bool := match j with JNull => true | _ => false end.
Definition implb' (a b : bool) : bool := negb a || b.
Lemma implb'_ok (a b : bool) : implb' a b = true -> a = true -> b = true. Proof. destruct a, b; auto. Qed.
Lemma dictb_ok j : dictb j = true -> a_dict j. Proof. destruct j; try discriminate. intros _. eexists. reflexivity. Qed.
Lemma textb_ok j : textb j = true -> a_text j. Proof. destruct j; try discriminate. intros _. eexists. reflexivity. Qed.
Lemma nullb_ok j : nullb j = true -> j = JNull. Proof. destruct j; try discriminate. reflexivity. Qed.
Definition isb (s : string) (j : json) : bool := match j with JStr t => String.eqb t s | _ => false end.
Lemma isb_ok s j : isb s j = true -> j = JStr s. Proof. destruct j; try discriminate. cbn. intros H. apply String.eqb_eq in H. now subst. Qed.
Lemma forallb_Forall {A} (p : A -> bool) (P : A -> Prop) l : (forall x, p x = true -> P x) -> forallb p l = true -> Forall P l.
Proof. intros H F. rewrite forallb_forall in F. apply Forall_forall. intros x I. apply H, F, I. Qed.
Definition givenb (j : json) (k : string) : bool := match given j k with Some _ => true | None => false end.
Lemma givenb_ok j k : givenb j k = true -> given j k <> None. Proof. unfold givenb. destruct (given j k); [discriminate|discriminate]. Qed.
Lemma givenb_no j k : givenb j k = false -> given j k = None. Proof. unfold givenb. destruct (given j k); [discriminate|reflexivity]. Qed.

(** ** good12; bounds are integers here *)
Definition name_or_noneb (j : json) : bool := implb' (truthy j) (textb j).
Lemma name_or_noneb_ok j : name_or_noneb j = true -> name_or_none j. Proof. intros H T. apply textb_ok. exact (implb'_ok _ _ H T). Qed.
Definition good_refsb (t : json) : bool := dictb t && name_or_noneb (get t "$ref") && name_or_noneb (get t "type").
Lemma good_refsb_ok t : good_refsb t = true -> good_refs t.
Proof. unfold good_refsb. rewrite !andb_true_iff. intros [[A B] C]. split; [now apply dictb_ok|]. split; now apply name_or_noneb_ok. Qed.
Definition good_boundb (n : string) (t : json) : bool := implb' (truthy (get t n)) ((isb "integer" (get t "type") || isb "number" (get t "type")) && match get t n with JInt _ => true | _ => false end).
Lemma good_boundb_ok n t : good_boundb n t = true -> good_bound n t.
Proof.
  intros H T. apply (implb'_ok _ _ H) in T. apply andb_true_iff in T as [T1 T2]. split; [apply orb_true_iff in T1 as [T1|T1]; apply isb_ok in T1; auto|]. destruct (get t n); try discriminate. eexists. constructor.
Qed.
Definition good_datatypeb (t : json) : bool := good_refsb t && good_boundb "minimum" t && good_boundb "maximum" t && (nullb (get t "items") || good_refsb (get t "items")).
Lemma good_datatypeb_ok t : good_datatypeb t = true -> good_datatype t.
Proof.
  unfold good_datatypeb. rewrite !andb_true_iff, orb_true_iff. intros [[[A B] C] D]. split; [now apply good_refsb_ok|]. split; [now apply good_boundb_ok|]. split; [now apply good_boundb_ok|].
  destruct D as [D|D]; [left; now apply nullb_ok|right; now apply good_refsb_ok].
Qed.
Definition good_plainb (t : json) : bool := dictb t && negb (truthy (get t "$ref")) && is_primitive_name (get t "type").
Lemma good_plainb_ok t : good_plainb t = true -> good_plain t.
Proof. unfold good_plainb. rewrite !andb_true_iff, negb_true_iff. intros [[A B] C]. split; [now apply dictb_ok|auto]. Qed.
Definition good_parameterb (p : json) : bool :=
  dictb p && givenb p "paramType" &&
  if match get p "paramType" with JStr "body" => true | _ => false end then good_datatypeb p
  else negb (truthy (get p "$ref")) &&
    if match get p "allowMultiple" with JBool true => true | _ => false end && is_null (get p "items") then is_primitive_name (get p "type")
    else textb (get p "type") && good_boundb "minimum" p && good_boundb "maximum" p && (nullb (get p "items") || good_plainb (get p "items")).
Lemma good_parameterb_ok p : good_parameterb p = true -> good_parameter p.
Proof.
  unfold good_parameterb. rewrite !andb_true_iff. intros [[A B] C]. split; [now apply dictb_ok|]. split; [now apply givenb_ok|].
  destruct (match get p "paramType" with JStr "body" => true | _ => false end); [now apply good_datatypeb_ok|]. apply andb_true_iff in C as [C1 C]. apply negb_true_iff in C1. split; [exact C1|].
  destruct (_ && _); [exact C|]. rewrite !andb_true_iff, orb_true_iff in C. destruct C as [[[C2 C3] C4] C5]. split; [now apply textb_ok|]. split; [now apply good_boundb_ok|]. split; [now apply good_boundb_ok|].
  destruct C5 as [D|D]; [left; now apply nullb_ok|right; now apply good_plainb_ok].
Qed.
Definition texts_or_noneb (j : json) : bool := implb' (truthy j) match j with JList l => forallb textb l | _ => false end.
Lemma texts_or_noneb_ok j : texts_or_noneb j = true -> texts_or_none j.
Proof. intros H T. apply (implb'_ok _ _ H) in T. destruct j; try discriminate. eexists. split; [reflexivity|]. exact (forallb_Forall _ _ _ textb_ok T). Qed.
Definition good_requirementsb (j : json) : bool := implb' (truthy j) (forallb (fun nl => forallb (fun e => dictb e && textb (get e "scope")) (elements (snd nl))) (fields j)).
Lemma good_requirementsb_ok j : good_requirementsb j = true -> good_requirements j.
Proof.
  intros H T. apply (implb'_ok _ _ H) in T. revert T. apply forallb_Forall. intros nl. apply forallb_Forall. intros e E. apply andb_true_iff in E as [E1 E2]. split; [now apply dictb_ok|now apply textb_ok].
Qed.
Definition good_operationb (op : json) : bool :=
  dictb op && match get op "method" with JStr m => existsb (String.eqb (lower m)) verbs | _ => false end &&
  match get op "parameters" with JList ps => forallb good_parameterb ps | _ => false end &&
  texts_or_noneb (get op "consumes") && texts_or_noneb (get op "produces") && good_requirementsb (get op "authorizations") &&
  (isb "void" (get op "type") || good_datatypeb op).
Lemma good_operationb_ok op : good_operationb op = true -> good_operation op.
Proof.
  unfold good_operationb. rewrite !andb_true_iff, orb_true_iff. intros [[[[[[A B] C] D] E] F] G]. split; [now apply dictb_ok|].
  split. { destruct (get op "method") as [| | | |m| |]; try discriminate B. exists m. split; [reflexivity|]. apply existsb_exists in B as (x & Ix & Ex). apply String.eqb_eq in Ex. now rewrite Ex. }
  split. { destruct (get op "parameters") as [| | | | |ps|]; try discriminate C. exists ps. split; [reflexivity|]. exact (forallb_Forall _ _ _ good_parameterb_ok C). }
  split; [now apply texts_or_noneb_ok|]. split; [now apply texts_or_noneb_ok|]. split; [now apply good_requirementsb_ok|]. destruct G as [G|G]; [left; now apply isb_ok|right; now apply good_datatypeb_ok].
Qed.
Definition good_apib (api : json) : bool := dictb api && textb (get api "path") && match get api "operations" with JList ops => forallb good_operationb ops | _ => false end.
Lemma good_apib_ok api : good_apib api = true -> good_api api.
Proof.
  unfold good_apib. rewrite !andb_true_iff. intros [[A B] C]. split; [now apply dictb_ok|]. split; [now apply textb_ok|]. destruct (get api "operations") as [| | | | |l|]; try discriminate C. exists l. split; [reflexivity|]. exact (forallb_Forall _ _ _ good_operationb_ok C).
Qed.
Definition good_modelb (m : json) : bool :=
  dictb m && textb (get m "id") && match get m "properties" with JDict ps => forallb (fun np => good_datatypeb (snd np)) ps | _ => false end && texts_or_noneb (get m "subTypes").
Lemma good_modelb_ok m : good_modelb m = true -> good_model m.
Proof.
  unfold good_modelb. rewrite !andb_true_iff. intros [[[A B] C] D]. split; [now apply dictb_ok|]. split; [now apply textb_ok|]. split; [|now apply texts_or_noneb_ok].
  destruct (get m "properties") as [| | | | | |l]; try discriminate C. exists l. split; [reflexivity|]. revert C. apply forallb_Forall. intros x. apply good_datatypeb_ok.
Qed.
Definition good_declarationb (d : json) : bool :=
  dictb d && textb (get d "resourcePath") && textb (get d "basePath") && texts_or_noneb (get d "consumes") && texts_or_noneb (get d "produces") && good_requirementsb (get d "authorizations") &&
  match get d "apis" with JList l => forallb good_apib l | _ => false end && match get d "models" with JDict l => forallb (fun nm => good_modelb (snd nm)) l | _ => false end.
Lemma good_declarationb_ok d : good_declarationb d = true -> good_declaration d.
Proof.
  unfold good_declarationb. rewrite !andb_true_iff. intros [[[[[[[A B] C] D] E] F] G] H]. split; [now apply dictb_ok|]. split; [now apply textb_ok|]. split; [now apply textb_ok|]. split; [now apply texts_or_noneb_ok|]. split; [now apply texts_or_noneb_ok|]. split; [now apply good_requirementsb_ok|].
  split; [destruct (get d "apis") as [| | | | |l|]; try discriminate G|destruct (get d "models") as [| | | | | |l]; try discriminate H]; exists l; (split; [reflexivity|]).
  - exact (forallb_Forall _ _ _ good_apib_ok G).
  - revert H. apply forallb_Forall. intros x. apply good_modelb_ok.
Qed.
Definition good_endpointb (e : json) : bool := nullb e || dictb e && givenb e "url".
Lemma good_endpointb_ok e : good_endpointb e = true -> good_endpoint e.
Proof. unfold good_endpointb. rewrite orb_true_iff, andb_true_iff. intros [A|[A B]]; [left; now apply nullb_ok|right; split; [now apply dictb_ok|now apply givenb_ok]]. Qed.
Definition good_authorizationb (a : json) : bool :=
  dictb a && forallb (fun e => dictb e && textb (get e "scope") && textb (get e "description")) (elements (get a "scopes")) &&
  good_endpointb (first_of a ["grantTypes"; "implicit"; "loginEndpoint"]) && good_endpointb (first_of a ["grantTypes"; "authorization_code"; "tokenEndpoint"]).
Lemma good_authorizationb_ok a : good_authorizationb a = true -> good_authorization a.
Proof.
  unfold good_authorizationb. rewrite !andb_true_iff. intros [[[A B] C] D]. split; [now apply dictb_ok|]. split; [|split; now apply good_endpointb_ok].
  revert B. apply forallb_Forall. intros e. rewrite !andb_true_iff. intros [[X Y] Z]. split; [now apply dictb_ok|]. split; now apply textb_ok.
Qed.
Definition good12b (ld : json) (ds : list (string * json)) : bool :=
  dictb ld && dictb (get ld "info") && givenb (get ld "info") "title" && givenb (get ld "info") "description" && forallb (fun na => good_authorizationb (snd na)) (fields (get ld "authorizations")) &&
  forallb (fun d => good_declarationb (snd d)) ds.
Lemma good12b_ok ld ds : good12b ld ds = true -> good12 ld ds.
Proof.
  unfold good12b. rewrite !andb_true_iff. intros [[[[[A B] C] D] E] F]. split; [split; [now apply dictb_ok|split; [now apply dictb_ok|split; [now apply givenb_ok|split; [now apply givenb_ok|]]]]|].
  - revert E. apply forallb_Forall. intros x. apply good_authorizationb_ok.
  - revert F. apply forallb_Forall. intros x. apply good_declarationb_ok.
Qed.

(** ** closed12 *)
Fixpoint no_escapeb (s : string) : bool := match s with EmptyString => true | String c r => negb (Ascii.eqb c "~") && negb (Ascii.eqb c "/") && no_escapeb r end.
Lemma no_escapeb_ok s : no_escapeb s = true -> no_escape s.
Proof. induction s as [|c s IH]; [exact (fun _ => Logic.I)|]. cbn [no_escapeb no_escape]. rewrite !andb_true_iff, !negb_true_iff. intros [[A B] C]. apply Ascii.eqb_neq in A, B. auto. Qed.
Definition str_inb (s : string) (l : list string) : bool := existsb (String.eqb s) l.
Lemma str_inb_ok s l : str_inb s l = true -> In s l. Proof. unfold str_inb. rewrite existsb_exists. intros (x & I & E). apply String.eqb_eq in E. now subst. Qed.
Lemma str_inb_no s l : str_inb s l = false -> ~ In s l.
Proof. intros E I. unfold str_inb in E. assert (existsb (String.eqb s) l = true) by (apply existsb_exists; exists s; split; [exact I|apply String.eqb_refl]). congruence. Qed.
Definition names_definitionb (sep : string) (ds : list (string * json)) (decl : json) (n : string) : bool := str_inb (scoped sep (resource decl) n) (definition_names sep ds) && no_escapeb (scoped sep (resource decl) n).
Lemma names_definitionb_ok sep ds decl n : names_definitionb sep ds decl n = true -> names_definition sep ds decl n.
Proof. unfold names_definitionb. rewrite andb_true_iff. intros [A B]. split; [now apply str_inb_ok|now apply no_escapeb_ok]. Qed.
Definition closed_typeb (sep : string) (ds : list (string * json)) (decl t : json) : bool :=
  match get t "type" with JStr n => String.eqb n "" || str_inb n primitive_names || names_definitionb sep ds decl n | _ => true end &&
  match get t "$ref" with JStr n => String.eqb n "" || names_definitionb sep ds decl n | _ => true end.
Lemma closed_typeb_ok sep ds decl t : closed_typeb sep ds decl t = true -> closed_type sep ds decl t.
Proof.
  unfold closed_typeb. rewrite andb_true_iff. intros [A B]. split; intros n E; rewrite E in *; rewrite !orb_true_iff in *.
  - destruct A as [[A|A]|A]; [left; now apply String.eqb_eq|right; left; now apply str_inb_ok|right; right; now apply names_definitionb_ok].
  - destruct B as [B|B]; [left; now apply String.eqb_eq|right; now apply names_definitionb_ok].
Qed.
Definition closed_datatypeb (sep : string) (ds : list (string * json)) (decl t : json) : bool := closed_typeb sep ds decl t && (nullb (get t "items") || closed_typeb sep ds decl (get t "items")).
Lemma closed_datatypeb_ok sep ds decl t : closed_datatypeb sep ds decl t = true -> closed_datatype sep ds decl t.
Proof. unfold closed_datatypeb. rewrite andb_true_iff, orb_true_iff. intros [A [B|B]]; (split; [now apply closed_typeb_ok|]); [left; now apply nullb_ok|right; now apply closed_typeb_ok]. Qed.
Definition closed12b (sep : string) (ds : list (string * json)) : bool :=
  forallb (fun s => (isb "void" (get (at_op s) "type") || closed_datatypeb sep ds (at_decl s) (at_op s)) &&
                    forallb (fun p => implb' (isb "body" (get p "paramType")) (closed_datatypeb sep ds (at_decl s) p)) (elements (get (at_op s) "parameters"))) (all_sites ds) &&
  forallb (fun dm => forallb (fun kp => closed_datatypeb sep ds (fst dm) (snd kp)) (fields (get (snd dm) "properties")) &&
                     implb' (match names_in (get (snd dm) "subTypes") with [] => false | _ => true end) (no_escapeb (model_name sep dm))) (all_models ds).
Lemma closed12b_ok sep ds : closed12b sep ds = true -> closed12 sep ds.
Proof.
  unfold closed12b. rewrite andb_true_iff, !forallb_forall. intros [A B]. split.
  - intros s Is. specialize (A s Is). rewrite andb_true_iff, orb_true_iff, forallb_forall in A. destruct A as [A1 A2]. split; [destruct A1 as [A1|A1]; [left; now apply isb_ok|right; now apply closed_datatypeb_ok]|].
    intros p Ip E. apply closed_datatypeb_ok. apply (implb'_ok _ _ (A2 p Ip)). rewrite E. reflexivity.
  - intros dm Im. specialize (B dm Im). rewrite andb_true_iff, forallb_forall in B. destruct B as [B1 B2]. split; [intros k p I; apply closed_datatypeb_ok; exact (B1 (k, p) I)|].
    intros N. apply no_escapeb_ok. apply (implb'_ok _ _ B2). destruct (names_in (get (snd dm) "subTypes")); [congruence|reflexivity].
Qed.

(** ** tidy12 *)
Fixpoint no_refsb (fuel : nat) (j : json) : bool :=
  match fuel with
  | O => false
  | S f => match j with
           | JDict x => negb (mem "$ref" x) && forallb (fun kv => no_refsb f (snd kv)) x
           | JList l => forallb (no_refsb f) l
           | _ => true
           end
  end.
Lemma no_refsb_ok f : forall j, no_refsb f j = true -> no_refs j.
Proof.
  induction f as [|f IH]; [discriminate|]. intros j H x I. inversion I as [j' E1 E2|d k v y Iv Iy E1 E2|l v y Iv Iy E1 E2]; subst; cbn [no_refsb] in H.
  - apply andb_true_iff in H as [H _]. unfold mem in H. destruct (lookup "$ref" x); [discriminate|reflexivity].
  - apply andb_true_iff in H as [_ H]. rewrite forallb_forall in H. exact (IH v (H (k, v) Iv) x Iy).
  - rewrite forallb_forall in H. exact (IH v (H v Iv) x Iy).
Qed.
Definition plain_fieldsb (c : string) (x : list (string * json)) : bool :=
  match lookup c v12_table with Some cd => forallb (fun f => match lookup (f_name f) x with Some v => no_refsb 20 v | None => true end) (c_fields cd) | None => true end.
Lemma plain_fieldsb_ok c x : plain_fieldsb c x = true -> plain_fields c x.
Proof. unfold plain_fieldsb. intros H cd f v Lc If Lv. rewrite Lc, forallb_forall in H. specialize (H f If). rewrite Lv in H. exact (no_refsb_ok _ _ H). Qed.
Definition writtenb (ld : json) (ds : list (string * json)) : bool :=
  typed_check 20 v12_table (fun _ _ => true) (BCls "ResourceListing") ld && forallb (fun nd => typed_check 20 v12_table (fun _ _ => true) (BCls "ApiDeclaration") (snd nd)) ds.
Lemma writtenb_ok ld ds : writtenb ld ds = true -> written ld ds.
Proof.
  unfold writtenb. rewrite andb_true_iff. intros [A B]. assert (P : forall (c : string) (d : list (string * json)), true = true -> True) by auto. split.
  - exact (typed_check_ok v12_table (fun _ _ => True) (fun _ _ => true) P _ _ _ A).
  - revert B. apply forallb_Forall. intros x. exact (typed_check_ok v12_table (fun _ _ => True) (fun _ _ => true) P _ _ _).
Qed.
Definition tidy12b (sep : string) (ld : json) (ds : list (string * json)) : bool :=
  typed_check 20 v12_table plain_fieldsb (BCls "ResourceListing") ld && forallb (fun nd => typed_check 20 v12_table plain_fieldsb (BCls "ApiDeclaration") (snd nd)) ds &&
  negb (str_inb "$ref" (definition_names sep ds)) && forallb (fun dm => negb (givenb (get (snd dm) "properties") "$ref")) (all_models ds) &&
  forallb (fun na => negb (String.eqb (fst na) "$ref") && forallb (fun e => negb (isb "$ref" (get e "scope"))) (elements (get (snd na) "scopes"))) (fields (get ld "authorizations")) &&
  forallb (fun s => negb (givenb (inherited s "authorizations") "$ref")) (all_sites ds).
Lemma tidy12b_ok sep ld ds : tidy12b sep ld ds = true -> tidy12 sep ld ds.
Proof.
  unfold tidy12b. rewrite !andb_true_iff. intros [[[[[A B] C] D] E] F]. rewrite negb_true_iff in C. rewrite !forallb_forall in D, E, F.
  split; [exact (typed_check_ok _ _ _ plain_fieldsb_ok _ _ _ A)|]. split; [revert B; apply forallb_Forall; intros x; exact (typed_check_ok _ _ _ plain_fieldsb_ok _ _ _)|]. split; [now apply str_inb_no|].
  split; [intros dm I; specialize (D dm I); apply negb_true_iff in D; now apply givenb_no|]. split.
  - intros n a I. specialize (E (n, a) I). cbn [fst snd] in E. apply andb_true_iff in E as [E1 E2]. split; [intros ->; discriminate E1|]. rewrite forallb_forall in E2. intros e Ie Q. specialize (E2 e Ie). rewrite Q in E2. discriminate E2.
  - intros s I. specialize (F s I). apply negb_true_iff in F. now apply givenb_no.
Qed.

(** ** expressible12 *)
Definition parameter_okb (p : json) : bool :=
  match get p "required" with JNull | JBool _ => true | _ => false end && implb' (isb "formData" (place (get p "paramType"))) (textb (get p "name")) &&
  (isb "body" (get p "paramType") || match get p "type" with JStr t => implb' (String.eqb (lower t) "file") (isb "formData" (place (get p "paramType"))) | _ => true end).
Lemma parameter_okb_ok p : parameter_okb p = true -> parameter_ok p.
Proof.
  unfold parameter_okb. rewrite !andb_true_iff, orb_true_iff. intros [[A B] C]. split; [destruct (get p "required"); try discriminate A; eauto|]. split.
  - intros E. rewrite E in B. apply textb_ok. exact (implb'_ok _ _ B eq_refl).
  - intros N t Et L. destruct C as [C|C]; [apply isb_ok in C; contradiction|]. rewrite Et, L in C. apply isb_ok. exact (implb'_ok _ _ C eq_refl).
Qed.
Definition request_okb (op : json) : bool :=
  let ms := filter in_body (elements (get op "parameters")) in
  Nat.leb (length ms) 1 || forallb in_form ms && nodupb (map (fun p => text (get p "name")) ms).
Lemma request_okb_ok op : request_okb op = true -> request_ok op.
Proof.
  unfold request_okb, request_ok. cbv zeta. rewrite orb_true_iff, andb_true_iff. intros [A|[A B]]; [left; now apply Nat.leb_le|right]. split; [exact (forallb_Forall _ _ _ (fun x H => H) A)|now apply nodupb_ok].
Qed.
Definition authorization_okb (a : json) : bool :=
  let login := first_of a ["grantTypes"; "implicit"; "loginEndpoint"; "url"] in
  let token := first_of a ["grantTypes"; "authorization_code"; "tokenEndpoint"; "url"] in
  implb' (isb "oauth2" (get a "type")) ((truthy login || truthy token) && implb' (truthy login) match elements (get a "scopes") with [] => false | _ => true end).
Lemma authorization_okb_ok a : authorization_okb a = true -> authorization_ok a.
Proof.
  unfold authorization_okb. cbv zeta. intros H E. rewrite E in H. pose proof (implb'_ok _ _ H eq_refl) as H0. apply andb_true_iff in H0 as [H1 H2]. apply orb_true_iff in H1. cbv zeta. split; [exact H1|].
  intros T Q. apply (implb'_ok _ _ H2) in T. rewrite Q in T. discriminate T.
Qed.
Definition expressible12b (ld : json) (ds : list (string * json)) : bool :=
  forallb (fun s => request_okb (at_op s) && forallb parameter_okb (elements (get (at_op s) "parameters"))) (all_sites ds) && forallb (fun na => authorization_okb (snd na)) (fields (get ld "authorizations")).
Lemma expressible12b_ok ld ds : expressible12b ld ds = true -> expressible12 ld ds.
Proof.
  unfold expressible12b. rewrite andb_true_iff, !forallb_forall. intros [A B]. split.
  - intros s I. specialize (A s I). apply andb_true_iff in A as [A1 A2]. split; [now apply request_okb_ok|exact (forallb_Forall _ _ _ parameter_okb_ok A2)].
  - intros n a I. apply authorization_okb_ok. exact (B (n, a) I).
Qed.
(** ** paths_ok, when the common prefix, the host and so on are known *)
Lemma paths_okb_ok ds c c' host pre : common_prefix (map full_path (all_sites ds)) c -> trimmed c c' -> site_prefix c' host pre ->
  forallb (fun s => let p := sdrop (String.length pre) (full_path s) in negb (String.eqb p "$ref") && negb (startswith "x-" p)) (all_sites ds) = true -> paths_ok ds.
Proof.
  intros A B C D. exists c, c', host, pre. split; [exact A|]. split; [exact B|]. split; [exact C|]. intros s p I E. rewrite forallb_forall in D. specialize (D s I). cbv zeta in D. rewrite E in D.
  assert (SD : sdrop (String.length pre) (pre ++ p) = p) by (clear; induction pre as [|ch pre IH]; [reflexivity|exact IH]). rewrite SD in D. apply andb_true_iff in D as [D1 D2]. apply negb_true_iff in D1, D2. apply String.eqb_neq in D1. auto.
Qed.
