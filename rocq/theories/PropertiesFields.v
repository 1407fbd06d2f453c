(** * C77: the fixed fields of the specifications are read back. *)
From Coq Require Import String Ascii List Bool Arith ZArith.
From Verif Require Import PyStr PyVal Obj SpecFields FieldsFacts Classes_v1_2 Classes_v2_0 Classes_v3_0_0 SpecTables.
Import ListNotations.
Open Scope string_scope. Open Scope nat_scope.

(** ** C77 *)

(** an object of any kind whose document follows the specification is built, and every fixed field of the specification,
    at every depth, reads back what the document says *)
Theorem C77_reads S U T n j p : version_of S U T -> follows S U (Object_ n) j ->
  exists o, construct T j (BCls n) p [] = Ok o /\ reads S U T (Object_ n) j o.
Proof. exact (version_reads S U T n j p). Qed.

(** the fields of a 3.0.0 object can also be read by their Python names *)
Theorem C77_names n fs k t r p j kids : In (n, fs) openapi30 -> In (k, (t, r)) fs -> ~ In (n, k) unnamed30 -> ~ In (n, k) exceptions30 ->
  getattr v30_table (OObj n p j kids) (python_name k) = getattr v30_table (OObj n p j kids) k.
Proof. intros A B C D. exact (named n fs k t r _ p j kids A B C D eq_refl). Qed.

(** ** A boolean test of [follows] for concrete documents *)
Definition is_null (j : json) : bool := match j with JNull => true | _ => false end.
Fixpoint follows_check (S : standard) (U : exceptions) (fuel : nat) (t : ftype) (j : json) : bool :=
  match fuel with
  | 0 => false
  | Datatypes.S fuel =>
      match t, j with
      | Any, _ => true
      | Text, JStr _ => true
      | ListOf t, JList l => forallb (follows_check S U fuel t) l
      | MapOf t, JDict d => forallb (fun kv => follows_check S U fuel t (snd kv)) d
      | Object_ n, JDict d =>
          match lookup n S with
          | Some fs =>
              forallb (fun e => match snd (snd e) with Required => mem (fst e) d | Optional _ => true end &&
                                match lookup (fst e) d with Some v => is_null v || follows_check S U fuel (fst (snd e)) v | None => true end) fs
              && forallb (fun u => negb (String.eqb (fst u) n) || negb (mem (snd u) d)) U
          | None => false
          end
      | OrRef t, JDict d => mem "$ref" d || follows_check S U fuel t j
      | OrBool t, JBool _ => true
      | OrBool t, _ => follows_check S U fuel t j
      | _, _ => false
      end
  end.
Lemma follows_check_ok S U fuel : forall t j, follows_check S U fuel t j = true -> follows S U t j.
Proof.
  induction fuel as [|fuel IH]; intros t j; cbn [follows_check]; [discriminate|]. destruct t as [| |n|t|t|t|t]; intros H.
  - constructor.
  - destruct j; try discriminate H. constructor.
  - destruct j as [| | | | | |d]; try discriminate H. destruct (lookup n S) as [fs|] eqn:L; [|discriminate H].
    apply andb_true_iff in H as [H1 H2]. rewrite forallb_forall in H1, H2. apply fo_object with fs; [now apply lookup_In_fst| | |].
    + intros k t Hk. specialize (H1 _ Hk). cbn [fst snd] in H1. now apply andb_true_iff in H1.
    + intros k t r v Hk Hv V. specialize (H1 _ Hk). cbn [fst snd] in H1. apply andb_true_iff in H1 as [_ H1]. rewrite Hv in H1.
      apply orb_true_iff in H1 as [H1|H1]; [|now apply IH]. destruct v; try discriminate H1. now destruct V.
    + intros k Hk. specialize (H2 _ Hk). cbn [fst snd] in H2. rewrite String.eqb_refl in H2. now apply negb_true_iff in H2.
  - destruct j; try discriminate H. rewrite forallb_forall in H. constructor. intros x Hx. now apply IH, H.
  - destruct j; try discriminate H. rewrite forallb_forall in H. constructor. intros k x Hx. apply IH. exact (H (k, x) Hx).
  - destruct j as [| | | | | |d]; try discriminate H. destruct (mem "$ref" d) eqn:M; [now apply fo_ref|]. apply fo_no_ref; [exact M|now apply IH].
  - destruct j; try (apply fo_no_bool; [discriminate|now apply IH]). constructor.
Qed.

(** ** Documents that meet the hypotheses *)

Definition text_schema : json := JDict [("type", JStr "string"); ("maxLength", JInt 3%Z)].
Definition doc20 : json := JDict
  [("swagger", JStr "2.0"); ("x-any", JList []);
   ("info", JDict [("title", JStr "t"); ("version", JStr "1"); ("license", JDict [("name", JStr "MIT")])]);
   ("host", JStr "h"); ("schemes", JList [JStr "http"]);
   ("paths", JDict [("/a", JDict
     [("parameters", JList [JDict [("$ref", JStr "#/parameters/P")]]);
      ("get", JDict [("tags", JList [JStr "a"]); ("security", JList [JDict [("k", JList [])]]); ("deprecated", JNull);
        ("parameters", JList [JDict [("name", JStr "q"); ("in", JStr "query"); ("type", JStr "array"); ("items", text_schema)]]);
        ("responses", JDict [("200", JDict [("description", JStr "ok"); ("schema", JDict [("$ref", JStr "#/definitions/S")]);
                                            ("headers", JDict [("H", text_schema)])]);
                             ("404", JDict [("$ref", JStr "#/responses/N")])])])])]);
   ("definitions", JDict [("S", JDict [("type", JStr "object"); ("required", JList [JStr "a"]); ("properties", JDict [("a", text_schema)]);
                                       ("additionalProperties", JBool false); ("allOf", JList [JDict [("additionalProperties", text_schema)]])])]);
   ("parameters", JDict [("P", JDict [("name", JStr "b"); ("in", JStr "body"); ("schema", text_schema)])]);
   ("responses", JDict [("N", JDict [("description", JStr "no")])]);
   ("securityDefinitions", JDict [("k", JDict [("type", JStr "oauth2"); ("flow", JStr "implicit"); ("scopes", JDict [("s", JStr "d")])])]);
   ("tags", JList [JDict [("name", JStr "a"); ("externalDocs", JDict [("url", JStr "u")])]])].
Example doc20_follows : follows swagger20 exceptions20 (Object_ "Swagger") doc20.
Proof. apply (follows_check_ok _ _ 40). vm_compute. reflexivity. Qed.
(** one path down to the default of [collectionFormat] *)
Example doc20_read :
  (o <- construct v20_table doc20 (BCls "Swagger") (Some "#") [] ;; x <- resolve v20_table o ["paths"; "/a"; "get"; "parameters"; "0"] ;;
   a <- getattr v20_table x "name" ;; b <- getattr v20_table x "collectionFormat" ;; i <- getattr v20_table x "items" ;;
   c <- getattr v20_table i "maxLength" ;; d <- getattr v20_table i "default" ;; Ok [a; b; c; d])
  = Ok [OPrim (JStr "q"); OPrim (JStr "csv"); OPrim (JInt 3%Z); OPrim JNull].
Proof. vm_compute. reflexivity. Qed.

Definition doc30 : json := JDict
  [("openapi", JStr "3.0.0"); ("info", JDict [("title", JStr "t"); ("version", JStr "1")]);
   ("servers", JList [JDict [("url", JStr "u"); ("variables", JDict [("v", JDict [("default", JStr "x"); ("enum", JList [JStr "x"])])])]]);
   ("paths", JDict [("/a", JDict
     [("summary", JStr "s"); ("trace", JDict
       [("requestBody", JDict [("content", JDict [("a/b", JDict [("schema", text_schema); ("encoding", JDict [("e", JDict [("contentType", JStr "c")])])])])]);
        ("callbacks", JDict [("c", JDict [("{$u}", JDict [("summary", JStr "cb")])]); ("d", JDict [("$ref", JStr "#/components/callbacks/d")])]);
        ("responses", JDict [("200", JDict [("description", JStr "ok"); ("headers", JDict [("H", JDict [("schema", text_schema); ("content", JDict [("a/b", JDict [])])])]);
                                            ("links", JDict [("l", JDict [("operationId", JStr "o"); ("server", JDict [("url", JStr "u")])])])])])])])]);
   ("components", JDict
     [("schemas", JDict [("S", JDict [("not", JDict [("$ref", JStr "#/components/schemas/T")]); ("discriminator", JDict [("propertyName", JStr "p"); ("mapping", JDict [("m", JStr "x")])]);
                                      ("additionalProperties", text_schema); ("nullable", JBool true)])]);
      ("securitySchemes", JDict [("k", JDict [("type", JStr "oauth2"); ("flows", JDict [("password", JDict [("tokenUrl", JStr "t"); ("scopes", JDict [("s", JStr "d")])])])])])])].
Example doc30_follows : follows openapi30 exceptions30 (Object_ "OpenApi") doc30.
Proof. apply (follows_check_ok _ _ 40). vm_compute. reflexivity. Qed.

Definition doc12 : json := JDict
  [("swaggerVersion", JStr "1.2"); ("basePath", JStr "http://h/b"); ("resourcePath", JStr "/r"); ("produces", JList [JStr "a/b"]);
   ("apis", JList [JDict [("path", JStr "/r"); ("operations", JList [JDict
      [("method", JStr "GET"); ("nickname", JStr "n"); ("type", JStr "array"); ("items", JDict [("$ref", JStr "M")]);
       ("authorizations", JDict [("oauth2", JList [JDict [("scope", JStr "s")]])]);
       ("parameters", JList [JDict [("paramType", JStr "query"); ("name", JStr "q"); ("type", JStr "string")]]);
       ("responseMessages", JList [JDict [("code", JInt 404%Z); ("message", JStr "no")]])]])]]);
   ("models", JDict [("M", JDict [("id", JStr "M"); ("properties", JDict [("a", JDict [("type", JStr "string")])])])])].
Example doc12_follows : follows swagger12 exceptions12 (Object_ "ApiDeclaration") doc12.
Proof. apply (follows_check_ok _ _ 40). vm_compute. reflexivity. Qed.

Example names_case : python_name "termsOfService" = "terms_of_service" /\ python_name "in" = "in_" /\ python_name "$ref" = "ref" /\
  (exists fs t r, In ("PathItem", fs) openapi30 /\ In ("$ref", (t, r)) fs).
Proof. split; [reflexivity|]. split; [reflexivity|]. split; [reflexivity|]. unfold openapi30. do 3 eexists. split; [do 7 right; now left|now left]. Qed.

(** ** The exceptions are real: documents that follow the specification, fields included, and are not read back *)

(** [security] of a Swagger 2.0 document: the document is not built at all *)
Definition secured : json := JDict
  [("swagger", JStr "2.0"); ("info", JDict [("title", JStr "t"); ("version", JStr "1")]); ("paths", JDict []); ("security", JList [JDict [("k", JList [])]])].
Theorem C77_security_refuted : follows swagger20 [] (Object_ "Swagger") secured /\
  forall p, construct v20_table secured (BCls "Swagger") p [] = Err PyException.
Proof. split; [apply (follows_check_ok _ _ 40); vm_compute; reflexivity|]. intros p. reflexivity. Qed.

(** [deprecated] of a 3.0.0 schema, [style] of an encoding: AttributeError *)
Theorem C77_deprecated_refuted :
  follows openapi30 [] (Object_ "Schema") (JDict [("deprecated", JBool true)]) /\
  (forall p, exists o, construct v30_table (JDict [("deprecated", JBool true)]) (BCls "Schema") p [] = Ok o /\ getattr v30_table o "deprecated" = Err AttributeError) /\
  follows openapi30 [] (Object_ "Encoding") (JDict [("style", JStr "form")]) /\
  (forall p, exists o, construct v30_table (JDict [("style", JStr "form")]) (BCls "Encoding") p [] = Ok o /\ getattr v30_table o "style" = Err AttributeError).
Proof.
  split; [apply (follows_check_ok _ _ 40); vm_compute; reflexivity|]. split; [intros p; eexists; split; reflexivity|].
  split; [apply (follows_check_ok _ _ 40); vm_compute; reflexivity|]. intros p; eexists; split; reflexivity.
Qed.

(** [examples] of a media type is one Example object: the examples themselves are out of reach *)
Definition with_examples : json := JDict [("examples", JDict [("e", JDict [("summary", JStr "s")])])].
Theorem C77_examples_refuted : follows openapi30 [] (Object_ "MediaType") with_examples /\
  forall p, exists o x, construct v30_table with_examples (BCls "MediaType") p [] = Ok o /\ getattr v30_table o "examples" = Ok x /\
    getattr v30_table x "e" = Err AttributeError /\ getattr v30_table x "summary" = Ok (OPrim JNull).
Proof. split; [apply (follows_check_ok _ _ 40); vm_compute; reflexivity|]. intros p. do 2 eexists. repeat split. Qed.

(** a constant as parameter of a link: the document is not built *)
Definition with_constant : json := JDict [("parameters", JDict [("p", JInt 1%Z)])].
Theorem C77_link_refuted : follows openapi30 [] (Object_ "Link") with_constant /\
  forall p, construct v30_table with_constant (BCls "Link") p [] = Err PyException.
Proof. split; [apply (follows_check_ok _ _ 40); vm_compute; reflexivity|]. intros p. reflexivity. Qed.

(** the specification allows "x-..." fields next to the paths; the library takes them for path items *)
Theorem C77_vendor_refuted : forall p,
  construct v20_table (JDict [("paths", JDict [("x-order", JInt 1%Z)])]) (BCls "Swagger") p [] = Err TypeError /\
  construct v30_table (JDict [("paths", JDict [("x-order", JInt 1%Z)])]) (BCls "OpenApi") p [] = Err TypeError.
Proof. intros p. split; reflexivity. Qed.

(** the two names that do not work *)
Theorem C77_names_refuted : forall p kids j,
  getattr v30_table (OObj "OAuthFlows" p j kids) "client_credentials" = Err AttributeError /\
  getattr v30_table (OObj "SecurityScheme" p j kids) "open_id_connect_url" = Err AttributeError.
Proof. intros p kids j. split; reflexivity. Qed.

Print Assumptions C77_reads.
Print Assumptions C77_names.
Print Assumptions C77_security_refuted.
