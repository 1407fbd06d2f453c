(** * Specification: documents, the objects loaded from them, and what references lead to.

    [deref] stands for following the resolved references of an object (C06). *)
From Coq Require Import String List Bool Arith.
From Verif Require Import PyStr PyVal Obj Classes_v2_0 SpecJson SpecSchema SpecConv SpecBody SpecOp SpecDoc.
Import ListNotations.
Open Scope string_scope. Open Scope nat_scope.

(** [o] is loaded from the Swagger 2.0 document [j] by the builder [b], at some path *)
Definition loaded (b : builder) (j : json) (o : obj) : Prop := exists path, construct v20_table j b path [] = Ok o.

(** the object [o] is loaded from [p] and refers to the parameter (response) [q]; if [p] is no reference, [q] is [p] *)
Definition param_given (deref : obj -> res obj) (p q : doc) (o : obj) : Prop :=
  exists r, deref o = Ok r /\ loaded (BCls "Parameter") (JDict q) r /\ ref_ok p /\
    if is_reference p then loaded (BCls "Reference") (JDict p) o else q = p /\ r = o.
Definition response_given (deref : obj -> res obj) (p q : doc) (o : obj) : Prop :=
  exists r, deref o = Ok r /\ loaded (BCls "Response") (JDict q) r /\ ref_ok p /\
    if is_reference p then loaded (BCls "Reference") (JDict p) o else q = p /\ r = o.
(** the same for every object loaded from [p] *)
Definition refers (deref : obj -> res obj) (cls : string) (p q : doc) : Prop :=
  ref_ok p /\ forall o, loaded (BRefElse "Reference" (BCls cls)) (JDict p) o ->
    exists r, deref o = Ok r /\ loaded (BCls cls) (JDict q) r /\ (is_reference p = false -> q = p /\ r = o).

(** lists of parameters *)
Definition all_given (deref : obj -> res obj) (ps : list (doc * doc)) (os : list obj) : Prop :=
  Forall2 (fun pq o => param_given deref (fst pq) (snd pq) o /\ param_doc (snd pq)) ps os.
Definition form_given (deref : obj -> res obj) (ps : list (doc * doc)) (os : list obj) : Prop :=
  Forall2 (fun pq o => param_given deref (fst pq) (snd pq) o /\ form_param (snd pq)) ps os.
(** the schema [s], after following references, has type "file" or not *)
Definition schema_resolves (deref : obj -> res obj) (s : json) (file : bool) : Prop :=
  forall so, loaded (BCls "Schema") s so -> exists sr sd, deref so = Ok sr /\ loaded (BCls "Schema") (JDict sd) sr /\ is_text "file" (val sd "type") = file.
(** a well-formed parameter: kept, form, or body with a schema that is not a file *)
Definition usable (deref : obj -> res obj) (q : doc) : Prop :=
  (param_doc q /\ is_merged q = false) \/ form_param q \/ (body_param q /\ wf_json (JDict q) /\ schema_resolves deref (val q "schema") false).
Definition usable_given (deref : obj -> res obj) (ps : list (doc * doc)) (os : list obj) : Prop :=
  Forall2 (fun pq o => param_given deref (fst pq) (snd pq) o /\ usable deref (snd pq)) ps os.

(** the parameters, responses at a place of the document *)
Definition params_at (deref : obj -> res obj) (j : json) (ps : list (doc * doc)) : Prop :=
  list_at j ps /\ Forall (fun pq => refers deref "Parameter" (fst pq) (snd pq)) ps.
Definition responses_at (deref : obj -> res obj) (j : json) (rs : list (string * (doc * doc))) : Prop :=
  map_at j rs /\ Forall (fun kr => refers deref "Response" (fst (snd kr)) (snd (snd kr)) /\ response_doc (snd (snd kr)) /\ wf_json (JDict (snd (snd kr)))) rs.

(** path items *)
Definition internal_body : string := "x-pyopenapi_internal_request_body".
Definition methods : list string := ["get"; "put"; "post"; "delete"; "options"; "head"; "patch"].
Definition op_usable (deref : obj -> res obj) (d : doc) : Prop :=
  exists ps, params_at deref (val d "parameters") ps /\ Forall (fun pq => usable deref (snd pq)) ps.
Definition ops_usable (deref : obj -> res obj) (d : doc) : Prop :=
  forall m, In m methods -> val d m = JNull \/ exists od, val d m = JDict od /\ op_usable deref od.

(** global parameters: objects, not references *)
Definition plain_params (deref : obj -> res obj) (d : doc) : Prop :=
  forall n v, lookup n (entries_of (val d "parameters")) = Some v ->
    exists q, v = JDict q /\ is_reference q = false /\ refers deref "Parameter" q q /\ param_doc q.
Definition merged_name (d : doc) (n : string) : Prop := exists q, lookup n (entries_of (val d "parameters")) = Some (JDict q) /\ is_merged q = true.
