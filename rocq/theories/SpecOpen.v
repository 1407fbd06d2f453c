(** * Specification vocabulary for opening a document at a target version. *)
From Coq Require Import String List Bool.
From Verif Require Import PyStr PyVal Obj SpecJson Store App SpecApp Urls UrlLib.
Import ListNotations.
Open Scope string_scope.

(** two documents that are equal but for the texts of "$ref" *)
Inductive same_but_refs : json -> json -> Prop :=
| sb_same j : same_but_refs j j
| sb_list l l' : Forall2 same_but_refs l l' -> same_but_refs (JList l) (JList l')
| sb_dict d d' : Forall2 (fun e e' => fst e = fst e' /\
      (same_but_refs (snd e) (snd e') \/ (fst e = "$ref" /\ exists r r', snd e = JStr r /\ snd e' = JStr r'))) d d' ->
    same_but_refs (JDict d) (JDict d').
(** two objects that are equal but for their documents, which have the same keys and differ only in
    "$ref" and in the parts the children are made of *)
Inductive same_objects : obj -> obj -> Prop :=
| sj_prim j : same_objects (OPrim j) (OPrim j)
| sj_obj c p s s' kids kids' :
    (s = s' \/ exists d d', s = JDict d /\ s' = JDict d' /\ map fst d = map fst d' /\
       forall k, k <> "$ref" -> lookup k kids = None -> lookup k d = lookup k d') ->
    Forall2 (fun e e' => fst e = fst e' /\ same_objects (snd e) (snd e')) kids kids' ->
    same_objects (OObj c p s kids) (OObj c p s' kids')
| sj_list b p es es' : Forall2 same_objects es es' -> same_objects (OList b p es) (OList b p es')
| sj_map b p es es' : Forall2 (fun e e' => fst e = fst e' /\ same_objects (snd e) (snd e')) es es' -> same_objects (OMap b p es) (OMap b p es').
Definition rereferenced (o o' : sobj) : Prop :=
  so_version o' = so_version o /\ so_apis o' = so_apis o /\ same_objects (so_obj o) (so_obj o').

(** what the module of version [v] makes of an object: an object of that version is kept; a 1.2
    object becomes a 2.0 object, a 2.0 object becomes a 3.0.0 object, by the given conversions, the
    latter with some of the objects stored before as overriding objects.  In 3.0.0 the references are
    rewritten: [Same] says what may change in this. *)
Section Stepped.
  Variable Same : sobj -> sobj -> Prop.
  Variables (from12 : sobj -> res sobj) (from20 : sobj -> string -> string -> override -> res (sobj * routes)) (url jp : string).
  Inductive stepped : string -> sobj -> sobj -> routes -> Prop :=
  | sp_12 o : stepped "1.2" o o []
  | sp_same20 o : so_version o = "2.0" -> stepped "2.0" o o []
  | sp_same30 o o' : so_version o = "3.0.0" -> Same o o' -> stepped "3.0.0" o o' []
  | sp_12_20 o o' : so_version o = "1.2" -> from12 o = Ok o' -> so_version o' = "2.0" -> stepped "2.0" o o' []
  | sp_20_30 o o1 o' rs ovr : so_version o = "2.0" -> from20 o url jp ovr = Ok (o1, rs) -> so_version o1 = "3.0.0" -> Same o1 o' ->
      stepped "3.0.0" o o' rs.
End Stepped.

(** the root class of a version *)
Definition root_class (v : string) : string :=
  if String.eqb v "1.2" then "ResourceListing" else if String.eqb v "2.0" then "Swagger" else "OpenApi".

(** the first occurrences in a list *)
Fixpoint distinct (l : list string) : list string :=
  match l with [] => [] | x :: l' => x :: filter (fun y => negb (String.eqb x y)) (distinct l') end.
(** the names of the API declarations in a 1.2 listing: the paths of its resources without their first
    characters *)
Definition listed (listing : list (string * json)) (names : list string) : Prop :=
  exists rs, lookup "apis" listing = Some (JList rs) /\
    Forall2 (fun r name => exists d path, r = JDict d /\ lookup "path" d = Some (JStr path) /\ name = sdrop 1 path) rs names.
(** an API declaration: the document with that name beside the listing, built as an ApiDeclaration *)
Definition declaration (fetch : string -> res json) (jref : string) (name : string) (o : obj) : Prop :=
  exists spec place, fetch (url_join (url_dirname jref) name) = Ok spec /\ construct (table_of "1.2") spec (BCls "ApiDeclaration") place [] = Ok o.
(** an object made from a document that declares [v]: an instance of the root class, for 1.2 with the
    declarations of all listed resources *)
Definition made_from (fetch : string -> res json) (jref : string) (d : list (string * json)) (v : string) (o : sobj) : Prop :=
  so_version o = v /\ construct (table_of v) (JDict d) (BCls (root_class v)) (Some jref) [] = Ok (so_obj o) /\
  if String.eqb v "1.2"
  then exists names, listed d names /\ Forall2 (fun name a => fst a = name /\ declaration fetch jref name (snd a)) (distinct names) (so_apis o)
  else so_apis o = [].
(** opening without [prepare_obj] doing anything: the object after all the steps in order *)
Inductive all_steps (Same : sobj -> sobj -> Prop) (from12 : sobj -> res sobj) (from20 : sobj -> string -> string -> override -> res (sobj * routes)) (url jp : string)
  : list string -> sobj -> sobj -> Prop :=
| as_none o : all_steps Same from12 from20 url jp [] o o
| as_step v vs o o1 o2 rs : stepped Same from12 from20 url jp v o o1 rs -> all_steps Same from12 from20 url jp vs o1 o2 ->
    all_steps Same from12 from20 url jp (v :: vs) o o2.
(** an object that holds no document with two entries of the same key: one made from a document as
    json.loads returns it *)
Inductive wf_obj : obj -> Prop :=
| wo_prim j : wf_json j -> wf_obj (OPrim j)
| wo_obj c p s kids : wf_json s -> (forall k o, In (k, o) kids -> wf_obj o) -> wf_obj (OObj c p s kids)
| wo_list b p es : (forall o, In o es -> wf_obj o) -> wf_obj (OList b p es)
| wo_map b p es : NoDup (map fst es) -> (forall k o, In (k, o) es -> wf_obj o) -> wf_obj (OMap b p es).
