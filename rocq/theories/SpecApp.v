(** * Specification vocabulary for loading, migrating and resolving. *)
From Coq Require Import String List Bool Arith.
From Verif Require Import PyStr PyVal Obj Store SpecStore App Urls.
Import ListNotations.
Open Scope string_scope. Open Scope nat_scope.

(** ** versions *)
(** [vs] are the known versions from [from] up to [to], oldest first *)
Definition steps_between (known : list string) (from to : string) (vs : list string) : Prop :=
  ascending vs /\ forall v, In v vs <-> In v known /\ version_le from v /\ version_le v to.
(** [o'] is what the upgrade module of [v], called with [o], returned, after preparation *)
Definition upgraded (upgrade : string -> option (sobj -> string -> prog (sobj * routes))) (prepare : sobj -> string -> res sobj)
           (ask : query -> M (sobj * string)) (jref v : string) (o o' : sobj) : Prop :=
  exists m before after mid reloc where_, upgrade v = Some m /\ run ask (m o jref) before = (after, Ok (mid, reloc)) /\
                                     prepare mid where_ = Ok o'.
(** the calls, each with the object it was given: the first gets [o], each next one what came before *)
Inductive handed_on (step : string -> sobj -> sobj -> Prop) : sobj -> list (string * sobj) -> sobj -> Prop :=
| ho_none o : handed_on step o [] o
| ho_call o o1 o2 v calls : step v o o1 -> handed_on step o1 calls o2 -> handed_on step o ((v, o) :: calls) o2.

(** ** documents *)
(** the version a document declares: the first of these keys that is present; null counts as none *)
Definition declares (d : list (string * json)) (v : json) : Prop :=
  v <> JNull /\
  (lookup "swaggerVersion" d = Some v
   \/ (lookup "swaggerVersion" d = None /\ lookup "swagger" d = Some v)
   \/ (lookup "swaggerVersion" d = None /\ lookup "swagger" d = None /\ lookup "openapi" d = Some v)).
Definition declares_none (d : list (string * json)) : Prop := forall v, ~ declares d v.
(** an instance of a class *)
Definition instance (c : string) (spec : json) (o : obj) : Prop := exists path kids, o = OObj c path spec kids.

(** ** references *)
(** Every reference the program can ask for, whatever the answers, is in the list (with the url of its
    document), and it asks within version [V].  [D url o] describes the objects that can come from the
    document [url]: the objects the program stores and returns satisfy it if the answers do. *)
Inductive asks_within (split : string -> res (string * string)) (D : string -> obj -> Prop) (V : string) (U : list (string * string)) (here : string)
  : prog (sobj * routes) -> Prop :=
| aw_fail e : asks_within split D V U here (Done (Err e))
| aw_done o rs : D here (so_obj o) -> asks_within split D V U here (Done (Ok (o, rs)))
| aw_ask q k l : q_from q = V -> (q_to q = None \/ q_to q = Some V) ->
    (forall p, q_parser q = Some p -> fst p = V) ->
    split (q_jref q) = Ok l -> fst l <> "" -> In l U ->
    (forall o r, D (fst l) (so_obj o) -> r = (fst l ++ snd l)%string \/ r = snd l -> asks_within split D V U here (k (o, r))) -> asks_within split D V U here (Ask q k)
| aw_cache o url jp v k : D url (so_obj o) -> v <> "" -> asks_within split D V U here k -> asks_within split D V U here (Cache o url jp v k)
| aw_routes url v rs k : asks_within split D V U here k -> asks_within split D V U here (Routes url v rs k)
| aw_original k : asks_within split D V U here (k V) -> asks_within split D V U here (Original k).
(** the locations parsed; those where a cached object answered null; how often the depth of calls was
    exceeded *)
Definition parsed (a : app) : list (string * string) :=
  flat_map (fun e => match e with EParse u p => [(u, p)] | _ => [] end) (a_log a).
Definition nulls (a : app) : list (string * string) :=
  flat_map (fun e => match e with ENull u p => [(u, p)] | _ => [] end) (a_log a).
Definition too_deep (a : app) : Prop := In EDepth (a_log a).

(** ** states *)
(** a state whose store was made by some history of calls *)
Definition reachable (versions : list string) (a : app) : Prop := exists calls, a_store a = run_ops so_base versions calls.
(** what the store holds for a location, by the version the document declares *)
Definition cached_for (a : app) (url jp : string) (v : option json) : res (option sobj) :=
  match v with
  | None => store_get so_resolve (a_store a) url jp ""
  | Some (JStr s) => if truthy_str s then store_get so_resolve (a_store a) url jp s else Ok None
  | Some _ => Ok None
  end.
(** no object, or one that counts as false *)
Definition not_cached (a : app) (url jp : string) (v : option json) : Prop := nothing so_truthy (cached_for a url jp v).

(** ** references *)
(** all strings given as "$ref" anywhere in a document *)
Fixpoint ref_strings (j : json) : list string :=
  match j with
  | JList l => flat_map ref_strings l
  | JDict d => flat_map (fun kv => (match snd kv with JStr r => if String.eqb (fst kv) "$ref" then [r] else [] | _ => [] end ++ ref_strings (snd kv))%list) d
  | _ => []
  end.
(** [known_documents split fetch urls refs]: a set of urls and a set of references so that the documents
    (and parts of documents) below these urls only use these references, and these references, as
    seen from these urls, only lead to these urls *)
Record known_documents (split : string -> res (string * string)) (fetch : string -> res json) (urls refs : list string) : Prop := {
  known_refs : forall jref src url jp r, fetch jref = Ok src -> split jref = Ok (url, jp) -> In url urls -> In r (ref_strings src) -> In r refs;
  known_urls : forall r url n, In r refs -> In url urls -> normalize_jr (Some r) (Some url) = Ok (Some n) ->
    exists url' jp', split n = Ok (url', jp') /\ In url' urls /\ url' <> "" }.
(** the text a reference [r] gets in 3.0.0 when its answer is at [where_] *)
Definition assigned_ref (split : string -> res (string * string)) (r where_ r' : string) : Prop :=
  if startswith "#" r then exists u, split where_ = Ok (u, r') else r' = where_.
(** the references as they are written when they are resolved (3.0.0) are known references again *)
Definition closed_under_resolving (split : string -> res (string * string)) (urls refs : list string) : Prop :=
  forall r url n url' jp' where_ r', In r refs -> In url urls -> normalize_jr (Some r) (Some url) = Ok (Some n) ->
    split n = Ok (url', jp') -> where_ = (url' ++ jp')%string \/ where_ = jp' -> assigned_ref split r where_ r' -> In r' refs.
(** the version a reference is resolved for: the wanted one, else the one it is written in *)
Definition target_version (q : query) : string := match q_to q with Some t => if truthy_str t then t else q_from q | None => q_from q end.
