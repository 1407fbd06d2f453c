(** * Model of pyopenapi/migration/base.py: loading, migrating and resolving objects. *)
From Coq Require Import String Ascii List Bool Arith.
From Verif Require Import PyStr PyVal Jp UrlLib Urls Obj Classes_v1_2 Classes_v2_0 Classes_v3_0_0 Store.
Import ListNotations.
Open Scope string_scope. Open Scope nat_scope.

(** ** objects of all versions *)

(** the class table of a version; the versions are the packages under migration/versions *)
Definition table_of (version : string) : ctable :=
  if String.eqb version "1.2" then v12_table
  else if String.eqb version "2.0" then v20_table
  else if String.eqb version "3.0.0" then v30_table
  else [].
(** an object, the version of its classes, and [cached_apis] (1.2 only, base.py:160-171) *)
Record sobj := mk_sobj { so_version : string; so_obj : obj; so_apis : list (string * obj) }.
Definition so_null (o : sobj) : bool := match so_obj o with OPrim JNull => true | _ => false end.
(** instances of [_Base] *)
Definition so_base (o : sobj) : bool := match so_obj o with OPrim _ => false | _ => true end.
Definition so_truthy (o : sobj) : bool := truthy_obj (so_obj o).
Definition so_resolve (o : sobj) (parts : list string) : res sobj :=
  rmap (fun x => mk_sobj (so_version o) x []) (resolve (table_of (so_version o)) (so_obj o) parts).
(** [obj.__swagger_version__]: an attribute of the object classes, not of the containers and of
    primitive values -- versions/v1_2/objects.py, v2_0/objects.py, v3_0_0/objects.py *)
Definition swagger_version (o : sobj) : res string :=
  match so_obj o with OObj _ _ _ _ => Ok (so_version o) | _ => Err AttributeError end.
(** [isinstance(obj, (OpenApi, Swagger, ResourceListing))] -- base.py:198,260 *)
Definition is_root (o : sobj) : bool :=
  match so_obj o with
  | OObj c _ _ _ =>
      (String.eqb (so_version o) "3.0.0" && String.eqb c "OpenApi")
      || (String.eqb (so_version o) "2.0" && String.eqb c "Swagger")
      || (String.eqb (so_version o) "1.2" && String.eqb c "ResourceListing")
  | _ => false
  end.

(** [get_supported_versions(module_name, is_pkg)]: the names and kinds of the modules found, filtered,
    translated and sorted -- utils.py:497-512.  [sorted] with the key [StrictVersion]: stable; a name
    which is no version raises ValueError. *)
Definition dots (s : string) : string := replace1 "_" "." s.
Fixpoint insert_version (x : string * ver) (l : list (string * ver)) : list (string * ver) :=
  match l with
  | [] => [x]
  | y :: l' => if ver_ltb (snd x) (snd y) then x :: l else y :: insert_version x l'
  end.
Definition get_supported_versions (modules : list (string * bool)) (is_pkg : bool) : res (list string) :=
  let names := map fst (filter (fun m => Bool.eqb (snd m) is_pkg) modules) in
  let names := filter (startswith "v") names in
  keyed <- mapM (fun n => let s := dots (sdrop 1 n) in v <- strict_version s ;; Ok (s, v)) names ;;
  Ok (map fst (fold_left (fun acc x => insert_version x acc) keyed [])).

(** ** state *)

(** what happened, for the statements only: a document was parsed; a cached object answered [None]; the
    depth of calls exceeded the fuel *)
Inductive event := EParse (url jp : string) | ENull (url jp : string) | EDepth.
Record app := mk_app {
  a_store : store sobj;
  a_original : string;        (* original_spec_version; '' at first *)
  a_current : option string;  (* current_spec_version *)
  a_log : list event }.       (* latest first *)
Definition with_store (a : app) (s : store sobj) : app := mk_app s (a_original a) (a_current a) (a_log a).
Definition with_event (a : app) (e : event) : app := mk_app (a_store a) (a_original a) (a_current a) (e :: a_log a).

(** a computation on the state *)
Definition M (A : Type) := app -> app * res A.
Definition ret {A} (x : A) : M A := fun a => (a, Ok x).
Definition lift {A} (r : res A) : M A := fun a => (a, r).
Definition bindm {A B} (m : M A) (f : A -> M B) : M B :=
  fun a => let (a', r) := m a in match r with Ok x => f x a' | Err e => (a', Err e) end.
Notation "x <-- m ;; k" := (bindm m (fun x => k)) (at level 61, m at next level, right associativity).
Definition set_obj (o : sobj) (url jp version : string) : M unit :=
  fun a => match store_set so_base (a_store a) o url jp version with
           | Ok s => (with_store a s, Ok tt)
           | Err e => (a, Err e)
           end.
Definition get_obj (url jp version : string) : M (option sobj) :=
  fun a => (a, store_get so_resolve (a_store a) url jp version).
Definition get_under (url jp version : string) (remove : bool) : M (option (list (string * sobj))) :=
  fun a => let (s, r) := store_get_under (a_store a) url jp version remove in (with_store a s, r).
Definition put_routes (url to_spec : string) (rs : routes) : M unit :=
  fun a => let (s, r) := store_update_routes (a_store a) url to_spec rs in (with_store a s, r).
Definition relocate (url jp from to : string) : M string :=
  fun a => (a, store_relocate (a_store a) url jp from (Some to)).
Definition get_until (url jp from to : string) : M (option (sobj * string * string)) :=
  fun a => (a, store_get_until so_truthy so_resolve (a_store a) url jp from (Some to)).
Definition emit (e : event) : M unit := fun a => (with_event a e, Ok tt).
Definition get_original : M string := fun a => (a, Ok (a_original a)).
Definition set_original (v : string) : M unit := fun a => (mk_app (a_store a) v (a_current a) (a_log a), Ok tt).
Definition set_current (v : string) : M unit := fun a => (mk_app (a_store a) (a_original a) (Some v) (a_log a), Ok tt).

(** a parser: a class or builder of a version *)
Definition parser := (string * builder)%type.
(** arguments of [resolve_obj] -- base.py:265-270 *)
Record query := mk_query { q_jref : string; q_from : string; q_parser : option parser; q_to : option string; q_remove : bool }.

(** What an upgrade module does to the app: it returns or raises, asks for an object with [resolve_obj]
    (an exception passes through), stores objects and routes, reads the objects stored below a pointer
    ([get_under(url, jp, version, remove=False)], used as [override]) or the original version.  The modules
    are versions/*/main.py; the theorems hold for every such program. *)
Inductive prog (A : Type) : Type :=
| Done (r : res A)
| Ask (q : query) (k : sobj * string -> prog A)
| Cache (o : sobj) (url jp version : string) (k : prog A)
| Routes (url version : string) (rs : routes) (k : prog A)
| Original (k : string -> prog A)
| Under (url jp version : string) (k : override -> prog A).
Arguments Done {A}. Arguments Ask {A}. Arguments Cache {A}. Arguments Routes {A}. Arguments Original {A}. Arguments Under {A}.
(** the objects found, as overriding objects of a new object *)
Definition overrides (o : option (list (string * sobj))) : override :=
  match o with Some l => map (fun kv => (fst kv, so_obj (snd kv))) l | None => [] end.

Section App.
  (** [os.path.abspath] and the url of a local path -- utils.py:175-183 *)
  Variables (path2url abspath : string -> string).
  (** [self.url] -- base.py:102-106 *)
  Variable app_url : string.
  (** [self.migratable_spec_versions] -- base.py:41-43 *)
  Variable versions : list string.
  (** [self.__resolver.resolve(jref, getter)]: see Getter.v; the documents do not change *)
  Variable fetch : string -> res json.
  (** [upgrade] of the module for a version; [None]: no loader -- base.py:226-241 *)
  Variable upgrade : string -> option (sobj -> string -> prog (sobj * routes)).
  (** [prepare_obj(obj, jref)]: abstract -- base.py:334-336; without effects on the app here *)
  Variable prepare : sobj -> string -> res sobj.

  Definition split (jref : string) : res (string * string) := jr_split path2url abspath jref.

  (** *** load_obj *)
  (** [utils.get_swagger_version(src_spec)]; a raw value that is no dict has no attribute [swagger]
      -- utils.py:309-320.  A null version counts as none. *)
  Definition doc_version (spec : json) : res (option json) :=
    match spec with
    | JDict d => Ok (match get_swagger_version d with Some JNull => None | v => v end)
    | _ => Err AttributeError
    end.
  (** the key used with the store: [None] is a key of its own (here ""); a version that is no string
      matches no entry *)
  Definition version_key (v : option json) : option string :=
    match v with
    | None => Some ""
    | Some (JStr "") => None
    | Some (JStr s) => Some s
    | Some _ => None
    end.
  (** [resource.path] for the resources, in order -- base.py:150-152; iterating over [None] is a TypeError *)
  Definition resource_paths (listing : obj) : res (list json) :=
    match listing with
    | OObj c p s kids =>
        match lookup c v12_table with
        | None => Err KeyError
        | Some cd =>
            apis <- getattr_ v12_table cd p s kids "apis" ;;
            match apis with
            | OList _ _ es =>
                mapM (fun e => match e with
                               | OObj c' p' s' kids' =>
                                   match lookup c' v12_table with
                                   | None => Err KeyError
                                   | Some cd' =>
                                       x <- getattr_ v12_table cd' p' s' kids' "path" ;;
                                       match x with OPrim j => Ok j | _ => Err TypeError end
                                   end
                               | _ => Err AttributeError
                               end) es
            | _ => Err TypeError
            end
        end
    | _ => Err AttributeError
    end.
  (** the ApiDeclarations of a listing and the url of the last one -- base.py:154-171: the loop variable
      [url] is the variable used later for the store *)
  Definition load_apis (jref url0 : string) (paths : list json) : res (list (string * obj) * string) :=
    let base := url_dirname jref in
    foldM (fun acc p =>
             match p with
             | JStr u =>
                 let name := sdrop 1 u in
                 let url := url_join base name in
                 spec <- fetch url ;;
                 match spec with
                 | JNull => Err PyException
                 | _ => o <- construct v12_table spec (BCls "ApiDeclaration") (sub_path (Some url) name) [] ;;
                        Ok (dict_set name o (fst acc), url)
                 end
             | _ => Err TypeError
             end) paths ([], url0).
  (** the object, its version for the store, and the url it is stored under -- base.py:146-188 *)
  Definition parse (src : json) (jref url : string) (version : option json) (ovr : override) (p : option parser)
    : res (sobj * string * string) :=
    match version with
    | Some (JStr v) =>
        if String.eqb v "1.2" then
          o <- construct v12_table src (BCls "ResourceListing") (Some jref) [] ;;
          paths <- resource_paths o ;;
          apis <- load_apis jref url paths ;;
          Ok (mk_sobj "1.2" o (fst apis), "1.2", snd apis)
        else if String.eqb v "2.0" then
          o <- construct v20_table src (BCls "Swagger") (Some jref) ovr ;; Ok (mk_sobj "2.0" o [], "2.0", url)
        else if String.eqb v "3.0.0" then
          o <- construct v30_table src (BCls "OpenApi") (Some jref) ovr ;; Ok (mk_sobj "3.0.0" o [], "3.0.0", url)
        else Err NotImplementedError
    | None =>
        match p with
        | Some (pv, b) =>
            o <- construct (table_of pv) src b (Some jref) [] ;;
            Ok (mk_sobj pv o [], match o with OObj _ _ _ _ => pv | _ => "" end, url)
        | None => Err NotImplementedError
        end
    | Some _ => Err NotImplementedError
    end.
  (** [load_obj(jref, getter, parser, remove_dummy)] -- base.py:123-201 *)
  Definition load_obj (jref : string) (p : option parser) (remove_dummy : bool) : M sobj :=
    src <-- lift (fetch jref) ;;
    version <-- lift (doc_version src) ;;
    uj <-- lift (split jref) ;;
    let '(url, jp) := uj in
    cached <-- (match version_key version with Some v => get_obj url jp v | None => ret None end) ;;
    if match cached with Some o => so_truthy o | None => false end
    then ret (match cached with Some o => o | None => mk_sobj "" (OPrim JNull) [] end)
    else
      ovr <-- (match version_key version with Some v => get_under url jp v remove_dummy | None => ret None end) ;;
      _ <-- emit (EParse url jp) ;;
      ovu <-- lift (parse src jref url version (overrides ovr) p) ;;
      let '(o, v, url') := ovu in
      if so_truthy o then
        _ <-- set_obj o url' jp v ;;
        _ <-- (if is_root o then set_original (so_version o) else ret tt) ;;
        ret o
      else lift (Err PyException).

  (** *** programs of the upgrade modules *)
  Section Run.
    (** the method [resolve_obj] they call *)
    Variable resolve_ : query -> M (sobj * string).
    Fixpoint run {A} (p : prog A) : M A :=
      match p with
      | Done r => lift r
      | Ask q k => x <-- resolve_ q ;; run (k x)
      | Cache o url jp v k => _ <-- set_obj o url jp v ;; run k
      | Routes url v rs k => _ <-- put_routes url v rs ;; run k
      | Original k => v <-- get_original ;; run (k v)
      | Under url jp v k => x <-- get_under url jp v false ;; run (k (overrides x))
      end.

    (** *** migrate_obj *)
    (** the versions to go through: up to the target, without those older than the object
        -- base.py:214-221.  [supported_versions.index(spec_version)] finds the first occurrence. *)
    Definition versions_through (from to : string) : res (list string) :=
      i <- index_of to versions ;;
      f <- strict_version from ;;
      foldM (fun acc v => x <- strict_version v ;; Ok (if ver_ltb x f then acc else (acc ++ [v])%list)) (firstn (S i) versions) [].
    (** one round of the loop -- base.py:226-257: the new object and the new pointer.  The trace (for the
        statements only) is the list of the calls of [upgrade]: version and object. *)
    Definition round (url jref : string) (obj : sobj) (jp from version : string) : M (sobj * string) :=
      match upgrade version with
      | None => lift (Err PyException)
      | Some m =>
          or <-- run (m obj jref) ;;
          let '(obj', reloc) := or in
          _ <-- put_routes url version [(jp, RMap reloc)] ;;
          jp' <-- relocate url jp from version ;;
          obj'' <-- lift (prepare obj' (url ++ jp')) ;;
          _ <-- set_obj obj'' url jp' version ;;
          ret (obj'', jp')
      end.
    Fixpoint rounds (url jref : string) (vs : list string) (obj : sobj) (jp from : string) (a : app)
      : app * list (string * sobj) * res sobj :=
      match vs with
      | [] => (a, [], Ok obj)
      | v :: vs' =>
          let (a', r) := round url jref obj jp from v a in
          match r with
          | Ok (obj', jp') =>
              let '(a'', t, r') := rounds url jref vs' obj' jp' v a' in (a'', (v, obj) :: t, r')
          | Err e => (a', match upgrade v with Some _ => [(v, obj)] | None => [] end, Err e)
          end
      end.
    (** [migrate_obj(obj, jref, spec_version)] with its trace -- base.py:203-263 *)
    Definition migrate_traced (obj : sobj) (jref spec_version : string) (a : app)
      : app * list (string * sobj) * res sobj :=
      if negb (str_in spec_version versions) then (a, [], Err ValueError)
      else
        match (w <- swagger_version obj ;; vs <- versions_through w spec_version ;; uj <- split jref ;; Ok (w, vs, uj)) with
        | Err e => (a, [], Err e)
        | Ok (w, vs, (url, jp)) =>
            let '(a', t, r) := rounds url jref vs obj jp w a in
            match r with
            | Ok o => (if is_root o then fst (set_current spec_version a') else a', t, Ok o)
            | Err e => (a', t, Err e)
            end
        end.
    Definition migrate_obj (obj : sobj) (jref spec_version : string) : M sobj :=
      fun a => let '(a', _, r) := migrate_traced obj jref spec_version a in (a', r).
  End Run.

  (** *** resolve_obj *)
  (** what is returned: the raw value, or a proxy of the object; [weakref.proxy] of a float is a
      TypeError -- base.py:326-332 *)
  Definition answer (o : sobj) (url jp : string) : res (sobj * string) :=
    match so_obj o with
    | OPrim JNull => Err ValueError
    | OPrim (JFloat _) => Err TypeError
    | OPrim _ => Ok (o, jp)
    | _ => Ok (o, (url ++ jp)%string)
    end.
  (** an object that is not [None] *)
  Definition not_none (o : option sobj) : option sobj :=
    match o with Some x => if so_null x then None else o | None => None end.
  (** [resolve_obj(jref, from_spec_version, parser, to_spec_version, remove_dummy)] -- base.py:265-332;
      the fuel bounds the depth of calls from upgrade modules *)
  Fixpoint resolve_obj (fuel : nat) (q : query) {struct fuel} : M (sobj * string) :=
    match fuel with
    | O => _ <-- emit EDepth ;; lift (Err OutOfFuel)
    | S f =>
        if negb (truthy_str (q_jref q)) then lift (Err ValueError)
        else
          let to := match q_to q with Some t => if truthy_str t then t else q_from q | None => q_from q end in
          uj <-- lift (split (q_jref q)) ;;
          let '(url0, jp) := uj in
          let url := if truthy_str url0 then url0 else app_url in
          let jref := if truthy_str url0 then q_jref q else (app_url ++ jp)%string in
          jp1 <-- (if String.eqb (q_from q) to then ret jp else relocate url jp (q_from q) to) ;;
          cached <-- get_obj url jp1 to ;;
          match not_none cached with
          | Some o => lift (answer o url jp1)
          | None =>
              _ <-- (match cached with Some _ => emit (ENull url jp1) | None => ret tt end) ;;
              until <-- get_until url jp (q_from q) to ;;
              oj <-- (match until with
                      | Some (o, j, _) => ret (o, (url ++ j)%string)
                      | None =>
                          orig <-- get_original ;;
                          if String.eqb (q_from q) orig
                          then o <-- load_obj jref (q_parser q) (q_remove q) ;; ret (o, jref)
                          else lift (Err PyException)
                      end) ;;
              let '(o, jref') := oj in
              o1 <-- migrate_obj (resolve_obj f) o jref' to ;;
              o2 <-- (if so_truthy o1 then lift (prepare o1 jref') else ret o1) ;;
              jp2 <-- relocate url jp (q_from q) to ;;
              lift (answer o2 url jp2)
          end
    end.
End App.
