(** * Model of pyopenapi/migration/getter.py and resolve.py: fetching documents and evaluating JSON
    references on them. *)
From Coq Require Import String Ascii List Bool Arith ZArith.
From Verif Require Import PyStr PyVal Jp UrlLib Urls Obj.
Import ListNotations.
Open Scope string_scope. Open Scope nat_scope.

(** ** Getter *)

(** what [load] returns: a dict, text (str, or bytes that decode), bytes that do not decode, or
    anything else -- getter.py:35-43 *)
Inductive loaded := LDict (d : list (string * json)) | LText (s : string) | LBadBytes | LOther.

Section Next.
  (** [json.loads], [yaml.load]: oracles.  [None] is a ValueError (json.JSONDecodeError is one); other
      exceptions of [yaml.load] pass through -- getter.py:47-54 *)
  Variables (json_loads yaml_load : string -> option (res json)).

  (** the conversion of the loaded text -- getter.py:37-56; UnicodeDecodeError is a ValueError, raised
      outside the [try] *)
  Definition parse_loaded (l : loaded) : res json :=
    match l with
    | LDict d => Ok (JDict d)
    | LText s =>
        match (if startswith "{" s then json_loads s else yaml_load s) with
        | Some r => r
        | None => Err PyException
        end
    | LBadBytes => Err ValueError
    | LOther => Err ValueError
    end.
  (** [Getter.__next__]: the remaining urls and the result; the url is consumed even if [load] raises
      -- getter.py:31-56 *)
  Definition getter_next (load : string -> res loaded) (urls : list string) : list string * res json :=
    match urls with
    | [] => ([], Err StopIteration)
    | u :: urls' => (urls', l <- load u ;; parse_loaded l)
    end.
  (** [n] successive requests *)
  Fixpoint requests (load : string -> res loaded) (n : nat) (urls : list string) : list (res json) :=
    match n with
    | O => []
    | S n' => let (urls', r) := getter_next load urls in r :: requests load n' urls'
    end.
  (** [DictGetter.load] -- getter.py:182-185; the values of the mapping are what was "downloaded" *)
  Definition dict_load (path2dict : list (string * loaded)) (path : string) : res loaded :=
    Ok (match lookup path path2dict with Some l => l | None => LDict [] end).
  (** [DictGetter.__init__]: [urls[0]] must exist -- getter.py:177-180 *)
  Definition dict_getter (urls : list string) : res (list string) :=
    match urls with [] => Err IndexError | _ => Ok urls end.
  (** [SimpleGetter.__init__] for a string: (base_path, urls) -- getter.py:134-139 *)
  Definition simple_getter (path : string) : string * list string :=
    (if endswith "/" path then stake (String.length path - 1) path else path, [path]).
End Next.

(** ** LocalGetter *)

(** [consts.SWAGGER_FILE_NAMES] -- consts.py:14-19 *)
Definition SWAGGER_FILE_NAMES : list string := ["resource_list.json"; "swagger.json"; "swagger.yaml"; "swagger.yml"].
(** [os.path.join(a, b)] (posixpath) -- getter.py:86, resolve.py:58 *)
Definition path_join (a b : string) : string :=
  if startswith "/" b then b
  else if negb (truthy_str a) || endswith "/" a then (a ++ b)%string
  else (a ++ "/" ++ b)%string.
(** [re.match('^/[A-Z]+:', path)] -- getter.py:77 *)
Fixpoint uppers_colon (seen : bool) (s : string) : bool :=
  match s with
  | String c s' => if Ascii.eqb c ":" then seen else if is_upper c then uppers_colon true s' else false
  | EmptyString => false
  end.
Definition drive_prefix (s : string) : bool :=
  match s with String "/" s' => uppers_colon false s' | _ => false end.

Section Local.
  (** the file system: [os.path.isfile], [os.path.abspath] *)
  Variables (isfile : string -> bool) (abspath : string -> string).

  (** the loop over the file names -- getter.py:80-89: the new base path and url *)
  Fixpoint local_by_name (base path : string) (names : list string) : option (string * string) :=
    match names with
    | [] => None
    | n :: names' =>
        if endswith n base then Some (dirname base, path)
        else if isfile (path_join path n) then Some (base, path_join path n)
        else local_by_name base path names'
    end.
  (** [LocalGetter.__init__(path)]: (base_path, url), or ValueError -- getter.py:71-112 *)
  Definition local_getter (path0 : string) : res (string * string) :=
    let base := path0 in
    let path := if startswith "file://" path0 then u_path (urlparse path0) else path0 in
    let path := if drive_prefix path then abspath (sdrop 1 path) else path in
    match local_by_name base path SWAGGER_FILE_NAMES with
    | Some r => Ok r
    | None =>
        let ext := splitext_ext path in
        if endswith "json" ext || endswith "yaml" ext || endswith "yml" ext then Ok (dirname path, path)
        else if isfile (path ++ ".json") then Ok (base, (path ++ ".json")%string)
        else if isfile (path ++ ".yaml") then Ok (base, (path ++ ".yaml")%string)
        else Err ValueError
    end.
  (** the file that [LocalGetter.load] opens -- getter.py:114-123 *)
  Definition local_file (path0 : string) : res string :=
    r <- local_getter path0 ;; Ok (patch_path (fst r) (snd r)).
End Local.

(** ** Resolver *)
(** a getter: a class, instantiated with the url, or an instance; in both cases what its next request
    gives at the time of the call -- resolve.py:60-66 *)
Inductive getter := GClass (open : string -> res json) | GObject (next : res json).
(** one call of [resolve] and the world at that time: the getter argument, the network, the files *)
Record rcall := mk_call {
  r_jref : string;
  r_getter : option getter;
  r_remote : string -> res json;  (* UrlGetter *)
  r_local : string -> res json }. (* LocalGetter *)
Definition rcache := list (string * json).

(** the loop over the tokens -- resolve.py:70-80 *)
Fixpoint walk (obj : json) (parts : list string) : res json :=
  match parts with
  | [] => Ok obj
  | head :: parts' =>
      match obj with
      | JList l => i <- py_int head ;; x <- py_nth l i ;; walk x parts'
      | JDict d => match lookup head d with Some x => walk x parts' | None => Err KeyError end
      | _ => Err PyException
      end
  end.

Section Resolver.
  Variables (path2url abspath : string -> string).
  (** [__init__(url_load_hook, default_getter)] -- resolve.py:22-36 *)
  Variables (hook : option (string -> string)) (default_getter : option getter).

  (** which getter is asked, and the request -- resolve.py:53-66 *)
  Definition fetch (c : rcall) (local_url : string) : res json :=
    let g := match r_getter c with
             | Some g => g
             | None =>
                 let p := urlparse local_url in
                 if String.eqb (u_scheme p) "file" && truthy_str (u_path p)
                 then GObject (r_local c (path_join (u_netloc p) (u_path p)))
                 else match default_getter with Some g => g | None => GClass (r_remote c) end
             end in
    match g with GClass open => open local_url | GObject next => next end.
  (** [resolve(jref, getter)]: the new cache, whether a document was requested, the result
      -- resolve.py:38-84 *)
  Definition resolver_resolve (cache : rcache) (c : rcall) : rcache * bool * res json :=
    match jr_split path2url abspath (r_jref c) with
    | Err e => (cache, false, Err e)
    | Ok (url, jp) =>
        let local_url := match hook with Some h => h url | None => url end in
        let finish obj := if truthy obj then walk obj (tl (jp_split jp)) else Err PyException in
        match lookup url cache with
        | Some obj =>
            if truthy obj then (cache, false, finish obj)
            else match fetch c local_url with
                 | Err e => (cache, true, Err e)
                 | Ok obj => (dict_set url (if truthy obj then obj else JNull) cache, true, finish obj)
                 end
        | None =>
            match fetch c local_url with
            | Err e => (cache, true, Err e)
            | Ok obj => (dict_set url (if truthy obj then obj else JNull) cache, true, finish obj)
            end
        end
    end.
  (** a history of calls *)
  Definition resolver_run (calls : list rcall) : rcache :=
    fold_left (fun cache c => fst (fst (resolver_resolve cache c))) calls [].
End Resolver.
