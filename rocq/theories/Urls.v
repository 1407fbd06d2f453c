(** * Url and JSON-reference helpers of pyopenapi/utils.py. *)
From Coq Require Import String Ascii List Bool Arith NArith.
From Verif Require Import PyStr PyVal UrlLib.
Import ListNotations.
Open Scope string_scope.

(** [_WINDOWS_PATH_PREFIX_PATTERN.match(url)]: [^[A-Za-z]:\\] -- pyopenapi/utils.py:186,195 *)
Definition windows_prefix (s : string) : bool :=
  match s with
  | String c (String ":" (String "\" _)) => is_lower c || is_upper c
  | _ => false
  end.

Section FileUrl.
  (** [path2url(path)] and [path2url(os.path.abspath(path))] depend on the file system and the
      current directory: oracles -- pyopenapi/utils.py:175-183,203 *)
  Variable path2url : string -> string.
  Variable abspath : string -> string.

  (** [normalize_url(url)] -- pyopenapi/utils.py:189-207 *)
  Definition normalize_url (url : string) : res string :=
    if negb (truthy_str url) then Ok url
    else if windows_prefix url then Ok (path2url url)
    else
      let p := urlparse url in
      if String.eqb (u_scheme p) "" then
        if String.eqb (u_netloc p) "" && negb (String.eqb (u_path p) "")
        then Ok (path2url (abspath url))
        else Err ValueError
      else Ok url.

  (** [jr_split(json_ref)] -- pyopenapi/utils.py:142-148 *)
  Definition jr_split (json_ref : string) : res (string * string) :=
    let p := urlparse json_ref in
    u <- normalize_url (urlunparse (mk_purl (u_scheme p) (u_netloc p) (u_path p) (u_params p) (u_query p) "")) ;;
    Ok (u, if truthy_str (u_fragment p) then "#" ++ u_fragment p else "#").
End FileUrl.

(** [url_dirname(url)] -- pyopenapi/utils.py:210-218; the extensions are consts.FILE_EXT_JSON and
    consts.FILE_EXT_YAML (no leading dot) *)
Definition url_dirname (url : string) : string :=
  let p := urlparse url in
  if endswith "json" (u_path p) || endswith "yaml" (u_path p)
  then urlunparse (with_path p (dirname (u_path p)))
  else url.

(** [url_join(url, base_name)] -- pyopenapi/utils.py:221-237 *)
Definition url_join (url base_name : string) : string :=
  let p := urlparse url in
  let new_path :=
    if last_is "/" (u_path p)
    then u_path p ++ (if first_is "/" base_name then sdrop 1 base_name else base_name)
    else u_path p ++ (if first_is "/" base_name then "" else "/") ++ base_name in
  urlunparse (with_path p new_path).

(** [_fullmatch(r'\.{3,}', chunk)] -- pyopenapi/utils.py:280-284,300 *)
Definition is_dots3 (chunk : string) : bool :=
  Nat.leb 3 (String.length chunk) && all_chars (Ascii.eqb ".") chunk.

(** the loop over the chunks -- pyopenapi/utils.py:292-304; [newpath[:-1]] is [removelast] *)
Definition derel_step (newpath : list string) (chunk : string) : list string :=
  if String.eqb chunk "." then newpath
  else if String.eqb chunk ".." then removelast newpath
  else if is_dots3 chunk then removelast newpath
  else (newpath ++ [chunk])%list.

(** [derelativise_url(url)] -- pyopenapi/utils.py:287-306 *)
Definition derelativise_url (url : string) : string :=
  let p := urlparse url in
  let newpath := fold_left derel_step (split_char "/" (sdrop 1 (u_path p))) [] in
  urlunparse (with_path p ("/" ++ join "/" newpath)).

(** [normalize_jr(json_ref, url=None)] -- pyopenapi/utils.py:240-277.  ['#' + jp] with [jp = None]
    raises TypeError (line 277). *)
Definition normalize_jr (json_ref : option string) (url : option string) : res (option string) :=
  match json_ref with
  | None => Ok None
  | Some r =>
      let '(url_part, jp) := match find_char "#" r with
                             | Some idx => (stake idx r, Some (sdrop (S idx) r))
                             | None => (r, None)
                             end in
      let url_part' :=
        if truthy_str url_part then
          match url with
          | Some u =>
              if String.eqb (u_scheme (urlparse url_part)) "" && truthy_str u then
                let up := urlparse u in
                derelativise_url
                  (urlunparse (with_path up (join "/" [dirname (u_path up); url_part])))
              else url_part
          | None => url_part
          end
        else match url with Some u => u | None => "" end in
      if truthy_str url_part' then
        Ok (Some (match jp with
                  | Some j => if truthy_str j then url_part' ++ "#" ++ j else url_part'
                  | None => url_part'
                  end))
      else match jp with Some j => Ok (Some ("#" ++ j)) | None => Err TypeError end
  end.

(** [consts.VALID_FILE_EXT] -- pyopenapi/consts.py:9-13 *)
Definition VALID_FILE_EXT : list string := [".json"; ".yaml"; ".yml"].

(** [patch_path(base_path, path)] -- pyopenapi/utils.py:473-494 on a POSIX system (the
    [os.name == 'nt'] branch is not modelled) *)
Definition patch_path (base_path path : string) : string :=
  let ext := splitext_ext base_path in
  let ext := if str_in ext VALID_FILE_EXT then ext else "" in
  let ext := if String.eqb ext "" then splitext_ext path else ext in
  let ext := if str_in ext VALID_FILE_EXT then ext else "" in
  let ext := if String.eqb ext "" then ".json" else ext in
  if endswith ext path then path else path ++ ext.

(** [get_swagger_version(obj)] for a dict -- pyopenapi/utils.py:309-320 *)
Definition get_swagger_version (obj : list (string * json)) : option json :=
  match lookup "swaggerVersion" obj with
  | Some v => Some v
  | None =>
      match lookup "swagger" obj with
      | Some v => Some v
      | None => lookup "openapi" obj
      end
  end.
