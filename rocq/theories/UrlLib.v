(** * Model of the parts of CPython's [urllib.parse] used by /repo/pyopenapi/utils.py
      (CPython 3.6, Lib/urllib/parse.py: urlparse, urlsplit, urlunparse, urlunsplit, _splitnetloc,
      _splitparams).

    Not modelled: the check for unbalanced IPv6 brackets in the host, the NFKC check of later
    releases and the removal of control characters of later releases. *)
From Coq Require Import String Ascii List Bool Arith NArith.
From Verif Require Import PyStr.
Import ListNotations.
Open Scope string_scope.

(** [ParseResult] (scheme, netloc, path, params, query, fragment) *)
Record purl := mk_purl {
  u_scheme : string; u_netloc : string; u_path : string;
  u_params : string; u_query : string; u_fragment : string }.

(** [c in '0123456789'] *)
Definition is_digit (c : ascii) : bool :=
  let n := N_of_ascii c in (48 <=? n)%N && (n <=? 57)%N.
Definition is_lower (c : ascii) : bool :=
  let n := N_of_ascii c in (97 <=? n)%N && (n <=? 122)%N.
Definition is_upper (c : ascii) : bool :=
  let n := N_of_ascii c in (65 <=? n)%N && (n <=? 90)%N.
(** [c in scheme_chars] *)
Definition is_scheme_char (c : ascii) : bool :=
  is_lower c || is_upper c || is_digit c || Ascii.eqb c "+" || Ascii.eqb c "-" || Ascii.eqb c ".".

(** [uses_params], [uses_netloc] *)
Definition uses_params : list string :=
  [""; "ftp"; "hdl"; "prospero"; "http"; "https"; "shttp"; "rtsp"; "rtspu"; "sip"; "sips"; "mms"; "sftp"; "tel"].
Definition uses_netloc : list string :=
  [""; "ftp"; "http"; "gopher"; "nntp"; "telnet"; "imap"; "wais"; "file"; "mms"; "https"; "shttp";
   "snews"; "prospero"; "rtsp"; "rtspu"; "rsync"; "svn"; "svn+ssh"; "sftp"; "nfs"; "git"; "git+ssh"; "ws"; "wss"].
Definition str_in (s : string) (l : list string) : bool := existsb (String.eqb s) l.

(** first part of [urlsplit]: the scheme is what precedes the first ':' if it consists of scheme
    characters and the rest is not a port number *)
Definition split_scheme (url : string) : string * string :=
  match find_char ":" url with
  | Some (S _ as i) =>
      let pre := stake i url in
      let rest := sdrop (S i) url in
      if all_chars is_scheme_char pre
         && (String.eqb pre "http" || negb (truthy_str rest && all_chars is_digit rest))
      then (lower pre, rest)
      else ("", url)
  | _ => ("", url)
  end.

(** [_splitnetloc(url, 2)]: up to the first of '/', '?', '#' *)
Definition is_netloc_end (c : ascii) : bool := Ascii.eqb c "/" || Ascii.eqb c "?" || Ascii.eqb c "#".
Fixpoint span_netloc (s : string) : string * string :=
  match s with
  | EmptyString => (EmptyString, EmptyString)
  | String c s' => if is_netloc_end c then (EmptyString, s)
                   else let (a, b) := span_netloc s' in (String c a, b)
  end.
Definition split_netloc (url : string) : string * string :=
  if startswith "//" url then span_netloc (sdrop 2 url) else ("", url).

(** [url.split(c, 1)] when [c in url] *)
Definition split_at (c : ascii) (s : string) : string * string :=
  match find_char c s with
  | Some i => (stake i s, sdrop (S i) s)
  | None => (s, "")
  end.

(** [_splitparams]: at the first ';' after the last '/' *)
Definition split_params (scheme url : string) : string * string :=
  if str_in scheme uses_params && contains_char ";" url then
    match rfind_char "/" url with
    | Some j =>
        match find_char ";" (sdrop j url) with
        | Some i => (stake (j + i) url, sdrop (S (j + i)) url)
        | None => (url, "")
        end
    | None => split_at ";" url
    end
  else (url, "").

(** [urlparse(url)] *)
Definition urlparse (url : string) : purl :=
  let (scheme, r1) := split_scheme url in
  let (netloc, r2) := split_netloc r1 in
  let (r3, fragment) := split_at "#" r2 in
  let (r4, query) := split_at "?" r3 in
  let (path, params) := split_params scheme r4 in
  mk_purl scheme netloc path params query fragment.

(** [urlunsplit((scheme, netloc, url, query, fragment))] *)
Definition urlunsplit (scheme netloc url query fragment : string) : string :=
  let url := if truthy_str netloc
                || (truthy_str scheme && str_in scheme uses_netloc && negb (startswith "//" url))
             then "//" ++ netloc ++ (if truthy_str url && negb (first_is "/" url) then "/" ++ url else url)
             else url in
  let url := if truthy_str scheme then scheme ++ ":" ++ url else url in
  let url := if truthy_str query then url ++ "?" ++ query else url in
  if truthy_str fragment then url ++ "#" ++ fragment else url.

(** [urlunparse(components)] *)
Definition urlunparse (u : purl) : string :=
  let url := if truthy_str (u_params u) then u_path u ++ ";" ++ u_params u else u_path u in
  urlunsplit (u_scheme u) (u_netloc u) url (u_query u) (u_fragment u).

(** [parsed[:2] + (p,) + parsed[3:]] -- pyopenapi/utils.py:217,235,268,306 *)
Definition with_path (u : purl) (p : string) : purl :=
  mk_purl (u_scheme u) (u_netloc u) p (u_params u) (u_query u) (u_fragment u).
