(** * Specification vocabulary for getters and the resolver. *)
From Coq Require Import String Ascii List Bool Arith.
From Verif Require Import PyStr PyVal UrlLib Urls SpecUrl Getter.
Import ListNotations.
Open Scope string_scope. Open Scope nat_scope.

(** a token which is not a signed or zero-padded number *)
Definition plain_token (s : string) : Prop :=
  forall c r, s = String c r -> c <> "-"%char /\ c <> "+"%char /\ (c = "0"%char -> r = "").

Section History.
  Variables (path2url abspath : string -> string) (hook : option (string -> string)) (default_getter : option getter).
  (** the call is about this url *)
  Definition asks (url : string) (c : rcall) : Prop := exists jp, jr_split path2url abspath (r_jref c) = Ok (url, jp).
  (** the url with which a document is requested *)
  Definition load_url (url : string) : string := match hook with Some h => h url | None => url end.
  (** a request made by this call would give the non-empty document [d] *)
  Definition offers (url : string) (c : rcall) (d : json) : Prop :=
    asks url c /\ fetch default_getter c (load_url url) = Ok d /\ truthy d = true.
  (** [d] is what the first call about the url with a non-empty document was offered *)
  Inductive first_offer (url : string) : list rcall -> json -> Prop :=
  | fo_here c cs d : offers url c d -> first_offer url (c :: cs) d
  | fo_later c cs d : (forall d', ~ offers url c d') -> first_offer url cs d -> first_offer url (c :: cs) d.
End History.

(** ** local files *)
(** a path that is not a file: url and does not look like /C:... *)
Definition plain_path (p : string) : Prop := startswith "file://" p = false /\ drive_prefix p = false.
(** the file names looked for in a directory, best first -- consts.py:14-19 *)
Definition default_names : list string := ["resource_list.json"; "swagger.json"; "swagger.yaml"; "swagger.yml"].
(** the directory [p] has none of the files *)
Definition none_in (isfile : string -> bool) (p : string) (names : list string) : Prop := forall n, In n names -> isfile (path_join p n) = false.
(** the path ends with one of the default names or with a known extension *)
Definition names_a_file (p : string) : Prop :=
  (exists n, In n default_names /\ endswith n p = true) \/ (exists e, In e ["json"; "yaml"; "yml"] /\ endswith e (splitext_ext p) = true).
