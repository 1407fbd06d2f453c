(** * Specification vocabulary for urls, independent of the model of [urllib]. *)
From Coq Require Import String Ascii List Bool NArith.
Import ListNotations.
Open Scope string_scope.

Fixpoint chars (s : string) : list ascii :=
  match s with EmptyString => [] | String c r => c :: chars r end.
(** none of the characters of [bad] occurs in [s] *)
Definition free_of (bad s : string) : Prop := forall c, In c (chars s) -> ~ In c (chars bad).

(** lower case letters, digits, and "+-." *)
Definition scheme_letter (c : ascii) : Prop :=
  In c (chars "abcdefghijklmnopqrstuvwxyz0123456789+-.").

(** the text of an absolute url: [scheme://host path ?query #fragment], without "?" or "#" when the
    part is empty *)
Definition abs_url (scheme host path query : string) : string :=
  scheme ++ "://" ++ host ++ path ++ (match query with "" => "" | _ => "?" ++ query end).

(** no two consecutive slashes *)
Definition no_double_slash (s : string) : Prop := forall a b, s <> a ++ "//" ++ b.

(** a clean absolute url: a non-empty lower case scheme, a host, an absolute (or empty) path without
    "?#;" and a query without "#".  The host may be empty for file urls, as in file:///a/b, whose
    path then has no two consecutive slashes. *)
Definition clean_url (scheme host path query : string) : Prop :=
  scheme <> "" /\ Forall scheme_letter (chars scheme) /\
  free_of "/?#" host /\ free_of "?#;" path /\ free_of "#" query /\
  (path = "" \/ exists p, path = String "/" p) /\
  (host <> "" \/ (scheme = "file" /\ no_double_slash path)).

(** a reference which starts with "scheme:" (and is not of the form name:digits, which Python reads
    as host:port) *)
Definition scheme_char (c : ascii) : Prop :=
  In c (chars "abcdefghijklmnopqrstuvwxyzABCDEFGHIJKLMNOPQRSTUVWXYZ0123456789+-.").
Definition has_scheme (s : string) : Prop :=
  exists pre rest, s = pre ++ ":" ++ rest /\ pre <> "" /\ Forall scheme_char (chars pre) /\
    (pre = "http" \/ rest = "" \/ ~ Forall (fun c => In c (chars "0123456789")) (chars rest)).

(** Path segments: "." stays, two or more dots go up. *)
Definition here (s : string) : Prop := s = ".".
Definition up (s : string) : Prop := 2 <= String.length s /\ Forall (fun c => c = "."%char) (chars s).
Definition plain (s : string) : Prop := ~ here s /\ ~ up s.

(** one rewriting step of dot-segment removal, anywhere in the path *)
Inductive dot_step : list string -> list string -> Prop :=
| ds_here a s b : here s -> dot_step (a ++ s :: b) (a ++ b)
| ds_up a x s b : plain x -> up s -> dot_step (a ++ x :: s :: b) (a ++ b)
| ds_root s b : up s -> dot_step (s :: b) b.
Inductive dot_steps : list string -> list string -> Prop :=
| dss_refl l : dot_steps l l
| dss_step a b c : dot_step a b -> dot_steps b c -> dot_steps a c.
(** [out] is the path [segs] with all dot segments removed *)
Definition dots_removed (segs out : list string) : Prop :=
  dot_steps segs out /\ Forall plain out.

(** path text of a list of segments *)
Fixpoint slash_path (segs : list string) : string :=
  match segs with [] => "" | s :: r => "/" ++ s ++ slash_path r end.

(** the path text, "/" for no segments *)
Definition path_of (out : list string) : string := match out with [] => "/" | _ => slash_path out end.
(** a path segment: free of the characters which delimit url parts *)
Definition seg_ok (s : string) : Prop := free_of "/?#;" s.

(** with / without a trailing resp. leading slash *)
Definition opt_slash_r (b : bool) (p : string) : string := if b then p ++ "/" else p.
Definition opt_slash_l (b : bool) (n : string) : string := if b then "/" ++ n else n.

(** a fragment, without "#" when empty *)
Definition frag (jp : string) : string := match jp with "" => "" | _ => "#" ++ jp end.

Definition valid_ext (e : string) : Prop := e = ".json" \/ e = ".yaml" \/ e = ".yml".

(** a relative reference made of path segments: a/b/c *)
Fixpoint rel_path (segs : list string) : string :=
  match segs with [] => "" | [s] => s | s :: r => s ++ "/" ++ rel_path r end.
