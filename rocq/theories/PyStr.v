(** * Python string primitives used by the model.

    Python [str] is modelled by Coq's [string] (a sequence of bytes: the UTF-8 encoding).  All the
    separators and patterns which /repo searches for are ASCII, and on UTF-8 the byte-wise and the
    code-point-wise versions of the functions below agree for ASCII patterns.

    This file models built-in methods of Python's [str]; the call sites in /repo are named at each
    definition. *)
From Coq Require Import String Ascii List Bool Arith NArith.
Import ListNotations.
Open Scope string_scope.

(** [s.startswith(p)] -- pyopenapi/migration/store.py:54,75,137,150,165,175 *)
Fixpoint startswith (p s : string) : bool :=
  match p, s with
  | EmptyString, _ => true
  | String a p', String b s' => if Ascii.eqb a b then startswith p' s' else false
  | String _ _, EmptyString => false
  end.

(** [s[n:]] for [n >= 0] -- pyopenapi/migration/store.py:58,76,150,173; pyopenapi/utils.py:229,293 *)
Fixpoint sdrop (n : nat) (s : string) : string :=
  match n, s with
  | O, _ => s
  | S n', EmptyString => EmptyString
  | S n', String _ s' => sdrop n' s'
  end.

(** [s[:n]] for [n >= 0] -- pyopenapi/utils.py:259 *)
Fixpoint stake (n : nat) (s : string) : string :=
  match n, s with
  | O, _ => EmptyString
  | S n', EmptyString => EmptyString
  | S n', String c s' => String c (stake n' s')
  end.

(** [s.endswith(suf)] -- pyopenapi/utils.py:81,215,487 *)
Definition endswith (suf s : string) : bool :=
  Nat.leb (String.length suf) (String.length s)
  && String.eqb (sdrop (String.length s - String.length suf) s) suf.

(** truthiness of a [str]: [if s:] *)
Definition truthy_str (s : string) : bool :=
  match s with EmptyString => false | _ => true end.

(** [c in s] for a one character [c] *)
Fixpoint contains_char (c : ascii) (s : string) : bool :=
  match s with
  | EmptyString => false
  | String a s' => Ascii.eqb a c || contains_char c s'
  end.

(** [s.find(c)] for a one character [c]; [None] is Python's [-1] -- pyopenapi/utils.py:258 *)
Fixpoint find_char (c : ascii) (s : string) : option nat :=
  match s with
  | EmptyString => None
  | String a s' =>
      if Ascii.eqb a c then Some 0
      else match find_char c s' with Some n => Some (S n) | None => None end
  end.

(** [s.rfind(c)] for a one character [c] (CPython [os.path.dirname], [_splitparams]) *)
Fixpoint rfind_char (c : ascii) (s : string) : option nat :=
  match s with
  | EmptyString => None
  | String a s' =>
      match rfind_char c s' with
      | Some n => Some (S n)
      | None => if Ascii.eqb a c then Some 0 else None
      end
  end.

(** [s.split(c)] for a one character [c] -- pyopenapi/utils.py:139,293 *)
Fixpoint split_char (c : ascii) (s : string) : list string :=
  match s with
  | EmptyString => [EmptyString]
  | String a s' =>
      if Ascii.eqb a c then EmptyString :: split_char c s'
      else match split_char c s' with
           | [] => [String a EmptyString]
           | h :: t => String a h :: t
           end
  end.

(** [s.split(c, n)]: at most [n] splits -- pyopenapi/utils.py:139 with [max_split >= 0] *)
Fixpoint splitn_char (c : ascii) (n : nat) (s : string) : list string :=
  match n with
  | O => [s]
  | S n' =>
      match find_char c s with
      | None => [s]
      | Some i => stake i s :: splitn_char c n' (sdrop (S i) s)
      end
  end.

(** [s.split(sep)] for a non-empty [sep] (leftmost, non overlapping occurrences)
    -- pyopenapi/utils.py:41.  [skip] counts the characters of a matched separator which are
    still to be dropped. *)
Fixpoint split_str_aux (sep : string) (skip : nat) (s : string) : list string :=
  match s with
  | EmptyString => [EmptyString]
  | String a s' =>
      match skip with
      | S k => split_str_aux sep k s'
      | O =>
          if startswith sep s
          then EmptyString :: split_str_aux sep (String.length sep - 1) s'
          else match split_str_aux sep 0 s' with
               | [] => [String a EmptyString]
               | h :: t => String a h :: t
               end
      end
  end.
Definition split_str (sep s : string) : list string := split_str_aux sep 0 s.

(** text after the last occurrence of [sep], if any *)
Fixpoint after_last (sep s : string) : option string :=
  match s with
  | EmptyString => None
  | String _ s' =>
      match after_last sep s' with
      | Some r => Some r
      | None => if startswith sep s then Some (sdrop (String.length sep) s) else None
      end
  end.

(** [s.rsplit(sep, 1)[-1]] for a non-empty [sep] -- pyopenapi/utils.py:90,92 *)
Definition rsplit_last (sep s : string) : string :=
  match after_last sep s with Some r => r | None => s end.

(** [s.replace(a, r)] for a one character [a] -- pyopenapi/utils.py:123 *)
Fixpoint replace1 (a : ascii) (r : string) (s : string) : string :=
  match s with
  | EmptyString => EmptyString
  | String x s' => if Ascii.eqb x a then r ++ replace1 a r s' else String x (replace1 a r s')
  end.

(** [s.replace(ab, r)] for a two character pattern [ab], leftmost and non overlapping
    -- pyopenapi/utils.py:136,137 *)
Fixpoint replace2 (a b : ascii) (r : string) (s : string) : string :=
  match s with
  | EmptyString => EmptyString
  | String x EmptyString => String x EmptyString
  | String x (String y s'' as s') =>
      if Ascii.eqb x a && Ascii.eqb y b then r ++ replace2 a b r s''
      else String x (replace2 a b r s')
  end.

(** [sep.join(l)] -- pyopenapi/utils.py:126 *)
Definition join (sep : string) (l : list string) : string := String.concat sep l.

(** [c.lower()] / [s.lower()] restricted to ASCII letters -- v1_2/scanner/upgrade.py:35,192 *)
Definition lower_char (c : ascii) : ascii :=
  let n := N_of_ascii c in
  if (65 <=? n)%N && (n <=? 90)%N then ascii_of_N (n + 32) else c.
Fixpoint lower (s : string) : string :=
  match s with
  | EmptyString => EmptyString
  | String c s' => String (lower_char c) (lower s')
  end.

(** every character satisfies [p] *)
Fixpoint all_chars (p : ascii -> bool) (s : string) : bool :=
  match s with
  | EmptyString => true
  | String c s' => p c && all_chars p s'
  end.

(** [s[0] == c] guarded by [s and ...] -- pyopenapi/utils.py:228,232 *)
Definition first_is (c : ascii) (s : string) : bool :=
  match s with String a _ => Ascii.eqb a c | EmptyString => false end.
(** [s[-1] == c] guarded by [s and ...] -- pyopenapi/utils.py:227 *)
Fixpoint last_is (c : ascii) (s : string) : bool :=
  match s with
  | EmptyString => false
  | String a EmptyString => Ascii.eqb a c
  | String _ s' => last_is c s'
  end.

(** [os.path.dirname(p)] of CPython's posixpath: head = p[:p.rfind('/')+1]; if head and
    head != '/'*len(head): head = head.rstrip('/') -- pyopenapi/utils.py:217,269 *)
Fixpoint rstrip_char (c : ascii) (s : string) : string :=
  match s with
  | EmptyString => EmptyString
  | String a s' =>
      match rstrip_char c s' with
      | EmptyString => if Ascii.eqb a c then EmptyString else String a EmptyString
      | r => String a r
      end
  end.
Definition dirname (p : string) : string :=
  match rfind_char "/" p with
  | None => EmptyString
  | Some i =>
      let head := stake (S i) p in
      if all_chars (Ascii.eqb "/") head then head else rstrip_char "/" head
  end.

(** [os.path.splitext(p)[1]] of CPython's genericpath._splitext with sep '/' and extsep '.':
    the text from the last dot of the last component on, unless only dots precede it there
    -- pyopenapi/utils.py:475,480 *)
Definition last_component (p : string) : string :=
  match rfind_char "/" p with None => p | Some i => sdrop (S i) p end.
Definition splitext_ext (p : string) : string :=
  let f := last_component p in
  match rfind_char "." f with
  | None => EmptyString
  | Some i =>
      if all_chars (Ascii.eqb ".") (stake i f) then EmptyString else sdrop i f
  end.

(** decimal text of a natural number, [str(i)] -- migration/spec/obj.py:218,293,300 *)
Definition digit (n : nat) : ascii := ascii_of_nat (48 + n).
Fixpoint nat_dec_aux (fuel n : nat) (acc : string) : string :=
  match fuel with
  | O => acc
  | S f =>
      let acc' := String (digit (n mod 10)) acc in
      match n / 10 with O => acc' | S _ as q => nat_dec_aux f q acc' end
  end.
Definition nat_dec (n : nat) : string := nat_dec_aux (S n) n EmptyString.
