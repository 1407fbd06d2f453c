(** * JSON pointers: model of [jp_compose] and [jp_split]. *)
From Coq Require Import String Ascii List Bool Arith.
From Verif Require Import PyStr.
Import ListNotations.
Open Scope string_scope.

(** the [segment] argument: [None], a string, or a list of strings
    -- pyopenapi/utils.py:116-122 *)
Inductive segment := SNone | SStr (s : string) | SList (l : list string).

(** [x.replace('~', '~0').replace('/', '~1')] -- pyopenapi/utils.py:123 *)
Definition jp_encode (x : string) : string := replace1 "/" "~1" (replace1 "~" "~0" x).

(** [segments.insert(0, base)] when [base] is truthy, then ['/'.join(segments)]
    -- pyopenapi/utils.py:123-126 *)
Definition jp_join (segs : list string) (base : option string) : string :=
  let segs' := map jp_encode segs in
  join "/" (match base with
            | Some b => if truthy_str b then b :: segs' else segs'
            | None => segs'
            end).

(** [jp_compose(segment, base=None)] -- pyopenapi/utils.py:116-126; the result is [None] only for
    [segment = None] without base *)
Definition jp_compose (seg : segment) (base : option string) : option string :=
  match seg with
  | SNone => base
  | SStr s => Some (jp_join [s] base)
  | SList l => Some (jp_join l base)
  end.

(** [_decode] -- pyopenapi/utils.py:135-137 *)
Definition jp_decode (x : string) : string := replace2 "~" "0" "~" (replace2 "~" "1" "/" x).

(** [jp_split(jp, max_split=-1)] -- pyopenapi/utils.py:129-139; [max_split = None] is [-1] *)
Definition jp_split_max (jp : option string) (max_split : option nat) : list string :=
  match jp with
  | None => []
  | Some "" => []
  | Some s =>
      map jp_decode (match max_split with
                     | None => split_char "/" s
                     | Some n => splitn_char "/" n s
                     end)
  end.
Definition jp_split (s : string) : list string := jp_split_max (Some s) None.
