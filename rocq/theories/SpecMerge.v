(** * Specification of chains of path items. *)
From Coq Require Import String List.
From Verif Require Import PyVal Obj SpecTables MergePath.
Import ListNotations.
Open Scope string_scope.

(** [leads_to w i seen cur l]: following the reference [cur], the [i]-th to be resolved, leads through
    the objects [l], until there is no reference or an object seen before comes again *)
Inductive leads_to (w : world) : nat -> list nat -> option string -> list nat -> Prop :=
| lt_end i seen : leads_to w i seen None []
| lt_empty i seen : leads_to w i seen (Some "") []
| lt_cycle i seen r n : r <> "" -> w_answer w i r = Ok (Some n) -> In n seen -> leads_to w i seen (Some r) []
| lt_next i seen r n l : r <> "" -> w_answer w i r = Ok (Some n) -> ~ In n seen ->
    leads_to w (S i) (n :: seen) (w_nref w n) l -> leads_to w i seen (Some r) (n :: l).

(** [nearest T name os a]: [a] is the attribute [name] of the first of the objects that has it (truthy),
    or None *)
Inductive nearest (T : ctable) (name : string) : list obj -> obj -> Prop :=
| near_none : nearest T name [] (OPrim JNull)
| near_here o os a : getattr T o name = Ok a -> truthy_obj a = true -> nearest T name (o :: os) a
| near_later o os a b : getattr T o name = Ok a -> truthy_obj a = false -> nearest T name os b -> nearest T name (o :: os) b.

Definition is_path_item (o : obj) : Prop := exists p s kids, o = OObj "PathItem" p s kids.
(** a path item none of whose children is a (truthy) value that is no object *)
Definition has_objects (T : ctable) (o : obj) : Prop :=
  forall cd ch j, lookup "PathItem" T = Some cd -> In ch (c_children cd) -> getattr T o (ch_name ch) = Ok (OPrim j) -> truthy j = false.
(** [breaks w i seen cur]: following the reference [cur] in the same way comes to a reference that
    cannot be resolved *)
Inductive breaks (w : world) : nat -> list nat -> option string -> Prop :=
| br_here i seen r : r <> "" -> w_answer w i r = Ok None -> breaks w i seen (Some r)
| br_next i seen r n : r <> "" -> w_answer w i r = Ok (Some n) -> ~ In n seen ->
    breaks w (S i) (n :: seen) (w_nref w n) -> breaks w i seen (Some r).
