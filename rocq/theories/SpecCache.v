(** * Specification vocabulary for children listings over time. *)
From Coq Require Import String List.
From Verif Require Import PyVal Jp Cache.
Import ListNotations.
Open Scope string_scope.

(** [lists h a r]: [r] is the listing of the children [a] has in [h] now: object children under their
    name, the children listed by nested containers under the pointer of both names; caches play no
    role *)
Inductive lists (h : heap) : addr -> listing -> Prop :=
| li_node a n r : at_ h a = Some n -> gathers h (slots n) [] r -> lists h a r
with gathers (h : heap) : list (string * value) -> listing -> listing -> Prop :=
| ga_done acc : gathers h [] acc acc
| ga_prim k t l acc r : gathers h l acc r -> gathers h ((k, VPrim t) :: l) acc r
| ga_object k b l acc r : is_object h b = true -> gathers h l (dict_set k b acc) r -> gathers h ((k, VRef b) :: l) acc r
| ga_nested k b l acc sub r : is_object h b = false -> lists h b sub ->
    gathers h l (fold_left (fun acc kv => dict_set (jp_join [k; fst kv] None) (snd kv) acc) sub acc) r ->
    gathers h ((k, VRef b) :: l) acc r.

(** [encloses h n x]: the container [x] is a child of [n], directly or through other containers *)
Inductive encloses (h : heap) : addr -> addr -> Prop :=
| en_child n nd k x : at_ h n = Some nd -> In (k, VRef x) (slots nd) -> is_object h x = false -> encloses h n x
| en_nested n nd k y x : at_ h n = Some nd -> In (k, VRef y) (slots nd) -> is_object h y = false ->
    encloses h y x -> encloses h n x.

(** what an operation changes *)
Definition target (o : op) : option addr :=
  match o with
  | OpChildren _ => None
  | OpAttach a _ _ | OpAssign a _ _ | OpAppend a _ | OpExtend a _ | OpSetItem a _ _ | OpMerge a _ => Some a
  end.

(** [disciplined h seen os]: no operation of the history changes a container while an object enclosing
    it has been listed since it was last changed itself; and a child is assigned directly only to an
    object that has not been listed since then.  [seen] are the objects listed since their last change. *)
Fixpoint disciplined (fuel : nat) (h : heap) (seen : addr -> Prop) (os : list op) : Prop :=
  match os with
  | [] => True
  | o :: os' =>
      let (h', r) := step fuel h o in
      let through := match o, r with OpAssign _ _ _, _ => False | _, Ok _ => True | _, Err _ => False end in
      match o with
      | OpChildren a =>
          disciplined fuel h' (fun n => seen n \/ n = a \/ encloses h a n) os'
      | _ =>
          (forall x n, target o = Some x -> encloses h n x -> ~ seen n) /\
          (forall x, target o = Some x -> ~ through -> ~ seen x) /\
          disciplined fuel h' (fun n => seen n /\ ~ (through /\ target o = Some n)) os'
      end
  end.
