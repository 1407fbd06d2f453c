(** * Merging path items: model of [_merge_path_item]. *)
From Coq Require Import String List Bool Arith.
From Verif Require Import PyStr PyVal Jp Obj Deref.
Import ListNotations.
Open Scope string_scope.

(** What the function sees of the world.  Identity of objects is a number ([guard.update] compares
    identity, utils.py:109-113); [w_nref n] is [attrs.normalized_ref] of the object [n];
    [w_answer i r] is the answer of the [i]-th call of [app.resolve_obj], for the reference [r]
    ([None]: a falsy object).  The answers of different calls for the same reference may differ, since
    resolving loads and caches documents. *)
Record world := mk_world { w_obj : nat -> obj; w_nref : nat -> option string; w_answer : nat -> string -> res (option nat) }.

(** the while loop -- pyopenapi/migration/versions/comm.py:22-41 *)
Fixpoint merge_loop (fuel : nat) (T : ctable) (w : world) (i : nat) (visited : list nat) (fin : obj) (cur : option string) : res obj :=
  match fuel with
  | O => Err OutOfFuel
  | S f =>
      match cur with
      | None => Ok fin
      | Some r =>
          if truthy_str r then
            match w_answer w i r with
            | Err e => Err e
            | Ok None => Err PyException
            | Ok (Some n) =>
                match guard_update visited n with
                | Err CycleDetectionError => Ok fin
                | Err e => Err e
                | Ok v => m <- merge_children T fin (w_obj w n) ;; merge_loop f T w (S i) v m (w_nref w n)
                end
            end
          else Ok fin
      end
  end.

(** [_merge_path_item(obj, path, ...)] with [parser] = PathItem -- pyopenapi/migration/versions/comm.py:8-43.
    Left out: the message of the exception, and objects which are no path items ([merge_children] of
    Obj.v looks at the children only). *)
Definition merge_path_item (fuel : nat) (T : ctable) (w : world) (start : nat) : res obj :=
  v <- guard_update [] start ;;
  empty <- construct T (JDict []) (BCls "PathItem") None [] ;;
  m <- merge_children T empty (w_obj w start) ;;
  merge_loop fuel T w 0 v m (w_nref w start).
