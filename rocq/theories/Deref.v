(** * Dereferencing: model of [CycleGuard], [deref] and [final]. *)
From Coq Require Import List Bool Arith.
From Verif Require Import PyVal.
Import ListNotations.

(** An object as [deref] sees it.  Object identity is a number, an index into the heap
    ([Base2Obj] defines no [__eq__], so [obj in self.__visited] of utils.py:110 compares identity).
    - [n_ref]: [getattr(cur, 'ref', None) != None] -- pyopenapi/utils.py:156
    - [n_attrs]: [cur.get_attrs('migration')], [None] if there is none -- utils.py:157; the inner
      option is [attrs.ref_obj] -- utils.py:160
    - [n_final]: [attrs.final_obj] -- utils.py:171 *)
Record node := mk_node { n_ref : bool; n_attrs : option (option nat); n_final : option nat }.
Definition heap := list node.

(** [CycleGuard.update(obj)] -- pyopenapi/utils.py:109-113 *)
Definition guard_update (visited : list nat) (i : nat) : res (list nat) :=
  if existsb (Nat.eqb i) visited then Err CycleDetectionError else Ok (visited ++ [i]).

(** the while loop -- pyopenapi/utils.py:156-166; [cur] is already in the guard.  A dangling id
    cannot exist in Python; it ends the loop here. *)
Fixpoint deref_loop (fuel : nat) (h : heap) (visited : list nat) (cur : nat) : res (nat * list nat) :=
  match fuel with
  | O => Err OutOfFuel
  | S f =>
      match nth_error h cur with
      | None => Ok (cur, visited)
      | Some n =>
          if n_ref n then
            match n_attrs n with
            | None => Ok (cur, visited)
            | Some None => Ok (cur, visited)
            | Some (Some nxt) =>
                v' <- guard_update visited nxt ;;
                deref_loop f h v' nxt
            end
          else Ok (cur, visited)
      end
  end.

(** [deref(obj, guard=None)] -- pyopenapi/utils.py:151-166; returns the object and the guard *)
Definition deref (h : heap) (guard : list nat) (obj : nat) : res (nat * list nat) :=
  v <- guard_update guard obj ;;
  deref_loop (S (length h)) h v obj.

(** [final(obj)] -- pyopenapi/utils.py:169-172: AttributeError if there are no migration attributes;
    [obj.ref] truthy is modelled by [n_ref] (an empty "$ref" is not modelled) *)
Definition final (h : heap) (obj : nat) : res nat :=
  match nth_error h obj with
  | None => Ok obj
  | Some n =>
      if n_ref n then
        match n_attrs n with
        | None => Err AttributeError
        | Some _ => Ok (match n_final n with Some f => f | None => obj end)
        end
      else Ok obj
  end.
