(** * Python values of the model: JSON documents and exceptions. *)
From Coq Require Import String Ascii List Bool Arith ZArith QArith.
From Verif Require Import PyStr.
Import ListNotations.
Open Scope string_scope.

(** Exception classes raised by /repo/pyopenapi (errs.py:4-18 and Python built-ins).
    [PyException] is a bare [Exception(...)]. [OutOfFuel] is not a Python exception: it marks the
    exhaustion of the fuel of a model function and is excluded by the theorems. *)
Inductive exn :=
| KeyError | ValueError | TypeError | IndexError | AttributeError
| SchemaError | CycleDetectionError | FieldNotExist | JsonReferenceError
| NotImplementedError | StopIteration | PyException | OutOfFuel.

(** Result of a Python computation: a value or a raised exception. *)
Inductive res (A : Type) : Type :=
| Ok (a : A)
| Err (e : exn).
Arguments Ok {A} a.
Arguments Err {A} e.

Definition bind {A B} (r : res A) (f : A -> res B) : res B :=
  match r with Ok a => f a | Err e => Err e end.
Definition rmap {A B} (f : A -> B) (r : res A) : res B :=
  match r with Ok a => Ok (f a) | Err e => Err e end.
Notation "x <- r ;; k" := (bind r (fun x => k)) (at level 61, r at next level, right associativity).

(** [for x in l: ret.append(f(x))]; stops at the first exception *)
Fixpoint mapM {A B} (f : A -> res B) (l : list A) : res (list B) :=
  match l with
  | [] => Ok []
  | x :: l' => y <- f x ;; ys <- mapM f l' ;; Ok (y :: ys)
  end.
(** [for x in l: acc = f(acc, x)]; stops at the first exception *)
Fixpoint foldM {A B} (f : B -> A -> res B) (l : list A) (acc : B) : res B :=
  match l with
  | [] => Ok acc
  | x :: l' => acc' <- f acc x ;; foldM f l' acc'
  end.

(** JSON values as produced by [json.loads] / [yaml.load].  A dict is an association list in
    insertion order; a dict never has two entries with the same key, see [nodup_keys].  A float is
    the fraction it denotes (NaN and infinities are not modelled). *)
Inductive json :=
| JNull
| JBool (b : bool)
| JInt (z : Z)
| JFloat (q : Q)
| JStr (s : string)
| JList (l : list json)
| JDict (d : list (string * json)).

(** Python dict operations on association lists. *)
Section Assoc.
  Context {A : Type}.
  (** [d.get(k)] *)
  Fixpoint lookup (k : string) (d : list (string * A)) : option A :=
    match d with
    | [] => None
    | (k', v) :: d' => if String.eqb k k' then Some v else lookup k d'
    end.
  (** [k in d] *)
  Definition mem (k : string) (d : list (string * A)) : bool :=
    match lookup k d with Some _ => true | None => false end.
  (** [d[k] = v]: replaces in place, or appends a new key *)
  Fixpoint dict_set (k : string) (v : A) (d : list (string * A)) : list (string * A) :=
    match d with
    | [] => [(k, v)]
    | (k', v') :: d' => if String.eqb k k' then (k', v) :: d' else (k', v') :: dict_set k v d'
    end.
  (** [del d[k]] / [d.pop(k, None)] *)
  Fixpoint dict_del (k : string) (d : list (string * A)) : list (string * A) :=
    match d with
    | [] => []
    | (k', v') :: d' => if String.eqb k k' then d' else (k', v') :: dict_del k d'
    end.
  Definition keys (d : list (string * A)) : list string := map fst d.
End Assoc.
(** [d.update(e)] *)
Definition dict_update {A} (d e : list (string * A)) : list (string * A) :=
  fold_left (fun acc kv => dict_set (fst kv) (snd kv) acc) e d.

(** Python truthiness of a JSON value: [if v:] *)
Definition truthy (v : json) : bool :=
  match v with
  | JNull => false
  | JBool b => b
  | JInt z => negb (Z.eqb z 0)
  | JFloat q => negb (Qeq_bool q 0)
  | JStr s => truthy_str s
  | JList l => match l with [] => false | _ => true end
  | JDict d => match d with [] => false | _ => true end
  end.

Definition is_dict (v : json) : bool := match v with JDict _ => true | _ => false end.
Definition is_list (v : json) : bool := match v with JList _ => true | _ => false end.
Definition is_strv (v : json) : bool := match v with JStr _ => true | _ => false end.
Definition is_null (v : json) : bool := match v with JNull => true | _ => false end.
