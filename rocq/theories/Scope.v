(** * Scope names: model of [scope_compose], [scope_split] and [ScopeDict]. *)
From Coq Require Import String Ascii List Bool Arith.
From Verif Require Import PyStr PyVal.
Import ListNotations.
Open Scope string_scope.

(** [consts.SCOPE_SEPARATOR] -- pyopenapi/consts.py:21 *)
Definition SCOPE_SEPARATOR : string := "!##!".

(** truthiness of an optional string *)
Definition truthy_opt (o : option string) : bool :=
  match o with Some s => truthy_str s | None => false end.

(** [scope_compose(scope, name, sep)] -- pyopenapi/utils.py:15-31 *)
Definition scope_compose (scope name : option string) (sep : string) : option string :=
  let new_scope := match name with
                   | None => scope
                   | Some _ => if truthy_opt scope then scope else name
                   end in
  match scope, name with
  | Some s, Some n => if truthy_str s && truthy_str n then Some (s ++ sep ++ n) else new_scope
  | _, _ => new_scope
  end.

(** [scope_split(scope, sep)] -- pyopenapi/utils.py:34-41; an empty separator makes [str.split]
    raise ValueError *)
Definition scope_split (scope : option string) (sep : string) : res (list (option string)) :=
  match scope with
  | Some s =>
      if truthy_str s then
        (if truthy_str sep then Ok (map Some (split_str sep s)) else Err ValueError)
      else Ok [None]
  | None => Ok [None]
  end.

(** keys accepted by [ScopeDict.__getitem__]: a string or a tuple of scope names *)
Inductive scope_key := KName (k : string) | KTuple (ks : list (option string)).

(** the key actually looked up: [reduce(scope_compose, keys)] for a tuple (TypeError for the empty
    tuple) -- pyopenapi/utils.py:73-75 *)
Definition scope_key_text (sep : string) (key : scope_key) : res (option string) :=
  match key with
  | KName k => Ok (Some k)
  | KTuple [] => Err TypeError
  | KTuple (k :: ks) => Ok (fold_left (fun a b => scope_compose a b sep) ks k)
  end.

(** [ScopeDict.__getitem__] -- pyopenapi/utils.py:64-99.  [endswith(None)] raises TypeError;
    [rsplit('')] raises ValueError, the same class as the "Multiple occurrence" error. *)
Definition scopedict_get {A} (sep : string) (d : list (string * A)) (key : scope_key) : res A :=
  k0 <- scope_key_text sep key ;;
  match k0 with
  | None => match d with [] => Err KeyError | _ => Err TypeError end
  | Some k =>
      match lookup k d with
      | Some v => Ok v
      | None =>
          let get_one r := match lookup r d with Some v => Ok v | None => Err KeyError end in
          match filter (endswith k) (keys d) with
          | [] => Err KeyError
          | [r] => get_one r
          | ret =>
              if truthy_str sep then
                match filter (fun r => String.eqb (rsplit_last sep r) (rsplit_last sep k)) ret with
                | [r] => get_one r
                | _ => Err ValueError
                end
              else Err ValueError
          end
      end
  end.
