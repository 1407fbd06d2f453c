(** * Response codes of YAML documents: model of [YamlFixer] and of the order of the scans. *)
From Coq Require Import String List Bool Arith ZArith.
From Verif Require Import PyStr PyVal Jp Obj.
Import ListNotations.
Open Scope string_scope.

(** keys of a dict read from YAML: strings, integers, booleans (instances of [int] in Python) and null;
    floats and dates are left out *)
Inductive ykey := KStr (s : string) | KInt (z : Z) | KBool (b : bool) | KNull.
Definition ykey_eqb (a b : ykey) : bool :=
  match a, b with
  | KStr x, KStr y => String.eqb x y
  | KInt x, KInt y => Z.eqb x y
  | KBool x, KBool y => Bool.eqb x y
  | KNull, KNull => true
  | _, _ => false
  end.
(** a map object: its path and its elements; the elements are responses or references *)
Definition ymap := list (ykey * obj).
Fixpoint ylookup (k : ykey) (m : ymap) : option obj :=
  match m with [] => None | (k', o) :: m' => if ykey_eqb k k' then Some o else ylookup k m' end.
(** [responses[k] = resp] -- pyopenapi/migration/spec/obj.py:460-463: keeps the place of a known key *)
Fixpoint yset (k : ykey) (o : obj) (m : ymap) : ymap :=
  match m with
  | [] => [(k, o)]
  | (k', o') :: m' => if ykey_eqb k k' then (k', o) :: m' else (k', o') :: yset k o m'
  end.
(** [str(k)] of an integer *)
Definition z_dec (z : Z) : string := if Z.ltb z 0 then "-" ++ nat_dec (Z.to_nat (- z)) else nat_dec (Z.to_nat z).
(** [str(k) if isinstance(k, six.integer_types) else k] -- versions/v2_0/scanner/yaml.py:29-32 *)
Definition text_key (k : ykey) : ykey :=
  match k with
  | KInt z => KStr (z_dec z)
  | KBool b => KStr (if b then "True" else "False")
  | _ => k
  end.
(** the loop -- versions/v2_0/scanner/yaml.py:27-32 *)
Definition fix_keys (m : ymap) : ymap := fold_left (fun acc kv => yset (text_key (fst kv)) (snd kv) acc) m [].
(** [YamlFixer._op] -- versions/v2_0/scanner/yaml.py:19-33: the [responses] of an operation (path and
    elements); the new map has the same path and replaces the old one *)
Definition fix_op (responses : option (option string * ymap)) : option (option string * ymap) :=
  match responses with None => None | Some (p, m) => Some (p, fix_keys m) end.

(** The children of an operation which are in its [responses] -- [get_children], migration/spec/obj.py:699-720
    with [jp_compose([name, child_name])], utils.py:116-126: a key that is no string has no [replace].
    Every response is an object. *)
Definition response_children (m : ymap) : res (list (string * obj)) :=
  mapM (fun kv => match fst kv with KStr k => Ok (jp_join ["responses"; k] None, snd kv) | _ => Err AttributeError end) m.
(** the part of [upgrade] before references are resolved, as far as it concerns one operation: first the
    scan with [NormalizeRef] over all objects, then the scan with [YamlFixer], which stops at
    operations -- versions/v2_0/main.py:30-33 *)
Definition first_scans (responses : option (option string * ymap)) : res (option (option string * ymap)) :=
  _ <- match responses with None => Ok [] | Some (_, m) => response_children m end ;;
  Ok (fix_op responses).
