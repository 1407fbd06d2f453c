(** * Model of [compare_container]. *)
From Coq Require Import String Ascii List Bool Arith ZArith QArith.
From Verif Require Import PyStr PyVal Jp.
Import ListNotations.
Close Scope Q_scope. Open Scope string_scope. Open Scope nat_scope.

(** [type(x)] of a JSON value *)
Inductive pytype := TNone | TBool | TInt | TFloat | TStr | TList | TDict.
Definition type_of (j : json) : pytype :=
  match j with
  | JNull => TNone | JBool _ => TBool | JInt _ => TInt | JFloat _ => TFloat
  | JStr _ => TStr | JList _ => TList | JDict _ => TDict
  end.
Definition type_eqb (a b : pytype) : bool :=
  match a, b with
  | TNone, TNone | TBool, TBool | TInt, TInt | TFloat, TFloat | TStr, TStr | TList, TList | TDict, TDict => true
  | _, _ => false
  end.

(** numbers compare by value in Python: [True == 1 == 1.0] *)
Definition num_value (j : json) : option Q :=
  match j with
  | JBool b => Some (if b then 1%Q else 0%Q)
  | JInt z => Some (inject_Z z)
  | JFloat q => Some q
  | _ => None
  end.

(** Python's [==] on JSON values *)
Fixpoint py_eq (a b : json) {struct a} : bool :=
  match a, b with
  | JNull, JNull => true
  | JStr s, JStr t => String.eqb s t
  | JList l, JList m =>
      (fix go (l m : list json) {struct l} : bool :=
         match l, m with
         | [], [] => true
         | x :: l', y :: m' => py_eq x y && go l' m'
         | _, _ => false
         end) l m
  | JDict d, JDict e =>
      Nat.eqb (length d) (length e) &&
      (fix go (d : list (string * json)) : bool :=
         match d with
         | [] => true
         | (k, x) :: d' => match lookup k e with Some y => py_eq x y && go d' | None => false end
         end) d
  | _, _ =>
      match num_value a, num_value b with
      | Some p, Some q => Qeq_bool p q
      | _, _ => false
      end
  end.

(** Python's [<] on JSON values: TypeError for values which have no order *)
Definition Qltb (p q : Q) : bool := negb (Qle_bool q p).
Fixpoint py_lt (a b : json) {struct a} : res bool :=
  match a, b with
  | JStr s, JStr t => Ok (String.ltb s t)
  | JList l, JList m =>
      (fix go (l m : list json) {struct l} : res bool :=
         match l, m with
         | [], [] => Ok false
         | [], _ :: _ => Ok true
         | _ :: _, [] => Ok false
         | x :: l', y :: m' => if py_eq x y then go l' m' else py_lt x y
         end) l m
  | _, _ =>
      match num_value a, num_value b with
      | Some p, Some q => Ok (Qltb p q)
      | _, _ => Err TypeError
      end
  end.

(** [sorted(l)]: a stable insertion sort.  CPython's timsort gives the same list whenever [<] is a
    total preorder on [l]; when some pairs are not comparable, timsort may not compare them and so
    may not raise where this model raises TypeError. -- pyopenapi/utils.py:424 *)
Fixpoint py_insert (x : json) (l : list json) : res (list json) :=
  match l with
  | [] => Ok [x]
  | y :: l' => b <- py_lt x y ;; if (b : bool) then Ok (x :: l) else (r <- py_insert x l' ;; Ok (y :: r))
  end.
Definition py_sorted (l : list json) : res (list json) := foldM (fun acc x => py_insert x acc) l [].

(** an entry of the returned list -- pyopenapi/utils.py:335-338 *)
Inductive what := WKey | WLen (a b : nat) | WType (a b : pytype) | WValue (a b : json).
Definition diff := (string * what)%type.

(** [is_singular] folded over a non-empty list -- pyopenapi/utils.py:394-403 *)
Definition singular (l : list json) : res pytype :=
  match l with
  | [] => Err TypeError
  | x :: r => if forallb (fun y => type_eqb (type_of y) (type_of x)) r then Ok (type_of x) else Err ValueError
  end.

Definition is_int_type (t : pytype) : bool := match t with TInt | TBool => true | _ => false end.

(** the [while True] of -- pyopenapi/utils.py:406-421 *)
Definition same_elem_type (a b : pytype) : bool :=
  type_eqb a b || (is_int_type a && is_int_type b).

Definition in_strs (k : string) (l : list string) : bool := existsb (String.eqb k) l.

(** keys considered by [_dict_] -- pyopenapi/utils.py:345-354 *)
Definition visible_keys (include exclude : list string) (d : list (string * json)) : list string :=
  let ks := keys d in
  let ks := match include with [] => ks | _ => filter (fun k => in_strs k include) ks end in
  match exclude with [] => ks | _ => filter (fun k => negb (in_strs k exclude)) ks end.

(** nesting depth, the fuel of the recursion *)
Fixpoint jdepth (j : json) : nat :=
  match j with
  | JList l => S (fold_right (fun x m => Nat.max (jdepth x) m) 0 l)
  | JDict d => S (fold_right (fun kv m => Nat.max (jdepth (snd kv)) m) 0 d)
  | _ => 0
  end.

(** [enumerate(zip(sorted_src, sorted_dst))] -- pyopenapi/utils.py:430 *)
Fixpoint zip_from {A B} (i : nat) (l : list A) (m : list B) : list (nat * A * B) :=
  match l, m with
  | x :: l', y :: m' => (i, x, y) :: zip_from (S i) l' m'
  | _, _ => []
  end.

(** [compare_container(src, dst, ret, base_path, exclude, include)] -- pyopenapi/utils.py:326-461.
    Differences are returned in the order of the keys; Python iterates over sets there, in an
    unspecified order. *)
Fixpoint compare_rec (fuel : nat) (include exclude : list string) (base : string) (src dst : json)
  : res (list diff) :=
  match fuel with
  | O => Err OutOfFuel
  | S f =>
      match src, dst with
      | JDict d, JDict e =>
          let ks := visible_keys include exclude d in
          let kd := visible_keys include exclude e in
          let added := map (fun k => (jp_join [k] (Some base), WKey)) (filter (fun k => negb (in_strs k ks)) kd) in
          let removed := map (fun k => (jp_join [k] (Some base), WKey)) (filter (fun k => negb (in_strs k kd)) ks) in
          subs <- mapM (fun k => match lookup k d, lookup k e with
                                 | Some x, Some y => compare_rec f include exclude (jp_join [k] (Some base)) x y
                                 | _, _ => Err KeyError
                                 end) (filter (fun k => in_strs k kd) ks) ;;
          Ok (added ++ removed ++ List.concat subs)%list
      | JDict _, _ => Ok [(base, WType (type_of src) (type_of dst))]
      | JList l, JList m =>
          if negb (Nat.eqb (length l) (length m)) then Ok [(base, WLen (length l) (length m))]
          else match l with
               | [] => Ok []
               | _ =>
                   ts <- singular l ;;
                   td <- singular m ;;
                   if same_elem_type ts td then
                     lm <- (if type_eqb ts TDict then Ok (l, m)
                            else sl <- py_sorted l ;; sm <- py_sorted m ;; Ok (sl, sm)) ;;
                     subs <- mapM (fun t => compare_rec f include exclude
                                              (jp_join [nat_dec (fst (fst t))] (Some base)) (snd (fst t)) (snd t))
                                  (zip_from 0 (fst lm) (snd lm)) ;;
                     Ok (List.concat subs)
                   else Ok [(base, WType ts td)]
               end
      | JList _, _ => Ok [(base, WType (type_of src) (type_of dst))]
      | _, _ => if py_eq src dst then Ok [] else Ok [(base, WValue src dst)]
      end
  end.
Definition compare_container (src dst : json) (exclude include : list string) : res (list diff) :=
  compare_rec (S (jdepth src)) include exclude "" src dst.
