(** * Model of pyopenapi/migration/store.py: the cache of spec objects and $ref relocation. *)
From Coq Require Import String Ascii List Bool Arith.
From Verif Require Import PyStr PyVal Jp.
Import ListNotations.
Open Scope string_scope. Open Scope nat_scope.

(** ** versions *)

(** distutils [StrictVersion]: major.minor[.patch][a|b number].  The comparison key: the three numbers,
    then the pre-release (a number < b number < no pre-release).  Used at store.py:199-205,
    base.py:234-236, utils.py:512.  A trailing newline, which the regular expression tolerates, is
    rejected here. *)
Definition is_digit (c : ascii) : bool := (48 <=? nat_of_ascii c) && (nat_of_ascii c <=? 57).
Fixpoint take_digits (s : string) : string * string :=
  match s with
  | EmptyString => ("", "")
  | String c s' => if is_digit c then let (d, r) := take_digits s' in (String c d, r) else ("", s)
  end.
Fixpoint digits_value (acc : nat) (s : string) : nat :=
  match s with EmptyString => acc | String c s' => digits_value (acc * 10 + (nat_of_ascii c - 48)) s' end.
Definition number (s : string) : option (nat * string) :=
  let (d, r) := take_digits s in if truthy_str d then Some (digits_value 0 d, r) else None.
Definition ver := list nat.
Definition pre_release (s : string) : option (list nat) :=
  match s with
  | EmptyString => Some [2; 0]
  | String "a" s' => match number s' with Some (n, "") => Some [0; n] | _ => None end
  | String "b" s' => match number s' with Some (n, "") => Some [1; n] | _ => None end
  | _ => None
  end.
Definition strict_version (s : string) : res ver :=
  match number s with
  | Some (a, String "." s1) =>
      match number s1 with
      | Some (b, String "." s2) =>
          match number s2 with
          | Some (c, s3) => match pre_release s3 with Some p => Ok ([a; b; c] ++ p)%list | None => Err ValueError end
          | None => Err ValueError
          end
      | Some (b, s2) => match pre_release s2 with Some p => Ok ([a; b; 0] ++ p)%list | None => Err ValueError end
      | None => Err ValueError
      end
  | _ => Err ValueError
  end.
Fixpoint ver_ltb (a b : ver) : bool :=
  match a, b with
  | x :: a', y :: b' => (x <? y) || ((x =? y) && ver_ltb a' b')
  | [], _ :: _ => true
  | _, _ => false
  end.

(** ** routes *)

(** a route map: targets are strings or nested maps (other types raise at store.py:156-157; they are
    not modelled) *)
Inductive target := RStr (s : string) | RMap (m : list (string * target)).
Definition routes := list (string * target).
Definition falsy_target (t : target) : bool :=
  match t with RStr s => negb (truthy_str s) | RMap [] => true | RMap _ => false end.

(** the inner loop: the longest key which is a prefix -- store.py:134-140.  [not patch_from] holds for
    [None] and for the empty key. *)
Fixpoint best (remain : string) (m : routes) (acc : option (string * target)) : option (string * target) :=
  match m with
  | [] => acc
  | (k, t) :: m' =>
      best remain m'
        (if startswith k remain then
           match acc with
           | None => Some (k, t)
           | Some (k0, _) => if negb (truthy_str k0) || (String.length k0 <? String.length k) then Some (k, t) else acc
           end
         else acc)
  end.
(** the [while True] loop: [None] if no relocation is needed, else (fixed_prefix, patch_from, patch_to)
    -- store.py:129-161; the fuel bounds the nesting of the maps *)
Fixpoint patch_loop (fuel : nat) (m : routes) (fixed remain : string) : res (option (string * string * string)) :=
  match best remain m None with
  | None => Ok None
  | Some (k, t) =>
      if falsy_target t then Ok None
      else match t with
           | RStr s => Ok (Some (fixed, k, s))
           | RMap m' =>
               match fuel with
               | O => Err OutOfFuel
               | S f =>
                   let rest := sdrop (String.length k) remain in
                   patch_loop f m' (fixed ++ (if truthy_str fixed then "/" else "") ++ k)
                              (if startswith "/" rest then sdrop 1 rest else rest)
               end
           end
  end.
Fixpoint target_depth (t : target) : nat :=
  match t with
  | RStr _ => 0
  | RMap m => S (fold_right (fun kt n => Nat.max (target_depth (snd kt)) n) 0 m)
  end.
(** [_patch_jp(jp, routes)] -- store.py:128-177 *)
Definition patch_jp (jp : string) (m : routes) : res string :=
  p <- patch_loop (target_depth (RMap m)) m "" jp ;;
  match p with
  | None => Ok jp
  | Some (fixed, k, t) =>
      let new_jp := if startswith "#" t then t else fixed ++ "/" ++ t in
      let remain := sdrop (String.length (fixed ++ k) + 1) jp in
      Ok (if truthy_str remain then
            new_jp ++ (if endswith "/" new_jp || startswith "/" remain then "" else "/") ++ remain
          else new_jp)
  end.

(** the loop of [relocate] over the versions, in order -- store.py:199-210 *)
Fixpoint relocate_loop (from to : ver) (rs : list (string * routes)) (cur : string) : res string :=
  match rs with
  | [] => Ok cur
  | (v, m) :: rs' =>
      v' <- strict_version v ;;
      if negb (ver_ltb from v') then relocate_loop from to rs' cur
      else if ver_ltb to v' then Ok cur
      else (cur' <- patch_jp cur m ;; relocate_loop from to rs' cur')
  end.

(** ** the store *)
Section Store.
  (** the cached objects: [is_base] tells the instances of [_Base]; [truthy_o] and [resolve_o] are
      Python truth and the method [resolve] *)
  Context {O : Type}.
  Variables (is_base truthy_o : O -> bool) (resolve_o : O -> list string -> res O).

  (** [__spec_objs], [__routes], [__migratable_spec_versions] -- store.py:21-26 *)
  Record store := mk_store {
    s_objs : list (string * list (string * list (string * O)));
    s_routes : list (string * list (string * routes));
    s_versions : list string }.
  Definition new_store (versions : list string) : store := mk_store [] [] versions.
  Definition sub {A} (k : string) (d : list (string * list A)) : list A := match lookup k d with Some x => x | None => [] end.

  (** [set(obj, url, jp, spec_version)] -- store.py:32-43 *)
  Definition store_set (s : store) (o : O) (url jp version : string) : res store :=
    if is_base o then
      let uc := sub url (s_objs s) in
      let pc := sub jp uc in
      Ok (mk_store (dict_set url (dict_set jp (dict_set version o pc) uc) (s_objs s)) (s_routes s) (s_versions s))
    else Err PyException.

  (** the loop of [get] -- store.py:53-56 *)
  Fixpoint first_match (jp version : string) (uc : list (string * list (string * O))) : option (string * O) :=
    match uc with
    | [] => None
    | (path, cache) :: uc' =>
        if startswith path jp then
          match lookup version cache with Some o => Some (path, o) | None => first_match jp version uc' end
        else first_match jp version uc'
    end.
  (** [get(url, jp, spec_version)] -- store.py:45-58 *)
  Definition store_get (s : store) (url jp version : string) : res (option O) :=
    match first_match jp version (sub url (s_objs s)) with
    | None => Ok None
    | Some (path, o) => rmap Some (resolve_o o (tl (jp_split (sdrop (String.length path) jp))))
    end.

  (** [get_under(url, jp, spec_version, remove)] -- store.py:60-80; the new store and the result *)
  Definition under (jp version : string) (uc : list (string * list (string * O))) : list (string * O) :=
    fold_left (fun ret pc =>
                 if startswith jp (fst pc) then
                   match lookup version (snd pc) with
                   | Some o => dict_set (sdrop (String.length jp + 1) (fst pc)) o ret
                   | None => ret
                   end
                 else ret) uc [].
  Definition removed (jp version : string) (uc : list (string * list (string * O))) : list (string * list (string * O)) :=
    map (fun pc => if startswith jp (fst pc) then (fst pc, dict_del version (snd pc)) else pc) uc.
  Definition store_get_under (s : store) (url jp version : string) (remove : bool) : store * res (option (list (string * O))) :=
    if remove && negb (truthy_str jp) then (s, Err PyException)
    else match lookup url (s_objs s) with
         | None | Some [] => (s, Ok None)
         | Some uc =>
             (if remove then mk_store (dict_set url (removed jp version uc) (s_objs s)) (s_routes s) (s_versions s) else s,
              Ok (Some (under jp version uc)))
         end.

  (** [update_routes(url, to_spec, routes)] -- store.py:109-125; the map for the url is created even
      if the version is then refused *)
  Definition store_update_routes (s : store) (url to_spec : string) (rs : routes) : store * res unit :=
    let ur := match lookup url (s_routes s) with
              | Some ur => ur
              | None => dict_update [] (map (fun v => (v, [])) (s_versions s))
              end in
    match lookup to_spec ur with
    | None => (mk_store (s_objs s) (dict_set url ur (s_routes s)) (s_versions s), Err PyException)
    | Some m => (mk_store (s_objs s) (dict_set url (dict_set to_spec (dict_update m rs) ur) (s_routes s)) (s_versions s), Ok tt)
    end.

  (** [relocate(url, jp, from_spec, to_spec)] -- store.py:179-212, consts.py:24 *)
  Definition store_relocate (s : store) (url jp from_spec : string) (to_spec : option string) : res string :=
    match lookup url (s_routes s) with
    | None => Ok jp
    | Some ur =>
        let to_spec := match to_spec with Some t => if truthy_str t then t else "3.0.0" | None => "3.0.0" end in
        if mem to_spec ur then
          f <- strict_version from_spec ;; t <- strict_version to_spec ;; relocate_loop f t ur jp
        else Err PyException
    end.

  (** [list.index] *)
  Fixpoint index_of (x : string) (l : list string) : res nat :=
    match l with [] => Err ValueError | y :: l' => if String.eqb x y then Ok 0 else rmap S (index_of x l') end.
  (** the first loop of [get_until]: older to newer -- store.py:89-95 *)
  Fixpoint until_chain (s : store) (url : string) (from src : string) (vs : list string) : res (list (string * string)) :=
    match vs with
    | [] => Ok []
    | v :: vs' => src' <- store_relocate s url src from (Some v) ;; rest <- until_chain s url v src' vs' ;; Ok ((v, src') :: rest)
    end.
  (** the second loop, over the reversed list -- store.py:98-101 *)
  Fixpoint until_seek (s : store) (url : string) (jps : list (string * string)) : res (option (O * string * string)) :=
    match jps with
    | [] => Ok None
    | (v, jp) :: jps' =>
        o <- store_get s url jp v ;;
        match o with
        | Some o' => if truthy_o o' then Ok (Some (o', jp, v)) else until_seek s url jps'
        | None => until_seek s url jps'
        end
    end.
  (** [get_until(url, jp, spec_version, until)] -- store.py:82-103 *)
  Definition store_get_until (s : store) (url jp version : string) (until : option string) : res (option (O * string * string)) :=
    i <- index_of version (s_versions s) ;;
    e <- (match until with
          | Some u => if truthy_str u then rmap S (index_of u (s_versions s)) else Ok (length (s_versions s))
          | None => Ok (length (s_versions s))
          end) ;;
    chain <- until_chain s url version jp (skipn (S i) (firstn e (s_versions s))) ;;
    until_seek s url (rev ((version, jp) :: chain)).

  (** ** histories *)
  Inductive store_op :=
  | SetOp (o : O) (url jp version : string)
  | UnderOp (url jp version : string) (remove : bool)
  | RoutesOp (url to_spec : string) (rs : routes).
  (** a call changes the store or raises; after an exception the caller goes on *)
  Definition run_op (s : store) (p : store_op) : store :=
    match p with
    | SetOp o url jp v => match store_set s o url jp v with Ok s' => s' | Err _ => s end
    | UnderOp url jp v r => fst (store_get_under s url jp v r)
    | RoutesOp url t rs => fst (store_update_routes s url t rs)
    end.
  Definition run_ops (versions : list string) (ps : list store_op) : store := fold_left run_op ps (new_store versions).
End Store.
Arguments store : clear implicits.
Arguments store_op : clear implicits.
