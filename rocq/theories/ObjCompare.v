(** * Model of [compare] of objects. *)
From Coq Require Import String Ascii List Bool Arith ZArith.
From Verif Require Import PyStr PyVal Jp Obj CompareContainer.
Import ListNotations.
Open Scope string_scope.

(** [isinstance(x, six.string_types + six.integer_types)] *)
Definition str_or_int (j : json) : bool :=
  match j with JStr _ | JInt _ | JBool _ => true | _ => false end.

(** equality of builders, the type of a container in this model *)
Fixpoint builder_eqb (a b : builder) : bool :=
  match a, b with
  | BCls c, BCls d => String.eqb c d
  | BListOf x, BListOf y | BMapOf x, BMapOf y | BBoolElse x, BBoolElse y => builder_eqb x y
  | BStr, BStr => true
  | BRefElse r x, BRefElse s y => String.eqb r s && builder_eqb x y
  | _, _ => false
  end.

(** [_cmp_(name, self_, other_)] on raw values -- pyopenapi/migration/spec/obj.py:595-626.  Which of
    several differing keys is named is unspecified in Python (set order); here the first one. *)
Fixpoint cmp_raw (name : string) (a b : json) {struct a} : res (bool * string) :=
  match a, b with
  | JList l, JList m =>
      (fix go (i : nat) (l m : list json) {struct l} : res (bool * string) :=
         match l with
         | [] => Ok (true, "")
         | x :: l' =>
             match m with
             | [] => Err IndexError
             | y :: m' =>
                 r <- cmp_raw (jp_join [nat_dec i] (Some name)) x y ;;
                 if fst r then go (S i) l' m' else Ok r
             end
         end) 0 l m
  | JDict d, JDict e =>
      match filter (fun k => negb (mem k e)) (keys d) with
      | k :: _ => Ok (false, jp_join [k] (Some name))
      | [] =>
          match filter (fun k => negb (mem k d)) (keys e) with
          | k :: _ => Ok (false, jp_join [k] (Some name))
          | [] =>
              (fix go (d : list (string * json)) : res (bool * string) :=
                 match d with
                 | [] => Ok (true, "")
                 | (k, x) :: d' =>
                     match lookup k e with
                     | None => Err KeyError
                     | Some y =>
                         r <- cmp_raw (jp_join [k] (Some name)) x y ;;
                         if fst r then go d' else Ok r
                     end
                 end) d
          end
      end
  | _, _ =>
      if str_or_int a then Ok (py_eq a b, name)
      else Ok (type_eqb (type_of a) (type_of b) && py_eq a b, name)
  end.

Section Compare.
  Variable tbl : ctable.

  (** the loop over [__fields__] in [Base2Obj.compare]; [getattr] of a field may raise
      -- pyopenapi/migration/spec/obj.py:628-634 *)
  Fixpoint cmp_fields (fs : list fielddef) (base : option string) (s1 s2 : json) : res (bool * string) :=
    match fs with
    | [] => Ok (true, "")
    | f :: fs' =>
        a <- field_get f s1 ;;
        b <- field_get f s2 ;;
        r <- cmp_raw (jp_join [f_name f] base) a b ;;
        if fst r then cmp_fields fs' base s1 s2 else Ok r
    end.

  (** [compare(other, base)] of [Base2Obj], [_List] and [_Map]
      -- pyopenapi/migration/spec/obj.py:588-636,250-267,397-419.  The type of a list or map is its
      element builder; an absent child is [None]; [dict.keys()] of two maps are compared as sets. *)
  Fixpoint compare (o1 o2 : obj) (base : option string) {struct o1} : res (bool * string) :=
    match o1, o2 with
    | OPrim _, _ => Err AttributeError
    | OObj c _ s1 kids1, OObj c' _ s2 kids2 =>
        if String.eqb c c' then
          match lookup c tbl with
          | None => Err KeyError
          | Some cd =>
              r <- cmp_fields (c_fields cd) base s1 s2 ;;
              if fst r then
                (fix each (cs : list childdef) : res (bool * string) :=
                   match cs with
                   | [] => Ok (true, "")
                   | ch :: cs' =>
                       let name := jp_join [ch_name ch] base in
                       r <- (fix find (kids : list (string * obj)) : res (bool * string) :=
                               match kids with
                               | [] => match kid_of (ch_name ch) kids2 with
                                       | OPrim j => cmp_raw name JNull j
                                       | _ => Ok (false, name)
                                       end
                               | (k, x) :: kids' =>
                                   if String.eqb (ch_name ch) k then
                                     match x, kid_of (ch_name ch) kids2 with
                                     | OPrim j, OPrim j' => cmp_raw name j j'
                                     | OPrim _, _ => Ok (false, name)
                                     | OObj d _ _ _, OObj d' _ _ _ =>
                                         if String.eqb d d' then compare x (kid_of (ch_name ch) kids2) (Some name) else Ok (false, name)
                                     | OList d _ _, OList d' _ _ | OMap d _ _, OMap d' _ _ =>
                                         if builder_eqb d d' then compare x (kid_of (ch_name ch) kids2) (Some name) else Ok (false, name)
                                     | _, _ => Ok (false, name)
                                     end
                                   else find kids'
                               end) kids1 ;;
                       if fst r then each cs' else Ok r
                   end) (c_children cd)
              else Ok r
          end
        else Ok (false, "")
    | OList b _ l, OList b' _ m =>
        if builder_eqb b b' then
          if Nat.eqb (length l) (length m) then
            (fix go (i : nat) (l m : list obj) {struct l} : res (bool * string) :=
               match l, m with
               | x :: l', y :: m' =>
                   let name := jp_join [nat_dec i] base in
                   match x with
                   | OPrim j =>
                       if str_or_int j then Ok (match y with OPrim j' => py_eq j j' | _ => false end, name)
                       else Err AttributeError
                   | _ =>
                       r <- compare x y (Some name) ;;
                       if fst r then go (S i) l' m' else Ok r
                   end
               | _, _ => Ok (true, "")
               end) 0 l m
          else Ok (false, "")
        else Ok (false, "")
    | OMap b _ d, OMap b' _ e =>
        if builder_eqb b b' then
          match filter (fun k => negb (mem k e)) (keys d) with
          | k :: _ => Ok (false, jp_join [k] base)
          | [] =>
              match filter (fun k => negb (mem k d)) (keys e) with
              | k :: _ => Ok (false, jp_join [k] base)
              | [] =>
                  (fix go (d : list (string * obj)) : res (bool * string) :=
                     match d with
                     | [] => Ok (true, "")
                     | (k, x) :: d' =>
                         let name := jp_join [k] base in
                         match lookup k e with
                         | None => Err KeyError
                         | Some y =>
                             match x with
                             | OPrim j =>
                                 if str_or_int j then Ok (match y with OPrim j' => py_eq j j' | _ => false end, name)
                                 else Err AttributeError
                             | _ =>
                                 r <- compare x y (Some name) ;;
                                 if fst r then go d' else Ok r
                             end
                         end
                     end) d
              end
          end
        else Ok (false, "")
    | _, _ => Ok (false, "")
    end.
End Compare.
