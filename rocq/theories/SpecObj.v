(** * Specification vocabulary for documents, object tables and constructed objects. *)
From Coq Require Import String Ascii List Bool Arith ZArith DecimalString.
From Verif Require Import PyVal Obj.
Import ListNotations.
Open Scope string_scope.

(** ** documents *)

(** [jget j tokens v]: RFC 6901 evaluation of the reference tokens on the document gives [v].
    An array index is a decimal numeral without leading zeros ([index_text]). *)
Definition index_text (i : nat) (s : string) : Prop := s = NilZero.string_of_uint (Nat.to_uint i).
Inductive jget : json -> list string -> json -> Prop :=
| jg_here j : jget j [] j
| jg_key d k v ts r : lookup k d = Some v -> jget v ts r -> jget (JDict d) (k :: ts) r
| jg_idx l i s v ts r : index_text i s -> nth_error l i = Some v -> jget v ts r -> jget (JList l) (s :: ts) r.

(** equality of documents up to the order of dict entries *)
Inductive same_doc : json -> json -> Prop :=
| sd_scalar a : (forall l, a <> JList l) -> (forall d, a <> JDict d) -> same_doc a a
| sd_list l m : Forall2 same_doc l m -> same_doc (JList l) (JList m)
| sd_dict d e :
    NoDup (map fst d) -> NoDup (map fst e) ->
    (forall k, In k (map fst d) <-> In k (map fst e)) ->
    (forall k x y, lookup k d = Some x -> lookup k e = Some y -> same_doc x y) ->
    same_doc (JDict d) (JDict e).

(** ** which kind of value a slot denotes for a given document *)
Inductive slot_kind := IsObject (c : string) | IsList (b : builder) | IsMap (b : builder) | IsString | IsBool.
Definition has_ref (j : json) : Prop := exists d v, j = JDict d /\ lookup "$ref" d = Some v.
Inductive denotes : builder -> json -> slot_kind -> Prop :=
| dn_cls c j : denotes (BCls c) j (IsObject c)
| dn_list b j : denotes (BListOf b) j (IsList b)
| dn_map b j : denotes (BMapOf b) j (IsMap b)
| dn_str j : denotes BStr j IsString
| dn_ref r b j : has_ref j -> denotes (BRefElse r b) j (IsObject r)
| dn_noref r b d k : ~ has_ref (JDict d) -> denotes b (JDict d) k -> denotes (BRefElse r b) (JDict d) k
| dn_bool b v : denotes (BBoolElse b) (JBool v) IsBool
| dn_nobool b j k : (forall v, j <> JBool v) -> denotes b j k -> denotes (BBoolElse b) j k.

(** a child value which is not an empty container *)
Inductive filled : builder -> json -> Prop :=
| fl_list b x l : filled b (JList (x :: l))
| fl_map b b' d : denotes b (JDict d) (IsMap b') -> d <> [] -> filled b (JDict d)
| fl_object b c d : denotes b (JDict d) (IsObject c) -> filled b (JDict d).

(** ** documents that use a table as declared *)
Section Tables.
  Variable tbl : ctable.

  (** [conforms b j]: only declared keys, no null values, every child value conforms and is not an
      empty container, required children present, restricted fields absent; no boolean where a schema
      is expected *)
  Inductive conforms : builder -> json -> Prop :=
  | cf_string b s : denotes b (JStr s) IsString -> conforms b (JStr s)
  | cf_list b b' l : denotes b (JList l) (IsList b') -> (forall x, In x l -> conforms b' x) -> conforms b (JList l)
  | cf_map b b' d : denotes b (JDict d) (IsMap b') -> (forall k x, In (k, x) d -> conforms b' x) -> conforms b (JDict d)
  | cf_object b c cd d :
      denotes b (JDict d) (IsObject c) -> lookup c tbl = Some cd ->
      (forall k v, In (k, v) d -> v <> JNull) ->
      (forall k v, In (k, v) d -> (exists f, In f (c_fields cd) /\ f_name f = k /\ f_restricted f = false)
                                  \/ (exists ch, In ch (c_children cd) /\ ch_name ch = k)) ->
      (forall ch v, In ch (c_children cd) -> In (ch_name ch, v) d ->
                    conforms (ch_builder ch) v /\ filled (ch_builder ch) v) ->
      (forall ch, In ch (c_children cd) -> ch_required ch = true -> In (ch_name ch) (map fst d)) ->
      conforms b (JDict d).

  (** [addresses b j tokens b' j']: the tokens lead, through declared children, list indices and map
      keys, from the document [j] of a slot [b] to the document [j'] of a slot [b'] *)
  Inductive addresses : builder -> json -> list string -> builder -> json -> Prop :=
  | ad_here b j : addresses b j [] b j
  | ad_child b c cd d ch v ts b' j' :
      denotes b (JDict d) (IsObject c) -> lookup c tbl = Some cd -> In ch (c_children cd) ->
      lookup (ch_name ch) d = Some v -> v <> JNull ->
      addresses (ch_builder ch) v ts b' j' -> addresses b (JDict d) (ch_name ch :: ts) b' j'
  | ad_index b b0 l i s x ts b' j' :
      denotes b (JList l) (IsList b0) -> index_text i s -> nth_error l i = Some x ->
      addresses b0 x ts b' j' -> addresses b (JList l) (s :: ts) b' j'
  | ad_key b b0 d k x ts b' j' :
      denotes b (JDict d) (IsMap b0) -> lookup k d = Some x ->
      addresses b0 x ts b' j' -> addresses b (JDict d) (k :: ts) b' j'.

  (** [shaped b j]: what the constructors accept.  Where an object is expected a non-dict is only
      accepted if none of the declared child names can be found in it. *)
  Inductive occurs_in (k : string) : json -> Prop :=
  | oc_dict d v : lookup k d = Some v -> occurs_in k (JDict d)
  | oc_str a b : occurs_in k (JStr (a ++ k ++ b))
  | oc_list l : In (JStr k) l -> occurs_in k (JList l).
  Definition searchable (j : json) : Prop :=
    match j with JDict _ | JStr _ | JList _ => True | _ => False end.
  Inductive shaped : builder -> json -> Prop :=
  | sh_str s : shaped BStr (JStr s)
  | sh_list b l : (forall x, In x l -> shaped b x) -> shaped (BListOf b) (JList l)
  | sh_map b d : (forall k x, In (k, x) d -> shaped b x) -> shaped (BMapOf b) (JDict d)
  | sh_object c cd d :
      lookup c tbl = Some cd ->
      (forall ch v, In ch (c_children cd) -> lookup (ch_name ch) d = Some v -> v <> JNull -> shaped (ch_builder ch) v) ->
      (forall ch, In ch (c_children cd) -> lookup (ch_name ch) d = None -> ch_required ch = false) ->
      shaped (BCls c) (JDict d)
  | sh_odd_object c cd j :
      lookup c tbl = Some cd -> (forall d, j <> JDict d) ->
      (forall ch, In ch (c_children cd) -> searchable j /\ ~ occurs_in (ch_name ch) j /\ ch_required ch = false) ->
      shaped (BCls c) j
  | sh_ref r b j : occurs_in "$ref" j -> shaped (BCls r) j -> shaped (BRefElse r b) j
  | sh_noref r b j : searchable j -> ~ occurs_in "$ref" j -> shaped b j -> shaped (BRefElse r b) j
  | sh_bool b v : shaped (BBoolElse b) (JBool v)
  | sh_nobool b j : (forall v, j <> JBool v) -> shaped b j -> shaped (BBoolElse b) j.
End Tables.

(** a table in which names are unambiguous *)
Definition distinct_names (cd : classdef) : Prop :=
  NoDup (map f_name (c_fields cd) ++ map ch_name (c_children cd)).
Definition well_declared (tbl : ctable) : Prop :=
  forall c cd, lookup c tbl = Some cd -> distinct_names cd.

(** objects *)
Definition primitive (o : obj) : Prop := exists j, o = OPrim j.

(** ** declared tables *)

(** the shape every slot of the repository has: alternatives on "$ref" are between a class with the
    single field "$ref" and a class or a map *)
Fixpoint plain_builder (tbl : ctable) (b : builder) : bool :=
  match b with
  | BCls c => mem c tbl
  | BListOf b' | BMapOf b' | BBoolElse b' => plain_builder tbl b'
  | BStr => true
  | BRefElse r b' =>
      match lookup r tbl with
      | Some cd => match c_children cd with [] => true | _ => false end
                   && forallb (fun f => String.eqb (f_name f) "$ref") (c_fields cd)
      | None => false
      end
      && match b' with BCls c => mem c tbl | BMapOf b'' => plain_builder tbl b'' | _ => false end
  end.
(** a direct child is never a choice between a reference and a map *)
Fixpoint direct_builder (b : builder) : bool :=
  match b with
  | BRefElse _ (BMapOf _) => false
  | BBoolElse b' => direct_builder b'
  | _ => true
  end.
Definition plain_table (tbl : ctable) : Prop :=
  forall c cd ch, lookup c tbl = Some cd -> In ch (c_children cd) ->
  plain_builder tbl (ch_builder ch) = true /\ direct_builder (ch_builder ch) = true.
(** no child is required anywhere *)
Definition no_required_child (tbl : ctable) : Prop :=
  forall c cd ch, lookup c tbl = Some cd -> In ch (c_children cd) -> ch_required ch = false.

(** ** object trees *)

(** [within o ts o']: following child names, list positions and map keys [ts] leads from [o] to [o'] *)
Inductive within : obj -> list string -> obj -> Prop :=
| wi_here o : within o [] o
| wi_child c p s kids k o ts o' : lookup k kids = Some o -> within o ts o' -> within (OObj c p s kids) (k :: ts) o'
| wi_index b p es i s e ts o' : index_text i s -> nth_error es i = Some e -> within e ts o' -> within (OList b p es) (s :: ts) o'
| wi_key b p es k e ts o' : lookup k es = Some e -> within e ts o' -> within (OMap b p es) (k :: ts) o'.

(** ** attribute names *)
(** all attribute names of a class are different *)
Definition unambiguous (cd : classdef) : Prop :=
  NoDup (map f_name (c_fields cd) ++ map ch_name (c_children cd) ++ map ch_name (c_lazy cd)
         ++ map fst (c_renames cd) ++ map fst (c_internal cd)).
(** [name] is the field [f], directly or as an alias *)
Inductive names_field (cd : classdef) : string -> fielddef -> Prop :=
| nf_direct f : In f (c_fields cd) -> names_field cd (f_name f) f
| nf_alias a f : In f (c_fields cd) -> In (a, f_name f) (c_renames cd) -> names_field cd a f.
