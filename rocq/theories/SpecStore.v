(** * Specification vocabulary for the object store and pointer relocation. *)
From Coq Require Import String Ascii List Bool Arith.
From Verif Require Import PyStr PyVal Store.
Import ListNotations.
Open Scope string_scope. Open Scope nat_scope.

Definition prefix_of (p s : string) : Prop := exists r, s = (p ++ r)%string.

(** ** which objects a history of calls leaves in the store *)
Section Live.
  Context {O : Type}.
  Variable is_base : O -> bool.
  (** the call stores or removes the entry for this url, pointer and version *)
  Definition touches (p : store_op O) (url jp version : string) : Prop :=
    match p with
    | SetOp o u q v => u = url /\ q = jp /\ v = version /\ is_base o = true
    | UnderOp u q v true => u = url /\ v = version /\ q <> "" /\ prefix_of q jp
    | _ => False
    end.
  (** the last such call was the one that stored [o] *)
  Definition live (ps : list (store_op O)) (url jp version : string) (o : O) : Prop :=
    exists before after, ps = (before ++ SetOp o url jp version :: after)%list /\ is_base o = true /\
                         forall p, In p after -> ~ touches p url jp version.
End Live.
(** the entry itself *)
Definition entry {O} (s : store O) (url jp version : string) : option O :=
  match lookup url (s_objs s) with
  | Some uc => match lookup jp uc with Some pc => lookup version pc | None => None end
  | None => None
  end.
(** calls about a url; about a url and a version *)
Definition about {O} (url : string) (p : store_op O) : bool :=
  match p with SetOp _ u _ _ | UnderOp u _ _ _ => String.eqb u url | RoutesOp _ _ _ => false end.
Definition about_version {O} (url version : string) (p : store_op O) : bool :=
  match p with SetOp _ u _ v | UnderOp u _ v _ => String.eqb u url && String.eqb v version | RoutesOp _ _ _ => false end.

(** ** relocation *)
(** [k] is the longest key that is a prefix of the text *)
Definition longest (m : routes) (s k : string) (t : target) : Prop :=
  lookup k m = Some t /\ prefix_of k s /\
  forall k' t', lookup k' m = Some t' -> prefix_of k' s -> String.length k' <= String.length k.
Definition no_match (m : routes) (s : string) : Prop := forall k t, lookup k m = Some t -> ~ prefix_of k s.
Definition without_slash (s r : string) : Prop := s = String "/" r \/ (s = r /\ forall q, s <> String "/" q).
(** [leads m s ks t]: starting with the map [m] and the text [s] the longest matching keys are [ks];
    they lead to the target text [t] *)
Inductive leads : routes -> string -> list string -> string -> Prop :=
| ld_text m s k t : longest m s k (RStr t) -> t <> "" -> leads m s [k] t
| ld_map m s k m' rest s' ks t : longest m s k (RMap m') -> s = (k ++ rest)%string -> without_slash rest s' ->
    leads m' s' ks t -> leads m s (k :: ks) t.
(** [stays m s]: the longest matching keys lead nowhere *)
Inductive stays : routes -> string -> Prop :=
| sy_none m s : no_match m s -> stays m s
| sy_empty m s k : longest m s k (RStr "") -> stays m s
| sy_map m s k m' rest s' : longest m s k (RMap m') -> s = (k ++ rest)%string -> without_slash rest s' -> stays m' s' -> stays m s.
(** the maps have no key twice *)
Inductive wf_routes : routes -> Prop :=
| wr m : NoDup (map fst m) -> (forall k m', In (k, RMap m') m -> wf_routes m') -> wf_routes m.
(** the pointer ends after the keys, or goes on with a non-empty token *)
Definition token_tail (tail : string) : Prop := tail = "" \/ exists c r, tail = String "/" (String c r) /\ c <> "/"%char.
(** equal up to the order of entries, at every level *)
Inductive same_target : target -> target -> Prop :=
| st_text s : same_target (RStr s) (RStr s)
| st_map m m' : (forall k, lookup k m = None <-> lookup k m' = None) ->
    (forall k t t', lookup k m = Some t -> lookup k m' = Some t' -> same_target t t') -> same_target (RMap m) (RMap m').
Definition same_routes (m m' : routes) : Prop := same_target (RMap m) (RMap m').

(** ** versions *)
Definition version_le (a b : string) : Prop := exists x y, strict_version a = Ok x /\ strict_version b = Ok y /\ ver_ltb y x = false.
Definition version_lt (a b : string) : Prop := exists x y, strict_version a = Ok x /\ strict_version b = Ok y /\ ver_ltb x y = true.
(** strictly increasing *)
Inductive ascending : list string -> Prop :=
| asc_nil : ascending []
| asc_one v x : strict_version v = Ok x -> ascending [v]
| asc_cons v w vs : version_lt v w -> ascending (w :: vs) -> ascending (v :: w :: vs).
(** the known versions from [v] up to [until] ([None]: all later ones) *)
Definition in_range (vs : list string) (v : string) (until : option string) (w : string) : Prop :=
  In w vs /\ version_le v w /\ match until with Some u => version_le w u | None => True end.
(** a lookup finds no object, or one that counts as false *)
Definition nothing {O} (truthy_o : O -> bool) (r : res (option O)) : Prop :=
  r = Ok None \/ exists o, r = Ok (Some o) /\ truthy_o o = false.

(** the routes given for a url and a version; a later entry for the same key replaces an earlier one *)
Definition routes_given {O} (ps : list (store_op O)) (url version : string) : routes :=
  fold_left (fun acc p => match p with
                          | RoutesOp u t rs => if String.eqb u url && String.eqb t version then dict_update acc rs else acc
                          | _ => acc
                          end) ps [].
