(** * Specification vocabulary for attached attributes: what a history of calls says. *)
From Coq Require Import String List Bool Arith.
From Verif Require Import PyStr PyVal Attrs.
Import ListNotations.
Open Scope string_scope.

(** somewhere in the history, [o.get_attrs(ns, ...)] answered with the group [g] *)
Definition answered (env : gclasses) (h : list op) (o : nat) (ns : string) (g : nat) : Prop :=
  exists h1 c h2, h = (h1 ++ Ask o ns c :: h2)%list /\ snd (get_attrs (after env h1) o ns c) = Some g.
(** the class named by the first call for (o, ns) that names one *)
Fixpoint first_class (h : list op) (o : nat) (ns : string) : option string :=
  match h with
  | [] => None
  | Ask o' ns' (Some c) :: later => if Nat.eqb o' o && String.eqb ns' ns then Some c else first_class later o ns
  | _ :: later => first_class later o ns
  end.
(** the declaration of an attribute in a class: the nearest one on the way to the root *)
Inductive declares (env : gclasses) : string -> string -> aprop -> Prop :=
| declares_own c base own n p older newer : env = (newer ++ (c, (base, own)) :: older)%list -> ~ In c (map fst newer) -> lookup n own = Some p -> declares env c n p
| declares_base c b own n p older newer : env = (newer ++ (c, (Some b, own)) :: older)%list -> ~ In c (map fst newer) -> lookup n own = None -> declares older b n p -> declares env c n p.
(** two attribute names of a class that share a place: both declared with the same key, or both
    undeclared and equal *)
Definition same_place (env : gclasses) (c n m : string) : Prop :=
  (exists p q, declares env c n p /\ declares env c m q /\ ap_key p = ap_key q)
  \/ ((forall p, ~ declares env c n p) /\ (forall q, ~ declares env c m q) /\ n = m).
(** the value written last to [g.n], where [g] is of the class [c]; [None]: nothing was written *)
Inductive last_written (env : gclasses) (g : nat) (c n : string) : list op -> option value -> Prop :=
| lw_none h : (forall m v, In (Write g m v) h -> ~ same_place env c n m) -> last_written env g c n h None
| lw_some h1 m v h2 : same_place env c n m -> (forall m' v', In (Write g m' v') h2 -> ~ same_place env c n m') -> last_written env g c n (h1 ++ Write g m v :: h2) (Some v).
(** what reading an attribute must give *)
Definition reading (env : gclasses) (c n : string) (written : option value) (r : res value) : Prop :=
  match written with
  | Some v => r = Ok v
  | None =>
      (forall p, declares env c n p -> r = if ap_required p then Err PyException else Ok (ap_default p))
      /\ ((forall p, ~ declares env c n p) -> r = Err AttributeError)
  end.
(** a program writes only to groups it was given before *)
Fixpoint given_before (env : gclasses) (before h : list op) : Prop :=
  match h with
  | [] => True
  | x :: h' =>
      match x with Write g _ _ | Read g _ => exists o ns, answered env before o ns g | Ask _ _ _ => True end
      /\ given_before env (before ++ [x]) h'
  end.
