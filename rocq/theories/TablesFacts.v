(** The three object tables of the repository meet the hypotheses of the general theorems. *)
From Coq Require Import String Ascii List Bool.
From Verif Require Import PyVal PyValFacts Obj SpecObj Classes_v1_2 Classes_v2_0 Classes_v3_0_0.
Import ListNotations.
Open Scope string_scope.

Fixpoint nodupb (l : list string) : bool :=
  match l with [] => true | x :: r => negb (existsb (String.eqb x) r) && nodupb r end.
Lemma nodupb_ok l : nodupb l = true -> NoDup l.
Proof.
  induction l as [|x l IH]; intros H; [constructor|]. cbn in H. apply andb_true_iff in H as [H1 H2]. constructor; auto.
  intros Hx. apply negb_true_iff in H1. assert (existsb (String.eqb x) l = true) by (apply existsb_exists; exists x; split; [exact Hx|apply String.eqb_refl]). congruence.
Qed.
Lemma lookup_In {A} k (d : list (string * A)) v : lookup k d = Some v -> In (k, v) d.
Proof.
  induction d as [|[k' x] d IH]; cbn; [discriminate|]. destruct (String.eqb k k') eqn:E; intros H.
  - apply String.eqb_eq in E as ->. injection H as ->. now left.
  - right; auto.
Qed.
Lemma table_check (P : classdef -> Prop) (f : classdef -> bool) (tbl : ctable) : (forall cd, f cd = true -> P cd) ->
  forallb (fun e => f (snd e)) tbl = true -> forall c cd, lookup c tbl = Some cd -> P cd.
Proof.
  intros Hf Hb c cd Hl. apply Hf. apply lookup_In in Hl. rewrite forallb_forall in Hb. exact (Hb _ Hl).
Qed.
Definition distinctb (cd : classdef) : bool := nodupb (map f_name (c_fields cd) ++ map ch_name (c_children cd)).
Definition unambb (cd : classdef) : bool :=
  nodupb (map f_name (c_fields cd) ++ map ch_name (c_children cd) ++ map ch_name (c_lazy cd)
         ++ map fst (c_renames cd) ++ map fst (c_internal cd)).
Definition plainb (tbl : ctable) (cd : classdef) : bool :=
  forallb (fun ch => plain_builder tbl (ch_builder ch) && direct_builder (ch_builder ch)) (c_children cd).
Definition norequiredb (cd : classdef) : bool := forallb (fun ch => negb (ch_required ch)) (c_children cd).

Lemma well_declared_check tbl : forallb (fun e => distinctb (snd e)) tbl = true -> well_declared tbl.
Proof. intros H. refine (table_check distinct_names distinctb tbl _ H). intros cd. apply nodupb_ok. Qed.
Lemma unambiguous_check tbl : forallb (fun e => unambb (snd e)) tbl = true -> forall c cd, lookup c tbl = Some cd -> unambiguous cd.
Proof. intros H. refine (table_check unambiguous unambb tbl _ H). intros cd. apply nodupb_ok. Qed.
Lemma plain_check tbl : forallb (fun e => plainb tbl (snd e)) tbl = true -> plain_table tbl.
Proof.
  intros H c cd ch Hl Hc.
  assert (G : forall c cd, lookup c tbl = Some cd -> plainb tbl cd = true) by (apply (table_check _ (plainb tbl) tbl); auto).
  specialize (G c cd Hl). unfold plainb in G. rewrite forallb_forall in G. specialize (G ch Hc). now apply andb_true_iff in G.
Qed.
Lemma norequired_check tbl : forallb (fun e => norequiredb (snd e)) tbl = true -> no_required_child tbl.
Proof.
  intros H c cd ch Hl Hc.
  assert (G : forall c cd, lookup c tbl = Some cd -> norequiredb cd = true) by (apply (table_check _ norequiredb tbl); auto).
  specialize (G c cd Hl). unfold norequiredb in G. rewrite forallb_forall in G. specialize (G ch Hc). now apply negb_true_iff in G.
Qed.

Lemma v12_well_declared : well_declared v12_table. Proof. apply well_declared_check. vm_compute. reflexivity. Qed.
Lemma v20_well_declared : well_declared v20_table. Proof. apply well_declared_check. vm_compute. reflexivity. Qed.
Lemma v30_well_declared : well_declared v30_table. Proof. apply well_declared_check. vm_compute. reflexivity. Qed.
Lemma v12_unambiguous : forall c cd, lookup c v12_table = Some cd -> unambiguous cd. Proof. apply unambiguous_check. vm_compute. reflexivity. Qed.
Lemma v20_unambiguous : forall c cd, lookup c v20_table = Some cd -> unambiguous cd. Proof. apply unambiguous_check. vm_compute. reflexivity. Qed.
Lemma v30_unambiguous : forall c cd, lookup c v30_table = Some cd -> unambiguous cd. Proof. apply unambiguous_check. vm_compute. reflexivity. Qed.
Lemma v12_plain : plain_table v12_table. Proof. apply plain_check. vm_compute. reflexivity. Qed.
Lemma v20_plain : plain_table v20_table. Proof. apply plain_check. vm_compute. reflexivity. Qed.
Lemma v30_plain : plain_table v30_table. Proof. apply plain_check. vm_compute. reflexivity. Qed.
Lemma v20_norequired : no_required_child v20_table. Proof. apply norequired_check. vm_compute. reflexivity. Qed.
