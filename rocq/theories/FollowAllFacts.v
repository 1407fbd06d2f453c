(** * Following the references of documents: the chain of references ends where the documents say. *)
From Coq Require Import String Ascii List Bool Arith Lia ZArith.
From Verif Require Import PyStr PyStrFacts PyVal PyValFacts Jp JpFacts UrlLib Urls SpecUrl Obj ObjFacts Classes_v2_0 TablesFacts SpecTables SpecJson ShapeFacts DumpFacts ReloadFacts NatDecFacts SpecObj OverrideFacts ResolveFacts SpecSchema SpecConv SpecBody SpecOp SpecDoc SpecStore
  Store App Main SpecScan SpecLocal SpecInside Shape30Facts TightFacts SpecGiven SpecMigrate SpecWhole PropertiesObjAux SpecOpen WfFacts Conv20 Up30 Whole Follow FollowAll RefFacts LocalFacts FollowFacts FollowFacts2 FollowFacts3.
Import ListNotations.
Open Scope string_scope. Open Scope nat_scope.
Notation within := SpecObj.within (only parsing).

Section Chain.
  Variables (path2url abspath : string -> string) (st : store sobj).
  Notation N := (noted_all path2url abspath st).
  Lemma noted_same_all u o o' r : refers_by o r -> refers_by o' r -> N u o = N u o'.
  Proof. unfold refers_by. intros H H'. unfold noted_all, normalized. now rewrite H, H'. Qed.
  Inductive leads_all : string -> obj -> nat -> obj -> Prop :=
  | la_end u o : no_ref o -> leads_all u o 0 o
  | la_step u o r u' y n x : refers_by o r -> N u o = Some (u', y) -> (exists X ts, In (u', X) (stored20 st) /\ within X ts y) -> leads_all u' y n x -> leads_all u o (S n) x.
  Notation lab u z := (u, label z) (only parsing).
  Lemma label_all_eq x y : label_all_eqb x y = true -> x = y.
  Proof. destruct x, y. unfold label_all_eqb. cbn [fst snd]. intros H. apply andb_prop in H as [H1 H2]. apply String.eqb_eq in H1. apply label_eqb_eq in H2. congruence. Qed.
  Lemma leads_all_fun u o n x : leads_all u o n x -> forall n' x', leads_all u o n' x' -> n' = n.
  Proof.
    unfold no_ref, refers_by. induction 1 as [u o H|u o r u' y n x R E _ _ IH]; intros n' x' L; inversion L as [u0 o0 H'|u0 o0 r' u1 y' m x0 R' E' _ L']; subst; try reflexivity; unfold no_ref, refers_by in *.
    - destruct H as [H|H]; congruence.
    - destruct H' as [H'|H']; congruence.
    - rewrite E in E'. injection E' as <- <-. f_equal. exact (IH _ _ L').
  Qed.
  Lemma label_all_fun u o n x o' n' x' : leads_all u o n x -> leads_all u o' n' x' -> label o = label o' -> n = n'.
  Proof.
    intros L L' E. apply (f_equal snd) in E. inversion L as [u0 o0 H|u0 o0 r u1 y m x0 R Ey Wy Ly]; subst; inversion L' as [u2 o1 H'|u2 o1 r' u3 y' m' x1 R' Ey' Wy' Ly']; subst; [reflexivity| | |].
    - assert (X := proj2 (label_text _ _) R'). rewrite <- E in X. apply label_text in X. unfold no_ref, refers_by in *. destruct H; congruence.
    - assert (X := proj2 (label_text _ _) R). rewrite E in X. apply label_text in X. unfold no_ref, refers_by in *. destruct H'; congruence.
    - assert (X := proj2 (label_text _ _) R). rewrite E in X. apply label_text in X. rewrite (noted_same_all _ _ _ _ R X), Ey' in Ey. injection Ey as -> ->. f_equal. exact (leads_all_fun _ _ _ _ Ly' _ _ Ly).
  Qed.
  Lemma loop_leads_all fuel : forall seen u cur n x, leads_all u cur n x -> n < fuel -> (forall l, In l seen -> exists v z m, lab v z = l /\ leads_all v z m x /\ n <= m) -> deref_all_loop path2url abspath st fuel seen u cur = Ok x.
  Proof.
    induction fuel as [|fuel IH]; intros seen u cur n x L F S0; [lia|]. cbn [deref_all_loop]. inversion L as [u0 o0 H|u0 o0 r u' y m x0 R E W Ly]; subst.
    - destruct H as [-> | ->]; reflexivity.
    - unfold refers_by in R. rewrite R, E. destruct (existsb (label_all_eqb (lab u' y)) seen) eqn:X.
      + exfalso. apply existsb_exists in X as (l & Il & El). apply label_all_eq in El. destruct (S0 l Il) as (v & z & k & Lz & Kz & Le). rewrite <- El in Lz. assert (E1 := f_equal fst Lz). assert (E2 := f_equal snd Lz). cbn [fst snd] in E1, E2. subst v. pose proof (label_all_fun _ _ _ _ _ _ _ Kz Ly E2). lia.
      + apply (IH _ _ _ m); [exact Ly|lia|]. intros l [<-|Il]; [exists u', y, m; auto|]. destruct (S0 l Il) as (v & z & k & Lz & Kz & Le). exists v, z, k. split; [exact Lz|]. split; [exact Kz|lia].
  Qed.
  Definition all_labels : list (string * (option string * option string)) := flat_map (fun uX => map (fun z => lab (fst uX) z) (objs (snd uX))) (stored20 st).
  Lemma all_labels_size : length all_labels = stored_size st.
  Proof.
    unfold all_labels, stored_size. induction (stored20 st) as [|[u X] l IH]; [reflexivity|]. cbn [flat_map map list_sum fold_right fst snd]. rewrite app_length, map_length, objs_size, IH. reflexivity.
  Qed.
  Lemma stored_label u X ts y : In (u, X) (stored20 st) -> within X ts y -> In (lab u y) all_labels.
  Proof. intros I W. apply in_flat_map. exists (u, X). split; [exact I|]. cbn [fst snd]. apply (in_map (fun z => (u, label z))). exact (objs_within _ _ _ W). Qed.
  Lemma chain_length_all u o n x : leads_all u o n x -> exists l, length l = n /\ NoDup l /\ forall q, In q l -> In q all_labels /\ exists v z m, lab v z = q /\ m < n /\ leads_all v z m x.
  Proof.
    induction 1 as [u o H|u o r u' y n x R E (X & ts & IX & W) L (l & Ln & ND & F)].
    - exists []. split; [reflexivity|]. split; [constructor|]. intros z [].
    - exists (lab u' y :: l). cbn [length]. split; [now rewrite Ln|]. split.
      + constructor; [|exact ND]. intros Z. destruct (F _ Z) as (_ & v & z & m & Ez & Lt & Lz). assert (E1 := f_equal fst Ez). assert (E2 := f_equal snd Ez). cbn [fst snd] in E1, E2. subst v. pose proof (label_all_fun _ _ _ _ _ _ _ Lz L E2). lia.
      + intros q [<-|Iq]; [split; [exact (stored_label _ _ _ _ IX W)|exists u', y, n; split; [reflexivity|]; split; [lia|exact L]]|]. destruct (F q Iq) as (I1 & v & z & m & Ez & Lt & Lz). split; [exact I1|]. exists v, z, m. split; [exact Ez|]. split; [lia|exact Lz].
  Qed.
  Theorem leads_deref_all u o n x : leads_all u o n x -> deref_all path2url abspath st u o = Ok x.
  Proof.
    intros L. unfold deref_all. apply loop_leads_all with n; [exact L| |].
    - destruct (chain_length_all u o n x L) as (l & Ln & ND & F). assert (B : length l <= length all_labels).
      { apply NoDup_incl_length; [exact ND|]. intros q Iq. exact (proj1 (F q Iq)). }
      rewrite all_labels_size, Ln in B. lia.
    - intros l [<-|[]]. exists u, o, n. auto.
  Qed.
  (** *** well-formed objects *)
  Hypothesis WS : forall u p o, entry st u p "2.0" = Some o -> so_version o = "2.0" /\ wf_obj (so_obj o).
  Hypothesis GS : forall u jp o, store_get so_resolve st u jp "2.0" = Ok (Some o) -> exists p o1 ts, entry st u p "2.0" = Some o1 /\ so_resolve o1 ts = Ok o.
  Lemma noted_all_wf u o u' y : N u o = Some (u', y) -> wf_obj y.
  Proof.
    intros H. unfold noted_all in H. destruct (normalized v20_table u o) as [[n|]|]; try discriminate H. destruct (App.split path2url abspath n) as [[v jp]|]; [|discriminate H].
    destruct (store_get _ _ v jp "2.0") as [[x|]|] eqn:E; try discriminate H. injection H as <- <-. destruct (GS _ _ _ E) as (p & o1 & ts & E1 & R). destruct (WS _ _ _ E1) as [V W].
    unfold so_resolve in R. rewrite V in R. change (table_of "2.0") with v20_table in R. destruct (resolve v20_table (so_obj o1) ts) as [z|] eqn:Er; [|discriminate R]. cbn [rmap] in R. injection R as <-. exact (resolve_wf _ _ W _ Er).
  Qed.
  Lemma loop_all_wf fuel : forall seen u cur x, wf_obj cur -> deref_all_loop path2url abspath st fuel seen u cur = Ok x -> wf_obj x.
  Proof.
    induction fuel as [|fuel IH]; intros seen u cur x Wc H; [discriminate H|]. cbn [deref_all_loop] in H.
    assert (K : forall o, match N u cur with Some (u', nxt) => if existsb (label_all_eqb (u', label nxt)) seen then Err CycleDetectionError else deref_all_loop path2url abspath st fuel ((u', label nxt) :: seen) u' nxt | None => Ok cur end = Ok o -> wf_obj o).
    { intros o K. destruct (N u cur) as [[u' y]|] eqn:E; [|injection K as <-; exact Wc]. destruct (existsb _ seen); [discriminate K|]. exact (IH _ _ _ _ (noted_all_wf _ _ _ _ E) K). }
    destruct (oattr v20_table cur "ref") as [[[| | | | | |]| | |]|e]; try exact (K _ H); [injection H as <-; exact Wc|]. destruct e; try discriminate H. injection H as <-. exact Wc.
  Qed.
  Theorem deref_all_wf u o x : wf_obj o -> deref_all path2url abspath st u o = Ok x -> wf_obj x.
  Proof. intros W. exact (loop_all_wf _ _ _ _ _ W). Qed.
End Chain.
