(** * Following the references of a document: the chain of references ends where the document says. *)
From Coq Require Import String Ascii List Bool Arith Lia ZArith.
From Verif Require Import PyStr PyStrFacts PyVal PyValFacts Jp JpFacts UrlLib Urls SpecUrl Obj ObjFacts Classes_v2_0 TablesFacts SpecTables SpecJson ShapeFacts DumpFacts ReloadFacts NatDecFacts SpecObj OverrideFacts ResolveFacts SpecSchema SpecConv SpecBody SpecOp SpecDoc SpecStore
  Store App Main SpecScan SpecLocal SpecInside Shape30Facts TightFacts SpecGiven SpecMigrate SpecWhole SpecFollow PropertiesObjAux SpecOpen WfFacts Conv20 Up30 Whole Follow RefFacts LocalFacts FollowFacts.
Import ListNotations.
Open Scope string_scope. Open Scope nat_scope.
Notation within := SpecObj.within (only parsing).

(** ** all objects in an object *)
Fixpoint objs (o : obj) : list obj :=
  o :: match o with
       | OPrim _ => []
       | OObj _ _ _ kids => flat_map (fun kv => objs (snd kv)) kids
       | OList _ _ es => flat_map objs es
       | OMap _ _ es => flat_map (fun kv => objs (snd kv)) es
       end.
Lemma objs_within o ts x : within o ts x -> In x (objs o).
Proof.
  induction 1 as [o|c p s kids k o ts o' L _ IH|b p es i s e ts o' IT N _ IH|b p es k e ts o' L _ IH]; [destruct o; now left| | |]; right; apply in_flat_map.
  - exists (k, o). split; [now apply PyValFacts.lookup_In|exact IH].
  - exists e. split; [exact (nth_error_In _ _ N)|exact IH].
  - exists (k, e). split; [now apply PyValFacts.lookup_In|exact IH].
Qed.
Fixpoint objs_size (o : obj) : length (objs o) = Main.osize o.
Proof.
  destruct o as [j|c p s kids|b p es|b p es]; [reflexivity| | |]; cbn [objs length Main.osize]; f_equal.
  - induction kids as [|[k x] kids IH]; [reflexivity|]. cbn [flat_map snd]. rewrite app_length, objs_size, IH. reflexivity.
  - induction es as [|x es IH]; [reflexivity|]. cbn [flat_map]. rewrite app_length, objs_size, IH. reflexivity.
  - induction es as [|[k x] es IH]; [reflexivity|]. cbn [flat_map snd]. rewrite app_length, objs_size, IH. reflexivity.
Qed.

(** ** chains of references *)
Section Chain.
  Variables (path2url abspath : string -> string) (url : string) (root : obj).
  Notation N := (noted path2url abspath url root).
  Definition no_ref (o : obj) : Prop := oattr v20_table o "ref" = Err AttributeError \/ oattr v20_table o "ref" = Ok (OPrim JNull).
  Definition refers_by (o : obj) (r : string) : Prop := oattr v20_table o "ref" = Ok (OPrim (JStr r)).
  Lemma noted_same o o' r : refers_by o r -> refers_by o' r -> N o = N o'.
  Proof. unfold refers_by. intros H H'. unfold noted, normalized. now rewrite H, H'. Qed.
  Inductive leads : obj -> nat -> obj -> Prop :=
  | ld_end o : no_ref o -> leads o 0 o
  | ld_step o r y n x : refers_by o r -> N o = Some y -> (exists ts, within root ts y) -> leads y n x -> leads o (S n) x.
  Lemma leads_fun o n x : leads o n x -> forall n' x', leads o n' x' -> n' = n.
  Proof.
    unfold no_ref, refers_by. induction 1 as [o H|o r y n x R E _ _ IH]; intros n' x' L; inversion L as [o0 H'|o0 r' y' m x0 R' E' _ L']; subst; try reflexivity; unfold no_ref, refers_by in *.
    - destruct H as [H|H]; congruence.
    - destruct H' as [H'|H']; congruence.
    - assert (y' = y) by congruence. subst. f_equal. exact (IH _ _ L').
  Qed.
  Lemma label_text o r : snd (label o) = Some r <-> refers_by o r.
  Proof.
    unfold label, refers_by. cbn [snd]. destruct (oattr v20_table o "ref") as [[[| | | |t| |]| | |]|]; split; intros H; congruence.
  Qed.
  Lemma opt_eqb_eq x y : opt_eqb x y = true -> x = y.
  Proof. destruct x, y; cbn; intros H; try discriminate H; [apply String.eqb_eq in H; now subst|reflexivity]. Qed.
  Lemma label_eqb_eq x y : label_eqb x y = true -> x = y.
  Proof. destruct x, y. unfold label_eqb. intros H. apply andb_prop in H as [H1 H2]. apply opt_eqb_eq in H1, H2. cbn [fst snd] in *. now subst. Qed.
  Lemma label_fun o n x o' n' x' : leads o n x -> leads o' n' x' -> label o = label o' -> n = n'.
  Proof.
    intros L L' E. apply (f_equal snd) in E. inversion L as [o0 H|o0 r y m x0 R Ey Wy Ly]; subst; inversion L' as [o1 H'|o1 r' y' m' x1 R' Ey' Wy' Ly']; subst; [reflexivity| | |].
    - assert (X := proj2 (label_text _ _) R'). rewrite <- E in X. apply label_text in X. unfold no_ref, refers_by in *. destruct H; congruence.
    - assert (X := proj2 (label_text _ _) R). rewrite E in X. apply label_text in X. unfold no_ref, refers_by in *. destruct H'; congruence.
    - assert (X := proj2 (label_text _ _) R). rewrite E in X. apply label_text in X. rewrite (noted_same _ _ _ R X), Ey' in Ey. injection Ey as ->. f_equal. exact (leads_fun _ _ _ Ly' _ _ Ly).
  Qed.
  Lemma loop_leads fuel : forall seen cur n x, leads cur n x -> n < fuel -> (forall l, In l seen -> exists z m, label z = l /\ leads z m x /\ n <= m) -> deref_loop path2url abspath url root fuel seen cur = Ok x.
  Proof.
    induction fuel as [|fuel IH]; intros seen cur n x L F S0; [lia|]. cbn [deref_loop]. inversion L as [o0 H|o0 r y m x0 R E W Ly]; subst.
    - destruct H as [-> | ->]; reflexivity.
    - unfold refers_by in R. rewrite R, E. destruct (existsb (label_eqb (label y)) seen) eqn:X.
      + exfalso. apply existsb_exists in X as (l & Il & El). apply label_eqb_eq in El. destruct (S0 l Il) as (z & k & Lz & Kz & Le). rewrite <- El in Lz. pose proof (label_fun _ _ _ _ _ _ Kz Ly Lz). lia.
      + apply (IH _ _ m); [exact Ly|lia|]. intros l [<-|Il]; [exists y, m; auto|]. destruct (S0 l Il) as (z & k & Lz & Kz & Le). exists z, k. split; [exact Lz|]. split; [exact Kz|lia].
  Qed.
  Lemma chain_length o n x : leads o n x -> exists l, length l = n /\ NoDup (map label l) /\ forall z, In z l -> In z (objs root) /\ exists m, m < n /\ leads z m x.
  Proof.
    induction 1 as [o H|o r y n x R E [ts W] L (l & Ln & ND & F)].
    - exists []. split; [reflexivity|]. split; [constructor|]. intros z [].
    - exists (y :: l). cbn [length]. split; [now rewrite Ln|]. split.
      + cbn [map]. constructor; [|exact ND]. intros Z. apply in_map_iff in Z as (z & Ez & Iz). destruct (F z Iz) as (_ & m & Lt & Lz). pose proof (label_fun _ _ _ _ _ _ Lz L Ez). lia.
      + intros z [<-|Iz]; [split; [exact (objs_within _ _ _ W)|exists n; split; [lia|exact L]]|]. destruct (F z Iz) as (I1 & m & Lt & Lz). split; [exact I1|]. exists m. split; [lia|exact Lz].
  Qed.
  Theorem leads_deref o n x : leads o n x -> deref_in path2url abspath url root o = Ok x.
  Proof.
    intros L. unfold deref_in. apply loop_leads with n; [exact L| |].
    - destruct (chain_length o n x L) as (l & Ln & ND & F). assert (B : length (map label l) <= length (map label (objs root))).
      { apply NoDup_incl_length; [exact ND|]. intros q Iq. apply in_map_iff in Iq as (z & <- & Iz). apply in_map. exact (proj1 (F z Iz)). }
      rewrite !map_length, objs_size, Ln in B. lia.
    - intros l [<-|[]]. exists o, n. auto.
  Qed.
  (** [deref] gives well-formed objects *)
  Lemma raw_wf ts : forall j, wf_json j -> okp wf_json (raw_resolve j ts).
  Proof.
    induction ts as [|t ts IH]; intros j W; [now apply okp_ok|]. cbn [raw_resolve]. destruct j as [| | | | |l|d]; try (now apply IH).
    - apply okp_bind with (fun _ => True); [intros ? _; exact I|]. intros i _. apply okp_bind with wf_json; [|intros x; apply IH].
      intros x E. unfold py_nth in E. repeat match type of E with context [if ?b then _ else _] => destruct b; try discriminate E end; destruct (nth_error l _) eqn:En; try discriminate E; injection E as <-; exact (proj1 (wf_list l) W _ (nth_error_In _ _ En)).
    - destruct (lookup t d) eqn:L; [|apply okp_err]. apply IH. exact (proj2 (proj1 (wf_dict d) W) _ _ (PyValFacts.lookup_In _ _ _ L)).
  Qed.
  Lemma resolve_wf ts : forall o, wf_obj o -> okp wf_obj (resolve v20_table o ts).
  Proof.
    induction ts as [|t ts IH]; intros o W; cbn [resolve].
    - destruct o; first [apply okp_err|now apply okp_ok].
    - destruct o as [j|c p s kids|b p es|b p es]; [apply okp_err| | |].
      + destruct (lookup c v20_table) as [cd|] eqn:Ec; [|apply okp_err]. eapply okp_bind; [exact (getattr_wf v20_table c cd p s kids t eq_refl Ec W)|]. intros x Wx.
        destruct x; try (now apply IH). inversion Wx; subst. apply okp_rmap with wf_json; [now apply raw_wf|]. intros y Wy. now constructor.
      + apply okp_bind with (fun _ => True); [intros ? _; exact I|]. intros i _. apply okp_bind with wf_obj; [|intros x; apply IH]. inversion W; subst.
        intros x E. unfold py_nth in E. repeat match type of E with context [if ?b then _ else _] => destruct b; try discriminate E end; destruct (nth_error es _) eqn:En; try discriminate E; injection E as <-; apply nth_error_In in En; eauto.
      + destruct (lookup t es) eqn:L; [|apply okp_err]. inversion W; subst. apply PyValFacts.lookup_In in L. apply IH. eauto.
  Qed.
  Lemma noted_wf o y : wf_obj root -> N o = Some y -> wf_obj y.
  Proof.
    intros W H. unfold noted in H. destruct (normalized v20_table url o) as [[n|]|]; try discriminate H. destruct (split path2url abspath n) as [[u jp]|]; [|discriminate H].
    destruct (store_get _ _ u jp "2.0") as [[x|]|] eqn:E; try discriminate H. injection H as <-. unfold store_get in E.
    match type of E with context [first_match ?a ?b ?c] => destruct (first_match a b c) as [[path o']|] eqn:FM end; [|discriminate E].
    assert (o' = mk_sobj "2.0" root []) as ->.
    { unfold sub in FM. cbn [s_objs lookup] in FM. destruct (String.eqb u url); [|discriminate FM]. cbn [first_match] in FM. destruct (startswith "#" jp); [|discriminate FM]. cbn [lookup] in FM. change (String.eqb "2.0" "2.0") with true in FM. cbv iota in FM. congruence. }
    match type of E with rmap _ ?r = _ => destruct r as [x0|] eqn:Es end; [|discriminate E]. injection E as ->. unfold so_resolve in Es. cbn [so_version so_obj] in Es. change (table_of "2.0") with v20_table in Es.
    match type of Es with rmap _ ?r = _ => destruct r as [x1|] eqn:Er end; [|discriminate Es]. apply (f_equal (fun z => match z with Ok w => so_obj w | _ => root end)) in Es. cbn [rmap so_obj] in Es. rewrite <- Es. exact (resolve_wf _ _ W _ Er).
  Qed.
  Lemma loop_wf fuel : wf_obj root -> forall seen cur x, wf_obj cur -> deref_loop path2url abspath url root fuel seen cur = Ok x -> wf_obj x.
  Proof.
    intros W. induction fuel as [|fuel IH]; intros seen cur x Wc H; [discriminate H|]. cbn [deref_loop] in H.
    assert (K : forall o, match N cur with Some nxt => if existsb (label_eqb (label nxt)) seen then Err CycleDetectionError else deref_loop path2url abspath url root fuel (label nxt :: seen) nxt | None => Ok cur end = Ok o -> wf_obj o).
    { intros o K. destruct (N cur) as [y|] eqn:E; [|injection K as <-; exact Wc]. destruct (existsb _ seen); [discriminate K|]. exact (IH _ _ _ (noted_wf _ _ W E) K). }
    destruct (oattr v20_table cur "ref") as [[[| | | | | |]| | |]|e]; try exact (K _ H); [injection H as <-; exact Wc|]. destruct e; try discriminate H. injection H as <-. exact Wc.
  Qed.
  Theorem deref_wf o x : wf_obj root -> wf_obj o -> deref_in path2url abspath url root o = Ok x -> wf_obj x.
  Proof. intros W Wo. exact (loop_wf _ W _ _ _ Wo). Qed.
End Chain.
