(** * Facts about attached attributes. *)
From Coq Require Import String List Bool Arith Lia.
From Verif Require Import PyStr PyVal PyValFacts Attrs SpecAttrs.
Import ListNotations.
Open Scope string_scope.

Lemma declares_group_attr env c n p : declares env c n p -> group_attr env c n = Some p.
Proof.
  induction 1 as [env c base own n p older newer E NI L | env c b own n p older newer E NI L D IH]; subst env.
  - induction newer as [|[c' [b' o']] nw IHn]; cbn.
    + rewrite String.eqb_refl, L. reflexivity.
    + destruct (String.eqb_spec c' c) as [->|N]; [destruct NI; left; reflexivity|].
      apply IHn. intro HI. apply NI. right. exact HI.
  - induction newer as [|[c' [b' o']] nw IHn]; cbn.
    + rewrite String.eqb_refl, L. exact IH.
    + destruct (String.eqb_spec c' c) as [->|N]; [destruct NI; left; reflexivity|].
      apply IHn. intro HI. apply NI. right. exact HI.
Qed.
Lemma declares_cons env e c n p : fst e <> c -> declares env c n p -> declares (e :: env) c n p.
Proof.
  intros N D. inversion D as [c1 base own n1 p1 older newer E NI L | c1 b own n1 p1 older newer E NI L D']; subst.
  - eapply (declares_own _ c base own n p older (e :: newer)); [reflexivity| |exact L]. intros [HI|HI]; [exact (N HI)|exact (NI HI)].
  - eapply (declares_base _ c b own n p older (e :: newer)); [reflexivity| |exact L|exact D']. intros [HI|HI]; [exact (N HI)|exact (NI HI)].
Qed.
Lemma group_attr_declares env : forall c n p, group_attr env c n = Some p -> declares env c n p.
Proof.
  induction env as [|[c' [b own]] env IH]; cbn; intros c n p H; [discriminate|].
  destruct (String.eqb_spec c' c) as [->|N].
  - destruct (lookup n own) as [q|] eqn:L.
    + injection H as ->. eapply (declares_own _ c b own n p env []); [reflexivity|intros []|exact L].
    + destruct b as [b|]; [|discriminate]. eapply (declares_base _ c b own n p env []); [reflexivity|intros []|exact L|exact (IH _ _ _ H)].
  - apply declares_cons; [exact N|exact (IH _ _ _ H)].
Qed.
Lemma group_attr_none env c n : group_attr env c n = None <-> (forall p, ~ declares env c n p).
Proof.
  split.
  - intros E p D. apply declares_group_attr in D. rewrite D in E. discriminate.
  - intro N. destruct (group_attr env c n) as [p|] eqn:E; [|reflexivity]. destruct (N p (group_attr_declares _ _ _ _ E)).
Qed.
(** [same_place], decided *)
Definition same_placeb (env : gclasses) (c n m : string) : bool :=
  match group_attr env c n, group_attr env c m with
  | Some p, Some q => String.eqb (ap_key p) (ap_key q)
  | None, None => String.eqb n m
  | _, _ => false
  end.
Lemma same_placeb_ok env c n m : same_placeb env c n m = true <-> same_place env c n m.
Proof.
  unfold same_placeb, same_place. split.
  - destruct (group_attr env c n) as [p|] eqn:E1; destruct (group_attr env c m) as [q|] eqn:E2; intro H; try discriminate; apply String.eqb_eq in H.
    + left. exists p, q. split; [exact (group_attr_declares _ _ _ _ E1)|]. split; [exact (group_attr_declares _ _ _ _ E2)|exact H].
    + right. split; [exact (proj1 (group_attr_none _ _ _) E1)|]. split; [exact (proj1 (group_attr_none _ _ _) E2)|exact H].
  - intros [(p & q & D1 & D2 & K) | (N1 & N2 & K)].
    + rewrite (declares_group_attr _ _ _ _ D1), (declares_group_attr _ _ _ _ D2). apply String.eqb_eq. exact K.
    + rewrite (proj2 (group_attr_none _ _ _) N1), (proj2 (group_attr_none _ _ _) N2). apply String.eqb_eq. exact K.
Qed.

Lemma after_snoc env h x : after env (h ++ [x]) = do env (after env h) x.
Proof. unfold after. apply fold_left_app. Qed.

Lemma nth_update {A} n (x : A) : forall l m, nth_error (update_nth n x l) m = if Nat.eqb n m then (match nth_error l m with Some _ => Some x | None => None end) else nth_error l m.
Proof.
  induction n as [|n IH]; intros [|y l] [|m]; cbn; try reflexivity.
  - destruct (Nat.eqb n m); reflexivity.
  - apply IH.
Qed.
Lemma update_length {A} n (x : A) : forall l, List.length (update_nth n x l) = List.length l.
Proof. induction n as [|n IH]; intros [|y l]; cbn; try reflexivity. f_equal. apply IH. Qed.
Lemma write_of env s g n v : a_of (fst (write_attr env s g n v)) = a_of s.
Proof. unfold write_attr. destruct (nth_error (a_groups s) g); reflexivity. Qed.
Lemma write_length env s g n v : List.length (a_groups (fst (write_attr env s g n v))) = List.length (a_groups s).
Proof. unfold write_attr. destruct (nth_error (a_groups s) g); cbn; [apply update_length|reflexivity]. Qed.

Lemma first_snoc h x o ns :
  first_class (h ++ [x]) o ns =
  match first_class h o ns with
  | Some c => Some c
  | None => match x with Ask o' ns' (Some c) => if Nat.eqb o' o && String.eqb ns' ns then Some c else None | _ => None end
  end.
Proof.
  induction h as [|y h IH]; cbn.
  - destruct x as [o' ns' [c|] | |]; try reflexivity.
  - destruct y as [o' ns' [c|] | |]; try exact IH. destruct (Nat.eqb o' o && String.eqb ns' ns); [reflexivity|exact IH].
Qed.

(** what holds after any history *)
Record inv (h : list op) (s : attrs_state) : Prop := mk_inv
  { i_some : forall o ns g, group_of (a_of s) o ns = Some g ->
      exists i, nth_error (a_groups s) g = Some i /\ first_class h o ns = Some (g_class i);
    i_none : forall o ns, group_of (a_of s) o ns = None -> first_class h o ns = None;
    i_inj : forall o ns o' ns' g, group_of (a_of s) o ns = Some g -> group_of (a_of s) o' ns' = Some g -> o = o' /\ ns = ns' }.
Lemma inv_lt h s o ns g : inv h s -> group_of (a_of s) o ns = Some g -> g < List.length (a_groups s).
Proof. intros V E. destruct (i_some _ _ V _ _ _ E) as (i & N & _). apply nth_error_Some. rewrite N. discriminate. Qed.
Lemma same_key o' o ns' ns : (Nat.eqb o' o && String.eqb ns' ns)%bool = true <-> o' = o /\ ns' = ns.
Proof. rewrite andb_true_iff, Nat.eqb_eq, String.eqb_eq. reflexivity. Qed.
Lemma group_of_cons o1 ns1 g1 l o ns : group_of ((o1, ns1, g1) :: l) o ns = if (Nat.eqb o1 o && String.eqb ns1 ns)%bool then Some g1 else group_of l o ns.
Proof. reflexivity. Qed.

Lemma inv_after env h : inv h (after env h).
Proof.
  induction h as [|x h IH] using rev_ind.
  - constructor; cbn; try discriminate. reflexivity.
  - rewrite after_snoc. set (s := after env h) in *. destruct x as [o ns c | g n | g n v].
    + cbn [do]. unfold get_attrs. destruct (group_of (a_of s) o ns) as [g|] eqn:G; [|destruct c as [c|]]; cbn [fst].
      * constructor.
        -- intros o1 ns1 g1 E. destruct (i_some _ _ IH _ _ _ E) as (i & N & F). exists i. split; [exact N|]. rewrite first_snoc, F. reflexivity.
        -- intros o1 ns1 E. rewrite first_snoc, (i_none _ _ IH _ _ E). destruct c as [c|]; [|reflexivity].
           destruct (Nat.eqb o o1 && String.eqb ns ns1)%bool eqn:K; [|reflexivity]. apply same_key in K. destruct K as [-> ->]. rewrite G in E. discriminate.
        -- exact (i_inj _ _ IH).
      * assert (NEW : forall i, nth_error (a_groups s ++ [i]) (List.length (a_groups s)) = Some i).
        { intro i. rewrite nth_error_app2, Nat.sub_diag by lia. reflexivity. }
        constructor; cbn [a_of a_groups].
        -- intros o1 ns1 g1 E. rewrite group_of_cons in E. rewrite first_snoc. destruct (Nat.eqb o o1 && String.eqb ns ns1)%bool eqn:K.
           ++ assert (E' : g1 = List.length (a_groups s)) by congruence. subst g1. apply same_key in K. destruct K as [-> ->].
              exists (mk_group c [] []). split; [apply NEW|]. rewrite (i_none _ _ IH _ _ G). reflexivity.
           ++ destruct (i_some _ _ IH _ _ _ E) as (i & N & F). exists i. rewrite F. split; [|reflexivity].
              rewrite nth_error_app1; [exact N|]. exact (inv_lt _ _ _ _ _ IH E).
        -- intros o1 ns1 E. rewrite group_of_cons in E. destruct (Nat.eqb o o1 && String.eqb ns ns1)%bool eqn:K; [discriminate|].
           rewrite first_snoc, (i_none _ _ IH _ _ E), K. reflexivity.
        -- intros o1 ns1 o2 ns2 g1 E1 E2. rewrite group_of_cons in E1, E2.
           destruct (Nat.eqb o o1 && String.eqb ns ns1)%bool eqn:K1; destruct (Nat.eqb o o2 && String.eqb ns ns2)%bool eqn:K2.
           ++ apply same_key in K1, K2. destruct K1 as [<- <-], K2 as [<- <-]. split; reflexivity.
           ++ pose proof (inv_lt _ _ _ _ _ IH E2). assert (g1 = List.length (a_groups s)) by congruence. lia.
           ++ pose proof (inv_lt _ _ _ _ _ IH E1). assert (g1 = List.length (a_groups s)) by congruence. lia.
           ++ exact (i_inj _ _ IH _ _ _ _ _ E1 E2).
      * constructor.
        -- intros o1 ns1 g1 E. destruct (i_some _ _ IH _ _ _ E) as (i & N & F). exists i. split; [exact N|]. rewrite first_snoc, F. reflexivity.
        -- intros o1 ns1 E. rewrite first_snoc, (i_none _ _ IH _ _ E). reflexivity.
        -- exact (i_inj _ _ IH).
    + cbn [do]. constructor.
      * intros o1 ns1 g1 E. destruct (i_some _ _ IH _ _ _ E) as (i & N & F). exists i. split; [exact N|]. rewrite first_snoc, F. reflexivity.
      * intros o1 ns1 E. rewrite first_snoc, (i_none _ _ IH _ _ E). reflexivity.
      * exact (i_inj _ _ IH).
    + cbn [do]. constructor.
      * intros o1 ns1 g1 E. rewrite write_of in E. destruct (i_some _ _ IH _ _ _ E) as (i & N & F).
        rewrite first_snoc, F. unfold write_attr. destruct (nth_error (a_groups s) g) as [j|] eqn:J; cbn [fst a_groups]; [|exists i; split; [exact N|reflexivity]].
        rewrite nth_update. destruct (Nat.eqb_spec g g1) as [->|NE].
        -- rewrite N. assert (j = i) by congruence. subst j. eexists. split; [reflexivity|]. destruct (group_attr env (g_class i) n); reflexivity.
        -- exists i. split; [exact N|reflexivity].
      * intros o1 ns1 E. rewrite write_of in E. rewrite first_snoc, (i_none _ _ IH _ _ E). reflexivity.
      * intros o1 ns1 o2 ns2 g1. rewrite write_of. apply (i_inj _ _ IH).
Qed.

(** a group stays *)
Lemma do_keeps env s x o ns g : group_of (a_of s) o ns = Some g -> group_of (a_of (do env s x)) o ns = Some g.
Proof.
  intro G. destruct x as [o1 ns1 c | g1 n | g1 n v]; cbn [do]; [|exact G|rewrite write_of; exact G].
  unfold get_attrs. destruct (group_of (a_of s) o1 ns1) as [g1|] eqn:G1; [exact G|]. destruct c as [c|]; cbn [fst a_of]; [|exact G].
  rewrite group_of_cons. destruct (Nat.eqb o1 o && String.eqb ns1 ns)%bool eqn:K; [|exact G].
  apply same_key in K. destruct K as [-> ->]. rewrite G in G1. discriminate.
Qed.
Lemma fold_keeps env h : forall s o ns g, group_of (a_of s) o ns = Some g -> group_of (a_of (fold_left (do env) h s)) o ns = Some g.
Proof. induction h as [|x h IH]; cbn; intros s o ns g G; [exact G|]. apply IH, do_keeps, G. Qed.
Lemma ask_holds s o ns c g : snd (get_attrs s o ns c) = Some g -> group_of (a_of (fst (get_attrs s o ns c))) o ns = Some g.
Proof.
  unfold get_attrs. destruct (group_of (a_of s) o ns) as [g1|] eqn:G1; [cbn; intro H; rewrite G1; exact H|].
  destruct c as [c|]; cbn [fst snd a_of]; [|discriminate]. intro H. rewrite group_of_cons, Nat.eqb_refl, String.eqb_refl. exact H.
Qed.
Lemma answered_of env h o ns g : answered env h o ns g -> group_of (a_of (after env h)) o ns = Some g.
Proof.
  intros (h1 & c & h2 & -> & A). unfold after. rewrite fold_left_app. cbn [fold_left do]. apply fold_keeps, ask_holds, A.
Qed.
Lemma get_after env h o ns c g : answered env h o ns g -> get_attrs (after env h) o ns c = (after env h, Some g).
Proof. intro A. unfold get_attrs. rewrite (answered_of _ _ _ _ _ A). reflexivity. Qed.
Lemma unanswered env h o ns : first_class h o ns = None -> group_of (a_of (after env h)) o ns = None.
Proof.
  intro F. destruct (group_of (a_of (after env h)) o ns) as [g|] eqn:G; [|reflexivity].
  destruct (i_some _ _ (inv_after env h) _ _ _ G) as (i & _ & F'). rewrite F in F'. discriminate.
Qed.
Lemma first_split h o ns c : first_class h o ns = Some c -> exists h1 h2, h = (h1 ++ Ask o ns (Some c) :: h2)%list /\ first_class h1 o ns = None.
Proof.
  induction h as [|x h IH]; cbn; [discriminate|]. intro F.
  assert (K : first_class h o ns = Some c -> (first_class [x] o ns = None) -> exists h1 h2, x :: h = (h1 ++ Ask o ns (Some c) :: h2)%list /\ first_class h1 o ns = None).
  { intros F' X. destruct (IH F') as (h1 & h2 & -> & F1). exists (x :: h1), h2. split; [reflexivity|].
    cbn in X |- *. destruct x as [o' ns' [c'|] | |]; try exact F1. destruct (Nat.eqb o' o && String.eqb ns' ns)%bool; [discriminate|exact F1]. }
  destruct x as [o' ns' [c'|] | |]; try (apply K; [exact F|reflexivity]).
  destruct (Nat.eqb o' o && String.eqb ns' ns)%bool eqn:E; [|apply K; [exact F|cbn; rewrite E; reflexivity]].
  injection F as ->. apply same_key in E. destruct E as [-> ->]. exists [], h. split; reflexivity.
Qed.
Lemma first_answered env h o ns c : first_class h o ns = Some c -> exists g, answered env h o ns g.
Proof.
  intro F. destruct (first_split _ _ _ _ F) as (h1 & h2 & -> & F1). eexists. exists h1, (Some c), h2. split; [reflexivity|].
  unfold get_attrs. rewrite (unanswered env _ _ _ F1). reflexivity.
Qed.

(** what is stored for an attribute of a group *)
Definition stored (env : gclasses) (i : group) (n : string) : option value :=
  match group_attr env (g_class i) n with Some p => lookup (ap_key p) (g_attrs i) | None => lookup n (g_dict i) end.
Lemma lw_snoc env g c n h x w : last_written env g c n (h ++ [x]) w ->
  (exists m v, x = Write g m v /\ same_place env c n m /\ w = Some v)
  \/ ((forall m v, x = Write g m v -> ~ same_place env c n m) /\ last_written env g c n h w).
Proof.
  intro L. inversion L as [h0 N E | h1 m v h2 SP N E]; subst.
  - right. split; [intros m v ->; apply (N m v), in_or_app; right; left; reflexivity|].
    constructor. intros m v HI. apply (N m v), in_or_app. left. exact HI.
  - destruct h2 as [|y h2 _] using rev_ind.
    + apply app_inj_tail in E. destruct E as [<- <-]. left. exists m, v. repeat split; [exact SP].
    + change (Write g m v :: h2 ++ [y])%list with ((Write g m v :: h2) ++ [y])%list in E. rewrite app_assoc in E.
      apply app_inj_tail in E. destruct E as [<- <-]. right. split.
      * intros m' v' ->. apply (N m' v'), in_or_app. right. left. reflexivity.
      * constructor; [exact SP|]. intros m' v' HI. apply (N m' v'), in_or_app. left. exact HI.
Qed.
Lemma given_snoc env x h : forall before, given_before env before (h ++ [x]) ->
  given_before env before h /\ match x with Write g _ _ | Read g _ => exists o ns, answered env (before ++ h) o ns g | Ask _ _ _ => True end.
Proof.
  induction h as [|y h IH]; cbn [List.app given_before]; intros before.
  - intros [A _]. rewrite app_nil_r. split; [exact Logic.I|exact A].
  - intros [A B]. destruct (IH _ B) as [C D]. rewrite <- app_assoc in D. split; [split; [exact A|exact C]|exact D].
Qed.
Lemma written_lt env h : forall g m v, given_before env [] h -> In (Write g m v) h -> g < List.length (a_groups (after env h)).
Proof.
  induction h as [|x h IH] using rev_ind; intros g m v G HI; [destruct HI|].
  destruct (given_snoc _ _ _ _ G) as [G1 G2]. rewrite after_snoc.
  assert (MONO : List.length (a_groups (after env h)) <= List.length (a_groups (do env (after env h) x))).
  { destruct x as [o ns c | g1 n1 | g1 n1 v1]; cbn [do]; [|lia|rewrite write_length; lia].
    unfold get_attrs. destruct (group_of _ o ns); [cbn; lia|]. destruct c; cbn [fst a_groups]; [rewrite app_length; lia|lia]. }
  apply in_app_or in HI. destruct HI as [HI | [HI|[]]].
  - pose proof (IH _ _ _ G1 HI). lia.
  - subst x. destruct G2 as (o & ns & A). apply answered_of in A. pose proof (inv_lt _ _ _ _ _ (inv_after env h) A). lia.
Qed.

Lemma ds_look {A} k (v : A) d k' : lookup k' (dict_set k v d) = if String.eqb k k' then Some v else lookup k' d.
Proof. rewrite lookup_dict_set, String.eqb_sym. reflexivity. Qed.

Lemma lw_in env g c n h v : last_written env g c n h (Some v) -> exists m, In (Write g m v) h.
Proof. intro L. inversion L as [| h1 m v' h2 SP N E]; subst. exists m. apply in_elt. Qed.
Lemma stored_ok env h : given_before env [] h -> forall o ns g i n w,
  group_of (a_of (after env h)) o ns = Some g -> nth_error (a_groups (after env h)) g = Some i ->
  last_written env g (g_class i) n h w -> stored env i n = w.
Proof.
  induction h as [|x h IH] using rev_ind; intros G o ns g i n w GO NE L; [discriminate|].
  destruct (given_snoc _ _ _ _ G) as [G1 G2]. rewrite after_snoc in GO, NE. cbn [List.app] in G2.
  pose proof (inv_after env h) as V.
  apply lw_snoc in L. destruct x as [o1 ns1 c | g1 n1 | g1 n1 v1]; cbn [do] in GO, NE.
  - destruct L as [(m & v & E & _) | [_ L]]; [discriminate|]. unfold get_attrs in GO, NE.
    destruct (group_of (a_of (after env h)) o1 ns1) as [g1|] eqn:G1'; [exact (IH G1 _ _ _ _ _ _ GO NE L)|].
    destruct c as [c|]; cbn [fst a_of a_groups] in GO, NE; [|exact (IH G1 _ _ _ _ _ _ GO NE L)].
    rewrite group_of_cons in GO. destruct (Nat.eqb o1 o && String.eqb ns1 ns)%bool eqn:K.
    + assert (E : g = List.length (a_groups (after env h))) by congruence. subst g.
      rewrite nth_error_app2, Nat.sub_diag in NE by lia. cbn in NE. assert (E : i = mk_group c [] []) by congruence. subst i.
      assert (NW : w = None).
      { destruct w as [v|]; [|reflexivity]. destruct (lw_in _ _ _ _ _ _ L) as [m HI]. pose proof (written_lt env h _ _ _ G1 HI). lia. }
      subst w. unfold stored. cbn. destruct (group_attr env c n); reflexivity.
    + pose proof (inv_lt _ _ _ _ _ V GO). rewrite nth_error_app1 in NE by assumption. exact (IH G1 _ _ _ _ _ _ GO NE L).
  - destruct L as [(m & v & E & _) | [_ L]]; [discriminate|]. exact (IH G1 _ _ _ _ _ _ GO NE L).
  - rewrite write_of in GO. unfold write_attr in NE. destruct G2 as (o2 & ns2 & A2). apply answered_of in A2.
    destruct (i_some _ _ V _ _ _ A2) as (j & NJ & _). rewrite NJ in NE. cbn [fst a_groups] in NE. rewrite nth_update in NE.
    destruct (Nat.eqb_spec g1 g) as [->|NEQ].
    + rewrite NJ in NE.
      assert (C : g_class i = g_class j). { assert (X := f_equal (option_map g_class) NE). cbn in X. destruct (group_attr env (g_class j) n1); cbn in X; congruence. }
      assert (SI : stored env i n = if same_placeb env (g_class j) n n1 then Some v1 else stored env j n).
      { unfold stored, same_placeb. rewrite C. destruct (group_attr env (g_class j) n1) as [q|] eqn:Q; apply (f_equal (fun x => match x with Some y => y | None => i end)) in NE; cbn in NE; subst i; cbn [g_attrs g_dict];
          destruct (group_attr env (g_class j) n) as [p|] eqn:P; try reflexivity.
        - rewrite ds_look, String.eqb_sym. reflexivity.
        - rewrite ds_look, String.eqb_sym. reflexivity. }
      rewrite SI. rewrite C in L. destruct L as [(m & v & E & SP & ->) | [NS L]].
      * assert (m = n1 /\ v = v1) as [-> ->] by (split; congruence). rewrite (proj2 (same_placeb_ok _ _ _ _) SP). reflexivity.
      * destruct (same_placeb env (g_class j) n n1) eqn:B; [|exact (IH G1 _ _ _ _ _ _ GO NJ L)].
        destruct (NS n1 v1 eq_refl (proj1 (same_placeb_ok _ _ _ _) B)).
    + destruct L as [(m & v & E & SP & ->) | [NS L]]; [congruence|]. exact (IH G1 _ _ _ _ _ _ GO NE L).
Qed.

Lemma reading_ok env h o ns g c n w : given_before env [] h -> answered env h o ns g -> first_class h o ns = Some c ->
  last_written env g c n h w -> reading env c n w (read_attr env (after env h) g n).
Proof.
  intros G A F L. apply answered_of in A. destruct (i_some _ _ (inv_after env h) _ _ _ A) as (i & N & F').
  assert (c = g_class i) by congruence. subst c.
  pose proof (stored_ok env h G o ns g i n w A N L) as S. unfold read_attr. rewrite N. unfold stored in S.
  unfold reading. destruct (group_attr env (g_class i) n) as [p|] eqn:P.
  - rewrite S. destruct w as [v|]; [reflexivity|]. split; [|intro X; destruct (X p (group_attr_declares _ _ _ _ P))].
    intros q D. apply declares_group_attr in D. assert (q = p) by congruence. subst q. reflexivity.
  - rewrite S. destruct w as [v|]; [reflexivity|]. split; [|reflexivity].
    intros q D. apply declares_group_attr in D. congruence.
Qed.
(** every attribute has a last value written, or none *)
Lemma last_written_total env g c n h : exists w, last_written env g c n h w.
Proof.
  induction h as [|x h [w IH]] using rev_ind.
  - exists None. constructor. intros m v [].
  - assert (K : (forall m v, x = Write g m v -> ~ same_place env c n m) -> exists w, last_written env g c n (h ++ [x]) w).
    { intro NS. exists w. inversion IH as [h0 N E | h1 m v h2 SP N E]; subst.
      - constructor. intros m v HI. apply in_app_or in HI. destruct HI as [HI|[HI|[]]]; [exact (N m v HI)|exact (NS m v HI)].
      - rewrite <- app_assoc. cbn [List.app]. constructor; [exact SP|]. intros m' v' HI. apply in_app_or in HI. destruct HI as [HI|[HI|[]]]; [exact (N m' v' HI)|exact (NS m' v' HI)]. }
    destruct x as [o ns cc | g1 n1 | g1 n1 v1]; try (apply K; intros m v X; discriminate).
    destruct (Nat.eq_dec g1 g) as [->|NG]; [|apply K; intros m v X; congruence].
    destruct (same_placeb env c n n1) eqn:B.
    + exists (Some v1). constructor; [apply same_placeb_ok; exact B|]. intros m' v' [].
    + apply K. intros m v X SP. assert (m = n1) by congruence. subst m. apply same_placeb_ok in SP. congruence.
Qed.
