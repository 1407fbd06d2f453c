(** Lemmas about [compare] of objects (C22). *)
From Coq Require Import String Ascii List Bool Arith ZArith QArith Lia.
From Verif Require Import PyStr PyStrFacts PyVal PyValFacts Jp JpFacts Obj ObjFacts ShapeFacts DumpFacts ResolveFacts
  SpecJson SpecObj SpecCompare CompareContainer CompareFacts ObjCompare NatDecFacts.
Import ListNotations.
Close Scope Q_scope. Open Scope string_scope. Open Scope nat_scope.

(** ** unfolding *)
Definition raw_list : string -> nat -> list json -> list json -> res (bool * string) :=
  fun name =>
  fix go (i : nat) (l m : list json) {struct l} : res (bool * string) :=
         match l with
         | [] => Ok (true, "")
         | x :: l' =>
             match m with
             | [] => Err IndexError
             | y :: m' =>
                 r <- cmp_raw (jp_join [nat_dec i] (Some name)) x y ;;
                 if fst r then go (S i) l' m' else Ok r
             end
         end.
Definition raw_dict (name : string) (e : list (string * json)) :=
              (fix go (d : list (string * json)) : res (bool * string) :=
                 match d with
                 | [] => Ok (true, "")
                 | (k, x) :: d' =>
                     match lookup k e with
                     | None => Err KeyError
                     | Some y =>
                         r <- cmp_raw (jp_join [k] (Some name)) x y ;;
                         if fst r then go d' else Ok r
                     end
                 end).
Definition cmp_kid tbl name (x y : obj) : res (bool * string) :=
  match x, y with
  | OPrim j, OPrim j' => cmp_raw name j j'
  | OPrim _, _ => Ok (false, name)
  | OObj d _ _ _, OObj d' _ _ _ => if String.eqb d d' then compare tbl x y (Some name) else Ok (false, name)
  | OList d _ _, OList d' _ _ | OMap d _ _, OMap d' _ _ =>
      if builder_eqb d d' then compare tbl x y (Some name) else Ok (false, name)
  | _, _ => Ok (false, name)
  end.
Fixpoint cmp_kids tbl base (kids1 kids2 : list (string * obj)) (cs : list childdef) : res (bool * string) :=
  match cs with
  | [] => Ok (true, "")
  | ch :: cs' =>
      r <- cmp_kid tbl (jp_join [ch_name ch] base) (kid_of (ch_name ch) kids1) (kid_of (ch_name ch) kids2) ;;
      if fst r then cmp_kids tbl base kids1 kids2 cs' else Ok r
  end.
Definition cmp_elem tbl name (x y : obj) (k : res (bool * string)) : res (bool * string) :=
  match x with
  | OPrim j => if str_or_int j then Ok (match y with OPrim j' => py_eq j j' | _ => false end, name) else Err AttributeError
  | _ => r <- compare tbl x y (Some name) ;; if fst r then k else Ok r
  end.
Fixpoint cmp_list tbl base i (l m : list obj) : res (bool * string) :=
  match l, m with
  | x :: l', y :: m' => cmp_elem tbl (jp_join [nat_dec i] base) x y (cmp_list tbl base (S i) l' m')
  | _, _ => Ok (true, "")
  end.
Fixpoint cmp_map tbl base e (d : list (string * obj)) : res (bool * string) :=
  match d with
  | [] => Ok (true, "")
  | (k, x) :: d' =>
      match lookup k e with
      | None => Err KeyError
      | Some y => cmp_elem tbl (jp_join [k] base) x y (cmp_map tbl base e d')
      end
  end.

Lemma compare_obj_eq tbl c p s1 kids1 c' p' s2 kids2 base :
  compare tbl (OObj c p s1 kids1) (OObj c' p' s2 kids2) base =
  if String.eqb c c' then
    match lookup c tbl with
    | None => Err KeyError
    | Some cd => r <- cmp_fields (c_fields cd) base s1 s2 ;; if fst r then cmp_kids tbl base kids1 kids2 (c_children cd) else Ok r
    end
  else Ok (false, "").
Proof.
  cbn [compare]. destruct (String.eqb c c'); [|reflexivity]. destruct (lookup c tbl) as [cd|]; [|reflexivity].
  apply bind_ext; [reflexivity|]. intros r. destruct (fst r); [|reflexivity].
  induction (c_children cd) as [|ch cs IH]; [reflexivity|]. cbn [cmp_kids]. apply bind_ext; [|intros a; destruct (fst a); [exact IH|reflexivity]].
  clear IH. generalize (kid_of (ch_name ch) kids2) as y. intros y. unfold kid_of, cmp_kid. induction kids1 as [|[k x] kids1 IH]; cbn [lookup].
  - destruct y; reflexivity.
  - destruct (String.eqb (ch_name ch) k); [reflexivity|exact IH].
Qed.
Lemma compare_list_eq tbl b p l b' p' m base :
  compare tbl (OList b p l) (OList b' p' m) base =
  if builder_eqb b b' then if Nat.eqb (length l) (length m) then cmp_list tbl base 0 l m else Ok (false, "") else Ok (false, "").
Proof.
  cbn [compare]. destruct (builder_eqb b b'); [|reflexivity]. destruct (Nat.eqb (length l) (length m)); [|reflexivity].
  generalize 0 as i. revert m. induction l as [|x l IH]; intros [|y m] i; try reflexivity.
  cbn [cmp_list]. unfold cmp_elem. destruct x; try reflexivity; (apply bind_ext; [reflexivity|]; intros r; destruct (fst r); [apply IH|reflexivity]).
Qed.
Lemma compare_map_eq tbl b p d b' p' e base :
  compare tbl (OMap b p d) (OMap b' p' e) base =
  if builder_eqb b b' then
    match filter (fun k => negb (mem k e)) (keys d) with
    | k :: _ => Ok (false, jp_join [k] base)
    | [] => match filter (fun k => negb (mem k d)) (keys e) with
            | k :: _ => Ok (false, jp_join [k] base)
            | [] => cmp_map tbl base e d
            end
    end
  else Ok (false, "").
Proof.
  cbn [compare]. destruct (builder_eqb b b'); [|reflexivity].
  destruct (filter (fun k => negb (mem k e)) (keys d)); [|reflexivity].
  destruct (filter (fun k => negb (mem k d)) (keys e)); [|reflexivity].
  induction d as [|[k x] d IH]; [reflexivity|]. cbn [cmp_map]. destruct (lookup k e) as [y|]; [|reflexivity].
  unfold cmp_elem. destruct x; try reflexivity; (apply bind_ext; [reflexivity|]; intros r; destruct (fst r); [exact IH|reflexivity]).
Qed.

Lemma builder_eqb_eq a b : builder_eqb a b = true <-> a = b.
Proof.
  revert b. induction a; intros [] ; cbn; try (split; [discriminate|intros E; discriminate]).
  - rewrite String.eqb_eq. split; congruence.
  - rewrite IHa. split; congruence.
  - rewrite IHa. split; congruence.
  - tauto.
  - rewrite andb_true_iff, String.eqb_eq, IHa. split; [intros []; congruence|intros E; injection E; auto].
  - rewrite IHa. split; congruence.
Qed.
Lemma builder_eqb_refl b : builder_eqb b b = true.
Proof. now apply builder_eqb_eq. Qed.

(** ** raw values *)
Lemma py_eq_scalar_refl j : scalar j -> py_eq j j = true.
Proof. destruct j; cbn; intros; try contradiction; try reflexivity; try apply String.eqb_refl; try apply Qeq_bool_refl. Qed.
Lemma filter_mem_self {A} (d : list (string * A)) : filter (fun k => negb (mem k d)) (keys d) = [].
Proof.
  assert (G : forall l : list string, (forall k, In k l -> In k (keys d)) -> filter (fun k => negb (mem k d)) l = []).
  { induction l as [|k l IH]; intros H; [reflexivity|]. cbn [filter]. assert (E : mem k d = true) by (apply mem_true, H; now left).
    rewrite E. cbn. apply IH. intros; apply H; now right. }
  apply G; auto.
Qed.
Lemma filter_mem_nil {A} (d : list (string * A)) l : filter (fun k => negb (mem k d)) l = [] -> forall k, In k l -> In k (keys d).
Proof.
  intros H k Hk. destruct (mem k d) eqn:E; [now apply mem_true|]. exfalso.
  assert (In k (filter (fun k => negb (mem k d)) l)) by (apply filter_In; now rewrite E). rewrite H in H0. destruct H0.
Qed.

Lemma cmp_raw_list name l m : cmp_raw name (JList l) (JList m) = raw_list name 0 l m.
Proof. reflexivity. Qed.
Lemma cmp_raw_dict name d e : cmp_raw name (JDict d) (JDict e) =
  match filter (fun k => negb (mem k e)) (keys d) with
      | k :: _ => Ok (false, jp_join [k] (Some name))
      | [] =>
          match filter (fun k => negb (mem k d)) (keys e) with
          | k :: _ => Ok (false, jp_join [k] (Some name))
          | [] => raw_dict name e d
          end
      end.
Proof. reflexivity. Qed.

Lemma cmp_raw_refl j : wf_json j -> forall name, exists loc, cmp_raw name j j = Ok (true, loc).
Proof.
  induction j as [j IH] using json_part_ind. intros W name.
  assert (Sc : scalar j -> exists loc, cmp_raw name j j = Ok (true, loc)).
  { intros Hs. exists name. assert (Hq := py_eq_scalar_refl _ Hs). destruct j; cbn in Hs; try contradiction; cbn [cmp_raw str_or_int]; rewrite Hq; reflexivity. }
  destruct j as [| | | | |l|d]; try (apply Sc; exact I).
  - clear Sc. rewrite cmp_raw_list. rewrite wf_list in W. generalize 0 as i. cbn [part] in IH.
    induction l as [|x l IHl]; intros i; [exists ""; reflexivity|]. cbn [raw_list].
    destruct (IH x (or_introl eq_refl) (W x (or_introl eq_refl)) (jp_join [nat_dec i] (Some name))) as (loc & ->). cbn [bind fst].
    apply IHl; [intros y Hy; apply IH; now right|intros y Hy; apply W; now right].
  - rewrite cmp_raw_dict, !filter_mem_self. rewrite wf_dict in W. destruct W as [Nd W].
    assert (G : forall d', (forall k x, In (k, x) d' -> In (k, x) d) -> exists loc, raw_dict name d d' = Ok (true, loc)).
    { induction d' as [|[k x] d' IHd]; intros Hs; [exists ""; reflexivity|]. cbn [raw_dict].
      assert (Hin := Hs k x (or_introl eq_refl)). rewrite (lookup_nodup _ _ _ Nd Hin).
      destruct (IH x (ex_intro _ k Hin) (W k x Hin) (jp_join [k] (Some name))) as (loc & ->). cbn [bind fst].
      apply IHd. intros; apply Hs; now right. }
    apply G; auto.
Qed.

Lemma cmp_raw_agree j : forall name j' loc, cmp_raw name j j' = Ok (true, loc) -> agree j j'.
Proof.
  induction j as [j IH] using json_part_ind. intros name j' loc H.
  assert (Sc : scalar j -> agree j j').
  { intros Hs. apply ag_scalar, py_eq_scalar; [exact Hs|].
    destruct j; cbn in Hs; try contradiction; cbn [cmp_raw str_or_int] in H; injection H as H _;
      try exact H; apply andb_true_iff in H; apply H. }
  destruct j as [| | | | |l|d]; try (apply Sc; exact I).
  - destruct j' as [| | | | |m|e]; try (cbn in H; discriminate). rewrite cmp_raw_list in H. apply ag_list.
    cbn [part] in IH. clear Sc. revert m H. generalize 0 as i0. induction l as [|x l IHl]; intros i0 m H i y Hi; [destruct i; discriminate|].
    cbn [raw_list] in H. destruct m as [|y' m]; [discriminate|]. apply bind_ok in H as ([s loc'] & H1 & H2). cbn [fst] in H2.
    destruct s; [|discriminate]. destruct i as [|i]; cbn in Hi.
    + injection Hi as <-. exists y'. split; [reflexivity|]. eapply IH; [now left|exact H1].
    + cbn [nth_error]. eapply IHl; eauto. intros; apply IH with (name := name0) (loc := loc0); [now right|assumption].
  - destruct j' as [| | | | |m|e]; try (cbn in H; discriminate). rewrite cmp_raw_dict in H.
    destruct (filter (fun k => negb (mem k e)) (keys d)) eqn:F1; [|discriminate].
    destruct (filter (fun k => negb (mem k d)) (keys e)) eqn:F2; [|discriminate].
    apply ag_dict.
    + intros k. split; [apply (filter_mem_nil _ _ F1)|apply (filter_mem_nil _ _ F2)].
    + cbn [part] in IH. clear F1 F2 Sc. induction d as [|[k x] d IHd]; intros k' x' Hin; [destruct Hin|]. cbn [raw_dict] in H.
      destruct (lookup k e) as [y|] eqn:El; [|discriminate]. apply bind_ok in H as ([s loc'] & H1 & H2). cbn [fst] in H2.
      destruct s; [|discriminate]. destruct Hin as [E|Hin].
      * injection E as <- <-. exists y. split; [exact El|]. eapply IH; [exists k; now left|exact H1].
      * eapply IHd; eauto. intros z (kz & Hz) nm j' lc Hc. eapply IH; [exists kz; right; exact Hz|exact Hc].
Qed.

(** ** fields *)
Lemma reads_get f s v : reads f s v -> field_get f s = Ok v.
Proof.
  intros [d w Hl Hr|d Hl Hr]; unfold field_get; cbn [py_in bind py_getitem]; unfold mem; rewrite Hl; cbn [bind]; rewrite Hr; reflexivity.
Qed.
Lemma cmp_fields_refl fs base s : (forall f, In f fs -> exists v, field_get f s = Ok v /\ wf_json v) ->
  exists loc, cmp_fields fs base s s = Ok (true, loc).
Proof.
  induction fs as [|f fs IH]; intros H; [exists ""; reflexivity|]. cbn [cmp_fields].
  destruct (H f (or_introl eq_refl)) as (v & -> & W). cbn [bind]. destruct (cmp_raw_refl v W (jp_join [f_name f] base)) as (loc & ->).
  cbn [bind fst]. apply IH. intros; apply H; now right.
Qed.
Lemma cmp_fields_agree fs base s s' loc : cmp_fields fs base s s' = Ok (true, loc) ->
  forall f v w, In f fs -> reads f s v -> reads f s' w -> agree v w.
Proof.
  revert loc. induction fs as [|f fs IH]; intros loc H g v w Hin Hv Hw; [destruct Hin|]. cbn [cmp_fields] in H.
  apply bind_ok in H as (a & Ha & H). apply bind_ok in H as (b & Hb & H). apply bind_ok in H as ([s0 loc0] & Hc & H). cbn [fst] in H.
  destruct s0; [|discriminate]. destruct Hin as [->|Hin].
  - apply reads_get in Hv. apply reads_get in Hw. rewrite Ha in Hv. rewrite Hb in Hw. injection Hv as <-. injection Hw as <-.
    eapply cmp_raw_agree; eauto.
  - eapply IH; eauto.
Qed.

(** ** reflexivity *)
Inductive proper (tbl : ctable) : obj -> Prop :=
| pr_obj c cd p s kids :
    lookup c tbl = Some cd -> (forall f, In f (c_fields cd) -> exists v, field_get f s = Ok v /\ wf_json v) ->
    (forall k x, lookup k kids = Some x -> proper tbl x \/ exists j, x = OPrim j /\ wf_json j) ->
    proper tbl (OObj c p s kids)
| pr_list b p es : (forall x, In x es -> proper tbl x \/ exists j, x = OPrim j /\ str_or_int j = true) -> proper tbl (OList b p es)
| pr_map b p es : NoDup (keys es) -> (forall k x, In (k, x) es -> proper tbl x \/ exists j, x = OPrim j /\ str_or_int j = true) ->
    proper tbl (OMap b p es).

Lemma str_or_int_refl j : str_or_int j = true -> py_eq j j = true.
Proof. intros H. apply py_eq_scalar_refl. destruct j; try discriminate; exact I. Qed.
Lemma proper_nonprim tbl o : proper tbl o -> ~ primitive o.
Proof. intros H (j & ->). inversion H. Qed.

Lemma compare_refl tbl o : proper tbl o -> forall base, exists loc, compare tbl o o base = Ok (true, loc).
Proof.
  induction o as [j|c p s kids IH|b p es IH|b p es IH] using obj_ind'; intros P base; inversion P as [? cd ? ? ? Ec Hf Hk|? ? ? He|? ? ? Nd He]; subst.
  - rewrite compare_obj_eq, String.eqb_refl, Ec. destruct (cmp_fields_refl _ base s Hf) as (l & ->). cbn [bind fst].
    induction (c_children cd) as [|ch cs IHc]; [exists ""; reflexivity|]. cbn [cmp_kids].
    assert (E : exists loc, cmp_kid tbl (jp_join [ch_name ch] base) (kid_of (ch_name ch) kids) (kid_of (ch_name ch) kids) = Ok (true, loc)).
    { unfold kid_of. destruct (lookup (ch_name ch) kids) as [x|] eqn:El; [|exists (jp_join [ch_name ch] base); reflexivity].
      destruct (Hk _ _ El) as [Px|(j & -> & W)]; [|apply cmp_raw_refl; exact W].
      assert (IHx : forall base, exists loc, compare tbl x x base = Ok (true, loc)).
      { rewrite Forall_forall in IH. apply lookup_In in El. exact (IH _ El Px). }
      destruct x; cbn [cmp_kid]; [exfalso; apply (proper_nonprim _ _ Px); eexists; reflexivity| | |];
        rewrite ?String.eqb_refl, ?builder_eqb_refl; apply IHx. }
    destruct E as (loc & ->). cbn [bind fst]. exact IHc.
  - rewrite compare_list_eq, builder_eqb_refl, Nat.eqb_refl. generalize 0 as i. clear P.
    induction es as [|x es IHe]; intros i; [exists ""; reflexivity|]. cbn [cmp_list]. rewrite Forall_cons_iff in IH. destruct IH as [IHx IH].
    assert (R : exists loc, cmp_list tbl base (S i) es es = Ok (true, loc)) by (apply IHe; [exact IH|intros; apply He; now right]).
    destruct (He x (or_introl eq_refl)) as [Px|(j & -> & Hj)].
    + destruct (IHx Px (Some (jp_join [nat_dec i] base))) as (loc & E). unfold cmp_elem.
      destruct x; [exfalso; apply (proper_nonprim _ _ Px); eexists; reflexivity| | |]; rewrite E; cbn [bind fst]; exact R.
    + cbn [cmp_elem]. rewrite Hj, (str_or_int_refl _ Hj). eauto.
  - rewrite compare_map_eq, builder_eqb_refl, !filter_mem_self. clear P.
    assert (G : forall d, (forall k x, In (k, x) d -> In (k, x) es) -> exists loc, cmp_map tbl base es d = Ok (true, loc)).
    { induction d as [|[k x] d IHd]; intros Hs; [exists ""; reflexivity|]. cbn [cmp_map].
      assert (Hin := Hs k x (or_introl eq_refl)). rewrite (lookup_nodup _ _ _ Nd Hin).
      assert (R : exists loc, cmp_map tbl base es d = Ok (true, loc)) by (apply IHd; intros; apply Hs; now right).
      destruct (He _ _ Hin) as [Px|(j & -> & Hj)].
      + rewrite Forall_forall in IH. destruct (IH _ Hin Px (Some (jp_join [k] base))) as (loc & E). cbn [snd] in E. unfold cmp_elem.
        destruct x; [exfalso; apply (proper_nonprim _ _ Px); eexists; reflexivity| | |]; rewrite E; cbn [bind fst]; exact R.
      + cbn [cmp_elem]. rewrite Hj, (str_or_int_refl _ Hj). eauto. }
    apply G; auto.
Qed.

(** ** constructed objects are proper *)
Lemma select_nonstr b j k : select b j = Ok k -> match k with KPrim v => exists t, v = JBool t | _ => True end.
Proof. destruct k; auto. intros H. destruct (select_prim _ _ _ H) as [-> (t & ->)]. eauto. Qed.
Lemma construct_prim_val tbl j b path v : construct tbl j b path [] = Ok (OPrim v) -> v = j /\ str_or_int v = true.
Proof.
  rewrite construct_eq. intros H. apply bind_ok in H as (k & Hs & H). destruct k as [w|c|b'|b'|]; cbn [con_core] in H; try rewrite split_nil in H; cbn [bind] in H.
  - injection H as ->. destruct (select_prim _ _ _ Hs) as [-> (t & ->)]. auto.
  - destruct (lookup c tbl); [|discriminate]. apply bind_ok in H as (? & _ & H). discriminate.
  - destruct j; try discriminate. apply bind_ok in H as (? & _ & H). discriminate.
  - destruct j; try discriminate. apply bind_ok in H as (? & _ & H). discriminate.
  - destruct j; try discriminate. injection H as <-. auto.
Qed.

Definition wf_defaults (tbl : ctable) : Prop :=
  forall c cd f, lookup c tbl = Some cd -> In f (c_fields cd) -> wf_json (f_default f).

Lemma within_step_obj c p s kids k x ts o : lookup k kids = Some x -> within x ts o -> within (OObj c p s kids) (k :: ts) o.
Proof. intros. econstructor; eauto. Qed.

Lemma construct_proper tbl : well_declared tbl -> wf_defaults tbl -> forall j b path o, construct tbl j b path [] = Ok o ->
  wf_json j -> readable tbl o -> ~ primitive o -> proper tbl o.
Proof.
  intros Wt Wd j. induction j as [j IH] using json_part_ind. intros b path o C W R Hp.
  rewrite construct_eq in C. apply bind_ok in C as (k & Hs & C).
  destruct k as [w|c|b'|b'|]; cbn [con_core] in C; try rewrite split_nil in C; cbn [bind] in C.
  - injection C as <-. exfalso; apply Hp; eexists; reflexivity.
  - destruct (lookup c tbl) as [cd|] eqn:Ec; [|discriminate]. apply bind_ok in C as (kids & Ek & E). injection E as <-.
    destruct (declared_nodup cd (Wt c cd Ec)) as (_ & Nc & _).
    apply (pr_obj tbl c cd path j kids Ec).
    + intros f Hf. destruct (R [] c path j kids cd f (wi_here _) Ec Hf) as (v & Hv). exists v. split; [now apply reads_get|].
      inversion Hv as [d w Hl Hr|d Hl Hr]; subst.
      * apply lookup_In in Hl. rewrite wf_dict in W. eapply W; eauto.
      * eapply Wd; eauto.
    + intros k x Hl. assert (Hk : In k (map ch_name (c_children cd))).
      { eapply con_kids_keys; eauto. apply lookup_some_in. eauto. }
      apply in_map_iff in Hk as (ch & <- & Hc). assert (El := con_kids_lookup _ _ _ _ _ _ ch Ek Nc Hc).
      rewrite Hl in El. unfold con_child in El. rewrite ovr_get_nil, ovr_here_nil in El.
      destruct j as [| | | | |l|d]; try (apply bind_ok in El as (? & _ & El); discriminate).
      destruct (lookup (ch_name ch) d) as [v|] eqn:Ev; [|destruct (ch_required ch); discriminate].
      assert (Cx : construct tbl v (ch_builder ch) (sub_path path (ch_name ch)) [] = Ok x).
      { destruct v; try discriminate; (destruct (construct _ _ _ _ _) as [o1|]; [simpl in El; congruence|discriminate]). }
      apply lookup_In in Ev. assert (Wv : wf_json v) by (rewrite wf_dict in W; eapply W; eauto).
      assert (Rx : readable tbl x) by (intros ts' ? ? ? ? ? ? Hw; eapply R; eapply within_step_obj; eauto).
      destruct x as [jx| | |].
      * right. exists jx. split; [reflexivity|]. destruct (construct_prim_val _ _ _ _ _ Cx) as [-> _]. exact Wv.
      * left. eapply IH; eauto; [cbn; eauto|intros (? & E'); discriminate].
      * left. eapply IH; eauto; [cbn; eauto|intros (? & E'); discriminate].
      * left. eapply IH; eauto; [cbn; eauto|intros (? & E'); discriminate].
  - destruct j as [| | | | |l|d]; try discriminate. apply bind_ok in C as (es & Ee & E). injection E as <-.
    apply con_list_ok in Ee as [Hl Hn]. apply pr_list. intros x Hx. apply In_nth_error in Hx as (n & Hx).
    destruct (nth_error l n) as [v|] eqn:Ev; [|apply nth_error_None in Ev; assert (nth_error es n <> None) by congruence; apply nth_error_Some in H; lia].
    assert (Cx := Hn n v x Ev Hx).
    assert (Wv : wf_json v) by (apply nth_error_In in Ev; rewrite wf_list in W; eauto).
    assert (Rx : readable tbl x).
    { intros ts' ? ? ? ? ? ? Hw. eapply R; eauto. eapply wi_index; [apply index_text_nat_dec; reflexivity|eassumption|eassumption]. }
    apply nth_error_In in Ev.
    destruct x as [jx| | |].
    + right. exists jx. split; [reflexivity|]. eapply construct_prim_val; eauto.
    + left. eapply IH; eauto. intros (? & E'); discriminate.
    + left. eapply IH; eauto. intros (? & E'); discriminate.
    + left. eapply IH; eauto. intros (? & E'); discriminate.
  - destruct j as [| | | | |l|d]; try discriminate. apply bind_ok in C as (es & Ee & E). injection E as <-.
    apply con_map_ok in Ee. rewrite wf_dict in W. destruct W as [Nd W].
    assert (Ek : keys es = keys d).
    { clear -Ee. unfold keys. induction Ee as [|? ? ? ? [E _] _ IH]; cbn; congruence. }
    assert (Ne : NoDup (keys es)) by (rewrite Ek; exact Nd).
    apply pr_map; [exact Ne|]. intros k x Hx.
    assert (exists v, In (k, v) d /\ construct tbl v b' (sub_path path k) [] = Ok x) as (v & Hv & Cx).
    { clear -Ee Hx. induction Ee as [|[k1 v1] [k2 x2] ? ? [E C] _ IH]; [destruct Hx|]. cbn in E, C. subst.
      destruct Hx as [E|Hx]; [injection E as -> ->; exists v1; split; [now left|exact C]|].
      destruct (IH Hx) as (v & ? & ?). exists v. split; [now right|assumption]. }
    assert (Rx : readable tbl x).
    { intros ts' ? ? ? ? ? ? Hw. eapply R; eauto. eapply wi_key; [apply lookup_nodup; eassumption|eassumption]. }
    destruct x as [jx| | |].
    + right. exists jx. split; [reflexivity|]. eapply construct_prim_val; eauto.
    + left. eapply IH; eauto; [cbn; eauto|intros (? & E'); discriminate].
    + left. eapply IH; eauto; [cbn; eauto|intros (? & E'); discriminate].
    + left. eapply IH; eauto; [cbn; eauto|intros (? & E'); discriminate].
  - destruct j; try discriminate. injection C as <-. exfalso; apply Hp; eexists; reflexivity.
Qed.

(** ** containers do not mix primitives and objects *)
Definition uni_elem (b : builder) : bool :=
  match b with BBoolElse _ => false | BRefElse _ (BCls _) | BRefElse _ (BMapOf _) | BRefElse _ (BListOf _) => true | BRefElse _ _ => false | _ => true end.
Fixpoint uni_builder (b : builder) : bool :=
  match b with
  | BListOf b' | BMapOf b' => uni_elem b' && uni_builder b'
  | BBoolElse b' | BRefElse _ b' => uni_builder b'
  | _ => true
  end.
Definition uniform_table (tbl : ctable) : Prop :=
  forall c cd ch, lookup c tbl = Some cd -> In ch (c_children cd) -> uni_builder (ch_builder ch) = true.
(** all elements primitive, or none *)
Definition pure (es : list obj) : Prop := (forall x, In x es -> primitive x) \/ (forall x, In x es -> ~ primitive x).
Inductive uniform (tbl : ctable) : obj -> Prop :=
| un_prim j : uniform tbl (OPrim j)
| un_obj c cd p s kids : lookup c tbl = Some cd -> (forall k x, lookup k kids = Some x -> In k (map ch_name (c_children cd)) /\ uniform tbl x) ->
    uniform tbl (OObj c p s kids)
| un_list b p es : pure es -> (forall x, In x es -> uniform tbl x) -> uniform tbl (OList b p es)
| un_map b p es : NoDup (keys es) -> pure (map snd es) -> (forall k x, In (k, x) es -> uniform tbl x) -> uniform tbl (OMap b p es).

Lemma select_uni b j k : select b j = Ok k -> uni_builder b = true ->
  match k with KList b' | KMap b' => uni_elem b' = true /\ uni_builder b' = true | _ => True end.
Proof.
  revert k. induction b as [c|b IH|b IH| |r b IH|b IH]; cbn [select uni_builder]; intros k H U.
  - injection H as <-. exact I.
  - injection H as <-. now apply andb_true_iff in U.
  - injection H as <-. now apply andb_true_iff in U.
  - injection H as <-. exact I.
  - apply bind_ok in H as ([|] & _ & H); [injection H as <-; exact I|exact (IH _ H U)].
  - destruct j; try (exact (IH _ H U)). injection H as <-. exact I.
Qed.
Lemma uni_elem_pure tbl b : uni_elem b = true ->
  (b = BStr /\ forall j path o, construct tbl j b path [] = Ok o -> primitive o) \/
  (forall j path o, construct tbl j b path [] = Ok o -> ~ primitive o).
Proof.
  intros U. assert (D : b = BStr \/ b <> BStr) by (destruct b; auto; right; discriminate). destruct D as [->|Hb].
  - left. split; [reflexivity|]. intros j path o. rewrite construct_eq. cbn. destruct j; try discriminate. intros E; injection E as <-. eexists; reflexivity.
  - right. intros j path o C (v & ->). rewrite construct_eq in C. apply bind_ok in C as (k & Hs & C).
    assert (K : match k with KCls _ | KList _ | KMap _ => True | _ => False end).
    { destruct b as [c|b|b| |r b|b]; cbn in Hs, U; try discriminate; try congruence; try (injection Hs as <-; exact I).
      apply bind_ok in Hs as ([|] & _ & Hs); [injection Hs as <-; exact I|]. destruct b; try discriminate; cbn in Hs; injection Hs as <-; exact I. }
    destruct k as [w|c|b'|b'|]; try contradiction; cbn [con_core] in C; rewrite split_nil in C; cbn [bind] in C.
    + destruct (lookup c tbl); [|discriminate]. apply bind_ok in C as (? & _ & C). discriminate.
    + destruct j; try discriminate. apply bind_ok in C as (? & _ & C). discriminate.
    + destruct j; try discriminate. apply bind_ok in C as (? & _ & C). discriminate.
Qed.

Lemma construct_uniform tbl : well_declared tbl -> uniform_table tbl -> forall j b path o, construct tbl j b path [] = Ok o ->
  wf_json j -> uni_builder b = true -> uniform tbl o.
Proof.
  intros Wt Ut j. induction j as [j IH] using json_part_ind. intros b path o C W U.
  rewrite construct_eq in C. apply bind_ok in C as (k & Hs & C). assert (Uk := select_uni _ _ _ Hs U).
  destruct k as [w|c|b'|b'|]; cbn [con_core] in C; try rewrite split_nil in C; cbn [bind] in C.
  - injection C as <-. constructor.
  - destruct (lookup c tbl) as [cd|] eqn:Ec; [|discriminate]. apply bind_ok in C as (kids & Ek & E). injection E as <-.
    destruct (declared_nodup cd (Wt c cd Ec)) as (_ & Nc & _). apply (un_obj tbl c cd path j kids Ec).
    intros k x Hl. assert (Hk : In k (map ch_name (c_children cd))).
    { eapply con_kids_keys; eauto. apply lookup_some_in. eauto. }
    split; [exact Hk|]. apply in_map_iff in Hk as (ch & <- & Hc). assert (El := con_kids_lookup _ _ _ _ _ _ ch Ek Nc Hc).
    rewrite Hl in El. unfold con_child in El. rewrite ovr_get_nil, ovr_here_nil in El.
    destruct j as [| | | | |l|d]; try (apply bind_ok in El as (? & _ & El); discriminate).
    destruct (lookup (ch_name ch) d) as [v|] eqn:Ev; [|destruct (ch_required ch); discriminate].
    assert (Cx : construct tbl v (ch_builder ch) (sub_path path (ch_name ch)) [] = Ok x).
    { destruct v; try discriminate; (destruct (construct _ _ _ _ _) as [o1|]; [simpl in El; congruence|discriminate]). }
    apply lookup_In in Ev. eapply IH; eauto; [cbn; eauto|rewrite wf_dict in W; eapply W; eauto].
  - destruct j as [| | | | |l|d]; try discriminate. apply bind_ok in C as (es & Ee & E). injection E as <-.
    apply con_list_ok in Ee as [Hl Hn]. destruct Uk as [Ue Ub].
    assert (HX : forall x, In x es -> exists v p, In v l /\ construct tbl v b' p [] = Ok x).
    { intros x Hx. apply In_nth_error in Hx as (n & Hx).
      destruct (nth_error l n) as [v|] eqn:Ev; [|apply nth_error_None in Ev; assert (nth_error es n <> None) by congruence; apply nth_error_Some in H; lia].
      exists v, (sub_path path (nat_dec (0 + n))). split; [now apply nth_error_In in Ev|eauto]. }
    apply un_list.
    + destruct (uni_elem_pure tbl b' Ue) as [[_ P]|P]; [left|right]; intros x Hx; destruct (HX x Hx) as (v & p & _ & Cx); eauto.
    + intros x Hx. destruct (HX x Hx) as (v & p & Hv & Cx). eapply IH; eauto. rewrite wf_list in W; auto.
  - destruct j as [| | | | |l|d]; try discriminate. apply bind_ok in C as (es & Ee & E). injection E as <-.
    apply con_map_ok in Ee. destruct Uk as [Ue Ub]. rewrite wf_dict in W. destruct W as [Nd W].
    assert (Ek : keys es = keys d).
    { clear -Ee. unfold keys. induction Ee as [|? ? ? ? [E _] _ IH]; cbn; congruence. }
    assert (HX : forall k x, In (k, x) es -> exists v p, In (k, v) d /\ construct tbl v b' p [] = Ok x).
    { clear -Ee. intros k x Hx. induction Ee as [|[k1 v1] [k2 x2] ? ? [E C] _ IH]; [destruct Hx|]. cbn in E, C. subst.
      destruct Hx as [E|Hx]; [injection E as -> ->; exists v1; eexists; split; [now left|exact C]|].
      destruct (IH Hx) as (v & ? & ? & ?). exists v. eexists. split; [now right|eassumption]. }
    apply un_map.
    + rewrite Ek. exact Nd.
    + destruct (uni_elem_pure tbl b' Ue) as [[_ P]|P]; [left|right]; intros x Hx; apply in_map_iff in Hx as ([k x'] & <- & Hx);
        destruct (HX k x' Hx) as (v & p & _ & Cx); cbn [snd]; eauto.
    + intros k x Hx. destruct (HX k x Hx) as (v & p & Hv & Cx). eapply IH; eauto. cbn; eauto.
  - destruct j; try discriminate. injection C as <-. constructor.
Qed.

(** ** what a positive answer means *)
Definition nonprim (o : obj) : Prop := ~ primitive o.
Lemma cmp_kid_true tbl name x y loc : cmp_kid tbl name x y = Ok (true, loc) -> nonprim x \/ nonprim y ->
  nonprim x /\ nonprim y /\ exists base loc', compare tbl x y base = Ok (true, loc').
Proof.
  assert (N1 : forall c p s k, nonprim (OObj c p s k)) by (intros c p s k (j & E); discriminate).
  assert (N2 : forall c p s, nonprim (OList c p s)) by (intros c p s (j & E); discriminate).
  assert (N3 : forall c p s, nonprim (OMap c p s)) by (intros c p s (j & E); discriminate).
  destruct x, y; cbn [cmp_kid]; intros H [Hn|Hn]; try discriminate; try (exfalso; apply Hn; eexists; reflexivity);
    try (destruct (String.eqb _ _); [|discriminate]); try (destruct (builder_eqb _ _); [|discriminate]); eauto 6.
Qed.
Lemma cmp_kids_true tbl base k1 k2 cs loc : cmp_kids tbl base k1 k2 cs = Ok (true, loc) -> forall ch, In ch cs ->
  exists loc', cmp_kid tbl (jp_join [ch_name ch] base) (kid_of (ch_name ch) k1) (kid_of (ch_name ch) k2) = Ok (true, loc').
Proof.
  revert loc. induction cs as [|c cs IH]; intros loc H ch Hin; [destruct Hin|]. cbn [cmp_kids] in H.
  apply bind_ok in H as ([s l] & H1 & H2). cbn [fst] in H2. destruct s; [|discriminate]. destruct Hin as [->|Hin]; eauto.
Qed.
Lemma cmp_elem_true tbl name x y k loc : cmp_elem tbl name x y k = Ok (true, loc) -> nonprim x ->
  (exists base loc', compare tbl x y base = Ok (true, loc')) /\ k = Ok (true, loc).
Proof.
  unfold cmp_elem. intros H Hn. destruct x; [exfalso; apply Hn; eexists; reflexivity| | |];
    apply bind_ok in H as ([s l] & H1 & H2); cbn [fst] in H2; (destruct s; [|discriminate]); split; eauto.
Qed.
Lemma compare_nonprim tbl x y base loc : compare tbl x y base = Ok (true, loc) -> nonprim x /\ nonprim y.
Proof. intros H. split; intros (j & ->); [destruct y; discriminate|destruct x; discriminate]. Qed.

Definition child_at (o : obj) (k : string) (o' : obj) : Prop := within o [k] o'.
Lemma compare_true_alike tbl x y base loc : compare tbl x y base = Ok (true, loc) -> alike tbl x y.
Proof.
  intros H. destruct x as [j|c p s k|b p l|b p d]; destruct y as [j'|c' p' s' k'|b' p' m|b' p' e]; try discriminate.
  - rewrite compare_obj_eq in H. destruct (String.eqb_spec c c') as [<-|]; [|discriminate]. destruct (lookup c tbl) as [cd|] eqn:Ec; [|discriminate].
    apply bind_ok in H as ([s0 l0] & Hf & H). cbn [fst] in H. destruct s0; [|discriminate]. apply al_object.
    intros cd' f v w E Hin. rewrite Ec in E. injection E as <-. eapply cmp_fields_agree; eauto.
  - rewrite compare_list_eq in H. destruct (builder_eqb b b') eqn:Eb; [|discriminate]. apply builder_eqb_eq in Eb as ->.
    destruct (Nat.eqb_spec (length l) (length m)); [|discriminate]. now apply al_list.
  - rewrite compare_map_eq in H. destruct (builder_eqb b b') eqn:Eb; [|discriminate]. apply builder_eqb_eq in Eb as ->.
    destruct (filter _ (keys d)) eqn:F1; [|discriminate]. destruct (filter _ (keys e)) eqn:F2; [|discriminate].
    apply al_map. intros k. split; [apply (filter_mem_nil _ _ F1)|apply (filter_mem_nil _ _ F2)].
Qed.

Lemma pure_cons x l : pure (x :: l) -> pure l.
Proof. intros [H|H]; [left|right]; intros y Hy; apply H; now right. Qed.
Lemma cmp_list_true tbl base i l m loc : cmp_list tbl base i l m = Ok (true, loc) -> length l = length m ->
  pure l -> pure m -> forall n x y, nth_error l n = Some x -> nth_error m n = Some y -> nonprim x \/ nonprim y ->
  exists b' loc', compare tbl x y b' = Ok (true, loc').
Proof.
  revert i m. induction l as [|a l IH]; intros i m H Hl P Q n x y Hx Hy Hn; [destruct n; discriminate|].
  destruct m as [|b m]; [discriminate|]. cbn [cmp_list] in H. cbn in Hl. injection Hl as Hl.
  assert (Na : nonprim a).
  { intros (j & ->). cbn [cmp_elem] in H. destruct (str_or_int j); [|discriminate]. destruct b as [j'| | |]; try discriminate.
    apply nth_error_In in Hx. apply nth_error_In in Hy.
    destruct P as [P|P]; [|apply (P (OPrim j)); [now left|eexists; reflexivity]].
    destruct Q as [Q|Q]; [|apply (Q (OPrim j')); [now left|eexists; reflexivity]].
    destruct Hn as [Hn|Hn]; apply Hn; auto. }
  destruct (cmp_elem_true _ _ _ _ _ _ H Na) as [C K]. destruct n as [|n]; cbn in Hx, Hy.
  - injection Hx as <-. injection Hy as <-. exact C.
  - eapply IH; eauto using pure_cons.
Qed.
Lemma cmp_map_true tbl base e d loc : cmp_map tbl base e d = Ok (true, loc) ->
  pure (map snd d) -> pure (map snd e) -> forall k x y, In (k, x) d -> lookup k e = Some y -> nonprim x \/ nonprim y ->
  exists b' loc', compare tbl x y b' = Ok (true, loc').
Proof.
  induction d as [|[k0 a] d IH]; intros H P Q k x y Hx Hy Hn; [destruct Hx|].
  cbn [cmp_map] in H. destruct (lookup k0 e) as [b|] eqn:Eb; [|discriminate].
  assert (Na : nonprim a).
  { intros (j & ->). cbn [cmp_elem] in H. destruct (str_or_int j); [|discriminate]. destruct b as [j'| | |]; try discriminate.
    apply lookup_In in Eb. apply lookup_In in Hy. apply (in_map snd) in Hx, Hy, Eb. cbn [snd] in *.
    destruct P as [P|P]; [|apply (P (OPrim j)); [now left|eexists; reflexivity]].
    destruct Q as [Q|Q]; [|apply (Q (OPrim j')); [exact Eb|eexists; reflexivity]].
    destruct Hn as [Hn|Hn]; apply Hn; auto. }
  destruct (cmp_elem_true _ _ _ _ _ _ H Na) as [C K]. destruct Hx as [E|Hx].
  - injection E as <- <-. rewrite Eb in Hy. injection Hy as <-. exact C.
  - cbn [map] in P. eapply IH; eauto using pure_cons.
Qed.

(** one step *)
Lemma compare_true_down tbl x y base loc : compare tbl x y base = Ok (true, loc) -> uniform tbl x -> uniform tbl y ->
  (forall k x1, within x [k] x1 -> nonprim x1 -> exists y1 b' loc', within y [k] y1 /\ compare tbl x1 y1 b' = Ok (true, loc')) /\
  (forall k y1, within y [k] y1 -> nonprim y1 -> exists x1 b' loc', within x [k] x1 /\ compare tbl x1 y1 b' = Ok (true, loc')).
Proof.
  intros H Ux Uy. destruct x as [j|c p s ks|b p l|b p d]; destruct y as [j'|c' p' s' ks'|b' p' m|b' p' e]; try discriminate.
  - rewrite compare_obj_eq in H. destruct (String.eqb_spec c c') as [<-|]; [|discriminate]. destruct (lookup c tbl) as [cd|] eqn:Ec; [|discriminate].
    apply bind_ok in H as ([s0 l0] & Hf & H). cbn [fst] in H. destruct s0; [|discriminate].
    inversion Ux as [|? cd1 ? ? ? E1 K1| |]; subst. inversion Uy as [|? cd2 ? ? ? E2 K2| |]; subst.
    rewrite Ec in E1, E2. injection E1 as <-. injection E2 as <-.
    assert (WI : forall c p s ks k o, within (OObj c p s ks) [k] o <-> lookup k ks = Some o).
    { intros. split; [intros W; inversion W as [|? ? ? ? ? ? ? ? ? W'| |]; subst; inversion W'; subst; assumption|intros; econstructor; [eassumption|constructor]]. }
    split; intros k z Wz Nz; apply WI in Wz.
    + destruct (K1 _ _ Wz) as [Hk _]. apply in_map_iff in Hk as (ch & <- & Hc).
      destruct (cmp_kids_true _ _ _ _ _ _ H ch Hc) as (loc' & E). unfold kid_of in E. rewrite Wz in E.
      destruct (cmp_kid_true _ _ _ _ _ E (or_introl Nz)) as (_ & Ny & b1 & l1 & Hc1).
      destruct (lookup (ch_name ch) ks') as [y1|] eqn:Ey; [|exfalso; apply Ny; eexists; reflexivity].
      exists y1, b1, l1. rewrite WI. auto.
    + destruct (K2 _ _ Wz) as [Hk _]. apply in_map_iff in Hk as (ch & <- & Hc).
      destruct (cmp_kids_true _ _ _ _ _ _ H ch Hc) as (loc' & E). unfold kid_of in E. rewrite Wz in E.
      destruct (cmp_kid_true _ _ _ _ _ E (or_intror Nz)) as (Ny & _ & b1 & l1 & Hc1).
      destruct (lookup (ch_name ch) ks) as [y1|] eqn:Ey; [|exfalso; apply Ny; eexists; reflexivity].
      exists y1, b1, l1. rewrite WI. auto.
  - rewrite compare_list_eq in H. destruct (builder_eqb b b') eqn:Eb; [|discriminate].
    destruct (Nat.eqb_spec (length l) (length m)) as [El|]; [|discriminate].
    inversion Ux as [| |? ? ? P1 _|]; subst. inversion Uy as [| |? ? ? P2 _|]; subst.
    assert (WI : forall b p es k o, within (OList b p es) [k] o <-> exists i, index_text i k /\ nth_error es i = Some o).
    { intros. split; [intros W; inversion W as [| |? ? ? i ? ? ? ? Hi Hn W'|]; subst; inversion W'; subst; eauto|intros (i & ? & ?); econstructor; eauto; constructor]. }
    split; intros k z Wz Nz; apply WI in Wz as (i & Hi & Hz).
    + assert (exists y1, nth_error m i = Some y1) as (y1 & Hy).
      { destruct (nth_error m i) eqn:E; [eauto|]. apply nth_error_None in E. assert (nth_error l i <> None) by congruence. apply nth_error_Some in H0. lia. }
      destruct (cmp_list_true _ _ _ _ _ _ H El P1 P2 i z y1 Hz Hy (or_introl Nz)) as (b1 & l1 & Hc).
      exists y1, b1, l1. rewrite WI. eauto.
    + assert (exists y1, nth_error l i = Some y1) as (y1 & Hy).
      { destruct (nth_error l i) eqn:E; [eauto|]. apply nth_error_None in E. assert (nth_error m i <> None) by congruence. apply nth_error_Some in H0. lia. }
      destruct (cmp_list_true _ _ _ _ _ _ H El P1 P2 i y1 z Hy Hz (or_intror Nz)) as (b1 & l1 & Hc).
      exists y1, b1, l1. rewrite WI. eauto.
  - rewrite compare_map_eq in H. destruct (builder_eqb b b') eqn:Eb; [|discriminate].
    destruct (filter _ (keys d)) eqn:F1; [|discriminate]. destruct (filter _ (keys e)) eqn:F2; [|discriminate].
    inversion Ux as [| | |? ? ? N1 P1 _]; subst. inversion Uy as [| | |? ? ? N2 P2 _]; subst.
    assert (WI : forall b p es k o, within (OMap b p es) [k] o <-> lookup k es = Some o).
    { intros. split; [intros W; inversion W as [| | |? ? ? ? ? ? ? ? W']; subst; inversion W'; subst; assumption|intros; econstructor; eauto; constructor]. }
    split; intros k z Wz Nz; apply WI in Wz.
    + assert (exists y1, lookup k e = Some y1) as (y1 & Hy).
      { apply lookup_some_in. apply (filter_mem_nil _ _ F1). apply lookup_some_in. eauto. }
      apply lookup_In in Wz. destruct (cmp_map_true _ _ _ _ _ H P1 P2 k z y1 Wz Hy (or_introl Nz)) as (b1 & l1 & Hc).
      exists y1, b1, l1. rewrite WI. auto.
    + assert (exists y1, lookup k d = Some y1) as (y1 & Hy).
      { apply lookup_some_in. apply (filter_mem_nil _ _ F2). apply lookup_some_in. eauto. }
      destruct (cmp_map_true _ _ _ _ _ H P1 P2 k y1 z (lookup_In _ _ _ Hy) Wz (or_intror Nz)) as (b1 & l1 & Hc).
      exists y1, b1, l1. rewrite WI. auto.
Qed.
Lemma uniform_down tbl x k x1 : uniform tbl x -> within x [k] x1 -> uniform tbl x1.
Proof.
  intros U W. inversion W as [|? ? ? ? ? ? ? ? Hl W'|? ? ? ? ? ? ? ? Hi Hn W'|? ? ? ? ? ? ? Hl W']; subst; inversion W'; subst; inversion U; subst.
  - destruct (H4 _ _ Hl); assumption.
  - apply nth_error_In in Hn. auto.
  - apply lookup_In in Hl. eauto.
Qed.
Lemma within_nonprim o ts o' : within o ts o' -> nonprim o' -> nonprim o.
Proof. intros W N (j & ->). inversion W; subst. apply N. eexists; reflexivity. Qed.
Lemma compare_true tbl ts : forall x y base loc, compare tbl x y base = Ok (true, loc) -> uniform tbl x -> uniform tbl y ->
  (forall x1, within x ts x1 -> nonprim x1 -> exists y1, within y ts y1 /\ alike tbl x1 y1) /\
  (forall y1, within y ts y1 -> nonprim y1 -> exists x1, within x ts x1 /\ alike tbl x1 y1).
Proof.
  induction ts as [|t ts IH]; intros x y base loc H Ux Uy.
  - split; intros z Wz Nz; inversion Wz; subst; eexists; (split; [constructor|]); eapply compare_true_alike; eauto.
  - destruct (compare_true_down _ _ _ _ _ H Ux Uy) as [D1 D2].
    split; intros z Wz Nz; apply within_cons_inv in Wz as (x1 & W1 & W2).
    + destruct (D1 t x1 W1 (within_nonprim _ _ _ W2 Nz)) as (y1 & b1 & l1 & Wy & Hc).
      destruct (IH _ _ _ _ Hc (uniform_down _ _ _ _ Ux W1) (uniform_down _ _ _ _ Uy Wy)) as [I1 _].
      destruct (I1 z W2 Nz) as (y2 & W3 & A). exists y2. split; [exact (within_app _ _ _ _ _ Wy W3)|exact A].
    + destruct (D2 t x1 W1 (within_nonprim _ _ _ W2 Nz)) as (y1 & b1 & l1 & Wy & Hc).
      destruct (IH _ _ _ _ Hc (uniform_down _ _ _ _ Ux Wy) (uniform_down _ _ _ _ Uy W1)) as [_ I2].
      destruct (I2 z W2 Nz) as (y2 & W3 & A). exists y2. split; [exact (within_app _ _ _ _ _ Wy W3)|exact A].
Qed.
