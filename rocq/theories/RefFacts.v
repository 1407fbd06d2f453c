(** Every reference of an opened document is resolved. *)
From Coq Require Import String Ascii List Bool Arith Lia.
From Verif Require Import PyStr PyStrFacts PyVal PyValFacts Jp JpFacts UrlLib Urls Obj ObjFacts SpecJson SpecObj DumpFacts ResolveFacts
  Classes_v1_2 Classes_v2_0 Classes_v3_0_0 TablesFacts Store Scan SpecScan ScanFacts ScanFacts2 ScanFacts3 TraverseFacts
  PropertiesObjAux PropertiesScanAux App AppFacts Main SpecRefs SpecTables.
Import ListNotations.
Open Scope string_scope. Open Scope nat_scope.

(** ** types of slots *)
Inductive typed (T : ctable) : builder -> obj -> Prop :=
| ty_prim b j : typed T b (OPrim j)
| ty_cls c cd p s kids : lookup c T = Some cd ->
    (forall k x, In (k, x) kids -> exists ch, In ch (c_children cd) /\ ch_name ch = k /\ typed T (ch_builder ch) x) -> typed T (BCls c) (OObj c p s kids)
| ty_list b p es : (forall x, In x es -> typed T b x) -> typed T (BListOf b) (OList b p es)
| ty_map b p es : (forall k x, In (k, x) es -> typed T b x) -> typed T (BMapOf b) (OMap b p es)
| ty_ref r b o : typed T (BCls r) o -> typed T (BRefElse r b) o
| ty_noref r b o : typed T b o -> typed T (BRefElse r b) o
| ty_bool b o : typed T b o -> typed T (BBoolElse b) o.

Lemma select_typed T b j k o : select b j = Ok k ->
  match k with
  | KPrim v => o = OPrim v | KStr => primitive o
  | KCls c => typed T (BCls c) o | KList b' => typed T (BListOf b') o | KMap b' => typed T (BMapOf b') o
  end -> typed T b o.
Proof.
  induction b as [c|b IH|b IH| |r b IH|b IH]; cbn [select]; intros E H.
  - injection E as <-. exact H.
  - injection E as <-. exact H.
  - injection E as <-. exact H.
  - injection E as <-. destruct H as (v & ->). constructor.
  - destruct (py_in "$ref" j) as [[]|]; cbn [bind] in E; try discriminate; [injection E as <-; now apply ty_ref|apply ty_noref; exact (IH E H)].
  - apply ty_bool. destruct j; try exact (IH E H). injection E as <-. subst o. constructor.
Qed.
Lemma construct_typed T : forall n j b p o, CompareContainer.jdepth j <= n -> construct T j b p [] = Ok o -> typed T b o.
Proof.
  induction n as [n IH] using lt_wf_ind. intros j b p o Hn Hc.
  rewrite construct_eq in Hc. destruct (select b j) as [k|e] eqn:Es; cbn [bind] in Hc; [|discriminate].
  apply (select_typed T b j k o Es). destruct k as [v|c|b'|b'|]; cbn [con_core] in Hc.
  - now injection Hc as <-.
  - rewrite split_nil in Hc. cbn [bind] in Hc. destruct (lookup c T) as [cd|] eqn:El; [|discriminate].
    destruct (con_kids T p [] j (c_children cd)) as [kids|] eqn:Ek; cbn [bind] in Hc; [|discriminate]. injection Hc as <-.
    apply (ty_cls T c cd); [exact El|]. intros k x Hin. apply con_kids_ok in Ek as (ks & F & ->). clear El.
    induction F as [|ch k0 l l' Hch F IHF]; [contradiction|]. cbn [combine map concat] in Hin.
    apply in_app_or in Hin as [Hin|Hin]; [|destruct (IHF Hin) as (ch' & I' & R'); exists ch'; split; [now right|exact R']].
    cbn [fst snd] in Hin. destruct k0 as [y|]; simpl in Hin; [|contradiction]. destruct Hin as [Hin|[]]. injection Hin as <- <-.
    exists ch. split; [now left|]. split; [reflexivity|].
    unfold con_child in Hch. rewrite ovr_get_nil, ovr_here_nil in Hch.
    destruct j as [| | | | | |d]; try (destruct (absent_child _ ch); cbn [bind] in Hch; discriminate).
    destruct (lookup (ch_name ch) d) as [v|] eqn:Ev; [|destruct (ch_required ch); discriminate].
    assert (Hy : construct T v (ch_builder ch) (sub_path p (ch_name ch)) [] = Ok y).
    { destruct v; try discriminate; match goal with H : rmap Some ?r = _ |- _ => destruct r eqn:Er; cbn in H; [injection H as ->; reflexivity|discriminate] end. }
    eapply (IH (CompareContainer.jdepth v)); [|apply le_n|exact Hy].
    eapply Nat.lt_le_trans; [|exact Hn]. cbn [CompareContainer.jdepth]. apply Nat.lt_succ_r. apply lookup_in_local in Ev. exact (jdepth_dict_local _ _ _ Ev).
  - rewrite split_nil in Hc. cbn [bind] in Hc. destruct j as [| | | | |l|]; try discriminate.
    destruct (con_list T b' p [] 0 l) as [es|] eqn:El; cbn [bind] in Hc; [|discriminate]. injection Hc as <-. constructor.
    apply con_list_ok in El as [Hlen Hall]. intros x Hx. apply In_nth_error in Hx as (i & Hi).
    destruct (nth_error l i) as [v|] eqn:Ev; [|apply nth_error_None in Ev; assert (nth_error es i <> None) by congruence; apply nth_error_Some in H; lia].
    assert (Hy := Hall _ _ _ Ev Hi). eapply (IH (CompareContainer.jdepth v)); [|apply le_n|exact Hy].
    eapply Nat.lt_le_trans; [|exact Hn]. cbn [CompareContainer.jdepth]. apply Nat.lt_succ_r. apply CompareFacts.jdepth_list. eapply nth_error_In; eauto.
  - rewrite split_nil in Hc. cbn [bind] in Hc. destruct j as [| | | | | |d]; try discriminate.
    destruct (con_map T b' p [] d) as [es|] eqn:El; cbn [bind] in Hc; [|discriminate]. injection Hc as <-. constructor.
    apply con_map_ok in El. intros k x Hx. assert (Hd : forall k v, In (k, v) d -> CompareContainer.jdepth v < n).
    { intros k' v Hv. eapply Nat.lt_le_trans; [|exact Hn]. cbn [CompareContainer.jdepth]. apply Nat.lt_succ_r. exact (jdepth_dict_local _ _ _ Hv). }
    clear Hn Es. induction El as [|[k1 v1] [k2 y2] l l' [Hk1 Hy] F IHF]; [contradiction|]. destruct Hx as [Hx|Hx].
    + injection Hx as -> ->. cbn [fst snd] in *. eapply (IH (CompareContainer.jdepth v1)); [apply (Hd k1); now left|apply le_n|exact Hy].
    + apply IHF; [exact Hx|intros; eapply Hd; right; eauto].
  - destruct j; try discriminate. injection Hc as <-. eexists. reflexivity.
Qed.

(** ** requests of programs *)
(** what the handlers of an object, of all objects resolve *)
Definition tasks (V : string) (o : obj) : res (list (builder * obj)) :=
  match o with
  | OObj c _ _ _ => rmap (@concat _) (mapM (fun t => rmap (fun x => map (fun y => (snd x, y)) (fst x)) (pick (table_of V) o t)) (targets_of V c))
  | _ => Ok []
  end.
Definition all_tasks (V : string) (os : list obj) : res (list (builder * obj)) := rmap (@concat _) (mapM (tasks V) os).

(** the request for the reference [n] in place of a [b] *)
Definition request (V original n : string) (b : builder) : query :=
  if String.eqb V "2.0" then mk_query n "2.0" (Some ("2.0", b)) None true
  else mk_query n (if String.eqb original "3.0.0" then "3.0.0" else "2.0") (Some ("3.0.0", b)) (Some "3.0.0") true.
(** an object that refers to [ref] *)
Definition referring (V : string) (o : obj) (ref : string) : Prop :=
  exists c p d kids, o = OObj c p (JDict d) kids /\ In c (normalized_classes V) /\ lookup "$ref" d = Some (JStr ref) /\ ref <> "".
Lemma ref_attr V c p d kids ref : V = "2.0" \/ V = "3.0.0" -> In c (normalized_classes V) -> lookup "$ref" d = Some (JStr ref) ->
  oattr (table_of V) (OObj c p (JDict d) kids) "ref" = Ok (OPrim (JStr ref)).
Proof.
  intros HV I L. assert (M : mem "$ref" d = true) by (unfold mem; now rewrite L).
  destruct HV as [-> | ->]; cbn in I; repeat (destruct I as [<-|I]; [cbn; rewrite M; cbn; rewrite L; reflexivity|]); contradiction.
Qed.
Lemma normalize_some ref url : ref <> "" -> normalize_jr (Some ref) (Some url) <> Ok None.
Proof.
  intros NE NJ. unfold normalize_jr in NJ. destruct ref; [congruence|]. cbn [truthy_str] in NJ.
  repeat match type of NJ with context [match ?t with _ => _ end] => destruct t; cbn [bind] in NJ; try discriminate NJ end.
Qed.

Section Requests.
  Variable ask : query -> M (sobj * string).
  Variables (path2url abspath : string -> string) (V url : string).
  Hypothesis HV : V = "2.0" \/ V = "3.0.0".
  Definition answered := (app * query * (sobj * string))%type.
  (** resolving [o] in place of a [b]: nothing is asked for, or its reference is, and written *)
  Inductive one_resolved (b : builder) (o : obj) : ref_updates -> list answered -> Prop :=
  | or_none : (forall ref, ~ referring V o ref) -> one_resolved b o [] []
  | or_20 n a0 y w old : V = "2.0" -> oattr (table_of V) o "ref" = Ok (OPrim (JStr old)) -> normalize_jr (Some old) (Some url) = Ok (Some n) -> so_truthy y = true ->
      one_resolved b o [] [(a0, request V (a_original a0) n b, (y, w))]
  | or_30 c p s kids n a0 y w old r : V = "3.0.0" -> o = OObj c p s kids -> In c ["Reference"; "PathItem"] ->
      oattr (table_of V) o "ref" = Ok (OPrim (JStr old)) -> normalize_jr (Some old) (Some url) = Ok (Some n) -> so_truthy y = true ->
      new_ref path2url abspath old w = Ok r ->
      one_resolved b o (assigned p r []) [(a0, request V (a_original a0) n b, (y, w))].
  Inductive resolved : list (builder * obj) -> ref_updates -> list answered -> Prop :=
  | rs_nil : resolved [] [] []
  | rs_cons b o l u us pre pres : one_resolved b o u pre -> resolved l us pres -> resolved ((b, o) :: l) (us ++ u)%list (pre ++ pres)%list.
  Lemma resolved_app l l' u u' pre pre' : resolved l u pre -> resolved l' u' pre' -> resolved (l ++ l')%list (u' ++ u)%list (pre ++ pre')%list.
  Proof.
    induction 1 as [|b o l u us pre pres H1 H2 IH]; intros H'; [cbn; now rewrite app_nil_r|]. cbn [List.app].
    rewrite (app_assoc u' us u), <- (app_assoc pre pres pre'). constructor; [exact H1|now apply IH].
  Qed.

  (** [F] resolves [l], then goes on *)
  Definition does (F : cont -> cont) (l : list (builder * obj)) : Prop :=
    forall k u0 a a' r, run ask (F k u0) a = (a', Ok r) ->
      exists new pre a1, resolved l new pre /\ run ask (k (new ++ u0)%list) a1 = (a', Ok r) /\
        requests ask (F k u0) a = (pre ++ requests ask (k (new ++ u0)%list) a1)%list.
  Lemma does_nil : does (fun k => k) [].
  Proof. intros k u0 a a' r H. exists [], [], a. split; [constructor|]. auto. Qed.
  Lemma does_comp F G l l' : does F l -> does G l' -> does (fun k => F (G k)) (l ++ l')%list.
  Proof.
    intros HF HG k u0 a a' r H. destruct (HF (G k) u0 a a' r H) as (new & pre & a1 & R1 & H1 & Q1).
    destruct (HG k _ _ _ _ H1) as (new' & pre' & a2 & R2 & H2 & Q2). exists (new' ++ new)%list, (pre ++ pre')%list, a2.
    split; [now apply resolved_app|]. rewrite <- app_assoc. split; [exact H2|]. rewrite Q1, Q2. now rewrite app_assoc.
  Qed.
  Lemma oattr_ref_str o n : normalized (table_of V) url o = Ok (Some n) ->
    exists old, oattr (table_of V) o "ref" = Ok (OPrim (JStr old)) /\ normalize_jr (Some old) (Some url) = Ok (Some n).
  Proof.
    unfold normalized. destruct (oattr (table_of V) o "ref") as [x|]; [|discriminate]. cbn [bind]. destruct x as [j| | |]; try discriminate.
    destruct j as [| | | |old| |]; try (destruct (truthy _); discriminate); try discriminate. destruct (truthy_str old); [|discriminate]. eauto.
  Qed.
  Lemma does_resolve b o : does (resolve_with path2url abspath V url b o) [(b, o)].
  Proof.
    assert (STOP : (forall ref, ~ referring V o ref) -> forall k u0 a a' r, run ask (k u0) a = (a', Ok r) ->
      exists new pre a1, resolved [(b, o)] new pre /\ run ask (k (new ++ u0)%list) a1 = (a', Ok r) /\ requests ask (k u0 : prog (sobj * routes)) a = (pre ++ requests ask (k (new ++ u0)%list) a1)%list).
    { intros NR k u0 a a' r H. exists [], [], a. split; [apply (rs_cons b o [] [] [] [] []); [now constructor|constructor]|]. auto. }
    intros k u0 a a' r H. unfold resolve_with in *. destruct HV as [E|E].
    - rewrite E in H |- *. cbn [String.eqb Ascii.eqb Bool.eqb] in H |- *. unfold resolve20 in H |- *. rewrite <- E in H |- *.
      destruct (truthy_obj o) eqn:TO; [|apply STOP; [|exact H]; intros ref (c & p & d & kids & -> & _); discriminate TO].
      destruct (oattr (table_of V) o "ref") as [x|e] eqn:OA.
      2:{ destruct e; try discriminate H. apply STOP; [|exact H]. intros ref (c & p & d & kids & -> & I & L & NE). rewrite (ref_attr V c p d kids ref HV I L) in OA. discriminate OA. }
      destruct (truthy_obj x) eqn:TX.
      2:{ apply STOP; [|exact H]. intros ref (c & p & d & kids & -> & I & L & NE). rewrite (ref_attr V c p d kids ref HV I L) in OA. injection OA as <-. destruct ref; [congruence|discriminate TX]. }
      destruct (normalized (table_of V) url o) as [[n|]|] eqn:N; try discriminate H. destruct (oattr_ref_str o n N) as (old & OA' & NJ).
      cbn [run requests] in H |- *. unfold bindm in H. destruct (ask _ a) as [a1 [[y w]|e]]; [|discriminate H]. cbn [fst] in H |- *. destruct (so_truthy y) eqn:TY; [|discriminate H].
      exists [], [(a, request V (a_original a) n b, (y, w))], a1. split; [apply (rs_cons b o [] [] [] [_] []); [|constructor]|split; [exact H|]].
      + eapply (or_20 b o n a y w old); auto.
      + cbn [List.app]. unfold request. rewrite E. reflexivity.
    - rewrite E in H |- *. cbn [String.eqb Ascii.eqb Bool.eqb] in H |- *. unfold resolve30 in H |- *. rewrite <- E in H |- *.
      assert (NC : forall ref, referring V o ref -> exists c p s kids, o = OObj c p s kids /\ (String.eqb c "Reference" || String.eqb c "PathItem") = true).
      { intros ref (c & p & d & kids & -> & I & L & NE). rewrite E in I. do 4 eexists. split; [reflexivity|]. cbn in I. destruct I as [<-|[<-|[]]]; reflexivity. }
      destruct o as [j|c p s kids|b0 p es|b0 p es]; try (apply STOP; [|exact H]; intros ref RF; destruct (NC ref RF) as (? & ? & ? & ? & EQ & _); discriminate EQ).
      destruct (String.eqb c "Reference" || String.eqb c "PathItem") eqn:CC.
      2:{ apply STOP; [|exact H]. intros ref RF. destruct (NC ref RF) as (? & ? & ? & ? & EQ & CC'). injection EQ as -> _ _ _. congruence. }
      destruct (normalized (table_of V) url (OObj c p s kids)) as [[n|]|] eqn:N; [| |discriminate H].
      2:{ destruct (String.eqb c "Reference"); [discriminate H|]. apply STOP; [|exact H]. intros ref (c1 & p1 & d & kids1 & EQ & I & L & NE). injection EQ as -> -> -> ->.
          unfold normalized in N. rewrite (ref_attr V c1 p1 d kids1 ref HV I L) in N. cbn [bind] in N. destruct (truthy_str ref) eqn:TR; [|destruct ref; [congruence|discriminate TR]].
          exact (normalize_some ref url NE N). }
      destruct (oattr_ref_str _ n N) as (old & OA & NJ). rewrite OA in H |- *. cbn [run requests] in H |- *. unfold bindm, get_original in H.
      destruct (ask _ a) as [a1 [[y w]|e]]; [|discriminate H]. cbn [fst snd] in H |- *. destruct (so_truthy y) eqn:TY; [|discriminate H].
      destruct (new_ref path2url abspath old w) as [r'|] eqn:NR; [|discriminate H].
      assert (IC : In c ["Reference"; "PathItem"]) by (apply orb_prop in CC; destruct CC as [CC|CC]; apply String.eqb_eq in CC; subst c; [now left|right; now left]).
      assert (AS : assigned p r' u0 = (assigned p r' [] ++ u0)%list) by (destruct p; reflexivity). rewrite AS in H |- *.
      exists (assigned p r' []), [(a, request V (a_original a) n b, (y, w))], a1. split; [apply (rs_cons b _ [] (assigned p r' []) [] [_] []); [|constructor]|split; [exact H|]].
      + eapply (or_30 b _ c p s kids n a y w old r'); auto.
      + cbn [List.app]. unfold request. rewrite E. reflexivity.
  Qed.
  Lemma does_fold {X} (f : X -> cont -> cont) (g : X -> list (builder * obj)) l : (forall x, In x l -> does (f x) (g x)) -> does (fun k => fold_right f k l) (concat (map g l)).
  Proof.
    induction l as [|x l IH]; intros H; [apply does_nil|]. cbn [fold_right map concat]. apply (does_comp (f x) (fun k => fold_right f k l)); [apply H; now left|]. apply IH. intros; apply H; now right.
  Qed.
  (** a step that may raise *)
  Definition may (F : cont -> cont) (l : res (list (builder * obj))) : Prop :=
    match l with Ok l => does F l | Err _ => forall k u0 a a' r, run ask (F k u0) a <> (a', Ok r) end.
  Lemma may_fold {X} (f : X -> cont -> cont) (g : X -> res (list (builder * obj))) l : (forall x, may (f x) (g x)) -> may (fun k => fold_right f k l) (rmap (@concat _) (mapM g l)).
  Proof.
    intros H. induction l as [|x l IH]; [apply does_nil|]. cbn [fold_right mapM]. assert (HX := H x). destruct (g x) as [lx|e]; cbn [bind rmap].
    2:{ intros k u0 a a' r. apply HX. }
    destruct (mapM g l) as [ls|e]; cbn [bind rmap] in *.
    - cbn [concat]. exact (does_comp (f x) (fun k => fold_right f k l) lx (concat ls) HX IH).
    - intros k u0 a a' r R. destruct (HX _ _ _ _ _ R) as (new & pre & a1 & _ & R1 & _). exact (IH _ _ _ _ _ R1).
  Qed.
  Lemma may_target o t : may (resolve_target path2url abspath V url o t) (rmap (fun x => map (fun y => (snd x, y)) (fst x)) (pick (table_of V) o t)).
  Proof.
    unfold resolve_target. destruct (pick (table_of V) o t) as [[os b]|e]; cbn [rmap fst snd may].
    - assert (D := does_fold (resolve_with path2url abspath V url b) (fun y => [(b, y)]) os (fun x _ => does_resolve b x)).
      assert (EQ : map (fun y => (b, y)) os = concat (map (fun y => [(b, y)]) os)) by (clear; induction os as [|y os IH]; [reflexivity|]; cbn; now rewrite IH). rewrite EQ. exact D.
    - intros k u0 a a' r R. discriminate R.
  Qed.
  Lemma may_refs o : may (resolve_obj_refs path2url abspath V url o) (tasks V o).
  Proof.
    unfold resolve_obj_refs, tasks. destruct o as [j|c p s kids|b p es|b p es]; try apply does_nil.
    apply (may_fold (resolve_target path2url abspath V url (OObj c p s kids)) (fun t => rmap _ (pick (table_of V) (OObj c p s kids) t))). intros t. apply may_target.
  Qed.
  Theorem resolves_all os k a a' r : run ask (fold_right (resolve_obj_refs path2url abspath V url) k os []) a = (a', Ok r) ->
    exists l new pre a1, all_tasks V os = Ok l /\ resolved l new pre /\ run ask (k new) a1 = (a', Ok r) /\
      requests ask (fold_right (resolve_obj_refs path2url abspath V url) k os []) a = (pre ++ requests ask (k new) a1)%list.
  Proof.
    intros R. assert (M := may_fold (resolve_obj_refs path2url abspath V url) (tasks V) os may_refs). unfold all_tasks. destruct (rmap _ (mapM (tasks V) os)) as [l|e].
    - destruct (M _ _ _ _ _ R) as (new & pre & a1 & R1 & R2 & R3). rewrite app_nil_r in *. exists l, new, pre, a1. auto.
    - destruct (M _ _ _ _ _ R).
  Qed.
  (** every referring task has its answered request *)
  Lemma resolved_in l u pre b o ref : resolved l u pre -> In (b, o) l -> referring V o ref ->
    exists n a0 y w, normalize_jr (Some ref) (Some url) = Ok (Some n) /\ In (a0, request V (a_original a0) n b, (y, w)) pre /\ so_truthy y = true /\
      (V = "3.0.0" -> exists r, new_ref path2url abspath ref w = Ok r /\ forall p, get_path o = Some p -> In (p, r) u).
  Proof.
    intros R I RF. induction R as [|b1 o1 l u us pre pres H1 H2 IH]; [contradiction|]. destruct I as [EQ|I].
    - injection EQ as -> ->. destruct RF as (c & p & d & kids & -> & IC & L & NE). assert (A := ref_attr V c p d kids ref HV IC L).
      inversion H1 as [NR|n a0 y w old EV OA NJ TY|c1 p1 s1 kids1 n a0 y w old r EV EQ IC1 OA NJ TY NR]; subst.
      + destruct (NR ref). exists c, p, d, kids. auto.
      + rewrite A in OA. injection OA as ->. exists n, a0, y, w. split; [exact NJ|]. split; [now left|]. split; [exact TY|]. intros EV'. rewrite EV in EV'. discriminate EV'.
      + rewrite A in OA. injection OA as ->. exists n, a0, y, w. split; [exact NJ|]. split; [now left|]. split; [exact TY|]. intros _. exists r. split; [exact NR|].
        intros q G. injection EQ as _ <- _ _. cbn [get_path] in G. subst p. apply in_or_app. right. now left.
    - destruct (IH I) as (n & a0 & y & w & A1 & A2 & A3 & A4). exists n, a0, y, w. split; [exact A1|]. split; [apply in_or_app; now right|]. split; [exact A3|].
      intros EV. destruct (A4 EV) as (r & B1 & B2). exists r. split; [exact B1|]. intros p G. apply in_or_app. left. exact (B2 p G).
  Qed.
  (** every assignment comes from an answered request of a task *)
  Lemma resolved_updates l u pre q r : resolved l u pre -> In (q, r) u ->
    exists b c s kids old n a0 y w, In (b, OObj c (Some q) s kids) l /\ In c ["Reference"; "PathItem"] /\
      oattr (table_of V) (OObj c (Some q) s kids) "ref" = Ok (OPrim (JStr old)) /\ normalize_jr (Some old) (Some url) = Ok (Some n) /\
      In (a0, request V (a_original a0) n b, (y, w)) pre /\ so_truthy y = true /\ new_ref path2url abspath old w = Ok r.
  Proof.
    intros R I. induction R as [|b1 o1 l u us pre pres H1 H2 IH]; [contradiction|]. apply in_app_or in I as [I|I].
    - destruct (IH I) as (b & c & s & kids & old & n & a0 & y & w & A1 & A2 & A3 & A4 & A5 & A6). exists b, c, s, kids, old, n, a0, y, w.
      split; [now right|]. split; [exact A2|]. split; [exact A3|]. split; [exact A4|]. split; [apply in_or_app; now right|exact A6].
    - inversion H1 as [NR|n a0 y w old EV OA NJ TY|c1 p1 s1 kids1 n a0 y w old r1 EV EQ IC1 OA NJ TY NR]; subst; try contradiction.
      destruct p1 as [q1|]; [|contradiction]. destruct I as [I|[]]. injection I as -> ->.
      exists b1, c1, s1, kids1, old, n, a0, y, w. split; [now left|]. split; [exact IC1|]. split; [exact OA|]. split; [exact NJ|]. split; [now left|]. split; [exact TY|exact NR].
  Qed.
End Requests.
Lemma in_tasks V o c p s kids t os b x l : o = OObj c p s kids -> tasks V o = Ok l -> In t (targets_of V c) -> pick (table_of V) o t = Ok (os, b) -> In x os -> In (b, x) l.
Proof.
  intros -> E IT PI IX. unfold tasks in E. destruct (mapM _ (targets_of V c)) as [ls|] eqn:M; [|discriminate E]. cbn [rmap] in E. injection E as <-.
  revert ls M. induction (targets_of V c) as [|t' ts IH]; intros ls M; [contradiction|]. cbn [mapM] in M.
  destruct (rmap _ (pick (table_of V) (OObj c p s kids) t')) as [l'|] eqn:P; [|discriminate M]. cbn [bind] in M. destruct (mapM _ ts) as [ls'|]; [|discriminate M]. cbn [bind] in M. injection M as <-.
  cbn [concat]. apply in_or_app. destruct IT as [->|IT]; [left|right; now apply IH]. rewrite PI in P. cbn [rmap fst snd] in P. injection P as <-. now apply in_map.
Qed.
Lemma pick_fails V o c p s kids t e : o = OObj c p s kids -> In t (targets_of V c) -> pick (table_of V) o t = Err e -> forall l, tasks V o <> Ok l.
Proof.
  intros -> IT PI l E. unfold tasks in E. destruct (mapM _ (targets_of V c)) as [ls|] eqn:M; [|discriminate E]. clear E.
  revert ls M. induction (targets_of V c) as [|t' ts IH]; intros ls M; [contradiction|]. cbn [mapM] in M.
  destruct IT as [->|IT].
  - rewrite PI in M. discriminate M.
  - destruct (rmap _ (pick (table_of V) (OObj c p s kids) t')); [|discriminate M]. cbn [bind] in M. destruct (mapM _ ts) as [ls'|]; [|discriminate M]. exact (IH IT ls' eq_refl).
Qed.
Lemma all_tasks_in V os l o : all_tasks V os = Ok l -> In o os -> exists lo, tasks V o = Ok lo /\ incl lo l.
Proof.
  intros E I. unfold all_tasks in E. destruct (mapM (tasks V) os) as [ls|] eqn:M; [|discriminate E]. cbn [rmap] in E. injection E as <-.
  revert ls M. induction os as [|x os IH]; intros ls M; [contradiction|]. cbn [mapM] in M. destruct (tasks V x) as [lx|] eqn:T; [|discriminate M]. cbn [bind] in M.
  destruct (mapM (tasks V) os) as [ls'|]; [|discriminate M]. cbn [bind] in M. injection M as <-. cbn [concat]. destruct I as [->|I].
  - exists lx. split; [exact T|]. intros y Y. apply in_or_app. now left.
  - destruct (IH I ls' eq_refl) as (lo & T' & IN). exists lo. split; [exact T'|]. intros y Y. apply in_or_app. right. now apply IN.
Qed.

(** ** attributes *)
Definition attr_key (cd : classdef) (name : string) : option string :=
  match find_child name (c_children cd), find_child name (c_lazy cd) with
  | Some _, _ => Some name
  | None, Some _ => None
  | None, None => match lookup name (c_renames cd) with
                  | Some key => match find_child key (c_children cd) with Some _ => Some key | None => None end
                  | None => None
                  end
  end.
Lemma attr_key_get T cd p s kids name key : attr_key cd name = Some key -> getattr_ T cd p s kids name = Ok (kid_of key kids).
Proof.
  unfold attr_key, getattr_. destruct (find_child name (c_children cd)) as [ch|] eqn:F.
  - intros [= <-]. unfold getattr_plain. now rewrite F.
  - destruct (find_child name (c_lazy cd)); [discriminate|]. destruct (lookup name (c_renames cd)) as [k|]; [|discriminate].
    unfold getattr_plain. destruct (find_child k (c_children cd)); [|discriminate]. now intros [= <-].
Qed.

Fixpoint builder_eqb (a b : builder) : bool :=
  match a, b with
  | BCls c, BCls c' => String.eqb c c'
  | BListOf x, BListOf y | BMapOf x, BMapOf y | BBoolElse x, BBoolElse y => builder_eqb x y
  | BStr, BStr => true
  | BRefElse r x, BRefElse r' y => String.eqb r r' && builder_eqb x y
  | _, _ => false
  end.
Lemma builder_eqb_eq a : forall b, builder_eqb a b = true -> a = b.
Proof.
  induction a; intros []; cbn [builder_eqb]; try discriminate; intros H.
  - apply String.eqb_eq in H. congruence.
  - now rewrite (IHa _ H).
  - now rewrite (IHa _ H).
  - reflexivity.
  - apply andb_prop in H. destruct H as [H1 H2]. apply String.eqb_eq in H1. now rewrite H1, (IHa _ H2).
  - now rewrite (IHa _ H).
Qed.
Definition key_is (cd : classdef) (name key : string) : bool := match attr_key cd name with Some k => String.eqb k key | None => false end.
(** no Reference can stand directly in such a slot, without an object in between *)
Fixpoint no_ref (b : builder) : bool :=
  match b with
  | BCls c => negb (String.eqb c "Reference")
  | BListOf b' | BMapOf b' | BBoolElse b' => no_ref b'
  | BStr => true
  | BRefElse r b' => false
  end.
Definition elem_of (b : builder) : option (bool * builder) :=
  match b with BListOf b' => Some (true, b') | BMapOf b' => Some (false, b') | _ => None end.
Definition is_one (cd : classdef) (key : string) (b : builder) (t : target) : bool :=
  match t with One n b' => key_is cd n key && builder_eqb b b' | Values n _ => key_is cd n key | _ => false end.
Definition is_items (cd : classdef) (key : string) (b : builder) (t : target) : bool :=
  match t with Items n b' => key_is cd n key && builder_eqb b b' | _ => false end.
Definition is_values (cd : classdef) (key : string) (b : builder) (t : target) : bool :=
  match t with Values n b' => key_is cd n key && builder_eqb b b' | _ => false end.
Definition is_ref_slot (b : builder) : bool := match b with BRefElse r b' => String.eqb r "Reference" && no_ref b' | _ => false end.
Definition one_slot (b : builder) : builder := match b with BBoolElse b' => b' | _ => b end.
Definition slot_covered (cd : classdef) (ts : list target) (ch : childdef) : bool :=
  let b := ch_builder ch in
  no_ref b
  || (is_ref_slot (one_slot b) && match one_slot b with BRefElse _ (BCls _) => true | _ => false end && existsb (is_one cd (ch_name ch) (one_slot b)) ts)
  || match elem_of b with
     | Some (true, b') => is_ref_slot b' && existsb (is_items cd (ch_name ch) b') ts
     | Some (false, b') => is_ref_slot b' && existsb (is_values cd (ch_name ch) b') ts
     | None => false
     end.
Definition table_covered (V : string) : bool :=
  forallb (fun e => forallb (slot_covered (snd e) (targets_of V (fst e))) (c_children (snd e))) (table_of V).
Lemma covered_tables : table_covered "2.0" = true /\ table_covered "3.0.0" = true.
Proof. split; vm_compute; reflexivity. Qed.

Definition is_reference (x : obj) : Prop := exists p s kids, x = OObj "Reference" p s kids.
Lemma no_ref_near T b o : typed T b o -> no_ref b = true -> ~ is_reference o /\ (is_container o -> forall ts x, nearest T o ts x -> ~ is_reference x).
Proof.
  induction 1 as [b j|c cd p s kids L K|b p es K IH|b p es K IH|r b o H IH|r b o H IH|b o H IH]; cbn [no_ref]; intros N.
  - split; [intros (? & ? & ? & E); discriminate E|]. intros [(? & ? & ? & E)|(? & ? & ? & E)]; discriminate E.
  - split; [intros (? & ? & ? & E); injection E as -> _ _ _; discriminate N|]. intros [(? & ? & ? & E)|(? & ? & ? & E)]; discriminate E.
  - split; [intros (? & ? & ? & E); discriminate E|]. intros _ ts x NE. inversion NE as [o k e I O|o k e ts' x' I C NE']; subst; cbn [slots] in I;
      apply indexed_in in I as (n & _ & I); apply nth_error_In in I; destruct (IH _ I N) as [A B]; [exact A|exact (B C _ _ NE')].
  - split; [intros (? & ? & ? & E); discriminate E|]. intros _ ts x NE. inversion NE as [o k e I O|o k e ts' x' I C NE']; subst; cbn [slots] in I;
      destruct (IH _ _ I N) as [A B]; [exact A|exact (B C _ _ NE')].
  - discriminate N.
  - discriminate N.
  - exact (IH N).
Qed.
Lemma no_ref_self T b o : typed T b o -> no_ref b = true -> ~ is_reference o.
Proof. intros H N. exact (proj1 (no_ref_near T b o H N)). Qed.
Lemma oattr_kid T c cd p s kids n key : lookup c T = Some cd -> key_is cd n key = true -> oattr T (OObj c p s kids) n = Ok (kid_of key kids).
Proof.
  intros L K. unfold oattr. rewrite L. unfold key_is in K. destruct (attr_key cd n) as [k|] eqn:A; [|discriminate K]. apply String.eqb_eq in K. subst k. now apply attr_key_get.
Qed.
Lemma kid_of_some (kids : list (string * obj)) k e : lookup k kids = Some e -> kid_of k kids = e.
Proof. unfold kid_of. now intros ->. Qed.
Lemma slot_object T c cd p s kids k e : lookup c T = Some cd -> In (k, e) (slots T (OObj c p s kids)) -> lookup k kids = Some e.
Proof.
  intros L I. cbn [slots] in I. rewrite L in I. apply in_flat_map in I as (ch & _ & I). destruct (lookup (ch_name ch) kids) eqn:E; [|contradiction].
  destruct I as [I|[]]. injection I as <- <-. exact E.
Qed.
(** a reference directly below an object is one of the targets of this object *)
Lemma owner_target V c cd p s kids ks x : lookup c (table_of V) = Some cd -> forallb (slot_covered cd (targets_of V c)) (c_children cd) = true ->
  typed (table_of V) (BCls c) (OObj c p s kids) -> nearest (table_of V) (OObj c p s kids) ks x -> is_reference x ->
  exists b', declared_slot (table_of V) (OObj c p s kids) ks (BRefElse "Reference" b') /\
    exists t, In t (targets_of V c) /\
      ((exists e, pick (table_of V) (OObj c p s kids) t = Err e) \/ (exists os, pick (table_of V) (OObj c p s kids) t = Ok (os, BRefElse "Reference" b') /\ In x os)).
Proof.
  intros L COV TY NE RX. set (T := table_of V) in *.
  assert (KID : forall k e, lookup k kids = Some e -> exists ch, In ch (c_children cd) /\ ch_name ch = k /\ typed T (ch_builder ch) e /\ slot_covered cd (targets_of V c) ch = true).
  { intros k e E. inversion TY as [|c' cd' p' s' kids' L' K' E1 E2| | | | |]; subst. rewrite L in L'. injection L' as <-. apply lookup_in_local in E.
    destruct (K' _ _ E) as (ch & I & N & TC). exists ch. split; [exact I|]. split; [exact N|]. split; [exact TC|]. rewrite forallb_forall in COV. exact (COV _ I). }
  inversion NE as [o k e I O|o k e ts x' I C NE']; subst.
  - apply (slot_object T c cd p s kids k x L) in I. destruct (KID _ _ I) as (ch & IC & <- & TC & SC). unfold slot_covered in SC.
    apply orb_prop in SC. destruct SC as [SC|SC]; [apply orb_prop in SC; destruct SC as [SC|SC]|].
    + destruct (no_ref_self T _ _ TC SC RX).
    + apply andb_prop in SC. destruct SC as [SC EX]. apply andb_prop in SC. destruct SC as [RS _].
      assert (B : exists b', one_slot (ch_builder ch) = BRefElse "Reference" b' /\ (ch_builder ch = BRefElse "Reference" b' \/ ch_builder ch = BBoolElse (BRefElse "Reference" b'))).
      { unfold one_slot, is_ref_slot in *. destruct (ch_builder ch) as [| | | |r b0|[| | | |r b0|]]; try discriminate RS; apply andb_prop in RS; destruct RS as [RS _]; apply String.eqb_eq in RS; subst r; eauto. }
      destruct B as (b' & OS & B). exists b'. split; [eapply ds_child; [exact L|exact IC|exact B]|]. rewrite OS in EX. apply existsb_exists in EX. destruct EX as (t & IT & EQ). exists t. split; [exact IT|].
      destruct t as [|n b0|n b0|n b0]; try discriminate EQ; cbn [is_one] in EQ.
      * apply andb_prop in EQ. destruct EQ as [K1 K2]. apply builder_eqb_eq in K2. subst b0. right. cbn [pick]. rewrite (oattr_kid T c cd p s kids n _ L K1), (kid_of_some _ _ _ I). cbn [bind].
        eexists. split; [reflexivity|now left].
      * left. cbn [pick]. rewrite (oattr_kid T c cd p s kids n _ L EQ), (kid_of_some _ _ _ I). cbn [bind]. destruct RX as (px & sx & kx & ->). cbn [truthy_obj]. eauto.
    + exfalso. destruct RX as (px & sx & kx & ->). unfold elem_of in SC. destruct (ch_builder ch) as [| | | | |]; try discriminate SC; inversion TC.
  - apply (slot_object T c cd p s kids k e L) in I. destruct (KID _ _ I) as (ch & IC & <- & TC & SC). unfold slot_covered in SC.
    apply orb_prop in SC. destruct SC as [SC|SC]; [apply orb_prop in SC; destruct SC as [SC|SC]|].
    + destruct (proj2 (no_ref_near T _ _ TC SC) C _ _ NE' RX).
    + exfalso. apply andb_prop in SC. destruct SC as [SC _]. apply andb_prop in SC. destruct SC as [_ M]. unfold one_slot in M.
      assert (NC : forall c', ~ typed T (BCls c') e) by (intros c' TT; inversion TT; subst; destruct C as [(? & ? & ? & E)|(? & ? & ? & E)]; discriminate E).
      destruct (ch_builder ch) as [| | | |r b0|b0]; try discriminate M.
      * destruct b0; try discriminate M. inversion TC; subst; [destruct C as [(? & ? & ? & E)|(? & ? & ? & E)]; discriminate E|eapply NC; eauto|eapply NC; eauto].
      * destruct b0 as [| | | |r b1|]; try discriminate M. destruct b1; try discriminate M.
        inversion TC as [| | | | | |b2 o2 TC']; subst; [destruct C as [(? & ? & ? & E)|(? & ? & ? & E)]; discriminate E|].
        inversion TC'; subst; [destruct C as [(? & ? & ? & E)|(? & ? & ? & E)]; discriminate E|eapply NC; eauto|eapply NC; eauto].
    + assert (REF : forall b', is_ref_slot b' = true -> exists b0, b' = BRefElse "Reference" b0 /\ no_ref b0 = true).
      { intros b' H. destruct b' as [| | | |r b0|]; try discriminate H. cbn [is_ref_slot] in H. apply andb_prop in H. destruct H as [H1 H2]. apply String.eqb_eq in H1. subst r. eauto. }
      assert (DEEP : forall b0 y ts', typed T (BRefElse "Reference" b0) y -> no_ref b0 = true -> is_container y -> nearest T y ts' x -> False).
      { intros b0 y ts' TT NR CY NY. inversion TT as [| | | |r' b1 o' TT'|r' b1 o' TT'|]; subst.
        - destruct CY as [(? & ? & ? & E)|(? & ? & ? & E)]; discriminate E.
        - inversion TT'; subst; destruct CY as [(? & ? & ? & E)|(? & ? & ? & E)]; discriminate E.
        - exact (proj2 (no_ref_near T _ _ TT' NR) CY _ _ NY RX). }
      unfold elem_of in SC. destruct (ch_builder ch) as [|b'|b'| | |] eqn:CB; try discriminate SC; apply andb_prop in SC; destruct SC as [RS EX]; destruct (REF b' RS) as (b0 & -> & NR).
      * inversion TC as [|? ? ? ? ? ? ?|b1 p1 es TE| | | |]; subst; [destruct C as [(? & ? & ? & E)|(? & ? & ? & E)]; discriminate E|].
        inversion NE' as [o2 k2 e2 I2 O2|o2 k2 e2 ts2 x2 I2 C2 NE2]; subst; cbn [slots] in I2; apply indexed_in in I2 as (n2 & -> & I2); apply nth_error_In in I2;
          [|destruct (DEEP b0 e2 ts2 (TE _ I2) NR C2 NE2)].
        exists b0. split; [eapply ds_element; [exact L|exact IC|now left]|]. apply existsb_exists in EX. destruct EX as (t & IT & EQ). exists t. split; [exact IT|]. right.
        destruct t as [|n b1|n b1|n b1]; try discriminate EQ; cbn [is_items] in EQ. apply andb_prop in EQ. destruct EQ as [K1 K2]. apply builder_eqb_eq in K2. subst b1.
        cbn [pick]. rewrite (oattr_kid T c cd p s kids n _ L K1), (kid_of_some _ _ _ I). cbn [bind]. exists es. split; [|exact I2]. destruct es; [contradiction|reflexivity].
      * inversion TC as [|? ? ? ? ? ? ?| |b1 p1 es TE| | |]; subst; [destruct C as [(? & ? & ? & E)|(? & ? & ? & E)]; discriminate E|].
        inversion NE' as [o2 k2 e2 I2 O2|o2 k2 e2 ts2 x2 I2 C2 NE2]; subst; cbn [slots] in I2;
          [|destruct (DEEP b0 e2 ts2 (TE _ _ I2) NR C2 NE2)].
        exists b0. split; [eapply ds_element; [exact L|exact IC|now right]|]. apply existsb_exists in EX. destruct EX as (t & IT & EQ). exists t. split; [exact IT|]. right.
        destruct t as [|n b1|n b1|n b1]; try discriminate EQ; cbn [is_values] in EQ. apply andb_prop in EQ. destruct EQ as [K1 K2]. apply builder_eqb_eq in K2. subst b1.
        cbn [pick]. rewrite (oattr_kid T c cd p s kids n _ L K1), (kid_of_some _ _ _ I). cbn [bind]. exists (map snd es). split; [destruct es; [contradiction|reflexivity]|].
        apply in_map_iff. exists (k2, x). split; [reflexivity|exact I2].
Qed.

(** ** the whole document *)
Lemma visited_all T c j p root fuel r cs x : repo_table T -> wf_json j -> construct T j (BCls c) p [] = Ok root -> unmixed root ->
  default_tree_traversal T fuel root [] = Ok r -> steps T [] root cs x -> In x (map snd r).
Proof.
  intros Rt Wj C U H St. assert (Ho := built_object _ _ _ _ _ C).
  assert (Ht := construct_tidy T (repo_wd T Rt) (repo_plain_names T Rt) (odepth root) j _ _ root (le_n _) Wj C U).
  destruct (traversal_tidy T [] root Ht Ho) as (V & n & HV & NV & SV & (V' & EV)).
  assert (Er : r = map (fun e => (extend "#" (map key (fst e)), snd e)) V).
  { assert (X := traversal_enough _ _ _ _ _ H (Nat.max n fuel) (Nat.le_max_r _ _)). rewrite (HV _ (Nat.le_max_l _ _)) in X. congruence. }
  subst r. rewrite map_map. cbn [snd]. apply in_map_iff. exists (cs, x). split; [reflexivity|]. now apply SV.
Qed.
Lemma steps_last T leaves o cs x : steps T leaves o cs x -> cs = [] /\ x = o \/ exists cs' c y, cs = (cs' ++ [c])%list /\ steps T leaves o cs' y /\ nearest T y c x.
Proof.
  induction 1 as [o|o c y cs x LF NE St IH]; [now left|]. right. destruct IH as [[-> ->]|(cs' & c' & y' & -> & St' & NE')].
  - exists [], c, o. split; [reflexivity|]. split; [constructor|exact NE].
  - exists (c :: cs'), c', y'. split; [reflexivity|]. split; [eapply st_down; eauto|exact NE'].
Qed.
Lemma typed_obj T b c p s kids : typed T b (OObj c p s kids) -> typed T (BCls c) (OObj c p s kids).
Proof. intros H. remember (OObj c p s kids) as o eqn:E. induction H; try discriminate E; auto. injection E as -> -> -> ->. eapply ty_cls; eauto. Qed.
Lemma typed_slot T b o k e : typed T b o -> In (k, e) (slots T o) -> exists b', typed T b' e.
Proof.
  induction 1 as [b j|c cd p s kids L K|b p es K IH|b p es K IH|r b o H IH|r b o H IH|b o H IH]; cbn [slots]; intros I; auto.
  - contradiction.
  - apply (slot_object T c cd p s kids k e L) in I. apply lookup_in_local in I. destruct (K _ _ I) as (ch & _ & _ & TC). eauto.
  - apply indexed_in in I as (n & _ & I). apply nth_error_In in I. eauto.
  - eauto.
Qed.
Lemma typed_nearest T o ks x : nearest T o ks x -> forall b, typed T b o -> exists b', typed T b' x.
Proof.
  induction 1 as [o k e I O|o k e ts x I C NE IH]; intros b TY; destruct (typed_slot T b o k e TY I) as (b' & TE); eauto.
Qed.
Lemma typed_steps T leaves o cs x : steps T leaves o cs x -> forall b, typed T b o -> exists b', typed T b' x.
Proof. induction 1 as [o|o c y cs x LF NE St IH]; intros b TY; [eauto|]. destruct (typed_nearest T _ _ _ NE b TY) as (b' & TE). eauto. Qed.

Lemma covered_class V c cd : V = "2.0" \/ V = "3.0.0" -> lookup c (table_of V) = Some cd -> forallb (slot_covered cd (targets_of V c)) (c_children cd) = true.
Proof.
  intros HV L. assert (TC : table_covered V = true) by (destruct covered_tables as [A B]; destruct HV as [-> | ->]; assumption).
  unfold table_covered in TC. rewrite forallb_forall in TC. apply lookup_in_local in L. exact (TC _ L).
Qed.
Lemma self_target V c : V = "2.0" \/ V = "3.0.0" -> In c (normalized_classes V) -> c <> "Reference" -> In (Self (BCls c)) (targets_of V c).
Proof. intros [-> | ->] I N; cbn in I; repeat (destruct I as [<-|I]; [first [congruence|now left]|]); contradiction. Qed.
Lemma table_repo V : V = "2.0" \/ V = "3.0.0" -> repo_table (table_of V).
Proof. intros [-> | ->]; constructor. Qed.
(** the objects in a document that refer to something are resolved, each as what may stand at its place *)
Lemma document_task V j c p root r l ts cx px d kids ref :
  V = "2.0" \/ V = "3.0.0" -> wf_json j -> construct (table_of V) j (BCls c) p [] = Ok root -> unmixed root -> c <> "Reference" ->
  default_tree_traversal (table_of V) (osize root) root [] = Ok r -> all_tasks V (map snd r) = Ok l ->
  within root ts (OObj cx px (JDict d) kids) -> In cx (normalized_classes V) -> lookup "$ref" d = Some (JStr ref) -> ref <> "" ->
  exists b, expected_at (table_of V) root ts cx b /\ In (b, OObj cx px (JDict d) kids) l.
Proof.
  intros HV WJ C U NC TR AT W I L NE. assert (Rt := table_repo V HV). set (T := table_of V) in *. set (x := OObj cx px (JDict d) kids) in *.
  assert (Ho := built_object _ _ _ _ _ C).
  assert (Ht := construct_tidy T (repo_wd T Rt) (repo_plain_names T Rt) (odepth root) j _ _ root (le_n _) WJ C U).
  assert (TY := construct_typed T _ _ _ _ _ (le_n _) C).
  assert (VI : visible [] root ts x) by (split; [exact W|]; split; [do 4 eexists; reflexivity|]; intros; intros []).
  destruct (visible_steps T [] (length ts) ts root x (le_n _) Ht Ho VI) as (cs & -> & St).
  destruct (String.eqb cx "Reference") eqn:ECX.
  - apply String.eqb_eq in ECX. destruct (steps_last T [] root cs x St) as [[-> E]|(cs' & ks & y & -> & St' & NEA)].
    + exfalso. destruct (construct_cls_obj _ _ _ _ _ C) as (kids' & ER). rewrite ER in E. unfold x in E. injection E as E1 _ _ _. congruence.
    + destruct (typed_steps T [] root cs' y St' _ TY) as (b & TB). assert (Oy := steps_object T [] root cs' y St' Ho). destruct Oy as (cy & py & sy & ky & EY). subst y.
      apply typed_obj in TB. inversion TB as [|c1 cd p1 s1 kids1 LC KC| | | | |]; subst c1 p1 s1 kids1.
      assert (RX : is_reference x) by (unfold x; rewrite ECX; do 3 eexists; reflexivity).
      destruct (owner_target V cy cd py sy ky ks x LC (covered_class V cy cd HV LC) TB NEA RX) as (b' & DS & t & IT & PK).
      destruct (all_tasks_in V _ l _ AT (visited_all T c j p root _ r cs' _ Rt WJ C U TR St')) as (lo & TO & IN).
      destruct PK as [(e & PK)|(os & PK & IX)]; [destruct (pick_fails V _ cy py sy ky t e eq_refl IT PK lo TO)|].
      exists (BRefElse "Reference" b'). split; [|apply IN; exact (in_tasks V _ cy py sy ky t os _ x lo eq_refl TO IT PK IX)].
      unfold expected_at. rewrite ECX. cbn [String.eqb Ascii.eqb Bool.eqb].
      exists (concat cs'), ks, (OObj cy py sy ky), b'. split; [rewrite concat_app; cbn [concat]; now rewrite app_nil_r|]. split; [exact (proj1 (steps_visible T [] root cs' _ St' Ht Ho))|]. split; [exact DS|reflexivity].
  - destruct (all_tasks_in V _ l _ AT (visited_all T c j p root _ r cs _ Rt WJ C U TR St)) as (lo & TO & IN).
    assert (NR : cx <> "Reference") by (intros ->; discriminate ECX).
    exists (BCls cx). split; [unfold expected_at; rewrite ECX; reflexivity|]. apply IN.
    exact (in_tasks V x cx px (JDict d) kids (Self (BCls cx)) [x] (BCls cx) x lo eq_refl TO (self_target V cx HV I NR) eq_refl (or_introl eq_refl)).
Qed.

(** what the module of 2.0, of 3.0.0 does *)
Lemma run_20 ask path2url abspath app_url fuel from12 o jref a a' r url jp :
  so_version o = "2.0" -> split path2url abspath jref = Ok (url, jp) ->
  run ask (upgrade20 path2url abspath app_url fuel from12 o jref) a = (a', Ok r) ->
  exists vis l new pre rest, default_tree_traversal (table_of "2.0") (osize (so_obj o)) (so_obj o) [] = Ok vis /\ all_tasks "2.0" (map snd vis) = Ok l /\
    resolved path2url abspath "2.0" url l new pre /\ requests ask (upgrade20 path2url abspath app_url fuel from12 o jref) a = (pre ++ rest)%list.
Proof.
  intros SV SP R. unfold upgrade20 in *. rewrite SV in *. cbn [String.eqb Ascii.eqb Bool.eqb] in *. rewrite SV in *. cbn [String.eqb Ascii.eqb Bool.eqb] in *. rewrite SP in *.
  cbn [run requests] in *. unfold bindm in R. destruct (set_obj o url jp "2.0" a) as [a1 [[]|e]]; [|discriminate R]. unfold visited in *.
  change (table_of "2.0") with v20_table. destruct (default_tree_traversal v20_table (osize (so_obj o)) (so_obj o) []) as [vis|e]; [|discriminate R].
  destruct (normalize_all "2.0" url (map snd vis)); [|discriminate R]. cbn [run requests] in *. unfold bindm in R. destruct (set_obj o url jp "2.0" a1) as [a2 [[]|e]]; [|discriminate R].
  destruct (resolves_all ask path2url abspath "2.0" url (or_introl eq_refl) _ _ _ _ _ R) as (l & new & pre & a3 & A1 & A2 & _ & A4).
  exists vis, l, new, pre. eexists. split; [reflexivity|]. split; [exact A1|]. split; [exact A2|exact A4].
Qed.
Lemma run_finish30 ask path2url abspath app_url fuel url jp o reloc a a' r :
  run ask (finish30 path2url abspath app_url fuel url jp o reloc) a = (a', Ok r) ->
  exists vis l new pre rest a1, default_tree_traversal (table_of "3.0.0") (osize (so_obj o)) (so_obj o) [] = Ok vis /\ all_tasks "3.0.0" (map snd vis) = Ok l /\
    resolved path2url abspath "3.0.0" url l new pre /\ requests ask (finish30 path2url abspath app_url fuel url jp o reloc) a = (pre ++ rest)%list /\
    so_version o = "3.0.0" /\
    run ask (Cache (rewrite_sobj new o) url jp "3.0.0" (fold_right (merge_obj path2url abspath app_url fuel "3.0.0" url) (Done (Ok (rewrite_sobj new o, reloc))) (map (rewrite_refs new) (map snd vis)))) a1 = (a', Ok r).
Proof.
  unfold finish30. destruct (String.eqb_spec (so_version o) "3.0.0") as [SV|]; [|discriminate]. intros R. unfold visited in *.
  change (table_of "3.0.0") with v30_table. destruct (default_tree_traversal v30_table (osize (so_obj o)) (so_obj o) []) as [vis|e]; [|discriminate R].
  destruct (normalize_all "3.0.0" url (map snd vis)); [|discriminate R]. cbn [run requests] in *. unfold bindm in R. destruct (set_obj o url jp "3.0.0" a) as [a2 [[]|e]]; [|discriminate R].
  destruct (put_routes url "3.0.0" _ a2) as [a3 [[]|e]]; [|discriminate R].
  destruct (resolves_all ask path2url abspath "3.0.0" url (or_intror eq_refl) _ _ _ _ _ R) as (l & new & pre & a4 & A1 & A2 & A3 & A4).
  exists vis, l, new, pre. eexists. exists a4. split; [reflexivity|]. split; [exact A1|]. split; [exact A2|]. split; [exact A4|]. split; [exact SV|exact A3].
Qed.

Theorem references_20 ask path2url abspath app_url fuel from12 o jref a a' r j c p url jp ts cx px d kids ref :
  so_version o = "2.0" -> wf_json j -> construct v20_table j (BCls c) p [] = Ok (so_obj o) -> c <> "Reference" ->
  split path2url abspath jref = Ok (url, jp) ->
  run ask (upgrade20 path2url abspath app_url fuel from12 o jref) a = (a', Ok r) ->
  within (so_obj o) ts (OObj cx px (JDict d) kids) -> In cx ["Schema"; "PathItem"; "Reference"] -> lookup "$ref" d = Some (JStr ref) -> ref <> "" ->
  exists n b a0 y new, normalize_jr (Some ref) (Some url) = Ok (Some n) /\ expected_at v20_table (so_obj o) ts cx b /\
    In (a0, mk_query n "2.0" (Some ("2.0", b)) None true, (y, new)) (requests ask (upgrade20 path2url abspath app_url fuel from12 o jref) a) /\ so_truthy y = true.
Proof.
  intros SV WJ C NC SP R W I L NE. destruct (run_20 _ _ _ _ _ _ _ _ _ _ _ _ _ SV SP R) as (vis & l & new & pre & rest & TR & AT & RS & RQ).
  assert (I' : In cx (normalized_classes "2.0")) by (cbn; cbn in I; destruct I as [<-|[<-|[<-|[]]]]; auto).
  destruct (document_task "2.0" j c p _ vis l ts cx px d kids ref (or_introl eq_refl) WJ C (even_built _ _ _ _ _ (or_intror eq_refl) C) NC TR AT W I' L NE) as (b & EX & IL).
  destruct (resolved_in path2url abspath "2.0" url (or_introl eq_refl) l new pre b _ ref RS IL) as (n & a0 & y & w & NJ & IP & TY & _); [exists cx, px, d, kids; auto|].
  exists n, b, a0, y, w. split; [exact NJ|]. split; [exact EX|]. split; [|exact TY]. rewrite RQ. apply in_or_app. now left.
Qed.
Lemma references_finish ask path2url abspath app_url fuel o reloc a a' r j c p url jp ts cx px d kids ref :
  wf_json j -> construct v30_table j (BCls c) p [] = Ok (so_obj o) -> unmixed (so_obj o) -> c <> "Reference" ->
  run ask (finish30 path2url abspath app_url fuel url jp o reloc) a = (a', Ok r) ->
  within (so_obj o) ts (OObj cx px (JDict d) kids) -> In cx ["PathItem"; "Reference"] -> lookup "$ref" d = Some (JStr ref) -> ref <> "" ->
  exists n b a0 y new, normalize_jr (Some ref) (Some url) = Ok (Some n) /\ expected_at v30_table (so_obj o) ts cx b /\
    In (a0, mk_query n (if String.eqb (a_original a0) "3.0.0" then "3.0.0" else "2.0") (Some ("3.0.0", b)) (Some "3.0.0") true, (y, new))
       (requests ask (finish30 path2url abspath app_url fuel url jp o reloc) a) /\ so_truthy y = true.
Proof.
  intros WJ C U NC R W I L NE. destruct (run_finish30 _ _ _ _ _ _ _ _ _ _ _ _ R) as (vis & l & new & pre & rest & a1 & TR & AT & RS & RQ & _).
  assert (I' : In cx (normalized_classes "3.0.0")) by (cbn; cbn in I; destruct I as [<-|[<-|[]]]; auto).
  destruct (document_task "3.0.0" j c p _ vis l ts cx px d kids ref (or_intror eq_refl) WJ C U NC TR AT W I' L NE) as (b & EX & IL).
  destruct (resolved_in path2url abspath "3.0.0" url (or_intror eq_refl) l new pre b _ ref RS IL) as (n & a0 & y & w & NJ & IP & TY & _); [exists cx, px, d, kids; auto|].
  exists n, b, a0, y, w. split; [exact NJ|]. split; [exact EX|]. split; [|exact TY]. rewrite RQ. apply in_or_app. now left.
Qed.
Theorem references_30 ask path2url abspath app_url fuel from20 o jref a a' r j c p url jp ts cx px d kids ref :
  so_version o = "3.0.0" -> wf_json j -> construct v30_table j (BCls c) p [] = Ok (so_obj o) -> unmixed (so_obj o) -> c <> "Reference" ->
  split path2url abspath jref = Ok (url, jp) ->
  run ask (upgrade300 path2url abspath app_url fuel from20 o jref) a = (a', Ok r) ->
  within (so_obj o) ts (OObj cx px (JDict d) kids) -> In cx ["PathItem"; "Reference"] -> lookup "$ref" d = Some (JStr ref) -> ref <> "" ->
  exists n b a0 y new, normalize_jr (Some ref) (Some url) = Ok (Some n) /\ expected_at v30_table (so_obj o) ts cx b /\
    In (a0, mk_query n (if String.eqb (a_original a0) "3.0.0" then "3.0.0" else "2.0") (Some ("3.0.0", b)) (Some "3.0.0") true, (y, new))
       (requests ask (upgrade300 path2url abspath app_url fuel from20 o jref) a) /\ so_truthy y = true.
Proof.
  intros SV WJ C U NC SP R. unfold upgrade300 in *. rewrite SP, SV in *. cbn [String.eqb Ascii.eqb Bool.eqb] in *. exact (references_finish _ _ _ _ _ _ _ _ _ _ _ _ _ _ _ _ _ _ _ _ _ WJ C U NC R).
Qed.
(** after conversion from 2.0: the references of the converted document *)
Theorem references_converted ask path2url abspath app_url fuel from20 o o' reloc found jref a a' r j c p url jp ts cx px d kids ref :
  so_version o = "2.0" -> snd (store_get_under (a_store a) url jp "3.0.0" false) = Ok found -> from20 o url jp (overrides found) = Ok (o', reloc) ->
  wf_json j -> construct v30_table j (BCls c) p [] = Ok (so_obj o') -> unmixed (so_obj o') -> c <> "Reference" ->
  split path2url abspath jref = Ok (url, jp) ->
  run ask (upgrade300 path2url abspath app_url fuel from20 o jref) a = (a', Ok r) ->
  within (so_obj o') ts (OObj cx px (JDict d) kids) -> In cx ["PathItem"; "Reference"] -> lookup "$ref" d = Some (JStr ref) -> ref <> "" ->
  exists n b a0 y new, normalize_jr (Some ref) (Some url) = Ok (Some n) /\ expected_at v30_table (so_obj o') ts cx b /\
    In (a0, mk_query n (if String.eqb (a_original a0) "3.0.0" then "3.0.0" else "2.0") (Some ("3.0.0", b)) (Some "3.0.0") true, (y, new))
       (requests ask (upgrade300 path2url abspath app_url fuel from20 o jref) a) /\ so_truthy y = true.
Proof.
  intros SV GU F WJ C U NC SP R. unfold upgrade300 in *. rewrite SP, SV in *. cbn [String.eqb Ascii.eqb Bool.eqb] in *. cbn [run requests] in *. unfold bindm, get_under in *.
  destruct (store_get_under (a_store a) url jp "3.0.0" false) as [s0 [x|e]]; [|discriminate R]. cbn [snd] in GU. injection GU as ->. rewrite F in *.
  exact (references_finish _ _ _ _ _ _ _ _ _ _ _ _ _ _ _ _ _ _ _ _ _ WJ C U NC R).
Qed.
