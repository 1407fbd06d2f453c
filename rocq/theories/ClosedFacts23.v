(** A closed set of Swagger 2.0 documents opens at 3.0.0. *)
From Coq Require Import String Ascii List Bool Arith Lia.
From Verif Require Import PyStr PyStrFacts PyVal PyValFacts Jp JpFacts UrlLib Urls SpecUrl UrlFacts UrlFacts2 UrlFacts3 Obj ObjFacts Classes_v2_0 Classes_v3_0_0 SpecJson SpecObj SpecScan TablesFacts DumpFacts ResolveFacts Scan TraverseFacts
  PropertiesObjAux PropertiesScanAux Store SpecStore StoreFacts App SpecApp AppFacts AppFacts2 AppFacts4 AppFacts5 Main SpecDoc SpecRefs SpecLocal SpecOpen WfFacts RelocFacts RefFacts OpenFacts OpenFacts2 OverrideFacts MainFacts RewriteFacts RewriteFacts2 TaskFacts QuietFacts LocalFacts LocalFacts2 SpecTables SpecClosed SpecClosed30 SpecClosed23 ClosedFacts ClosedFacts30.
From Verif Require ClosedFacts30b.
Import ListNotations.
Open Scope string_scope. Open Scope nat_scope.
Notation within := SpecObj.within (only parsing).

Lemma absolute_moved url ref u ts ts' : clean url -> clean u -> normalize_jr (Some ref) (Some url) = Ok (Some (place u ts)) ->
  normalize_jr (Some (absolute ref u ts')) (Some url) = Ok (Some (place u ts')).
Proof.
  intros CL CU N. unfold absolute. destruct (startswith "#" ref) eqn:SW.
  - assert (ER : exists f, ref = ("#" ++ f)%string) by (apply startswith_spec in SW as (f & ->); eauto). destruct ER as (f & ->).
    rewrite (nj_local f url (clean_ne _ CL)) in N. assert (E : (url ++ frag f)%string = place u ts) by congruence.
    assert (EU : url = u).
    { destruct CL as (s & h & p & q & C & EQ). assert (S : split (fun s => s) (fun s => s) (url ++ frag f) = Ok (url, ("#" ++ f)%string)).
      { rewrite EQ. destruct f as [|c f]; [cbn [frag]; rewrite sapp_nil_r; exact (split_url _ _ s h p q C)|exact (jr_split_abs _ _ s h p q (String c f) C)]. }
      rewrite E, (split_place _ _ u ts CU) in S. apply Ok_inj_local in S. apply (f_equal fst) in S. cbn [fst] in S. congruence. }
    rewrite pointer_tail, (nj_local _ url (clean_ne _ CL)), place_frag. now rewrite EU.
  - assert (A : normalize_jr (Some (u ++ pointer ts')) (Some url) = Ok (Some (place u ts'))); [|exact A]. clear N. destruct CU as (s & h & p & q & C & ->). destruct ts' as [|t ts'].
    + cbn [place]. change (pointer []) with "#". apply nj_scheme_emptyfrag; [rewrite <- (sapp_nil_r (abs_url s h p q)); now apply clean_has_scheme|now apply clean_nohash].
    + assert (E : (abs_url s h p q ++ pointer (t :: ts'))%string = (abs_url s h p q ++ frag (tail_of (t :: ts')))%string) by (rewrite <- place_frag; reflexivity).
      rewrite E, place_frag. now apply normalize_again.
Qed.
Lemma best_from remain m : forall acc k t, best remain m acc = Some (k, t) -> acc = Some (k, t) \/ In (k, t) m.
Proof.
  induction m as [|[k0 t0] m IH]; intros acc k t E; cbn [best] in E; [now left|]. destruct (IH _ _ _ E) as [A|A]; [|right; now right].
  destruct (startswith k0 remain); [|now left]. destruct acc as [[k1 t1]|].
  - destruct (_ || _); [right; left; congruence|now left].
  - right. left. congruence.
Qed.
Lemma patch_nothing jp m : (forall k t, In (k, t) m -> t = RMap []) -> patch_jp jp m = Ok jp.
Proof.
  intros H. unfold patch_jp. assert (P : forall n, patch_loop n m "" jp = Ok None); [|now rewrite P].
  intros n. destruct n as [|n]; cbn [patch_loop]; (destruct (best jp m None) as [[k t]|] eqn:B; [|reflexivity]); (destruct (best_from _ _ _ _ _ B) as [E|I]; [discriminate E|]); rewrite (H _ _ I); reflexivity.
Qed.
(** what is found below a pointer *)
Lemma under_in (uc : list (string * list (string * sobj))) jp v k o : In (k, o) (under jp v uc) -> exists p pc, In (p, pc) uc /\ startswith jp p = true /\ lookup v pc = Some o.
Proof.
  unfold under. assert (H : forall acc, In (k, o) (fold_left (fun ret pc => if startswith jp (fst pc) then match lookup v (snd pc) with Some o => dict_set (sdrop (String.length jp + 1) (fst pc)) o ret | None => ret end else ret) uc acc) ->
    In (k, o) acc \/ exists p pc, In (p, pc) uc /\ startswith jp p = true /\ lookup v pc = Some o); [|intros I; destruct (H [] I) as [[]|X]; exact X].
  induction uc as [|[p pc] uc IH]; intros acc I; cbn [fold_left] in I; [now left|]. destruct (IH _ I) as [A|(p' & pc' & I' & X)]; [|right; exists p', pc'; split; [now right|exact X]].
  cbn [fst snd] in A. destruct (startswith jp p) eqn:SW; [|now left]. destruct (lookup v pc) as [o'|] eqn:L; [|now left].
  assert (D : In (k, o) acc \/ o = o').
  { clear -A. revert A. generalize (sdrop (String.length jp + 1) p) as kk. intros kk. induction acc as [|[k1 o1] acc IH]; cbn [dict_set]; [intros [E|[]]; right; congruence|].
    destruct (String.eqb kk k1); cbn [In]; intros [E|I]; [right; congruence|left; now right|left; now left|]. destruct (IH I) as [H|H]; [left; now right|now right]. }
  destruct D as [D| ->]; [now left|]. right. exists p, pc. split; [now left|auto].
Qed.

Section Moved.
  Variables (url : string) (reloc : routes).
  Notation leads := (leads url reloc).
  Lemma leads_fun u ref u1 t1 t1' u2 t2 t2' : leads u ref u1 t1 t1' -> leads u ref u2 t2 t2' -> u1 = u2 /\ t1 = t2 /\ t1' = t2'.
  Proof.
    intros (C1 & N1 & L1) (C2 & N2 & L2). rewrite N1 in N2. assert (E : place u1 t1 = place u2 t2) by congruence. destruct (place_inj _ _ _ _ C1 C2 E) as (<- & <-).
    split; [reflexivity|]. split; [reflexivity|]. destruct L1 as [(E1 & P1)|(N & ->)], L2 as [(E2 & P2)|(N' & ->)]; try contradiction; [|reflexivity]. rewrite P1 in P2. apply Ok_inj_local in P2. now apply pointer_inj.
  Qed.
  (** the assignments made so far *)
  Definition good_ups (u : string) (Y : obj) (w : ref_updates) : Prop := forall q r, In (q, r) w ->
    exists qs c d kids ref u' ts ts', within Y qs (OObj c (Some q) (JDict d) kids) /\ In c (referring_classes "3.0.0") /\ lookup "$ref" d = Some (JStr ref) /\
      leads u ref u' ts ts' /\ r = absolute ref u' ts'.
  Definition full (u : string) (Y : obj) (w : ref_updates) : Prop := good_ups u Y w /\
    forall qs c p d kids ref, within Y qs (OObj c p (JDict d) kids) -> In c (referring_classes "3.0.0") -> lookup "$ref" d = Some (JStr ref) -> exists q r, p = Some q /\ In (q, r) w.
  Lemma good_nil u Y : good_ups u Y []. Proof. intros q r []. Qed.
  Section Rewritten.
    Variables (u : string) (Y : obj) (j : json) (b0 : builder) (base : string).
    Hypothesis CO : construct v30_table j b0 (Some base) [] = Ok Y.
    Hypothesis NB : base <> "".
    Lemma rewritten_at w qs c p d kids : good_ups u Y w -> within Y qs (OObj c p (JDict d) kids) ->
      exists d' kids', rewrite_refs w (OObj c p (JDict d) kids) = OObj c p (JDict d') kids' /\ (lookup "$ref" d = None -> lookup "$ref" d' = None) /\
        forall q r ref, p = Some q -> In (q, r) w -> lookup "$ref" d = Some (JStr ref) -> exists u' ts ts', leads u ref u' ts ts' /\ lookup "$ref" d' = Some (JStr (absolute ref u' ts')).
    Proof.
      intros G W. rewrite rewrite_obj, graft_kids_entries, own_ref_dict. do 2 eexists. split; [reflexivity|]. set (k2 := map _ kids).
      assert (LG : lookup "$ref" (graft_entries k2 d) = lookup "$ref" d) by (unfold k2; rewrite lookup_graft, RewriteFacts.lookup_map, (no_kid Y j b0 base CO _ _ _ _ _ W); now destruct (lookup "$ref" d)).
      split.
      - intros L. apply PyValFacts.lookup_none. rewrite own_update_keys, keys_graft. now apply PyValFacts.lookup_none.
      - intros q r ref -> I L. destruct (lookup_first _ _ _ I) as (r' & LQ & I'). destruct (G _ _ I') as (qs2 & c2 & d2 & kids2 & ref2 & u' & ts & ts' & W2 & _ & L2 & LD & ->).
        destruct (same_at Y j b0 base CO NB _ _ _ _ _ _ _ _ _ W W2) as (<- & EQ). injection EQ as <- <- <-. rewrite L in L2. injection L2 as <-. exists u', ts, ts'. split; [exact LD|].
        unfold own_update. rewrite LQ, LG, L. apply lookup_dict_set_eq.
    Qed.
    Lemma rewritten_either w qs c p d kids ref : good_ups u Y w -> within Y qs (OObj c p (JDict d) kids) -> lookup "$ref" d = Some (JStr ref) ->
      exists d' kids', rewrite_refs w (OObj c p (JDict d) kids) = OObj c p (JDict d') kids' /\
        (lookup "$ref" d' = Some (JStr ref) \/ exists u' ts ts', leads u ref u' ts ts' /\ lookup "$ref" d' = Some (JStr (absolute ref u' ts'))).
    Proof.
      intros G W L. destruct (rewritten_at w _ _ _ _ _ G W) as (d' & kids' & E & _ & H). exists d', kids'. split; [exact E|].
      assert (D : (exists q r, p = Some q /\ In (q, r) w) \/ (forall q, p = Some q -> lookup q w = None)).
      { destruct p as [q|]; [|right; discriminate]. destruct (lookup q w) as [r|] eqn:LQ; [left; exists q, r; split; [reflexivity|now apply TablesFacts.lookup_In]|right; intros q' [= <-]; exact LQ]. }
      destruct D as [(q & r & EP & I)|NO]; [right; exact (H q r ref EP I L)|left].
      rewrite rewrite_obj, graft_kids_entries, own_ref_dict in E. injection E as <- _. set (k2 := map _ kids).
      assert (LG : lookup "$ref" (graft_entries k2 d) = lookup "$ref" d) by (unfold k2; rewrite lookup_graft, RewriteFacts.lookup_map, (no_kid Y j b0 base CO _ _ _ _ _ W); now destruct (lookup "$ref" d)).
      unfold own_update. destruct p as [q|]; [rewrite (NO q eq_refl)|]; now rewrite LG.
    Qed.
  End Rewritten.
End Moved.

Section Closed.
  Variables (path2url abspath : string -> string) (app_url : string) (fetch : string -> res json) (merge_fuel : nat)
    (from12 : sobj -> res sobj) (from20 : sobj -> string -> string -> override -> res (sobj * routes)).
  Variables (url : string) (d0 : list (string * json)) (root root30 : obj) (reloc : routes) (places : list (string * builder)) (moved : list (string * list string)).
  Notation split := (split path2url abspath).
  Notation upgrade := (modules path2url abspath app_url merge_fuel from12 from20).
  Notation prepare := (fun (o : sobj) (_ : string) => Ok o).
  Notation resolving := (resolve_obj path2url abspath app_url known3 fetch upgrade prepare).
  Notation piece := (piece fetch).
  Notation stored20 := (ClosedFacts.stored_ok path2url abspath fetch url root places).
  Notation Inv20 := (ClosedFacts.Inv path2url abspath fetch url root places).
  Notation locs20 := (ClosedFacts.locs path2url abspath places).
  Notation leads := (leads url reloc).
  Notation good_ups := (good_ups url reloc).
  Notation full := (full url reloc).
  Hypothesis CW : closed_world path2url abspath fetch url root places.
  Hypothesis CL : clean url.
  Hypothesis FE : fetch url = Ok (JDict d0).
  Hypothesis DE : SpecApp.declares d0 (JStr "2.0").
  Hypothesis WJ : wf_json (JDict d0).
  Hypothesis CO : construct v20_table (JDict d0) (BCls "Swagger") (Some url) [] = Ok root.
  Hypothesis CV : converts path2url abspath fetch from20 url root root30 reloc places moved.
  Hypothesis MF : length locs20 < merge_fuel.
  Lemma SU : split url = Ok (url, "#"). Proof. exact (split_place path2url abspath url [] CL). Qed.
  Lemma NU : url <> "". Proof. exact (clean_ne _ CL). Qed.

  (** where converted places are *)
  Definition locs30 : list (string * string) := map (fun e => (fst e, pointer (snd e))) moved.
  Lemma locs30_in u ts : In (u, ts) moved -> In (u, pointer ts) locs30.
  Proof. intros I. apply in_map_iff. exists (u, ts). auto. Qed.
  Lemma locs30_length : length locs30 = length moved. Proof. apply map_length. Qed.

  (** the 2.0 object at a location and its conversion *)
  Definition original (u p : string) (X Y : obj) : Prop :=
    (u = url /\ p = "#" /\ X = root /\ Y = root30) \/
    (u <> url /\ clean u /\ exists ts n b, In (u, ts) moved /\ p = pointer ts /\ In (n, b) places /\ split n = Ok (u, pointer ts) /\ piece n b X /\ becomes from20 u ts X Y).
  Definition stored30 (u p : string) (y : obj) : Prop := exists X Y w, original u p X Y /\ good_ups u Y w /\ y = rewrite_refs w Y.
  Lemma original_built u p X Y : original u p X Y -> clean u /\ stored20 u p X /\ refs_moved url root30 reloc moved u X Y /\
    exists c q s kids y base, Y = OObj c q s kids /\ c <> "Reference" /\ wf_json y /\ construct v30_table y (BCls c) (Some base) [] = Ok Y /\ base <> "" /\ unmixed Y /\ no_media_examples Y.
  Proof.
    intros [(-> & -> & -> & ->)|(NE & CU & ts & n & b & IM & -> & IN & S & P & B)].
    - split; [exact CL|]. split; [left; auto|]. split; [exact (cv_refs _ _ _ _ _ _ _ _ _ _ CV)|]. destruct (cv_built _ _ _ _ _ _ _ _ _ _ CV) as (x & WX & CX). destruct (cv_unmixed _ _ _ _ _ _ _ _ _ _ CV) as (UN & NM).
      destruct (construct_cls_obj _ _ _ _ _ CX) as (kids & ER). exists "OpenApi", (Some "#"), x, kids, x, "#". repeat (split; [first [assumption|discriminate]|]). assumption.
    - split; [exact CU|]. split; [right; split; [exact NE|]; exists n, b, ts; auto|].
      destruct (cv_pieces _ _ _ _ _ _ _ _ _ _ CV u ts IM) as (_ & H). destruct (H n b X IN S P) as (Y' & y & c & B' & NC & WY & CY & UN & NM & RM & _).
      assert (EY : Y' = Y) by (unfold becomes in *; rewrite B in B'; apply Ok_inj_local in B'; apply (f_equal (fun z => so_obj (fst z))) in B'; cbn [fst so_obj] in B'; congruence). subst Y'. split; [exact RM|].
      destruct (construct_cls_obj _ _ _ _ _ CY) as (kids & ER). exists c, (Some (pointer ts)), y, kids, y, (pointer ts). repeat (split; [first [assumption|discriminate]|]). assumption.
  Qed.
  Lemma original_nothing u p X Y : original u p X Y -> rewrite_refs [] Y = Y.
  Proof. intros O. destruct (original_built _ _ _ _ O) as (_ & _ & _ & c & q & s & kids & y & base & _ & _ & WF & C & _). exact (rewrite_nothing Y y (BCls c) base WF C). Qed.
  Lemma stored30_obj u p y : stored30 u p y -> clean u /\ exists c q s kids j b base, y = OObj c q s kids /\ construct v30_table j b (Some base) [] = Ok y.
  Proof.
    intros (X & Y & w & O & G & ->). destruct (original_built _ _ _ _ O) as (CU & _ & _ & c & q & s & kids & y & base & EY & _ & WF & C & _). split; [exact CU|].
    destruct (rewritten_built Y y (BCls c) base WF C w) as (j' & C' & _). rewrite EY in *. rewrite rewrite_obj in *. do 7 eexists. split; [reflexivity|exact C'].
  Qed.
  (** what [X] refers to has been read *)
  Definition has2 (u : string) (X : obj) (a : app) : Prop := forall m b l, refers u X m b -> split m = Ok l -> covb "2.0" (a_store a) l = true.
  Lemma has2_grow u X a a' : mono "2.0" (a_store a) (a_store a') -> has2 u X a -> has2 u X a'.
  Proof. intros G H m b l R S. apply G. exact (H m b l R S). Qed.
  Definition stored_at (a : app) (u p : string) (y : obj) : Prop := exists X Y w, original u p X Y /\ good_ups u Y w /\ y = rewrite_refs w Y /\ has2 u X a.
  Lemma stored_at30 a u p y : stored_at a u p y -> stored30 u p y.
  Proof. intros (X & Y & w & O & G & E & _). exists X, Y, w. auto. Qed.
  Lemma stored_at_grow a a' u p y : mono "2.0" (a_store a) (a_store a') -> stored_at a u p y -> stored_at a' u p y.
  Proof. intros M (X & Y & w & O & G & E & H). exists X, Y, w. repeat (split; [assumption|]). exact (has2_grow _ _ _ _ M H). Qed.
  (** what the references of [Y] lead to *)
  Definition goes (u : string) (Y : obj) (l : string * string) : Prop :=
    exists qs c p d kids ref u' ts ts', within Y qs (OObj c p (JDict d) kids) /\ In c (referring_classes "3.0.0") /\ lookup "$ref" d = Some (JStr ref) /\ leads u ref u' ts ts' /\ l = (u', pointer ts').

  (** ** the states met; [Q] are the locations whose references are being resolved *)
  Notation e30 a := (fun u p => entry (a_store a) u p "3.0.0").
  Notation none := (fun _ : string * string => False).
  Record J (Q : string * string -> Prop) (a : app) : Prop := {
    j_20 : Inv20 (e30 a) (row30 a) none a;
    j_row : row30 a url = [("#", RMap reloc)];
    j_rows : forall u k t, u <> url -> In (k, t) (row30 a u) -> t = RMap [];
    j_ent : forall u p o, entry (a_store a) u p "3.0.0" = Some o -> so_version o = "3.0.0" /\ so_apis o = [] /\ stored_at a u p (so_obj o);
    j_root : exists o, entry (a_store a) url "#" "3.0.0" = Some o;
    j_done : forall u p o, entry (a_store a) u p "3.0.0" = Some o -> ~ Q (u, p) ->
      exists X Y w, original u p X Y /\ full u Y w /\ so_obj o = rewrite_refs w Y /\ forall l, goes u Y l -> covb "3.0.0" (a_store a) l = true }.
  Notation cov2 a l := (covb "2.0" (a_store a) l = true).
  Notation cov3 a l := (covb "3.0.0" (a_store a) l = true).
  Notation grow2 a a' := (mono "2.0" (a_store a) (a_store a')).
  Notation grow3 a a' := (mono "3.0.0" (a_store a) (a_store a')).
  Notation left_ a := (uncov "3.0.0" locs30 (a_store a)).
  Lemma J_good Q a : J Q a -> good (a_store a).
  Proof. intros I. exact (i_good _ _ _ _ _ _ _ _ _ _ (j_20 _ _ I)). Qed.
  Lemma J_weaken (Q Q' : string * string -> Prop) a : (forall l, Q l -> Q' l) -> J Q a -> J Q' a.
  Proof. intros H [A B C D E F]. split; auto. Qed.
  Lemma J_same Q a a' : J Q a -> a_store a' = a_store a -> a_original a' = a_original a -> J Q a'.
  Proof.
    intros [A B C D E F] ES EO. assert (I2 : Inv20 (e30 a) (row30 a) none a') by exact (ClosedFacts.inv_same path2url abspath fetch url root places _ _ _ a a' A ES EO).
    assert (ER : forall u, row30 a' u = row30 a u) by (intros u; unfold row30; now rewrite ES).
    split; rewrite ?ES; auto.
    - destruct I2 as [I1 I3 I4 I5 I6 I7 I8 I9 I10]. split; auto.
    - rewrite ER. exact B.
    - intros u k t N. rewrite ER. now apply C.
    - intros u p o EN. destruct (D u p o EN) as (V & VA & SA). split; [exact V|]. split; [exact VA|]. apply (stored_at_grow a a'); [rewrite ES; apply mono_refl|exact SA].
  Qed.
  (** the objects of 3.0.0 and the routes stay *)
  Lemma J_frame Q a a' : J Q a -> grow2 a a' -> Inv20 (e30 a) (row30 a) none a' -> J Q a' /\ grow3 a a'.
  Proof.
    intros I G2 A'. assert (GA := J_good _ _ I). assert (GA' := i_good _ _ _ _ _ _ _ _ _ _ A'). assert (TH := i_there _ _ _ _ _ _ _ _ _ _ A'). cbv beta in TH. assert (RT := i_routed _ _ _ _ _ _ _ _ _ _ A').
    assert (G3 : grow3 a a').
    { intros l C. apply covb_spec in C as (p & o & P & E); [|exact GA]. apply covb_spec; [exact GA'|]. exists p, o. split; [exact P|]. now rewrite TH. }
    split; [|exact G3]. destruct I as [A B C D E F]. split.
    - destruct A' as [I1 I3 I4 I5 I6 I7 I8 I9 I10]. split; auto.
    - now rewrite RT.
    - intros u k t N. rewrite RT. now apply C.
    - intros u p o. rewrite TH. intros EN. destruct (D u p o EN) as (V & VA & SA). split; [exact V|]. split; [exact VA|]. exact (stored_at_grow a a' _ _ _ G2 SA).
    - rewrite TH. exact E.
    - intros u p o EN NQ. rewrite TH in EN. destruct (F u p o EN NQ) as (X & Y & w & H1 & H2 & H3 & H4). exists X, Y, w. repeat (split; [assumption|]). intros l GL. apply G3, H4, GL.
  Qed.
  (** something else happens at 3.0.0 *)
  Lemma inv_other th rt a a' : Inv20 th rt none a -> good (a_store a') -> s_versions (a_store a') = s_versions (a_store a) -> a_original a' = a_original a ->
    (forall u ur, lookup u (s_routes (a_store a')) = Some ur -> keys ur = known3) -> (forall u p v, v <> "3.0.0" -> entry (a_store a') u p v = entry (a_store a) u p v) ->
    Inv20 (e30 a') (row30 a') none a' /\ grow2 a a'.
  Proof.
    intros I G EV EO KR EN. assert (GA := i_good _ _ _ _ _ _ _ _ _ _ I).
    assert (G2 : grow2 a a'). { intros l C. apply covb_spec in C as (p & o & P & E); [|exact GA]. apply covb_spec; [exact G|]. exists p, o. split; [exact P|]. rewrite EN by discriminate. exact E. }
    split; [|exact G2]. destruct I as [I1 I3 I4 I5 I6 I7 I8 I9 I10]. split; auto.
    - congruence.
    - congruence.
    - intros u p v o E. destruct (string_dec v "3.0.0") as [->|N]; [now left|]. rewrite EN in E by exact N. exact (I6 _ _ _ _ E).
    - rewrite EN by discriminate. exact I9.
    - intros u p o n b l E NQ RF S. rewrite EN in E by discriminate. apply G2. exact (I10 _ _ _ _ _ _ E NQ RF S).
  Qed.
  Lemma set_entries a u jp y a' : set_obj (mk_sobj "3.0.0" y []) u jp "3.0.0" a = (a', Ok tt) ->
    forall u' p v, entry (a_store a') u' p v = if String.eqb u u' && String.eqb jp p && String.eqb "3.0.0" v then Some (mk_sobj "3.0.0" y []) else entry (a_store a) u' p v.
  Proof.
    unfold set_obj. destruct (store_set so_base (a_store a) (mk_sobj "3.0.0" y []) u jp "3.0.0") as [s'|] eqn:SS; [|discriminate]. intros E u' p v. injection E as <-. cbn [with_store a_store].
    destruct (set_as_op _ _ _ _ _ _ SS) as (-> & B). now apply entry_set.
  Qed.
  (** storing the conversion of an object *)
  Lemma set_core th rt a u jp y : Inv20 th rt none a -> (exists c q s kids, y = OObj c q s kids) ->
    exists a', set_obj (mk_sobj "3.0.0" y []) u jp "3.0.0" a = (a', Ok tt) /\ Inv20 (e30 a') (row30 a') none a' /\ grow2 a a' /\ grow3 a a' /\ cov3 a' (u, jp) /\ forall u', row30 a' u' = row30 a u'.
  Proof.
    intros I (c & q & s & kids & EY). assert (B : so_base (mk_sobj "3.0.0" y []) = true) by (rewrite EY; reflexivity). assert (GA := i_good _ _ _ _ _ _ _ _ _ _ I).
    assert (SE := set_entries a u jp y). unfold set_obj in SE |- *. destruct (store_set so_base (a_store a) (mk_sobj "3.0.0" y []) u jp "3.0.0") as [s'|] eqn:SS; [|unfold store_set in SS; rewrite B in SS; discriminate SS].
    destruct (set_mono "3.0.0" _ _ _ _ _ _ GA SS) as (MO & GO & CV'). specialize (SE _ eq_refl). exists (with_store a s'). split; [reflexivity|].
    destruct (inv_other th rt a (with_store a s') I) as (I' & G2); [exact GO|exact (set_versions _ _ _ _ _ _ SS)|reflexivity| |intros u' p v N; rewrite SE; destruct (String.eqb_spec "3.0.0" v); [congruence|]; now rewrite andb_false_r|].
    { cbn [with_store a_store]. rewrite (set_routes _ _ _ _ _ _ SS). apply (i_rows _ _ _ _ _ _ _ _ _ _ I). }
    split; [exact I'|]. split; [exact G2|]. split; [exact MO|]. split; [exact CV'|]. intros u'. unfold row30. cbn [with_store a_store]. now rewrite (set_routes _ _ _ _ _ _ SS).
  Qed.
  Lemma ent_grow Q a a' u p o : J Q a -> grow2 a a' -> entry (a_store a) u p "3.0.0" = Some o -> so_version o = "3.0.0" /\ so_apis o = [] /\ stored_at a' u p (so_obj o).
  Proof. intros I G2 EN. destruct (j_ent _ _ I _ _ _ EN) as (V & VA & SA). split; [exact V|]. split; [exact VA|]. exact (stored_at_grow a a' _ _ _ G2 SA). Qed.
  Lemma set_J (Q : string * string -> Prop) a u jp y : J Q a -> stored_at a u jp y -> Q (u, jp) ->
    exists a', set_obj (mk_sobj "3.0.0" y []) u jp "3.0.0" a = (a', Ok tt) /\ J Q a' /\ grow2 a a' /\ grow3 a a' /\ cov3 a' (u, jp).
  Proof.
    intros I SO HQ. destruct (stored30_obj _ _ _ (stored_at30 _ _ _ _ SO)) as (_ & c & q & s & kids & j & b & base & EY & _).
    destruct (set_core _ _ a u jp y (j_20 _ _ I)) as (a' & E & I' & G2 & G3 & C3 & RR); [eauto|]. assert (SE := set_entries _ _ _ _ _ E). exists a'. split; [exact E|]. split; [|auto].
    split.
    - exact I'.
    - rewrite RR. apply (j_row _ _ I).
    - intros u' k t N. rewrite RR. now apply (j_rows _ _ I).
    - intros u' p o. rewrite SE. destruct (String.eqb_spec u u') as [<-|]; [|exact (ent_grow Q a a' _ _ _ I G2)]. destruct (String.eqb_spec jp p) as [<-|]; [|exact (ent_grow Q a a' _ _ _ I G2)]. cbn [andb String.eqb Ascii.eqb Bool.eqb]. intros [= <-].
      split; [reflexivity|]. split; [reflexivity|]. exact (stored_at_grow a a' _ _ _ G2 SO).
    - rewrite SE. destruct (_ && _); [eauto|apply (j_root _ _ I)].
    - intros u' p o EN NQ. rewrite SE in EN. destruct (String.eqb_spec u u') as [<-|]; [destruct (String.eqb_spec jp p) as [<-|]; [contradiction|]|]; cbn [andb] in EN;
        (destruct (j_done _ _ I _ _ _ EN NQ) as (X & Y & w & H1 & H2 & H3 & H4); exists X, Y, w; repeat (split; [assumption|]); intros l GL; apply G3, H4, GL).
  Qed.
  (** updating the routes *)
  Lemma routes_core th rt a u rs : Inv20 th rt none a ->
    exists a', put_routes u "3.0.0" rs a = (a', Ok tt) /\ Inv20 (e30 a') (row30 a') none a' /\ grow2 a a' /\ s_objs (a_store a') = s_objs (a_store a) /\
      (forall u', u' <> u -> row30 a' u' = row30 a u') /\ row30 a' u = dict_update (row30 a u) rs.
  Proof.
    intros I. unfold put_routes. destruct (store_update_routes (a_store a) u "3.0.0" rs) as [s r] eqn:UR. destruct (routes_objs _ _ _ _ _ _ UR) as (EO & EV).
    assert (IR := i_rows _ _ _ _ _ _ _ _ _ _ I). assert (IV := i_vers _ _ _ _ _ _ _ _ _ _ I). assert (IG := i_good _ _ _ _ _ _ _ _ _ _ I).
    assert (KR : r = Ok tt /\ (forall u' ur, lookup u' (s_routes s) = Some ur -> keys ur = known3) /\ (forall u', u' <> u -> row30 (with_store a s) u' = row30 a u') /\ row30 (with_store a s) u = dict_update (row30 a u) rs).
    { unfold store_update_routes in UR. rewrite IV in UR. set (ur := match lookup u (s_routes (a_store a)) with Some ur => ur | None => _ end) in UR.
      assert (KU : keys ur = known3). { unfold ur. destruct (lookup u (s_routes (a_store a))) eqn:L; [exact (IR _ _ L)|reflexivity]. }
      destruct (lookup "3.0.0" ur) as [m|] eqn:LM.
      2:{ exfalso. apply PyValFacts.lookup_none in LM. apply LM. change (In "3.0.0" (keys ur)). rewrite KU. cbn. auto. }
      assert (EM : m = row30 a u). { unfold row30. unfold ur in LM. destruct (lookup u (s_routes (a_store a))) eqn:L; [now rewrite LM|]. vm_compute in LM. congruence. }
      injection UR as <- <-. split; [reflexivity|]. unfold row30. cbn [with_store a_store s_routes]. split; [|split].
      - intros u' ur' L. rewrite ds_lookup in L. destruct (String.eqb_spec u u') as [->|]; [|exact (IR _ _ L)]. injection L as <-. rewrite keys_dict_set. unfold mem. rewrite LM. exact KU.
      - intros u' N. rewrite ds_lookup. destruct (String.eqb_spec u u') as [->|]; [congruence|reflexivity].
      - rewrite ds_lookup, String.eqb_refl, ds_lookup. change (String.eqb "3.0.0" "3.0.0") with true. cbv iota. rewrite EM. reflexivity. }
    destruct KR as (-> & KR & R1 & R2). exists (with_store a s). split; [reflexivity|].
    destruct (inv_other th rt a (with_store a s) I) as (I' & G2); [exact (objs_good _ _ EO IG)|exact EV|reflexivity|exact KR|intros; exact (objs_entry _ _ _ _ _ EO)|]. auto.
  Qed.
  Definition own_routes (u jp : string) (rs : routes) : Prop := (u = url /\ jp = "#" /\ rs = reloc) \/ (u <> url /\ rs = []).
  Lemma dict_update_one (m : routes) k v : dict_update m [(k, v)] = dict_set k v m. Proof. reflexivity. Qed.
  Lemma routes_J Q a u jp rs : J Q a -> own_routes u jp rs -> exists a', put_routes u "3.0.0" [(jp, RMap rs)] a = (a', Ok tt) /\ J Q a' /\ grow2 a a' /\ grow3 a a'.
  Proof.
    intros I OR. destruct (routes_core _ _ a u [(jp, RMap rs)] (j_20 _ _ I)) as (a' & E & I' & G2 & EO & R1 & R2). exists a'. split; [exact E|].
    assert (G3 : grow3 a a') by (intros l C; now rewrite (objs_covb _ _ _ _ EO)). split; [|auto]. split.
    - exact I'.
    - destruct OR as [(-> & -> & ->)|(N & _)]; [|rewrite R1 by congruence; apply (j_row _ _ I)]. rewrite R2, (j_row _ _ I). reflexivity.
    - intros u' k t N IN. destruct (string_dec u' u) as [->|N2]; [|rewrite R1 in IN by exact N2; exact (j_rows _ _ I _ _ _ N IN)].
      destruct OR as [(-> & _)|(_ & ->)]; [contradiction|]. rewrite R2, dict_update_one in IN.
      assert (D : In (k, t) (row30 a u) \/ t = RMap []).
      { clear -IN. induction (row30 a u) as [|[k1 t1] m IH]; cbn [dict_set] in IN; [destruct IN as [E|[]]; right; congruence|].
        destruct (String.eqb jp k1); cbn [In] in IN; destruct IN as [X|X]; [right; congruence|left; now right|left; now left|]. destruct (IH X) as [H|H]; [left; now right|now right]. }
      destruct D as [D|D]; [exact (j_rows _ _ I _ _ _ N D)|exact D].
    - intros u' p o. rewrite (objs_entry _ _ _ _ _ EO). exact (ent_grow Q a a' _ _ _ I G2).
    - rewrite (objs_entry _ _ _ _ _ EO). apply (j_root _ _ I).
    - intros u' p o EN NQ. rewrite (objs_entry _ _ _ _ _ EO) in EN. destruct (j_done _ _ I _ _ _ EN NQ) as (X & Y & w & H1 & H2 & H3 & H4). exists X, Y, w. repeat (split; [assumption|]). intros l GL. apply G3, H4, GL.
  Qed.
  (** moving a pointer from 2.0 to 3.0.0 *)
  Lemma relocate_row th rt Q a u jp : Inv20 th rt Q a -> store_relocate (a_store a) u jp "2.0" (Some "3.0.0") = patch_jp jp (row30 a u).
  Proof.
    intros I. unfold store_relocate, row30. destruct (lookup u (s_routes (a_store a))) as [ur|] eqn:L; [|reflexivity]. assert (K := i_rows _ _ _ _ _ _ _ _ _ _ I _ _ L).
    destruct ur as [|[k1 m1] [|[k2 m2] [|[k3 m3] [|]]]]; try discriminate K. injection K as -> -> ->. cbn [truthy_str]. change (mem "3.0.0" _) with true. cbv iota.
    change (strict_version "2.0") with (@Ok ver [2; 0; 0; 2; 0]). change (strict_version "3.0.0") with (@Ok ver [3; 0; 0; 2; 0]). cbn [bind].
    cbn [relocate_loop]. change (strict_version "1.2") with (@Ok ver [1; 2; 0; 2; 0]). change (strict_version "2.0") with (@Ok ver [2; 0; 0; 2; 0]). change (strict_version "3.0.0") with (@Ok ver [3; 0; 0; 2; 0]). cbn [bind].
    change (ver_ltb [2; 0; 0; 2; 0] [1; 2; 0; 2; 0]) with false. change (ver_ltb [2; 0; 0; 2; 0] [2; 0; 0; 2; 0]) with false. change (ver_ltb [2; 0; 0; 2; 0] [3; 0; 0; 2; 0]) with true. change (ver_ltb [3; 0; 0; 2; 0] [3; 0; 0; 2; 0]) with false.
    cbn [negb]. change (lookup "3.0.0" [("1.2", m1); ("2.0", m2); ("3.0.0", m3)]) with (Some m3). destruct (patch_jp jp m3); reflexivity.
  Qed.
  Lemma relocate_J Q a u ts ts' : J Q a -> (u = url /\ patch_jp (pointer ts) [("#", RMap reloc)] = Ok (pointer ts')) \/ (u <> url /\ ts' = ts) ->
    store_relocate (a_store a) u (pointer ts) "2.0" (Some "3.0.0") = Ok (pointer ts').
  Proof.
    intros I H. rewrite (relocate_row _ _ _ _ _ _ (j_20 _ _ I)). destruct H as [(-> & P)|(N & ->)]; [now rewrite (j_row _ _ I)|]. apply patch_nothing. intros k t IN. exact (j_rows _ _ I _ _ _ N IN).
  Qed.

  (** *** looking up a place *)
  Definition home (a : app) (u : string) (ts ts' : list string) : Prop := clean u /\
    ((u = url /\ patch_jp (pointer ts) [("#", RMap reloc)] = Ok (pointer ts') /\ exists c p s k, within root30 ts' (OObj c p s k)) \/
     (u <> url /\ ts' = ts /\ In (u, ts) moved /\ exists b, In (place u ts, b) places /\ cov2 a (u, pointer ts))).
  Definition found (a : app) (u : string) (ts' : list string) (y : obj) : Prop := exists p rest X Y w x, original u p X Y /\ good_ups u Y w /\ has2 u X a /\ within Y rest x /\ y = rewrite_refs w x /\
    ((u = url /\ rest = ts') \/ (u <> url /\ rest = [] /\ p = pointer ts')).
  Lemma home_grow a a' u ts ts' : grow2 a a' -> home a u ts ts' -> home a' u ts ts'.
  Proof. intros G (C & [H|(N & E & I & b & IB & CV2)]); (split; [exact C|]); [now left|]. right. split; [exact N|]. split; [exact E|]. split; [exact I|]. exists b. split; [exact IB|]. apply G, CV2. Qed.
  Lemma apart30 Q a u ts p o : J Q a -> u <> url -> In (u, ts) moved -> entry (a_store a) u p "3.0.0" = Some o -> startswith p (pointer ts) = true \/ startswith (pointer ts) p = true -> p = pointer ts.
  Proof.
    intros I N IM EN SW. destruct (j_ent _ _ I _ _ _ EN) as (_ & _ & X & Y & w & O & _). destruct O as [(E & _)|(_ & _ & ts1 & n & b & _ & -> & IN & S & _)]; [contradiction|].
    f_equal. exact (cv_apart _ _ _ _ _ _ _ _ _ _ CV n b u ts1 ts IN IM S SW).
  Qed.
  (** the places of the conversions *)
  Definition spot (u : string) (ts' : list string) : Prop := clean u /\ ((u = url /\ exists c p s k, within root30 ts' (OObj c p s k)) \/ (u <> url /\ In (u, ts') moved)).
  Lemma home_spot a u ts ts' : home a u ts ts' -> spot u ts'.
  Proof. intros (C & [(E & _ & W)|(N & -> & I & _)]); (split; [exact C|]); auto. Qed.
  Lemma get30 Q a u ts' : J Q a -> spot u ts' -> cov3 a (u, pointer ts') ->
    exists y, store_get so_resolve (a_store a) u (pointer ts') "3.0.0" = Ok (Some (mk_sobj "3.0.0" y [])) /\ (exists c p s k, y = OObj c p s k) /\ found a u ts' y.
  Proof.
    intros I (CU & H) C. unfold covb in C. cbn [fst snd] in C. unfold store_get. destruct (first_match (pointer ts') "3.0.0" (sub u (s_objs (a_store a)))) as [[p o]|] eqn:FM; [|discriminate C].
    destruct (first_match_some _ _ _ _ _ (good_sub _ _ (J_good _ _ I)) FM) as (PF & LK). rewrite <- entry_sub in LK. destruct (j_ent _ _ I _ _ _ LK) as (SV & SA & SO1). assert (SO := stored_at30 _ _ _ _ SO1). destruct SO1 as (X & Y & w & O & G & EY & H2).
    assert (F : exists ts1 rest c q s k, p = pointer ts1 /\ ts' = (ts1 ++ rest)%list /\ within Y rest (OObj c q s k) /\ ((u = url /\ rest = ts') \/ (u <> url /\ rest = [] /\ p = pointer ts'))).
    { destruct H as [(-> & c & q & s & k & W)|(N & IM)].
      - destruct O as [(_ & -> & -> & ->)|(N & _)]; [|congruence]. exists [], ts', c, q, s, k. split; [reflexivity|]. split; [reflexivity|]. auto.
      - assert (EP : p = pointer ts') by (eapply apart30; [exact I|exact N|exact IM|exact LK|left; now apply prefix_startswith]).
        destruct (original_built _ _ _ _ O) as (_ & _ & _ & c & q & s & kids & y & base & EYY & _). exists ts', [], c, q, s, kids. split; [exact EP|]. split; [now rewrite app_nil_r|]. split; [rewrite EYY; constructor|]. auto. }
    destruct F as (ts1 & rest & c & q & s & k & -> & -> & W & W2). rewrite drop_pointer, tail_split.
    destruct (stored30_obj _ _ _ SO) as (_ & c1 & q1 & s1 & k1 & j & b1 & base & EX & CX). assert (WY := rewrite_within w _ _ _ W). rewrite <- EY in WY.
    destruct (within_resolve v30_table rest (repo_wd _ rt_v30) j b1 (Some base) (so_obj o) _ CX WY) as (_ & R & _); [rewrite rewrite_obj; intros (? & [=])|].
    exists (rewrite_refs w (OObj c q s k)). split; [unfold so_resolve; rewrite SV; change (table_of "3.0.0") with v30_table; rewrite R; reflexivity|].
    split; [rewrite rewrite_obj; eauto|]. exists (pointer ts1), rest, X, Y, w, (OObj c q s k). auto 8.
  Qed.

  (** *** a way of asking that always answers, while at most [n] places are not in the store *)
  Definition asks3 (ask : query -> M (sobj * string)) (n : nat) : Prop :=
    forall Q a q u ts ts', J Q a -> left_ a <= n -> q_from q = "2.0" -> q_to q = Some "3.0.0" -> q_jref q = place u ts -> home a u ts ts' ->
      exists a' y, ask q a = (a', Ok (mk_sobj "3.0.0" y [], (u ++ pointer ts')%string)) /\ J Q a' /\ grow2 a a' /\ grow3 a a' /\ (exists c p s k, y = OObj c p s k) /\ cov3 a' (u, pointer ts') /\ found a' u ts' y.

  (** what is known of the references of what is stored *)
  Definition chain_at (a : app) (u : string) (ts : list string) : Prop := In (place u ts, BCls "PathItem") places /\ home a u ts ts /\ (u = url -> exists p s k, within root30 ts (OObj "PathItem" p s k)).
  Lemma ref_of u jp X Y : original u jp X Y -> forall qs c p s kids, within Y qs (OObj c p s kids) -> In c (referring_classes "3.0.0") -> exists d, s = JDict d /\
    ((lookup "$ref" d = None /\ c <> "Reference" /\ normalized v30_table u (OObj c p s kids) = Ok None) \/
     (exists ref u' ts ts', lookup "$ref" d = Some (JStr ref) /\ ref <> "" /\ oattr v30_table (OObj c p s kids) "ref" = Ok (OPrim (JStr ref)) /\ normalized v30_table u (OObj c p s kids) = Ok (Some (place u' ts)) /\
       leads u ref u' ts ts' /\ (forall a, has2 u X a -> home a u' ts ts') /\ (c = "PathItem" -> ts' = ts /\ forall a, has2 u X a -> chain_at a u' ts))).
  Proof.
    intros OR qs c p s kids W IC. destruct (original_built _ _ _ _ OR) as (CU & SX & RM & _). destruct (RM qs c p s kids W IC) as (d & -> & D). exists d. split; [reflexivity|]. destruct (lookup "$ref" d) as [r|] eqn:L.
    - right. destruct D as (ref & u' & ts & ts' & -> & NE & LD & H1 & H2 & H3). assert (OA := ref_attr "3.0.0" c p d kids ref (or_intror eq_refl) IC L). change (table_of "3.0.0") with v30_table in OA.
      assert (T1 : truthy_str ref = true) by (destruct ref; [congruence|reflexivity]). exists ref, u', ts, ts'. split; [reflexivity|]. split; [exact NE|]. split; [exact OA|]. assert (LD' := LD). destruct LD' as (C' & N & LL).
      destruct (stored_closed path2url abspath fetch url root places CW _ _ _ SX) as (_ & R2).
      split; [unfold normalized; rewrite OA; cbn [bind]; rewrite T1; exact N|]. split; [exact LD|].
      assert (HH : forall a, has2 u X a -> home a u' ts ts').
      { intros a HH. split; [exact C'|]. destruct LL as [(-> & PJ)|(N' & ->)]; [left|right].
        - split; [reflexivity|]. split; [exact PJ|]. destruct (H1 eq_refl) as (c' & p' & s' & k' & W' & _). eauto.
        - split; [exact N'|]. split; [reflexivity|]. destruct (H2 N') as (IM & b & RF). split; [exact IM|]. exists b. split; [exact (R2 _ _ RF)|].
          exact (HH _ _ _ RF (split_place path2url abspath u' ts C')). }
      split; [exact HH|]. intros EC. destruct (H3 EC) as (ET & RF). split; [exact ET|]. intros a HA. subst ts'. split; [exact (R2 _ _ RF)|]. split; [exact (HH a HA)|]. intros EU. destruct (H1 EU) as (c' & p' & s' & k' & W' & EC'). rewrite (EC' EC) in W'. eauto.
    - left. split; [reflexivity|]. split; [exact D|]. assert (M : mem "$ref" d = false) by (unfold mem; now rewrite L). assert (OA : oattr v30_table (OObj c p (JDict d) kids) "ref" = Ok (OPrim JNull)).
      { cbn in IC. repeat (destruct IC as [<-|IC]; [try congruence; cbn; rewrite M; reflexivity|]); contradiction. }
      unfold normalized. rewrite OA. reflexivity.
  Qed.
  (** the path item that follows a path item, whose references may have been rewritten *)
  Lemma next_item u jp X Y w qs p s kids : original u jp X Y -> good_ups u Y w -> within Y qs (OObj "PathItem" p s kids) ->
    normalized v30_table u (rewrite_refs w (OObj "PathItem" p s kids)) = Ok None \/
    exists u' ts, clean u' /\ normalized v30_table u (rewrite_refs w (OObj "PathItem" p s kids)) = Ok (Some (place u' ts)) /\ forall a, has2 u X a -> chain_at a u' ts.
  Proof.
    intros OR GW W. assert (IP : In "PathItem" (referring_classes "3.0.0")) by (cbn; auto). destruct (original_built _ _ _ _ OR) as (CU & _ & _ & c0 & q0 & s0 & kids0 & j & base & EX0 & _ & WF & CX & NB & _).
    destruct (ref_of u jp X Y OR qs _ p s kids W IP) as (d & -> & [(L & _)|(ref & u' & ts & ts' & L & NE & _ & _ & LD & _ & CH)]).
    - left. destruct (rewritten_at url reloc u Y j (BCls c0) base CX NB w _ _ _ _ _ GW W) as (d' & kids' & E' & N & _). rewrite E'. specialize (N L).
      assert (M : mem "$ref" d' = false) by (unfold mem; now rewrite N). assert (OA : oattr v30_table (OObj "PathItem" p (JDict d') kids') "ref" = Ok (OPrim JNull)) by (cbn; rewrite M; reflexivity).
      unfold normalized. rewrite OA. reflexivity.
    - right. destruct (CH eq_refl) as (-> & CH'). assert (LD0 := LD). destruct LD0 as (CU' & NJ & _). exists u', ts. split; [exact CU'|]. split; [|exact CH'].
      destruct (rewritten_either url reloc u Y j (BCls c0) base CX NB w _ _ _ _ _ _ GW W L) as (d' & kids' & E' & D). rewrite E'.
      assert (D2 : exists ref', lookup "$ref" d' = Some (JStr ref') /\ normalize_jr (Some ref') (Some u) = Ok (Some (place u' ts)) /\ ref' <> "").
      { destruct D as [L'|(u2 & t2 & t2' & LD2 & L')]; [exists ref; auto|]. destruct (leads_fun _ _ _ _ _ _ _ _ _ _ LD LD2) as (<- & <- & <-). exists (absolute ref u' ts). split; [exact L'|]. split; [exact (absolute_moved u ref u' ts ts CU CU' NJ)|].
        unfold absolute. destruct (startswith "#" ref); [rewrite pointer_tail; discriminate|]. intros Z. apply (clean_ne _ CU'). destruct u'; [reflexivity|discriminate Z]. }
      destruct D2 as (ref' & L' & NJ' & NE'). assert (OA := ref_attr "3.0.0" "PathItem" p d' kids' ref' (or_intror eq_refl) IP L'). change (table_of "3.0.0") with v30_table in OA.
      unfold normalized. rewrite OA. cbn [bind]. assert (T1 : truthy_str ref' = true) by (destruct ref'; [congruence|reflexivity]). rewrite T1. exact NJ'.
  Qed.
  (** the path item found at a place *)
  Lemma found_item a u ts y : chain_at a u ts -> found a u ts y ->
    normalized v30_table u y = Ok None \/ exists u' ts', clean u' /\ normalized v30_table u y = Ok (Some (place u' ts')) /\ chain_at a u' ts'.
  Proof.
    intros (IN & HM & RT) (p & rest & X & Y & w & x & O & G & H2 & W & -> & FW).
    assert (EX : exists q s k, x = OObj "PathItem" q s k).
    { destruct FW as [(-> & ->)|(N & -> & ->)].
      - destruct O as [(_ & _ & _ & ->)|(N & _)]; [|contradiction]. destruct (RT eq_refl) as (q & s & k & W'). exists q, s, k. exact (within_fun _ _ _ _ W W').
      - assert (x = Y) by (inversion W; reflexivity). subst x. destruct O as [(E & _)|(_ & CU & t1 & n & b & IM & EP & IN1 & S1 & P1 & B)]; [contradiction|]. apply pointer_inj in EP. subst t1.
        destruct (cw_prefix _ _ _ _ _ _ CW n b _ _ u ts ts X IN1 IN N S1 (split_place path2url abspath u ts CU) ltac:(apply prefix_startswith, prefix_self) P1) as (r & ER & (c & q & s & k & WX & EC)).
        assert (r = []) by (apply (app_inv_head ts); rewrite app_nil_r; now symmetry). subst r. rewrite (EC eq_refl) in WX.
        assert (EX : X = OObj "PathItem" q s k) by (inversion WX; reflexivity).
        destruct (cv_pieces _ _ _ _ _ _ _ _ _ _ CV u ts IM) as (_ & H). destruct (H n b X IN1 S1 P1) as (Y' & y & c' & B' & _ & _ & CY & _ & _ & _ & PI).
        assert (EY : Y' = Y) by (unfold becomes in *; rewrite B in B'; apply Ok_inj_local in B'; apply (f_equal (fun z => so_obj (fst z))) in B'; cbn [fst so_obj] in B'; congruence). subst Y'.
        rewrite (PI _ _ _ EX) in CY. destruct (construct_cls_obj _ _ _ _ _ CY) as (kids & ->). eauto. }
    destruct EX as (q & s & k & ->). destruct (next_item u p X Y w rest q s k O G W) as [N|(u' & ts' & C & N & CH)]; [now left|right]. exists u', ts'. auto.
  Qed.

  (** *** what is done with the conversion of an object *)
  Section Upgrade.
    Variables (ask : query -> M (sobj * string)) (n : nat).
    Hypothesis AS : asks3 ask n.
    Variables (u jp : string) (X Y : obj) (Q : string * string -> Prop) (rs : routes).
    Hypothesis OR : original u jp X Y.
    Hypothesis HQ : Q (u, jp).
    Hypothesis OW : own_routes u jp rs.
    Let o := mk_sobj "3.0.0" Y [].
    Notation has2 := (has2 u X).
    Definition TR (P : string * string -> Prop) (p : prog (sobj * routes)) : Prop :=
      forall a, J Q a -> left_ a <= n -> has2 a -> (forall l, P l -> cov3 a l) ->
        exists a' w, run ask p a = (a', Ok (rewrite_sobj w o, rs)) /\ full u Y w /\ J Q a' /\ grow2 a a' /\ grow3 a a' /\ forall l, goes u Y l -> cov3 a' l.
    Lemma left_grow a a' : grow3 a a' -> left_ a <= n -> left_ a' <= n.
    Proof. intros G L. assert (H := uncov_mono "3.0.0" locs30 _ _ G). lia. Qed.
    Lemma TR_done w (P : string * string -> Prop) : full u Y w -> (forall l, goes u Y l -> P l) -> TR P (Done (Ok (rewrite_sobj w o, rs))).
    Proof. intros F H a I L C2 C. exists a, w. split; [reflexivity|]. split; [exact F|]. split; [exact I|]. split; [apply mono_refl|]. split; [apply mono_refl|]. intros l G. apply C, H, G. Qed.
    (** a step that changes the state, then the rest *)
    Lemma TR_then (P : string * string -> Prop) k a a1 (r : prog (sobj * routes)) : run ask r a = run ask k a1 -> J Q a1 -> grow2 a a1 -> grow3 a a1 -> left_ a <= n -> has2 a -> (forall l, P l -> cov3 a1 l) -> TR P k ->
      exists a' w, run ask r a = (a', Ok (rewrite_sobj w o, rs)) /\ full u Y w /\ J Q a' /\ grow2 a a' /\ grow3 a a' /\ forall l, goes u Y l -> cov3 a' l.
    Proof.
      intros E I1 G2 G3 L H2 C K. rewrite E. destruct (K a1 I1 (left_grow _ _ G3 L) (has2_grow _ _ _ _ G2 H2) C) as (a2 & w & E2 & F & I2 & G22 & G32 & C2).
      exists a2, w. split; [exact E2|]. split; [exact F|]. split; [exact I2|]. split; [eapply mono_trans; eauto|]. split; [eapply mono_trans; eauto|exact C2].
    Qed.
    Lemma TR_cache w (P : string * string -> Prop) k : good_ups u Y w -> TR P k -> TR P (Cache (rewrite_sobj w o) u jp "3.0.0" k).
    Proof.
      intros G H a I L H2 C. destruct (set_J Q a u jp (rewrite_refs w Y) I) as (a1 & E & I1 & G2 & G3 & _); [exists X, Y, w; auto 6|exact HQ|].
      apply (TR_then P k a a1); try assumption; [|intros l Pl; apply G3, C, Pl]. cbn [run]. unfold bindm. change (rewrite_sobj w o) with (mk_sobj "3.0.0" (rewrite_refs w Y) []). rewrite E. reflexivity.
    Qed.
    Lemma TR_routes (P : string * string -> Prop) k : TR P k -> TR P (Routes u "3.0.0" [(jp, RMap rs)] k).
    Proof.
      intros H a I L H2 C. destruct (routes_J Q a u jp rs I OW) as (a1 & E & I1 & G2 & G3). apply (TR_then P k a a1); try assumption; [|intros l Pl; apply G3, C, Pl]. cbn [run]. unfold bindm. rewrite E. reflexivity.
    Qed.
    Lemma TR_ask (P : string * string -> Prop) q k u' ts ts' : q_from q = "2.0" -> q_to q = Some "3.0.0" -> q_jref q = place u' ts -> (forall a, has2 a -> home a u' ts ts') ->
      (forall c p s kids, TR (fun l => P l \/ l = (u', pointer ts')) (k (mk_sobj "3.0.0" (OObj c p s kids) [], (u' ++ pointer ts')%string))) -> TR P (Ask q k).
    Proof.
      intros QF QT QJ HM H a I L H2 C. destruct (AS Q a q u' ts ts' I L QF QT QJ (HM _ H2)) as (a1 & y & E & I1 & G2 & G3 & (c & p & s & kids & ->) & CC & _).
      apply (TR_then (fun l => P l \/ l = (u', pointer ts')) (k (mk_sobj "3.0.0" (OObj c p s kids) [], (u' ++ pointer ts')%string)) a a1); try assumption; [|intros l [Pl| ->]; [apply G3, C, Pl|exact CC]|apply H]. cbn [run]. unfold bindm. rewrite E. reflexivity.
    Qed.
    Lemma TR_original (P : string * string -> Prop) k : TR P (k "2.0") -> TR P (Original k).
    Proof. intros H a I L H2 C. cbn [run]. unfold bindm, get_original. rewrite (i_orig _ _ _ _ _ _ _ _ _ _ (j_20 _ _ I)). exact (H a I L H2 C). Qed.
    Lemma TR_weaken (P P' : string * string -> Prop) p : (forall l, P' l -> P l) -> TR P' p -> TR P p.
    Proof. intros W H a I L H2 C. apply (H a I L H2). intros l Pl. apply C, W, Pl. Qed.

    Definition met (x : obj) (l : string * string) : Prop := exists c p d kids ref u' ts ts', x = OObj c p (JDict d) kids /\ In c (referring_classes "3.0.0") /\ lookup "$ref" d = Some (JStr ref) /\ leads u ref u' ts ts' /\ l = (u', pointer ts').
    Definition wrote (x : obj) (w : ref_updates) : Prop := forall c p d kids ref, x = OObj c p (JDict d) kids -> In c (referring_classes "3.0.0") -> lookup "$ref" d = Some (JStr ref) -> exists q r, p = Some q /\ In (q, r) w.
    Lemma wrote_more x w w' : incl w w' -> wrote x w -> wrote x w'.
    Proof. intros H WR c p d kids ref E IC L. destruct (WR c p d kids ref E IC L) as (q & r & EQ & I). exists q, r. split; [exact EQ|exact (H _ I)]. Qed.
    Lemma task_step b x (P : string * string -> Prop) (H : list obj) k : ClosedFacts30b.task_ok Y b x ->
      (forall w, good_ups u Y w -> (forall y, In y H -> wrote y w) -> wrote x w -> TR (fun l => P l \/ met x l) (k w)) ->
      forall w, good_ups u Y w -> (forall y, In y H -> wrote y w) -> TR P (resolve30 path2url abspath u b x k w).
    Proof.
      intros T K w GW HW. unfold resolve30. change (table_of "3.0.0") with v30_table.
      assert (SKIP : (forall l, ~ met x l) -> wrote x w -> TR P (k w)) by (intros NM WR; eapply TR_weaken; [|apply (K w GW HW WR)]; intros l [Pl|M]; [exact Pl|destruct (NM l M)]).
      destruct T as [NC|(qs & c & p & s & kids & -> & W & IC & _)].
      - assert (NI : forall c p s kids, x = OObj c p s kids -> ~ In c (referring_classes "3.0.0")) by (intros c p s kids E; destruct (NC _ _ _ _ E); cbn; intros [F|[F|[]]]; congruence).
        assert (SK : TR P (k w)) by (apply SKIP; [intros l (c & p & s & kids & ref & u' & ts & ts' & E & IC & _); exact (NI _ _ _ _ E IC)|intros c p d kids ref E IC; destruct (NI _ _ _ _ E IC)]).
        destruct x as [jx|c p s kids|b1 p1 es|b1 p1 es]; try exact SK. destruct (NC _ _ _ _ eq_refl) as (N1 & N2). apply String.eqb_neq in N1, N2. rewrite N1, N2. exact SK.
      - assert (EC : String.eqb c "Reference" || String.eqb c "PathItem" = true) by (cbn in IC; destruct IC as [<-|[<-|[]]]; reflexivity). rewrite EC.
        destruct (original_built _ _ _ _ OR) as (CU & _ & _ & c0 & q0 & s0 & kids0 & j & base & EX0 & _ & WF & CX & NB & _).
        destruct (ref_of _ _ _ _ OR _ _ _ _ _ W IC) as (d & -> & [(L & NR & N)|(ref & u' & ts & ts' & L & _ & OA & N & LD & HM & _)]).
        + rewrite N. apply String.eqb_neq in NR. rewrite NR. apply SKIP.
          * intros l (c1 & p1 & d1 & k1 & ref & u' & ts & ts' & E & _ & L1 & _). injection E as <- <- <- <-. rewrite L in L1. discriminate L1.
          * intros c1 p1 d1 k1 ref E _ L1. injection E as <- <- <- <-. rewrite L in L1. discriminate L1.
        + rewrite N. apply TR_original. change (from30 "2.0") with "2.0".
          eapply (TR_ask P _ _ u' ts ts'); [reflexivity|reflexivity|reflexivity|exact HM|]. intros c' p' s' k'. cbn [fst snd so_truthy so_obj truthy_obj]. rewrite OA. assert (CU' := proj1 LD).
          assert (NR : new_ref path2url abspath ref (u' ++ pointer ts') = Ok (absolute ref u' ts')).
          { unfold new_ref, absolute. destruct (startswith "#" ref); [|reflexivity]. rewrite (split_full path2url abspath u' ts' CU'). reflexivity. }
          rewrite NR. assert (EP := path_at Y j (BCls c0) base CX NB qs c p _ _ W). assert (GW' : good_ups u Y (assigned p (absolute ref u' ts') w)).
          { rewrite EP. cbn [assigned]. intros q r [E|I]; [|exact (GW q r I)]. injection E as <- <-. exists qs, c, d, kids, ref, u', ts, ts'. rewrite <- EP. auto 8. }
          eapply TR_weaken; [|apply (K _ GW')].
          * intros l [Pl|(c1 & p1 & d1 & k1 & ref1 & u2 & t2 & t2' & E & _ & L1 & LD1 & ->)]; [now left|right]. injection E as <- <- <- <-. rewrite L in L1. assert (ER : ref1 = ref) by congruence. subst ref1. destruct (leads_fun _ _ _ _ _ _ _ _ _ _ LD LD1) as (<- & _ & <-). reflexivity.
          * intros y' I. apply (wrote_more y' w); [|exact (HW _ I)]. intros e IE. rewrite EP. now right.
          * intros c1 p1 d1 k1 ref1 E _ _. injection E as <- <- <- <-. rewrite EP. eexists _, _. split; [reflexivity|]. now left.
    Qed.
    Lemma tasks_step l (P : string * string -> Prop) k : forall H, (forall b x, In (b, x) l -> ClosedFacts30b.task_ok Y b x) ->
      (forall w, good_ups u Y w -> (forall y, In y H \/ In y (map snd l) -> wrote y w) -> TR (fun q => P q \/ exists b x, In (b, x) l /\ met x q) (k w)) ->
      forall w, good_ups u Y w -> (forall y, In y H -> wrote y w) -> TR P (fold_right (fun bx => resolve_with path2url abspath "3.0.0" u (fst bx) (snd bx)) k l w).
    Proof.
      revert P. induction l as [|[b x] l IH]; intros P H T K; cbn [fold_right].
      - intros w GW HW. eapply TR_weaken; [|apply (K w GW)]. { intros q [Pq|(b & x & [] & _)]. exact Pq. } intros y [I|[]]. exact (HW y I).
      - change (resolve_with path2url abspath "3.0.0") with (resolve30 path2url abspath). cbn [fst snd]. apply task_step; [apply T; now left|]. intros w GW HW WX.
        apply (IH _ (x :: H)); [intros; apply T; now right| |exact GW|intros y [<-|I]; [exact WX|exact (HW y I)]].
        intros w' GW' HW'. eapply TR_weaken; [|apply (K w' GW')].
        + intros q [Pq|(b' & x' & [E|I] & M)]; [auto|injection E as -> ->; auto|right; eauto].
        + intros y [I|I]; [apply HW'; left; now right|]. cbn [map In snd] in I. destruct I as [<-|I]; apply HW'; [left; now left|now right].
    Qed.
    (** following the path items *)
    Definition outcome (p : prog (sobj * routes)) (a : app) : Prop :=
      exists a' w, run ask p a = (a', Ok (rewrite_sobj w o, rs)) /\ full u Y w /\ J Q a' /\ grow2 a a' /\ grow3 a a' /\ forall l, goes u Y l -> cov3 a' l.
    Lemma chain_step fuel P k : TR P k -> forall seen u1 ts1 a, clean u1 -> chain_at a u1 ts1 -> J Q a -> left_ a <= n -> has2 a -> (forall l, P l -> cov3 a l) -> NoDup seen -> incl seen locs20 -> length locs20 < length seen + fuel ->
      outcome (merge_chain path2url abspath app_url fuel "3.0.0" seen (place u1 ts1) k) a.
    Proof.
      intros H. induction fuel as [|f IH]; intros seen u1 ts1 a CU1 CA I L H2 C ND IL LN.
      { assert (LE := NoDup_incl_length ND IL). lia. }
      assert (S1 := split_place path2url abspath u1 ts1 CU1). assert (CA' := CA). destruct CA' as (IN & HM & _).
      destruct (AS Q a (mk_query (place u1 ts1) "2.0" (Some ("3.0.0", BCls "PathItem")) (Some "3.0.0") false) u1 ts1 ts1 I L eq_refl eq_refl eq_refl HM) as (a1 & y & E & I1 & G2 & G3 & (c & p & s & kids & EY) & _ & FO).
      set (l1 := (u1, pointer ts1)) in *.
      assert (CA1 : chain_at a1 u1 ts1) by (destruct CA as (A1 & A2 & A3); split; [exact A1|]; split; [exact (home_grow _ _ _ _ _ G2 A2)|exact A3]).
      assert (L1 := left_grow _ _ G3 L). assert (H21 := has2_grow _ _ _ _ G2 H2). assert (C1 : forall l, P l -> cov3 a1 l) by (intros l Pl; apply G3, C, Pl).
      set (kk := fun x : sobj * string => if so_truthy (fst x) then if existsb (fun l => String.eqb (fst l) u1 && String.eqb (snd l) (pointer ts1)) seen then k else
        match normalized v30_table u1 (so_obj (fst x)) with Err e => Done (Err e) | Ok None => k | Ok (Some n0) => if truthy_str n0 then merge_chain path2url abspath app_url f "3.0.0" (l1 :: seen) n0 k else k end else Done (Err PyException)).
      assert (RU : run ask (merge_chain path2url abspath app_url (Datatypes.S f) "3.0.0" seen (place u1 ts1) k) a = run ask (kk (mk_sobj "3.0.0" y [], (u1 ++ pointer ts1)%string)) a1).
      { cbn [merge_chain]. rewrite S1. unfold kk, l1. cbv beta iota zeta. rewrite (clean_true _ CU1). cbn [run]. unfold bindm at 1, get_original. rewrite (i_orig _ _ _ _ _ _ _ _ _ _ (j_20 _ _ I)). cbn [String.eqb Ascii.eqb Bool.eqb]. change (from30 "2.0") with "2.0". cbn [run]. unfold bindm at 1. rewrite E. reflexivity. }
      assert (OC : outcome (kk (mk_sobj "3.0.0" y [], (u1 ++ pointer ts1)%string)) a1).
      { unfold kk. cbn [fst so_obj]. assert (ST : so_truthy (mk_sobj "3.0.0" y []) = true) by (rewrite EY; reflexivity). rewrite ST.
        destruct (existsb (fun l => String.eqb (fst l) u1 && String.eqb (snd l) (pointer ts1)) seen) eqn:EX; [exact (H a1 I1 L1 H21 C1)|].
        destruct (found_item a1 u1 ts1 y CA1 FO) as [N|(u2 & ts2 & CU2 & N & CA2)]; rewrite N; [exact (H a1 I1 L1 H21 C1)|].
        assert (TM : truthy_str (place u2 ts2) = true) by (apply truthy_str_true; now apply place_ne). rewrite TM.
        apply IH; try assumption; [| |cbn [length]; lia].
        - constructor; [|exact ND]. intros II. assert (EX' : existsb (fun l => String.eqb (fst l) u1 && String.eqb (snd l) (pointer ts1)) seen = true).
          { apply existsb_exists. exists l1. split; [exact II|]. unfold l1. cbn [fst snd]. now rewrite !String.eqb_refl. } congruence.
        - intros l [<-|II]; [exact (ClosedFacts.locs_in path2url abspath places _ _ _ IN S1)|exact (IL _ II)]. }
      destruct OC as (a2 & w & E2 & F & I2 & G22 & G32 & C2). exists a2, w. rewrite RU. split; [exact E2|]. split; [exact F|]. split; [exact I2|]. split; [eapply mono_trans; eauto|]. split; [eapply mono_trans; eauto|exact C2].
    Qed.
    Lemma merge_step w os (P : string * string -> Prop) k : good_ups u Y w -> TR P k -> (forall x, In x os -> exists ts, within Y ts x) -> TR P (fold_right (merge_obj path2url abspath app_url merge_fuel "3.0.0" u) k (map (rewrite_refs w) os)).
    Proof.
      intros GW H. induction os as [|x os IH]; intros WI; [exact H|]. cbn [map fold_right]. assert (HK := IH (fun y I => WI y (or_intror I))). set (k' := fold_right _ k _) in *.
      destruct x as [j|c p s kids|b p es|b p es]; [exact HK| |rewrite rewrite_list; exact HK|rewrite rewrite_map; exact HK]. destruct (WI _ (or_introl eq_refl)) as (ts & W).
      destruct (String.eqb_spec c "PathItem") as [->|NC]; [|unfold merge_obj; rewrite rewrite_obj; apply String.eqb_neq in NC; rewrite NC; exact HK].
      assert (EM : merge_obj path2url abspath app_url merge_fuel "3.0.0" u (rewrite_refs w (OObj "PathItem" p s kids)) k' = match normalized v30_table u (rewrite_refs w (OObj "PathItem" p s kids)) with
        | Err e => Done (Err e) | Ok None => k' | Ok (Some n0) => if truthy_str n0 then merge_chain path2url abspath app_url merge_fuel "3.0.0" [] n0 k' else k' end) by (unfold merge_obj; rewrite rewrite_obj; reflexivity).
      rewrite EM. destruct (next_item u jp X Y w ts p s kids OR GW W) as [N|(u' & ts1 & CU' & N & CH)]; rewrite N; [exact HK|].
      assert (TM : truthy_str (place u' ts1) = true) by (apply truthy_str_true; now apply place_ne). rewrite TM.
      intros a I L H2 C. apply (chain_step merge_fuel P k' HK [] u' ts1 a CU' (CH a H2) I L H2 C); [constructor|intros l []|cbn [length]; lia].
    Qed.
    Lemma normal_step os : (forall x, In x os -> exists ts, within Y ts x) -> normalize_all "3.0.0" u os = Ok tt.
    Proof.
      intros H. unfold normalize_all. induction os as [|o1 os IH]; [reflexivity|]. cbn [foldM].
      assert (E : (match o1 with OObj c0 _ _ _ => if str_in c0 (normalized_classes "3.0.0") then x <- normalized (table_of "3.0.0") u o1 ;; Ok tt else Ok tt | _ => Ok tt end) = Ok tt).
      { destruct o1 as [jx|c1 p1 s1 k1|b1 p1 es|b1 p1 es]; try reflexivity. destruct (str_in c1 (normalized_classes "3.0.0")) eqn:SI; [|reflexivity].
        assert (I1 : In c1 (referring_classes "3.0.0")) by (unfold str_in in SI; apply existsb_exists in SI as (y & I & EQ); apply String.eqb_eq in EQ as ->; exact I).
        destruct (H _ (or_introl eq_refl)) as (ts & W). change (table_of "3.0.0") with v30_table. destruct (ref_of _ _ _ _ OR ts c1 p1 s1 k1 W I1) as (d & -> & [(_ & _ & N)|(ref & u1 & ts1 & ts' & _ & _ & _ & N & _)]); now rewrite N. }
      rewrite E. cbn [bind]. apply IH. intros x I. apply H. now right.
    Qed.
    (** everything after the conversion but the first storing and the routes *)
    (** [finish30] stores the object, updates the routes, and goes on *)
    Lemma finish_ok : exists k, finish30 path2url abspath app_url merge_fuel u jp o rs = Cache o u jp "3.0.0" (Routes u "3.0.0" [(jp, RMap rs)] k) /\ TR (fun _ : string * string => False) k.
    Proof.
      destruct (original_built _ _ _ _ OR) as (CU & _ & RM & c & q & s & kids & j & base & EX & NC & WF & CX & NB & UN & NM).
      destruct (tasks_total "3.0.0" (or_intror eq_refl) j c (Some base) Y WF CX UN NM) as (vis & l & TV & AT & VW & TL). change (table_of "3.0.0") with v30_table in TV.
      unfold finish30. change (so_version o) with "3.0.0". cbn [String.eqb Ascii.eqb Bool.eqb]. unfold visited. change (so_obj o) with Y. rewrite TV, (normal_step _ VW). eexists. split; [reflexivity|]. rewrite (flat_tasks _ _ _ _ _ _ _ AT).
      assert (TASK : forall qs c1 p1 d k1 ref, within Y qs (OObj c1 p1 (JDict d) k1) -> In c1 (referring_classes "3.0.0") -> lookup "$ref" d = Some (JStr ref) -> exists b, In (b, OObj c1 p1 (JDict d) k1) l).
      { intros qs c1 p1 d k1 ref W IC LR. assert (NR : ref <> "") by (destruct (RM qs c1 p1 _ k1 W IC) as (d' & E & D); injection E as <-; rewrite LR in D; destruct D as (ref' & u' & ts & ts' & E & NE & _); congruence).
        destruct (document_task "3.0.0" j c (Some base) Y vis l qs c1 p1 d k1 ref (or_intror eq_refl) WF CX UN NC TV AT W IC LR NR) as (b2 & _ & IL). eauto. }
      apply (tasks_step l _ _ []).
      - intros b x IX. destruct (TL b x IX) as (ts & o' & cx & t & W & IT & (q' & s' & k' & ->) & LA). exact (ClosedFacts30b.looked_task Y _ _ _ _ _ _ _ _ W IT LA).
      - intros w GW HW. apply TR_cache; [exact GW|]. apply (merge_step w (map snd vis)); [exact GW| |exact VW]. apply TR_done.
        + split; [exact GW|]. intros qs c1 p1 d k1 ref W IC LR. destruct (TASK _ _ _ _ _ _ W IC LR) as (b & IL). apply (HW (OObj c1 p1 (JDict d) k1)) with (c := c1) (p := p1) (d := d) (kids := k1) (ref := ref); [|reflexivity|exact IC|exact LR].
          right. apply in_map_iff. exists (b, OObj c1 p1 (JDict d) k1). auto.
        + intros l0 (qs & c1 & p1 & d & k1 & ref & u' & ts & ts' & W & IC & LR & LD & ->). right. destruct (TASK _ _ _ _ _ _ W IC LR) as (b2 & IL). exists b2, (OObj c1 p1 (JDict d) k1). split; [exact IL|].
          exists c1, p1, d, k1, ref, u', ts, ts'. auto.
      - apply good_nil.
      - intros y [].
    Qed.
  End Upgrade.
  Lemma j_finish (Q : string * string -> Prop) a u jp X Y w : J (fun l => Q l \/ l = (u, jp)) a -> original u jp X Y -> full u Y w -> entry (a_store a) u jp "3.0.0" = Some (mk_sobj "3.0.0" (rewrite_refs w Y) []) ->
    (forall l, goes u Y l -> cov3 a l) -> J Q a.
  Proof.
    intros I O F EN C. split; [exact (j_20 _ _ I)|apply (j_row _ _ I)|apply (j_rows _ _ I)|apply (j_ent _ _ I)|apply (j_root _ _ I)|].
    intros u' p' o' EN' NQ. destruct (string_dec u' u) as [->|N]; [destruct (string_dec p' jp) as [->|N]|].
    - rewrite EN in EN'. injection EN' as <-. exists X, Y, w. auto.
    - apply (j_done _ _ I _ _ _ EN'). intros [H|H]; [exact (NQ H)|congruence].
    - apply (j_done _ _ I _ _ _ EN'). intros [H|H]; [exact (NQ H)|congruence].
  Qed.
  (** the second half of a round at 3.0.0: routes, relocation and storing *)
  Lemma store_after (Q : string * string -> Prop) a u jp X Y w rs : let o := mk_sobj "3.0.0" (rewrite_refs w Y) [] in
    J (fun l => Q l \/ l = (u, jp)) a -> original u jp X Y -> full u Y w -> own_routes u jp rs -> (forall l, goes u Y l -> cov3 a l) -> has2 u X a ->
    exists a1 a', put_routes u "3.0.0" [(jp, RMap rs)] a = (a1, Ok tt) /\ relocate u jp "2.0" "3.0.0" a1 = (a1, Ok jp) /\ set_obj o u jp "3.0.0" a1 = (a', Ok tt) /\ J Q a' /\ grow2 a a' /\ grow3 a a' /\ cov3 a' (u, jp) /\
      entry (a_store a') u jp "3.0.0" = Some o.
  Proof.
    intros o I O F OW C H2. set (Q' := fun l => Q l \/ l = (u, jp)) in *. destruct (routes_J Q' a u jp rs I OW) as (a1 & E1 & I1 & G12 & G13).
    destruct (set_J Q' a1 u jp (rewrite_refs w Y) I1) as (a2 & E2 & I2 & G22 & G23 & C2); [exists X, Y, w; split; [exact O|]; split; [exact (proj1 F)|]; split; [reflexivity|exact (has2_grow _ _ _ _ G12 H2)]|now right|]. fold o in E2.
    assert (EN : entry (a_store a2) u jp "3.0.0" = Some o) by (rewrite (set_entries _ _ _ _ _ E2), !String.eqb_refl; reflexivity).
    exists a1, a2. split; [exact E1|]. split; [|split; [exact E2|]].
    - unfold relocate. assert (R : store_relocate (a_store a1) u jp "2.0" (Some "3.0.0") = Ok jp); [|now rewrite R].
      rewrite (relocate_row _ _ _ _ _ _ (j_20 _ _ I1)). destruct O as [(-> & -> & _)|(N & _)]; [rewrite (j_row _ _ I1); exact (cv_top _ _ _ _ _ _ _ _ _ _ CV)|]. apply patch_nothing. intros k t IN. exact (j_rows _ _ I1 _ _ _ N IN).
    - split; [|split; [eapply mono_trans; eauto|split; [eapply mono_trans; eauto|auto]]]. apply (j_finish Q a2 u jp X Y w I2 O F EN). intros l GL. apply G23, G13, C, GL.
  Qed.
  (** ** a place that is converted *)
  Lemma under_none (a : app) u jp : good (a_store a) -> (forall p o, entry (a_store a) u p "3.0.0" = Some o -> startswith jp p = false) ->
    exists x, store_get_under (a_store a) u jp "3.0.0" false = (a_store a, Ok x) /\ overrides x = [].
  Proof.
    intros G H. unfold store_get_under. cbn [andb]. destruct (lookup u (s_objs (a_store a))) as [[|pc uc]|] eqn:L; [exists None; auto| |exists None; auto].
    eexists. split; [reflexivity|]. destruct (under jp "3.0.0" (pc :: uc)) as [|[k o] r] eqn:U; [reflexivity|]. exfalso.
    assert (I : In (k, o) (under jp "3.0.0" (pc :: uc))) by (rewrite U; now left). apply under_in in I as (p & c & IN & SW & LK).
    assert (EN : entry (a_store a) u p "3.0.0" = Some o); [|rewrite (H _ _ EN) in SW; discriminate SW].
    unfold entry. rewrite L. assert (GC := good_lookup _ _ _ G L). assert (LP : lookup p (pc :: uc) = Some c) by (apply PropertiesObjAux.in_lookup_keys; [exact (proj1 GC)|exact IN]). now rewrite LP.
  Qed.
  Lemma run_under {A} ask u jp (k : override -> prog A) a x : store_get_under (a_store a) u jp "3.0.0" false = (a_store a, Ok x) -> overrides x = [] -> exists a0, run ask (Under u jp "3.0.0" k) a = run ask (k []) a0 /\ a_store a0 = a_store a /\ a_original a0 = a_original a.
  Proof. intros E O. cbn [run]. unfold bindm, get_under. rewrite E. rewrite O. eexists. split; [reflexivity|]. split; reflexivity. Qed.
  Lemma round_moved ask n (Q : string * string -> Prop) a u ts X Y jref : asks3 ask n -> original u (pointer ts) X Y -> u <> url -> J Q a -> has2 u X a -> left_ a <= S n -> covb "3.0.0" (a_store a) (u, pointer ts) = false ->
    split jref = Ok (u, pointer ts) ->
    exists a' y, round upgrade prepare ask u jref (mk_sobj "2.0" X []) (pointer ts) "2.0" "3.0.0" a = (a', Ok (mk_sobj "3.0.0" y [], pointer ts)) /\ (exists c p s k, y = OObj c p s k) /\ J Q a' /\ grow2 a a' /\ grow3 a a' /\ cov3 a' (u, pointer ts) /\ found a' u ts y.
  Proof.
    intros AS O NU' I H2 L CV3 S. assert (O' := O). destruct O' as [(E & _)|(_ & CU & ts1 & n1 & b1 & IM & EP & IN & S1 & P & B)]; [contradiction|]. apply pointer_inj in EP. subst ts1.
    set (Q' := fun l => Q l \/ l = (u, pointer ts)). assert (HQ : Q' (u, pointer ts)) by now right. assert (OW : own_routes u (pointer ts) []) by now right.
    destruct (under_none a u (pointer ts) (J_good _ _ I)) as (x & EU & EO).
    { intros p o EN. destruct (startswith (pointer ts) p) eqn:SW; [|reflexivity]. exfalso. assert (E := apart30 Q a u ts p o I NU' IM EN (or_intror SW)). subst p.
      assert (C : covb "3.0.0" (a_store a) (u, pointer ts) = true) by (apply covb_spec; [exact (J_good _ _ I)|]; exists (pointer ts), o; split; [apply prefix_self|exact EN]). congruence. }
    destruct (finish_ok ask n AS u (pointer ts) X Y Q' [] O HQ) as (k & EF & TK).
    assert (RU : exists a0, run ask (upgrade300 path2url abspath app_url merge_fuel from20 (mk_sobj "2.0" X []) jref) a = run ask (finish30 path2url abspath app_url merge_fuel u (pointer ts) (mk_sobj "3.0.0" Y []) []) a0 /\ a_store a0 = a_store a /\ a_original a0 = a_original a).
    { unfold upgrade300. rewrite S. cbn [so_version String.eqb Ascii.eqb Bool.eqb].
      destruct (run_under ask u (pointer ts) (fun ovr => match from20 (mk_sobj "2.0" X []) u (pointer ts) ovr with Err e => Done (Err e) | Ok (o', reloc) => finish30 path2url abspath app_url merge_fuel u (pointer ts) o' reloc end) a x EU EO) as (a0 & E0 & H).
      exists a0. split; [|exact H]. rewrite E0. unfold becomes in B. rewrite B. reflexivity. }
    destruct RU as (a0 & ER & ES & EOO). assert (I0 : J Q' a0) by (apply (J_weaken Q); [intros l HH; now left|]; exact (J_same Q a a0 I ES EOO)).
    rewrite EF in ER. destruct (set_J Q' a0 u (pointer ts) Y I0) as (a1 & E1 & I1 & G12 & G13 & C1); [exists X, Y, []; split; [exact O|]; split; [apply good_nil|]; split; [symmetry; exact (original_nothing _ _ _ _ O)|intros m b l RF SM; rewrite ES; exact (H2 _ _ _ RF SM)]|exact HQ|].
    assert (G0 : forall V, mono V (a_store a) (a_store a0)) by (intros V; rewrite ES; apply mono_refl).
    assert (L1 : left_ a1 <= n). { assert (LT := uncov_lt "3.0.0" locs30 (a_store a) (a_store a1) (u, pointer ts) ltac:(rewrite <- ES; exact G13) (locs30_in _ _ IM) CV3 C1). lia. }
    assert (H21 : has2 u X a1) by (intros m b l RF SM; apply G12; rewrite ES; exact (H2 _ _ _ RF SM)).
    assert (TK1 := TR_routes ask n u (pointer ts) X Y Q' [] OW _ _ TK). destruct (TK1 a1 I1 L1 H21 (fun l F => match F with end)) as (a2 & w & E2 & F & I2 & G22 & G23 & C2).
    assert (H22 : has2 u X a2) by exact (has2_grow _ _ _ _ G22 H21). destruct (store_after Q a2 u (pointer ts) X Y w [] I2 O F OW C2 H22) as (a3 & a4 & E3 & E4 & E5 & I4 & G42 & G43 & C4 & _).
    destruct (original_built _ _ _ _ O) as (_ & _ & _ & c & q & s & kids & j & base & EX & _).
    exists a4, (rewrite_refs w Y). split; [|split; [rewrite EX, rewrite_obj; eauto|split; [exact I4|split; [|split; [|split; [exact C4|]]]]]].
    - unfold round. change (upgrade "3.0.0") with (Some (upgrade300 path2url abspath app_url merge_fuel from20)). cbv iota. unfold bindm at 1. rewrite ER. cbn [run]. unfold bindm at 1. rewrite E1.
      assert (E2' := E2). cbn [run] in E2'. unfold bindm at 1 in E2'. cbn [run]. unfold bindm at 1. rewrite E2'. unfold bindm at 1. rewrite E3. unfold bindm at 1. rewrite E4. unfold bindm at 1, lift at 1. unfold bindm at 1.
      change (rewrite_sobj w (mk_sobj "3.0.0" Y [])) with (mk_sobj "3.0.0" (rewrite_refs w Y) []). rewrite E5. reflexivity.
    - eapply mono_trans; [apply G0|]. eapply mono_trans; [exact G12|]. eapply mono_trans; eauto.
    - eapply mono_trans; [apply G0|]. eapply mono_trans; [exact G13|]. eapply mono_trans; eauto.
    - exists (pointer ts), [], X, Y, w, Y. split; [exact O|]. split; [exact (proj1 F)|]. split; [exact (has2_grow _ _ _ _ G42 H22)|]. split; [rewrite EX; constructor|]. split; [reflexivity|]. right. auto.
  Qed.
  Lemma root_cov30 Q a ts : J Q a -> cov3 a (url, pointer ts).
  Proof. intros I. destruct (j_root _ _ I) as (o & EN). apply covb_spec; [exact (J_good _ _ I)|]. exists "#", o. split; [eexists; reflexivity|exact EN]. Qed.
  Lemma relocate_home Q a u ts ts' : J Q a -> home a u ts ts' -> store_relocate (a_store a) u (pointer ts) "2.0" (Some "3.0.0") = Ok (pointer ts').
  Proof. intros I (_ & H). apply (relocate_J Q); [exact I|]. destruct H as [(E & P & _)|(N & E & _)]; auto. Qed.
  (** *** resolving finds what has been converted, and converts the rest *)
  Theorem resolve30_ok fuel : forall n, length locs20 + n < fuel -> asks3 (resolving fuel) n.
  Proof.
    induction fuel as [|f IH]; intros n NF; [lia|]. intros Q a q u ts ts' I L QF QT EJ H. assert (H' := H). destruct H' as (CU & H').
    assert (S : split (q_jref q) = Ok (u, pointer ts)) by (rewrite EJ; now apply split_place). assert (NQ : q_jref q <> "") by (rewrite EJ; now apply place_ne). assert (TU := clean_true _ CU).
    assert (TV : target_version q = "3.0.0") by (unfold target_version; rewrite QT; reflexivity).
    destruct (covb "3.0.0" (a_store a) (u, pointer ts')) eqn:CV3.
    - destruct (get30 Q a u ts' I (home_spot _ _ _ _ H) CV3) as (y & G & OB & FO). exists a, y. split; [|split; [exact I|split; [apply mono_refl|split; [apply mono_refl|split; [exact OB|split; [exact CV3|exact FO]]]]]].
      rewrite (resolve_cached path2url abspath app_url known3 fetch upgrade prepare f q a u (pointer ts) (pointer ts') (mk_sobj "3.0.0" y []) NQ S).
      + now rewrite TU.
      + rewrite QF, TV, TU. cbn [String.eqb Ascii.eqb Bool.eqb]. exact (relocate_home Q a u ts ts' I H).
      + rewrite TU, TV. exact G.
      + destruct OB as (c & p & s & kids & ->). reflexivity.
    - assert (NU2 : u <> url) by (intros ->; rewrite (root_cov30 Q a ts' I) in CV3; discriminate CV3).
      destruct H' as [(E & _)|(_ & -> & IM & b & IN & CV2)]; [contradiction|].
      destruct (ClosedFacts.get_cov path2url abspath fetch url d0 root places CW NU WJ CO _ _ _ a _ b u (pointer ts) (j_20 _ _ I) IN (split_place path2url abspath u ts CU) CV2) as (X & GX & _ & t0 & ts1 & rest & X0 & EP & ET & SX & WX).
      apply pointer_inj in EP. subst t0. assert (SX' := SX). destruct SX' as [(E & _)|(_ & n1 & b1 & t1 & I1 & S1 & EP & PX)]; [contradiction|]. apply pointer_inj in EP. subst t1.
      assert (E1 : ts1 = ts) by (apply (cv_apart _ _ _ _ _ _ _ _ _ _ CV n1 b1 u ts1 ts I1 IM S1); left; rewrite ET; apply prefix_startswith; rewrite !pointer_tail, tail_app; exists (tail_of rest); now rewrite sapp_assoc).
      subst ts1. assert (rest = []) by (apply (app_inv_head ts); now rewrite app_nil_r). subst rest. clear ET. assert (EX : X = X0) by (inversion WX; reflexivity). subst X0.
      destruct (cv_pieces _ _ _ _ _ _ _ _ _ _ CV u ts IM) as (_ & CP). destruct (CP n1 b1 X I1 S1 PX) as (Y & _ & _ & BC & _).
      assert (O : original u (pointer ts) X Y) by (right; split; [exact NU2|]; split; [exact CU|]; exists ts, n1, b1; auto 10).
      assert (NL : exists n', n = Datatypes.S n').
      { destruct n; [|eauto]. exfalso. assert (Z : 0 < left_ a); [|lia]. unfold uncov. destruct (filter _ locs30) as [|l0 r0] eqn:FL; [|cbn; lia]. exfalso.
        assert (IF : In (u, pointer ts) (filter (fun l => negb (covb "3.0.0" (a_store a) l)) locs30)) by (apply filter_In; split; [exact (locs30_in _ _ IM)|now rewrite CV3]). rewrite FL in IF. destruct IF. }
      destruct NL as (n' & ->).
      assert (A2 : ClosedFacts.asks path2url abspath fetch url root places (e30 a) (row30 a) (resolving f) (length locs20)).
      { apply (ClosedFacts.resolve_ok path2url abspath app_url fetch merge_fuel from12 from20 url d0 root places CW NU WJ CO (e30 a) (row30 a) MF f). lia. }
      assert (SF : split (u ++ pointer ts) = Ok (u, pointer ts)) by exact (split_full path2url abspath u ts CU).
      destruct (ClosedFacts.round_ok path2url abspath app_url fetch merge_fuel from12 from20 url d0 root places CW NU WJ CO (e30 a) (row30 a) MF (resolving f) (length locs20) none a u (pointer ts) X (u ++ pointer ts)%string A2 SX SF) as (a1 & R1 & I1' & G1 & C1).
      { apply (ClosedFacts.inv_weaken path2url abspath fetch url root places _ _ none); [intros l []|exact (j_20 _ _ I)]. }
      { apply uncov_le. }
      destruct (J_frame Q a a1 I G1 I1') as (J1 & G13).
      assert (CV31 : covb "3.0.0" (a_store a1) (u, pointer ts) = false).
      { destruct (covb "3.0.0" (a_store a1) (u, pointer ts)) eqn:Z; [|reflexivity]. exfalso. apply covb_spec in Z as (p & o & P & E); [|exact (J_good _ _ J1)].
        assert (TH := i_there _ _ _ _ _ _ _ _ _ _ I1'). cbv beta in TH. rewrite TH in E.
        assert (C : covb "3.0.0" (a_store a) (u, pointer ts) = true) by (apply covb_spec; [exact (J_good _ _ I)|]; exists p, o; auto). congruence. }
      assert (L1 : left_ a1 <= Datatypes.S n') by (assert (Z := uncov_mono "3.0.0" locs30 _ _ G13); lia).
      destruct (round_moved (resolving f) n' Q a1 u ts X Y (u ++ pointer ts)%string (IH n' ltac:(lia)) O NU2 J1 (fun m b0 l RF SM => C1 l (ex_intro _ m (ex_intro _ b0 (conj RF SM)))) L1 CV31 SF) as (a2 & y & R2 & (c & p & s & k & ->) & J2 & G22 & G23 & C2 & FO).
      set (a3 := if is_root (mk_sobj "3.0.0" (OObj c p s k) []) then fst (set_current "3.0.0" a2) else a2).
      assert (J3 : J Q a3) by (unfold a3; destruct (is_root _); [apply (J_same Q a2); [exact J2|reflexivity|reflexivity]|exact J2]).
      assert (S3 : a_store a3 = a_store a2) by (unfold a3; destruct (is_root _); reflexivity).
      assert (MG : migrate_obj path2url abspath known3 upgrade prepare (resolving f) (mk_sobj "2.0" X []) (u ++ pointer ts)%string "3.0.0" a = (a3, Ok (mk_sobj "3.0.0" (OObj c p s k) []))).
      { unfold migrate_obj, migrate_traced. change (str_in "3.0.0" known3) with true. cbn [negb]. destruct (ClosedFacts.stored_built path2url abspath fetch url d0 root places CW NU WJ CO _ _ _ SX) as (c1 & q1 & s1 & k1 & j1 & base1 & EX & _).
        assert (SW : swagger_version (mk_sobj "2.0" X []) = Ok "2.0") by (unfold swagger_version; rewrite EX; reflexivity). rewrite SW. cbn [bind]. rewrite through_2030. cbn [bind]. rewrite SF. cbn [bind rounds]. rewrite R1, R2. reflexivity. }
      exists a3, (OObj c p s k). rewrite S3. split; [|split; [exact J3|split; [eapply mono_trans; eauto|split; [eapply mono_trans; eauto|split; [eauto|split; [exact C2|]]]]]].
      2:{ destruct FO as (p0 & rest & X2 & Y2 & w & x & O2 & G & H2 & FW). exists p0, rest, X2, Y2, w, x. split; [exact O2|]. split; [exact G|]. split; [intros m b0 l RF SM; rewrite S3; exact (H2 _ _ _ RF SM)|exact FW]. }
      cbn [resolve_obj]. destruct (q_jref q) as [|c0 s0] eqn:EQ; [congruence|]. cbn [truthy_str negb]. fold (target_version q). rewrite <- EQ in *. unfold bindm at 1, lift at 1. rewrite S. rewrite TU.
      rewrite QF, TV. cbn [String.eqb Ascii.eqb Bool.eqb]. unfold bindm at 1, relocate at 1. rewrite (relocate_home Q a u ts ts I H). unfold bindm at 1, get_obj at 1. rewrite (covb_get _ _ _ _ CV3). cbn [not_none]. unfold bindm at 1, ret at 1.
      unfold bindm at 1, get_until at 1. assert (UT : store_get_until so_truthy so_resolve (a_store a) u (pointer ts) "2.0" (Some "3.0.0") = Ok (Some (mk_sobj "2.0" X [], pointer ts, "2.0"))).
      { unfold store_get_until. rewrite (i_vers _ _ _ _ _ _ _ _ _ _ (j_20 _ _ I)). change (index_of "2.0" known3) with (@Ok nat 1). change (index_of "3.0.0" known3) with (@Ok nat 2). cbn [rmap bind truthy_str]. change (skipn 2 (firstn 3 known3)) with ["3.0.0"]. cbn [until_chain].
        rewrite (relocate_home Q a u ts ts I H). cbn [bind rev List.app until_seek]. rewrite (covb_get _ _ _ _ CV3). cbn [bind]. rewrite GX. cbn [bind].
        destruct (ClosedFacts.stored_built path2url abspath fetch url d0 root places CW NU WJ CO _ _ _ SX) as (c1 & q1 & s1 & k1 & j1 & base1 & EX & _). rewrite EX. reflexivity. }
      rewrite UT. unfold bindm at 1, ret at 1. unfold bindm at 1. rewrite MG. unfold bindm at 1. cbn [so_truthy so_obj truthy_obj]. unfold lift at 1. unfold bindm at 1, relocate at 1.
      rewrite (relocate_J Q a3 u ts ts J3); [reflexivity|right; auto].
  Qed.
  Notation nothing := (fun _ _ : string => @None sobj).
  (** the first round at 3.0.0 *)
  Lemma round_root ask n a : asks3 ask n -> Inv20 nothing (fun _ => []) none a -> (forall m b l, refers url root m b -> split m = Ok l -> cov2 a l) -> length locs30 <= n ->
    exists a' w, round upgrade prepare ask url url (mk_sobj "2.0" root []) "#" "2.0" "3.0.0" a = (a', Ok (mk_sobj "3.0.0" (rewrite_refs w root30) [], "#")) /\ full url root30 w /\ J none a' /\
      entry (a_store a') url "#" "3.0.0" = Some (mk_sobj "3.0.0" (rewrite_refs w root30) []).
  Proof.
    intros AS I H2 L. set (Q' := fun l : string * string => False \/ l = (url, "#")). assert (HQ : Q' (url, "#")) by now right. assert (O : original url "#" root root30) by (left; auto). assert (OW : own_routes url "#" reloc) by now left.
    destruct (under_none a url "#" (i_good _ _ _ _ _ _ _ _ _ _ I)) as (x & EU & EO).
    { intros p o EN. rewrite (i_there _ _ _ _ _ _ _ _ _ _ I) in EN. discriminate EN. }
    destruct (finish_ok ask n AS url "#" root root30 Q' reloc O HQ) as (k & EF & TK).
    assert (RU : exists a0, run ask (upgrade300 path2url abspath app_url merge_fuel from20 (mk_sobj "2.0" root []) url) a = run ask (finish30 path2url abspath app_url merge_fuel url "#" (mk_sobj "3.0.0" root30 []) reloc) a0 /\ a_store a0 = a_store a /\ a_original a0 = a_original a).
    { unfold upgrade300. rewrite SU. cbn [so_version String.eqb Ascii.eqb Bool.eqb].
      destruct (run_under ask url "#" (fun ovr => match from20 (mk_sobj "2.0" root []) url "#" ovr with Err e => Done (Err e) | Ok (o', r') => finish30 path2url abspath app_url merge_fuel url "#" o' r' end) a x EU EO) as (a0 & E0 & H).
      exists a0. split; [|exact H]. rewrite E0, (cv_root _ _ _ _ _ _ _ _ _ _ CV). reflexivity. }
    destruct RU as (a0 & ER & ES & EOO). assert (I0 : Inv20 nothing (fun _ => []) none a0) by exact (ClosedFacts.inv_same path2url abspath fetch url root places _ _ none a a0 I ES EOO).
    destruct (original_built _ _ _ _ O) as (_ & _ & _ & c & q & s & kids & j & base & EX & _).
    rewrite EF in ER. destruct (set_core _ _ a0 url "#" root30 I0) as (a1 & E1 & I1 & G12 & G13 & C1 & RR); [eauto|].
    destruct (routes_core _ _ a1 url [("#", RMap reloc)] I1) as (a2 & E2 & I2 & G22 & EO2 & R1 & R2).
    assert (EN2 : forall u p o, entry (a_store a2) u p "3.0.0" = Some o -> u = url /\ p = "#" /\ o = mk_sobj "3.0.0" root30 []).
    { intros u p o. rewrite (objs_entry _ _ _ _ _ EO2), (set_entries _ _ _ _ _ E1). destruct (String.eqb_spec url u) as [<-|]; [destruct (String.eqb_spec "#" p) as [<-|]|]; cbn [andb String.eqb Ascii.eqb Bool.eqb].
      - intros [= <-]. auto.
      - rewrite (i_there _ _ _ _ _ _ _ _ _ _ I0). discriminate.
      - rewrite (i_there _ _ _ _ _ _ _ _ _ _ I0). discriminate. }
    assert (H22 : has2 url root a2) by (intros m b l RF SM; apply G22, G12; rewrite ES; exact (H2 _ _ _ RF SM)).
    assert (J2 : J Q' a2).
    { split.
      - exact I2.
      - rewrite R2, RR, (i_routed _ _ _ _ _ _ _ _ _ _ I0). reflexivity.
      - intros u k0 t N IN. rewrite R1, RR, (i_routed _ _ _ _ _ _ _ _ _ _ I0) in IN by exact N. destruct IN.
      - intros u p o EN. destruct (EN2 _ _ _ EN) as (-> & -> & ->). split; [reflexivity|]. split; [reflexivity|]. exists root, root30, []. split; [exact O|]. split; [apply good_nil|]. split; [symmetry; exact (original_nothing _ _ _ _ O)|exact H22].
      - exists (mk_sobj "3.0.0" root30 []). rewrite (objs_entry _ _ _ _ _ EO2), (set_entries _ _ _ _ _ E1), !String.eqb_refl. reflexivity.
      - intros u p o EN NQ. destruct (EN2 _ _ _ EN) as (-> & -> & _). contradiction. }
    assert (L2 : left_ a2 <= n) by (assert (Z := uncov_le "3.0.0" locs30 (a_store a2)); lia).
    destruct (TK a2 J2 L2 H22 (fun l F => match F with end)) as (a3 & w & E3 & F & I3 & G32 & _ & C3).
    destruct (store_after none a3 url "#" root root30 w reloc I3 O F OW C3 (has2_grow _ _ _ _ G32 H22)) as (a4 & a5 & E4 & E5 & E6 & I5 & _ & _ & _ & EN5).
    exists a5, w. split; [|auto].
    unfold round. change (upgrade "3.0.0") with (Some (upgrade300 path2url abspath app_url merge_fuel from20)). cbv iota. unfold bindm at 1. rewrite ER. cbn [run]. unfold bindm at 1. rewrite E1. unfold bindm at 1. rewrite E2.
    rewrite E3. unfold bindm at 1. rewrite E4. unfold bindm at 1. rewrite E5. unfold bindm at 1, lift at 1. unfold bindm at 1. change (rewrite_sobj w (mk_sobj "3.0.0" root30 [])) with (mk_sobj "3.0.0" (rewrite_refs w root30) []). rewrite E6. reflexivity.
  Qed.
  Theorem opens30 fuel : length locs20 + length locs30 < fuel -> exists a w, open_document path2url abspath app_url known3 fetch upgrade prepare "3.0.0" fuel url (fresh_app known3) = (a, Ok (mk_sobj "3.0.0" (rewrite_refs w root30) [])) /\
    full url root30 w /\ J none a /\ entry (a_store a) url "#" "3.0.0" = Some (mk_sobj "3.0.0" (rewrite_refs w root30) []).
  Proof.
    intros LF. unfold open_document, bindm. rewrite (ClosedFacts.load_root path2url abspath fetch url d0 root places CW SU FE DE CO).
    assert (SO : stored20 url "#" root) by (left; auto).
    assert (A2 : ClosedFacts.asks path2url abspath fetch url root places nothing (fun _ => []) (resolving fuel) (length locs20)).
    { apply (ClosedFacts.resolve_ok path2url abspath app_url fetch merge_fuel from12 from20 url d0 root places CW NU WJ CO nothing (fun _ => []) MF fuel). lia. }
    assert (OI := ClosedFacts.opened_inv path2url abspath fetch url d0 root places CO nothing (fun _ => []) (fun _ _ => eq_refl) (fun _ => eq_refl)).
    destruct (ClosedFacts.round_ok path2url abspath app_url fetch merge_fuel from12 from20 url d0 root places CW NU WJ CO nothing (fun _ => []) MF (resolving fuel) (length locs20) none _ url "#" root url A2 SO SU OI) as (a1 & R1 & I1 & G1 & C1); [apply uncov_le|].
    destruct (round_root (resolving fuel) (length locs30) a1 (resolve30_ok fuel _ LF) I1 (fun m b l RF SM => C1 l (ex_intro _ m (ex_intro _ b (conj RF SM)))) (le_n _)) as (a2 & w & R2 & F & J2 & EN).
    set (a3 := if is_root (mk_sobj "3.0.0" (rewrite_refs w root30) []) then fst (set_current "3.0.0" a2) else a2).
    exists a3, w. split; [|split; [exact F|split]].
    - unfold migrate_obj, migrate_traced. change (str_in "3.0.0" known3) with true. cbn [negb]. assert (SW : swagger_version (mk_sobj "2.0" root []) = Ok "2.0") by (destruct (construct_cls_obj _ _ _ _ _ CO) as (kids & ->); reflexivity).
      rewrite SW. cbn [bind]. rewrite through_2030. cbn [bind]. rewrite SU. cbn [bind rounds]. rewrite R1, R2. reflexivity.
    - unfold a3. destruct (is_root _); [apply (J_same none a2); [exact J2|reflexivity|reflexivity]|exact J2].
    - unfold a3. destruct (is_root _); exact EN.
  Qed.
  (** *** what has been written, and what answers it *)
  Lemma opened30_refs w qs c p d kids ref : full url root30 w -> within root30 qs (OObj c p (JDict d) kids) -> In c (referring_classes "3.0.0") -> lookup "$ref" d = Some (JStr ref) ->
    exists u ts ts' d' kids', leads url ref u ts ts' /\ within (rewrite_refs w root30) qs (OObj c p (JDict d') kids') /\ lookup "$ref" d' = Some (JStr (absolute ref u ts')).
  Proof.
    intros (G & F) W IC L. destruct (F _ _ _ _ _ _ W IC L) as (q & r & -> & I). assert (O : original url "#" root root30) by (left; auto).
    destruct (original_built _ _ _ _ O) as (_ & _ & _ & c0 & q0 & s0 & k0 & j & base & _ & _ & _ & C & NB & _).
    destruct (rewritten_at url reloc url root30 j _ base C NB w _ _ _ _ _ G W) as (d' & kids' & E & _ & H). destruct (H q r ref eq_refl I L) as (u' & ts & ts' & LD & L').
    exists u', ts, ts', d', kids'. split; [exact LD|]. split; [|exact L']. rewrite <- E. now apply rewrite_within.
  Qed.
  Lemma entry_origin Q a u p v o : J Q a -> entry (a_store a) u p "3.0.0" = Some o -> v = "3.0.0" -> so_version o = v /\ so_apis o = [] /\ exists X Y, original u p X Y /\ same_objects Y (so_obj o).
  Proof.
    intros I EN ->. destruct (j_ent _ _ I _ _ _ EN) as (V & A & X & Y & w & O & _ & E & _). split; [exact V|]. split; [exact A|]. exists X, Y. split; [exact O|]. rewrite E. apply rewrite_same.
  Qed.
  Theorem answered30 a u p o qs c q d' kids' ref' : J none a -> entry (a_store a) u p "3.0.0" = Some o -> within (so_obj o) qs (OObj c q (JDict d') kids') -> In c (referring_classes "3.0.0") -> lookup "$ref" d' = Some (JStr ref') ->
    exists ref X Y d kids u' ts ts' Z0 Z, original u p X Y /\ within Y qs (OObj c q (JDict d) kids) /\ lookup "$ref" d = Some (JStr ref) /\ leads u ref u' ts ts' /\
      normalize_jr (Some ref') (Some u) = Ok (Some (place u' ts')) /\ same_objects Z0 Z /\
      ((u' = url /\ within root30 ts' Z0) \/ (u' <> url /\ exists X', original u' (pointer ts') X' Z0)) /\
      (forall parser f rm, resolving (Datatypes.S f) (mk_query (place u' ts') "3.0.0" parser (Some "3.0.0") rm) a = (a, Ok (mk_sobj "3.0.0" Z [], (u' ++ pointer ts')%string))) /\
      (forall parser f rm, resolving (Datatypes.S f) (mk_query (place u' ts) "2.0" parser (Some "3.0.0") rm) a = (a, Ok (mk_sobj "3.0.0" Z [], (u' ++ pointer ts')%string))).
  Proof.
    intros I EN W IC L. destruct (j_done _ _ I _ _ _ EN (fun F => F)) as (X & Y & w & O & (G & F) & EO & GO). rewrite EO in W.
    destruct (original_built _ _ _ _ O) as (CU & _ & RM & c0 & q0 & s0 & k0 & j & base & _ & _ & _ & C & NB & _).
    destruct (rewritten_obj Y w _ _ _ _ _ W) as (s & kids & W0 & E0). destruct (RM _ _ _ _ _ W0 IC) as (d & -> & R).
    destruct (rewritten_at url reloc u Y j _ base C NB w _ _ _ _ _ G W0) as (d2 & kids2 & E & NO & H). rewrite E0 in E. assert (ED : d' = d2) by congruence. subst d2.
    destruct (lookup "$ref" d) as [r|] eqn:LR; [|rewrite (NO eq_refl) in L; discriminate L]. destruct R as (ref & u' & ts & ts' & -> & _ & LD & HU & HN & _).
    destruct (F _ _ _ _ _ _ W0 IC LR) as (q1 & r1 & -> & I1). destruct (H q1 r1 ref eq_refl I1 eq_refl) as (u2 & t2 & t2' & LD2 & L2). destruct (leads_fun _ _ _ _ _ _ _ _ _ _ LD LD2) as (<- & <- & <-).
    rewrite L in L2. injection L2 as ->. destruct LD as (CU' & N & LD3). assert (LD : leads u ref u' ts ts') by (split; auto).
    assert (SP : spot u' ts'). { split; [exact CU'|]. destruct LD3 as [(E1 & _)|(N1 & E1)]; [left; split; [exact E1|destruct (HU E1) as (c' & p' & s' & k' & W' & _); eauto]|right; split; [exact N1|rewrite E1; exact (proj1 (HN N1))]]. }
    assert (C3 : cov3 a (u', pointer ts')). { apply GO. exists qs, c, (Some q1), d, kids, ref, u', ts, ts'. auto 9. }
    destruct (get30 none a u' ts' I SP C3) as (Z & GZ & (cz & pz & sz & kz & EZ) & (p2 & rest & X2 & Y2 & w2 & x & O2 & G2 & _ & W2 & EY & FW)). assert (TU := clean_true _ CU').
    exists ref, X, Y, d, kids, u', ts, ts', x, Z. split; [exact O|]. split; [exact W0|]. split; [exact LR|]. split; [exact LD|]. split; [exact (absolute_moved u ref u' ts ts' CU CU' N)|].
    split; [rewrite EY; apply rewrite_same|]. split.
    { destruct FW as [(E1 & E2)|(N1 & E2 & E3)].
      - left. split; [exact E1|]. destruct O2 as [(_ & _ & _ & E4)|(N2 & _)]; [|contradiction]. rewrite <- E2, <- E4. exact W2.
      - right. split; [exact N1|]. exists X2. rewrite E2 in W2. inversion W2; subst; exact O2. }
    split; intros parser f rm.
    - rewrite (resolve_cached path2url abspath app_url known3 fetch upgrade prepare f (mk_query (place u' ts') "3.0.0" parser (Some "3.0.0") rm) a u' (pointer ts') (pointer ts') (mk_sobj "3.0.0" Z []) (place_ne _ _ CU') (split_place _ _ _ _ CU') eq_refl); [now rewrite TU| |now rewrite EZ].
      rewrite TU. exact GZ.
    - rewrite (resolve_cached path2url abspath app_url known3 fetch upgrade prepare f (mk_query (place u' ts) "2.0" parser (Some "3.0.0") rm) a u' (pointer ts) (pointer ts') (mk_sobj "3.0.0" Z []) (place_ne _ _ CU') (split_place _ _ _ _ CU')); [now rewrite TU| | |now rewrite EZ].
      + rewrite TU. cbn [q_from]. change (target_version _) with "3.0.0". cbn [String.eqb Ascii.eqb Bool.eqb]. exact (relocate_J none a u' ts ts' I LD3).
      + rewrite TU. exact GZ.
  Qed.
End Closed.
