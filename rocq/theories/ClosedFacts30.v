(** Sets of OpenAPI 3.0.0 documents that refer to each other: places, and rewritten references. *)
From Coq Require Import String Ascii List Bool Arith Lia.
From Verif Require Import PyStr PyStrFacts PyVal PyValFacts Jp JpFacts UrlLib Urls SpecUrl UrlFacts UrlFacts2 UrlFacts3 Obj ObjFacts Classes_v3_0_0 SpecJson SpecObj SpecScan TablesFacts DumpFacts ResolveFacts Scan TraverseFacts
  PropertiesObjAux PropertiesScanAux Store SpecStore StoreFacts App SpecApp AppFacts AppFacts2 AppFacts4 AppFacts5 Main SpecDoc SpecRefs SpecLocal SpecOpen WfFacts RelocFacts RefFacts OpenFacts OpenFacts2 OverrideFacts MainFacts RewriteFacts RewriteFacts2 RewriteFacts3 TaskFacts QuietFacts LocalFacts LocalFacts2 SpecTables SpecClosed SpecClosed30 ClosedFacts.
Import ListNotations.
Open Scope string_scope. Open Scope nat_scope.
Notation within := SpecObj.within (only parsing).

(** ** places *)
Lemma clean_ne u : clean u -> u <> "".
Proof. intros (s & h & p & q & C & ->). exact (url_ne s h p q C). Qed.
Lemma clean_true u : clean u -> truthy_str u = true.
Proof. intros C. apply truthy_str_true, clean_ne, C. Qed.
Lemma place_frag u ts : place u ts = (u ++ frag (tail_of ts))%string.
Proof.
  destruct ts as [|t ts]; [cbn [place]; unfold tail_of; cbn [map String.concat frag]; now rewrite sapp_nil_r|]. unfold place. rewrite pointer_tail, tail_join by discriminate. reflexivity.
Qed.
Lemma place_ne u ts : clean u -> place u ts <> "".
Proof. intros C E. apply clean_ne in C. rewrite place_frag in E. destruct u; [congruence|discriminate E]. Qed.
Lemma split_place path2url abspath u ts : clean u -> split path2url abspath (place u ts) = Ok (u, pointer ts).
Proof.
  intros (s & h & p & q & C & ->). destruct ts as [|t ts]; [exact (split_url path2url abspath s h p q C)|exact (split_pointer path2url abspath s h p q C (t :: ts))].
Qed.
Lemma split_full path2url abspath u ts : clean u -> split path2url abspath (u ++ pointer ts) = Ok (u, pointer ts).
Proof. intros (s & h & p & q & C & ->). exact (split_pointer path2url abspath s h p q C ts). Qed.
Lemma place_inj u ts u' ts' : clean u -> clean u' -> place u ts = place u' ts' -> u = u' /\ ts = ts'.
Proof.
  intros C C' E. assert (H := split_place (fun s => s) (fun s => s) u ts C). rewrite E, (split_place _ _ u' ts' C') in H. apply Ok_inj_local in H.
  assert (H1 := f_equal fst H). assert (H2 := f_equal snd H). cbn [fst snd] in H1, H2. split; [congruence|]. now apply pointer_inj.
Qed.
Lemma absolute_again url ref u ts : clean url -> clean u -> normalize_jr (Some ref) (Some url) = Ok (Some (place u ts)) ->
  normalize_jr (Some (absolute ref u ts)) (Some url) = Ok (Some (place u ts)).
Proof.
  intros CL CU N. unfold absolute. destruct (startswith "#" ref) eqn:SW.
  - assert (ER : exists f, ref = ("#" ++ f)%string) by (apply startswith_spec in SW as (f & ->); eauto). destruct ER as (f & ->).
    rewrite (nj_local f url (clean_ne _ CL)) in N. assert (E : (url ++ frag f)%string = place u ts) by congruence.
    assert (EU : url = u).
    { destruct CL as (s & h & p & q & C & EQ). assert (S : split (fun s => s) (fun s => s) (url ++ frag f) = Ok (url, ("#" ++ f)%string)).
      { rewrite EQ. destruct f as [|c f]; [cbn [frag]; rewrite sapp_nil_r; exact (split_url _ _ s h p q C)|exact (jr_split_abs _ _ s h p q (String c f) C)]. }
      rewrite E, (split_place _ _ u ts CU) in S. apply Ok_inj_local in S. apply (f_equal fst) in S. cbn [fst] in S. congruence. }
    rewrite pointer_tail, (nj_local _ url (clean_ne _ CL)), place_frag. now rewrite EU.
  - destruct CU as (s & h & p & q & C & ->). destruct ts as [|t ts].
    + cbn [place]. change (pointer []) with "#". apply nj_scheme_emptyfrag; [rewrite <- (sapp_nil_r (abs_url s h p q)); now apply clean_has_scheme|now apply clean_nohash].
    + assert (E : (abs_url s h p q ++ pointer (t :: ts))%string = (abs_url s h p q ++ frag (tail_of (t :: ts)))%string) by (rewrite <- place_frag; reflexivity).
      rewrite E, place_frag. now apply normalize_again.
Qed.
Lemma absolute_ne ref u ts : absolute ref u ts <> "".
Proof. unfold absolute. destruct (startswith "#" ref); [discriminate|]. destruct u; discriminate. Qed.

(** ** an object with some of its references made absolute *)
Section Rewritten.
  Variables (u : string) (X : obj) (j : json) (b0 : builder) (base : string).
  Hypothesis CU : clean u.
  Hypothesis WJ : wf_json j.
  Hypothesis CO : construct v30_table j b0 (Some base) [] = Ok X.
  Hypothesis NB : base <> "".
  Lemma path_at ts c p s k : within X ts (OObj c p s k) -> p = Some (jp_join ts (Some base)).
  Proof.
    intros W. destruct (within_resolve v30_table ts WD30 j b0 (Some base) _ _ CO W (not_prim _ _ _ _)) as (GP & _). rewrite path_after_base in GP by exact NB. exact GP.
  Qed.
  Lemma same_at ts ts' c p s k c' s' k' : within X ts (OObj c p s k) -> within X ts' (OObj c' p s' k') -> ts = ts' /\ OObj c p s k = OObj c' p s' k'.
  Proof.
    intros W W'. assert (E := path_at _ _ _ _ _ W). assert (E' := path_at _ _ _ _ _ W'). rewrite E in E'. injection E' as E'. apply jp_join_inj_base in E'; [|exact NB]. subst ts'.
    split; [reflexivity|]. exact (within_fun _ _ _ _ W W').
  Qed.
  Lemma no_kid ts c p s kids : within X ts (OObj c p s kids) -> lookup "$ref" kids = None.
  Proof.
    intros W. destruct (within_resolve v30_table ts WD30 j b0 (Some base) _ _ CO W (not_prim _ _ _ _)) as (_ & _ & j' & b' & _ & CX).
    assert (TYX := typed_obj _ _ _ _ _ _ (construct_typed v30_table _ _ _ _ _ (le_n _) CX)). inversion TYX as [|? cd' ? ? ? LC' K| | | | |]; subst.
    destruct (lookup "$ref" kids) as [y|] eqn:LX; [|reflexivity]. exfalso. apply TablesFacts.lookup_In in LX. destruct (K _ _ LX) as (ch & IC & EC & _).
    exact (no_ref_child v30_table no_ref30 _ _ _ LC' IC EC).
  Qed.
  (** the assignments made so far *)
  Definition good_ups (w : ref_updates) : Prop := forall q r, In (q, r) w ->
    exists qs c d kids ref u' ts, within X qs (OObj c (Some q) (JDict d) kids) /\ In c (referring_classes "3.0.0") /\ lookup "$ref" d = Some (JStr ref) /\
      clean u' /\ normalize_jr (Some ref) (Some u) = Ok (Some (place u' ts)) /\ r = absolute ref u' ts.
  Lemma good_nil : good_ups []. Proof. intros q r []. Qed.
  Lemma rewritten_at w qs c p d kids : good_ups w -> within X qs (OObj c p (JDict d) kids) ->
    exists d' kids', rewrite_refs w (OObj c p (JDict d) kids) = OObj c p (JDict d') kids' /\
      match lookup "$ref" d with
      | None => lookup "$ref" d' = None
      | Some (JStr ref) => lookup "$ref" d' = Some (JStr ref) \/
          exists q u' ts, p = Some q /\ In (q, absolute ref u' ts) w /\ clean u' /\ normalize_jr (Some ref) (Some u) = Ok (Some (place u' ts)) /\ lookup "$ref" d' = Some (JStr (absolute ref u' ts))
      | Some r => lookup "$ref" d' = Some r
      end /\
      forall q r ref, p = Some q -> In (q, r) w -> lookup "$ref" d = Some (JStr ref) -> exists u' ts, clean u' /\ normalize_jr (Some ref) (Some u) = Ok (Some (place u' ts)) /\ lookup "$ref" d' = Some (JStr (absolute ref u' ts)).
  Proof.
    intros G W. rewrite rewrite_obj, graft_kids_entries, own_ref_dict. do 2 eexists. split; [reflexivity|]. set (k2 := map _ kids).
    assert (LG : lookup "$ref" (graft_entries k2 d) = lookup "$ref" d) by (unfold k2; rewrite lookup_graft, lookup_map, (no_kid _ _ _ _ _ W); now destruct (lookup "$ref" d)).
    assert (HIT : forall q r ref, p = Some q -> lookup q w = Some r -> lookup "$ref" d = Some (JStr ref) ->
      exists u' ts, In (q, absolute ref u' ts) w /\ clean u' /\ normalize_jr (Some ref) (Some u) = Ok (Some (place u' ts)) /\ lookup "$ref" (own_update w p (graft_entries k2 d)) = Some (JStr (absolute ref u' ts))).
    { intros q r ref -> LQ L. assert (IQ := LQ). apply PyValFacts.lookup_In in IQ. destruct (G _ _ IQ) as (qs2 & c2 & d2 & kids2 & ref2 & u' & ts & W2 & _ & L2 & C2 & N2 & ->).
      destruct (same_at _ _ _ _ _ _ _ _ _ W W2) as (<- & EQ). injection EQ as <- <- <-. rewrite L in L2. injection L2 as <-. exists u', ts. split; [exact IQ|]. split; [exact C2|]. split; [exact N2|].
      unfold own_update. rewrite LQ, LG, L. apply lookup_dict_set_eq. }
    split.
    - destruct (lookup "$ref" d) as [r|] eqn:L.
      + assert (NOP : forall r, (forall ref, r <> JStr ref) -> lookup "$ref" (graft_entries k2 d) = Some r -> lookup "$ref" (own_update w p (graft_entries k2 d)) = Some r).
        { intros r1 NS L1. unfold own_update. destruct p as [q|]; [|exact L1]. destruct (lookup q w); [|exact L1]. rewrite L1. destruct r1; try exact L1. destruct (NS _ eq_refl). }
        destruct r as [| | | |ref| |]; try (apply NOP; [discriminate|congruence]).
        destruct p as [q|]; [|left; cbn; congruence]. destruct (lookup q w) as [r|] eqn:LQ; [right|left; unfold own_update; rewrite LQ; congruence].
        destruct (HIT q r ref eq_refl LQ eq_refl) as (u' & ts & H). exists q, u', ts. auto.
      + apply PyValFacts.lookup_none. rewrite own_update_keys, keys_graft. now apply PyValFacts.lookup_none.
    - intros q r ref EP I L. destruct (lookup_first _ _ _ I) as (r' & LU & _). destruct (HIT q r' ref EP LU L) as (u' & ts & _ & H). exists u', ts. exact H.
  Qed.
  Lemma rewritten_obj w qs c p s kids : within (rewrite_refs w X) qs (OObj c p s kids) -> exists s0 kids0, within X qs (OObj c p s0 kids0) /\ rewrite_refs w (OObj c p s0 kids0) = OObj c p s kids.
  Proof.
    intros W. destruct (rewrite_within_inv w _ _ _ W X eq_refl) as (x & WX & E). destruct x as [jx|c1 p1 s1 k1|b1 p1 e1|b1 p1 e1]; rewrite ?rewrite_list, ?rewrite_map in E; try discriminate E.
    rewrite rewrite_obj in E. assert (c1 = c /\ p1 = p) as (-> & ->) by (injection E as -> -> _ _; auto). exists s1, k1. split; [exact WX|]. now rewrite rewrite_obj.
  Qed.
  Lemma expected_same w qs c b : expected_at v30_table (rewrite_refs w X) qs c b <-> expected_at v30_table X qs c b.
  Proof.
    unfold expected_at. destruct (String.eqb c "Reference"); [|reflexivity]. split; intros (us & ks & ow & b' & E & W & D & EB).
    - inversion D; subst; destruct (rewritten_obj w _ _ _ _ _ W) as (s0 & k0 & W0 & _); (exists us; eexists; exists (OObj c0 p s0 k0); eexists; split; [reflexivity|]; split; [exact W0|]; split; [econstructor; eauto|reflexivity]).
    - inversion D; subst; (exists us; eexists; eexists; eexists; split; [reflexivity|]; split; [exact (rewrite_within w _ _ _ W)|]; split; [rewrite rewrite_obj; econstructor; eauto|reflexivity]).
  Qed.
  (** the references denote the same places *)
  Lemma refers_same w u' ts b : good_ups w -> refers30 u (rewrite_refs w X) u' ts b <-> refers30 u X u' ts b.
  Proof.
    intros G. split; intros (qs & c & p & d & kids & ref & W & IC & L & C & N & EX).
    - destruct (rewritten_obj w _ _ _ _ _ W) as (s0 & k0 & W0 & E0). apply expected_same in EX.
      assert (D : exists d0, s0 = JDict d0). { destruct s0 as [| | | | | |d0]; [..|eauto]; exfalso; rewrite rewrite_obj in E0; apply (f_equal (fun o => match o with OObj _ _ s _ => s | _ => JNull end)) in E0; cbv beta iota in E0; destruct p; discriminate E0. } destruct D as (d0 & ->).
      destruct (rewritten_at w _ _ _ _ _ G W0) as (d' & kids' & E' & M & _). rewrite E0 in E'. injection E' as <- <-.
      destruct (lookup "$ref" d0) as [r|] eqn:L0; [|rewrite L in M; discriminate M]. destruct r as [| | | |ref0| |]; try (rewrite L in M; discriminate M).
      exists qs, c, p, d0, k0, ref0. split; [exact W0|]. split; [exact IC|]. split; [exact L0|]. split; [exact C|]. split; [|exact EX].
      destruct M as [M|(q & u2 & t2 & _ & _ & C2 & N2 & M)]; rewrite L in M; injection M as ->; [exact N|]. rewrite N2. rewrite <- N. symmetry. now apply absolute_again.
    - destruct (rewritten_at w _ _ _ _ _ G W) as (d' & kids' & E' & M & _). rewrite L in M. assert (W' := rewrite_within w _ _ _ W). rewrite E' in W'. apply (expected_same w) in EX.
      destruct M as [M|(q & u2 & t2 & _ & _ & C2 & N2 & M)].
      + exists qs, c, p, d', kids', ref. auto 8.
      + exists qs, c, p, d', kids', (absolute ref u2 t2). split; [exact W'|]. split; [exact IC|]. split; [exact M|]. split; [exact C|]. split; [|exact EX]. rewrite N in N2. rewrite N2 in N. rewrite N2. now apply absolute_again.
  Qed.
  Lemma closed_same w places : good_ups w -> refs_closed30 u X places -> refs_closed30 u (rewrite_refs w X) places.
  Proof.
    intros G (R1 & R2). split.
    - intros qs c p s kids W IC. destruct (rewritten_obj w _ _ _ _ _ W) as (s0 & k0 & W0 & E0). destruct (R1 _ _ _ _ _ W0 IC) as (d0 & -> & D).
      destruct (rewritten_at w _ _ _ _ _ G W0) as (d' & kids' & E' & M & _). rewrite E0 in E'. injection E' as -> ->. exists d'. split; [reflexivity|].
      destruct (lookup "$ref" d0) as [r|] eqn:L0; [|now rewrite M]. destruct D as (ref & u' & ts & -> & NE & C & N). destruct M as [M|(q & u2 & t2 & _ & _ & C2 & N2 & M)]; rewrite M.
      + exists ref, u', ts. auto.
      + exists (absolute ref u2 t2), u2, t2. split; [reflexivity|]. split; [apply absolute_ne|]. split; [exact C2|]. now apply absolute_again.
    - intros u' ts b RF. apply R2. now apply (refers_same w _ _ _ G).
  Qed.
  Lemma object_same w qs b : object_at X qs b -> object_at (rewrite_refs w X) qs b.
  Proof. intros (c & p & s & kids & W & PI). apply (rewrite_within w) in W. rewrite rewrite_obj in W. do 4 eexists. split; [exact W|exact PI]. Qed.
  Lemma rewrite_nothing : rewrite_refs [] X = X.
  Proof. apply (rewrite_still v30_table [] WD30 (no_ref_child v30_table no_ref30) j b0 (Some base) X WJ CO). intros ts c q d kids r r0 _ H. discriminate H. Qed.
  Lemma rewritten_built w : exists j', construct v30_table j' b0 (Some base) [] = Ok (rewrite_refs w X) /\ same_but_refs j j'.
  Proof. destruct (construct_rewrite v30_table w WD30 (no_ref_child v30_table no_ref30) j WJ b0 (Some base) X CO) as (C & S & _). eauto. Qed.
End Rewritten.
