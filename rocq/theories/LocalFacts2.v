(** Documents that only refer to themselves open, continued. *)
From Coq Require Import String Ascii List Bool Arith Lia.
From Verif Require Import PyStr PyStrFacts PyVal PyValFacts Jp JpFacts UrlLib Urls SpecUrl UrlFacts UrlFacts2 Obj ObjFacts Classes_v2_0 Classes_v3_0_0 SpecJson SpecObj SpecScan TablesFacts DumpFacts ResolveFacts Scan TraverseFacts
  PropertiesObjAux PropertiesScanAux Store StoreFacts App SpecApp AppFacts AppFacts2 AppFacts4 AppFacts5 Main SpecDoc SpecRefs SpecLocal SpecOpen WfFacts RelocFacts RefFacts OpenFacts OpenFacts2 OverrideFacts MainFacts RewriteFacts RewriteFacts2 RewriteFacts3 TaskFacts QuietFacts LocalFacts SpecTables.
Import ListNotations.
Open Scope string_scope. Open Scope nat_scope.

Lemma built_class T j b p c q s kids : construct T j b p [] = Ok (OObj c q s kids) -> mem c T = true.
Proof.
  intros C. rewrite construct_eq in C. apply bind_ok in C as (k & K & C). destruct k as [v|c'|b'|b'|]; cbn [con_core] in C.
  - discriminate C.
  - rewrite split_nil in C. cbn [bind] in C. unfold mem. destruct (lookup c' T) as [cd|] eqn:Tc; [|discriminate C]. apply bind_ok in C as (kids' & _ & E). injection E as <- _ _ _. now rewrite Tc.
  - rewrite split_nil in C. cbn [bind] in C. destruct j; try discriminate C. apply bind_ok in C as (es & _ & E). discriminate E.
  - rewrite split_nil in C. cbn [bind] in C. destruct j; try discriminate C. apply bind_ok in C as (es & _ & E). discriminate E.
  - destruct j; discriminate C.
Qed.
Lemma Ok_inj_local {A} (a b : A) : Ok a = Ok b -> a = b. Proof. congruence. Qed.
Lemma no_ref30 : forallb (fun c => forallb (fun ch => negb (String.eqb (ch_name ch) "$ref")) (c_children (snd c))) v30_table = true.
Proof. vm_compute. reflexivity. Qed.
Lemma rewrite_within_inv u root' ts y : within root' ts y -> forall root, root' = rewrite_refs u root -> exists x, within root ts x /\ y = rewrite_refs u x.
Proof.
  induction 1 as [o|c p s kids k o ts o' L W IH|b p es i s e ts o' IT N W IH|b p es k e ts o' L W IH]; intros root E.
  - exists root. split; [constructor|exact E].
  - destruct root as [j|c1 p1 s1 k1|b1 p1 e1|b1 p1 e1]; rewrite ?rewrite_obj, ?rewrite_list, ?rewrite_map in E; try discriminate E. injection E as -> -> _ ->. rewrite lookup_map in L.
    destruct (lookup k k1) as [x|] eqn:LX; [|discriminate L]. injection L as <-. destruct (IH x eq_refl) as (y & WY & ->). exists y. split; [econstructor; eauto|reflexivity].
  - destruct root as [j|c1 p1 s1 k1|b1 p1 e1|b1 p1 e1]; rewrite ?rewrite_obj, ?rewrite_list, ?rewrite_map in E; try discriminate E. injection E as -> -> ->. rewrite nth_error_map in N.
    destruct (nth_error e1 i) as [x|] eqn:LX; [|discriminate N]. injection N as <-. destruct (IH x eq_refl) as (y & WY & ->). exists y. split; [econstructor; eauto|reflexivity].
  - destruct root as [j|c1 p1 s1 k1|b1 p1 e1|b1 p1 e1]; rewrite ?rewrite_obj, ?rewrite_list, ?rewrite_map in E; try discriminate E. injection E as -> -> ->. rewrite lookup_map in L.
    destruct (lookup k e1) as [x|] eqn:LX; [|discriminate L]. injection L as <-. destruct (IH x eq_refl) as (y & WY & ->). exists y. split; [econstructor; eauto|reflexivity].
Qed.
Lemma rewrite_holds u root ts : holds_object root ts -> holds_object (rewrite_refs u root) ts.
Proof. intros (y & W & (c & p & s & k & ->)). exists (rewrite_refs u (OObj c p s k)). split; [now apply rewrite_within|]. rewrite rewrite_obj. do 4 eexists; reflexivity. Qed.
Section Opens.
  Variables (path2url abspath : string -> string) (app_url : string) (fetch : string -> res json) (merge_fuel f : nat)
    (from12 : sobj -> res sobj) (from20 : sobj -> string -> string -> override -> res (sobj * routes)).
  Variables (us uh up uq : string).
  Hypothesis CU : clean_url us uh up uq.
  Notation url := (abs_url us uh up uq).
  Let upgrade := modules path2url abspath app_url merge_fuel from12 from20.
  Let prepare := fun (o : sobj) (_ : string) => Ok o.
  Let ask := resolve_obj path2url abspath app_url known3 fetch upgrade prepare (S f).
  Notation at_ := (at_ us uh up uq).

  Lemma stored_at vs R orig log v o : lookup v vs = Some o -> stored us uh up uq (at_ vs R orig log) v o.
  Proof. intros L. exists vs. split; [cbn; now rewrite String.eqb_refl|exact L]. Qed.

  Lemma split_here : split path2url abspath url = Ok (url, "#"). Proof. exact (split_url path2url abspath us uh up uq CU). Qed.

  Section Doc20.
    Variables (d : list (string * json)) (root : obj).
    Hypothesis WJ : wf_json (JDict d).
    Hypothesis CO : construct v20_table (JDict d) (BCls "Swagger") (Some url) [] = Ok root.
    Hypothesis UN : unmixed root.
    Hypothesis SC : self_contained "2.0" root.
    Let o := mk_sobj "2.0" root [].
    Lemma root20 : exists s kids, root = OObj "Swagger" (Some url) s kids.
    Proof. destruct (construct_cls_obj _ _ _ _ _ CO) as (kids & ->). eauto. Qed.
    Lemma no_media20 : no_media_examples root.
    Proof.
      intros ts p s kids W. exfalso.
      destruct (within_resolve v20_table ts (repo_wd _ rt_v20) _ _ _ _ _ CO W) as (_ & _ & j' & b' & _ & C); [intros (? & [=])|].
      apply built_class in C. discriminate C.
    Qed.
    Lemma run20 orig log : run ask (upgrade20 path2url abspath app_url merge_fuel from12 o url) (at_ [("2.0", o)] [] orig log) = (at_ [("2.0", o)] [] orig log, Ok (o, [])).
    Proof.
      destruct root20 as (s & kids & ER). unfold upgrade20. cbn [so_version o String.eqb Ascii.eqb Bool.eqb]. rewrite split_here.
      assert (B : so_base o = true) by (unfold o; rewrite ER; reflexivity). 
      assert (SET : forall k : prog (sobj * routes), run ask (Cache o url "#" "2.0" k) (at_ [("2.0", o)] [] orig log) = run ask k (at_ [("2.0", o)] [] orig log)).
      { intros k. cbn [run]. unfold bindm.  rewrite (set_here us uh up uq o "2.0" _ _ _ _ B). reflexivity. }
      rewrite SET.
      assert (RF : references "2.0" (fun ts => exists ts', moved us uh up uq "2.0" (at_ [("2.0", o)] [] orig log) ts ts' /\ holds_object root ts') root).
      { intros ts c p s0 k W I. destruct (SC ts c p s0 k W I) as (d0 & -> & D). exists d0. split; [reflexivity|]. destruct (lookup "$ref" d0); [|exact D]. destruct D as (NP & us0 & -> & NE & G).
        split; [exact NP|]. exists us0. split; [reflexivity|]. split; [exact NE|]. exists us0. split; [|exact G]. split; [exact NE|reflexivity]. }
      assert (ST := stored_at [("2.0", o)] [] orig log "2.0" o eq_refl).
      destruct (phase path2url abspath app_url fetch upgrade prepare f us uh up uq CU "2.0" (at_ [("2.0", o)] [] orig log) o (JDict d) "Swagger" (Some url) (or_introl eq_refl) WJ eq_refl CO UN no_media20 ST RF)
        as (vis & l & u & TR & AT & QS & VW & _ & RUN).
      unfold visited. change v20_table with (table_of "2.0"). cbn [so_obj o]. cbn [so_obj o] in TR. rewrite TR.
      rewrite (normalize_ok us uh up uq CU "2.0" (at_ [("2.0", o)] [] orig log) o (JDict d) "Swagger" (Some url) (or_introl eq_refl) eq_refl CO ST RF (map snd vis) VW).
      rewrite SET. unfold ask. rewrite RUN. rewrite (merge_ok' path2url abspath app_url us uh up uq CU "2.0" (at_ [("2.0", o)] [] orig log) o (JDict d) "Swagger" (Some url) (or_introl eq_refl) eq_refl CO ST RF merge_fuel (map snd vis) _ VW). reflexivity.
    Qed.
    Lemma round20 orig log : round upgrade prepare ask url url o "#" "2.0" "2.0" (at_ [("2.0", o)] [] orig log) =
      (at_ [("2.0", o)] [(url, rows [("#", RMap [])] [])] orig log, Ok (o, "#")).
    Proof.
      destruct root20 as (s & kids & ER). assert (B : so_base o = true) by (unfold o; rewrite ER; reflexivity).
      unfold round. change (upgrade "2.0") with (Some (upgrade20 path2url abspath app_url merge_fuel from12)). cbv iota. unfold bindm at 1. rewrite run20.
      unfold bindm at 1.  rewrite (routes_first us uh up uq "2.0" [("#", RMap [])] _ _ _ (or_introl eq_refl)).  cbn [String.eqb Ascii.eqb Bool.eqb].
      unfold bindm at 1.  rewrite (relocate_here us uh up uq "2.0" _ _ _ _ _ (or_introl eq_refl)). 
      unfold bindm at 1, lift at 1, prepare at 1. unfold bindm at 1.  rewrite (set_here us uh up uq o "2.0" _ _ _ _ B). reflexivity.
    Qed.
  End Doc20.

  Section Doc30.
    Variables (a0 a1 a : app) (x : json) (root : obj) (base : string) (reloc : routes).
    Let o := mk_sobj "3.0.0" root [].
    Hypothesis WJ : wf_json x.
    Hypothesis CO : construct v30_table x (BCls "OpenApi") (Some base) [] = Ok root.
    Hypothesis NB : base <> "".
    Hypothesis UN : unmixed root.
    Hypothesis NM : no_media_examples root.
    Hypothesis SET : set_obj o url "#" "3.0.0" a0 = (a1, Ok tt).
    Hypothesis RTS : put_routes url "3.0.0" [("#", RMap reloc)] a1 = (a, Ok tt).
    Hypothesis ST : stored us uh up uq a "3.0.0" o.
    Hypothesis RF : references "3.0.0" (fun ts => exists ts', moved us uh up uq "3.0.0" a ts ts' /\ holds_object root ts') root.
    Lemma WD30 : well_declared v30_table. Proof. apply repo_wd. constructor. Qed.
    Lemma not_prim c p s k : ~ primitive (OObj c p s k). Proof. intros (? & [=]). Qed.
    Lemma path30 ts c p s k : within root ts (OObj c p s k) -> p = Some (jp_join ts (Some base)).
    Proof.
      intros W. destruct (within_resolve v30_table ts WD30 x (BCls "OpenApi") (Some base) _ _ CO W (not_prim _ _ _ _)) as (GP & _). rewrite path_after_base in GP by exact NB. exact GP.
    Qed.
    Lemma same_path ts ts' c p s k c' s' k' : within root ts (OObj c p s k) -> within root ts' (OObj c' p s' k') -> ts = ts' /\ OObj c p s k = OObj c' p s' k'.
    Proof.
      intros W W'. assert (E := path30 _ _ _ _ _ W). assert (E' := path30 _ _ _ _ _ W'). rewrite E in E'. injection E' as E'. apply jp_join_inj_base in E'; [|exact NB]. subst ts'.
      split; [reflexivity|]. exact (within_fun _ _ _ _ W W').
    Qed.
    Lemma no_ref_kid ts c p s kids : within root ts (OObj c p s kids) -> lookup "$ref" kids = None.
    Proof.
      intros W. destruct (within_resolve v30_table ts WD30 x (BCls "OpenApi") (Some base) _ _ CO W (not_prim _ _ _ _)) as (_ & _ & j' & b' & _ & CX).
      assert (TYX := typed_obj _ _ _ _ _ _ (construct_typed v30_table _ _ _ _ _ (le_n _) CX)). inversion TYX as [|? cd' ? ? ? LC' K| | | | |]; subst.
      destruct (lookup "$ref" kids) as [y|] eqn:LX; [|reflexivity]. exfalso. apply TablesFacts.lookup_In in LX. destruct (K _ _ LX) as (ch & IC & EC & _).
      exact (no_ref_child v30_table no_ref30 _ _ _ LC' IC EC).
    Qed.
    Lemma moved_fun ts t1 t2 : moved us uh up uq "3.0.0" a ts t1 -> moved us uh up uq "3.0.0" a ts t2 -> pointer t1 = pointer t2.
    Proof. intros (_ & E1) (_ & E2). cbn zeta in E1, E2. rewrite E1 in E2. exact (Ok_inj_local _ _ E2). Qed.
    Definition updated (u : ref_updates) : Prop :=
      (forall q r, In (q, r) u -> exists ts c d kids us0 ts', within root ts (OObj c (Some q) (JDict d) kids) /\ lookup "$ref" d = Some (JStr (pointer us0)) /\
         moved us uh up uq "3.0.0" a us0 ts' /\ r = pointer ts' /\ holds_object root ts') /\
      (forall ts c q d kids r0, within root ts (OObj c (Some q) (JDict d) kids) -> In c (referring_classes "3.0.0") -> lookup "$ref" d = Some (JStr r0) -> exists r, In (q, r) u).
    Lemma finish : exists u, updated u /\ forall a3, set_obj (rewrite_sobj u o) url "#" "3.0.0" a = (a3, Ok tt) ->
      run ask (finish30 path2url abspath app_url merge_fuel url "#" o reloc) a0 = (a3, Ok (rewrite_sobj u o, reloc)).
    Proof.
      destruct (phase path2url abspath app_url fetch upgrade prepare f us uh up uq CU "3.0.0" a o x "OpenApi" (Some base) (or_intror eq_refl) WJ eq_refl CO UN NM ST RF)
        as (vis & l & u & TR & AT & QS & VW & TW & RUN).
      exists u. split; [split|].
      - intros q r I. destruct (quiets_from _ _ _ _ _ _ _ _ _ _ QS I) as (b & c & s & kids & old & n & y & w & IL & IC & OA & NJ & AK & NR & ON).
        destruct (TW _ _ IL) as (ts & W); [do 4 eexists; reflexivity|]. destruct (RF ts c (Some q) s kids W IC) as (d & -> & D).
        destruct (lookup "$ref" d) as [v|] eqn:L.
        2:{ exfalso. destruct (no_ref_attr us uh up uq "3.0.0" a o x "OpenApi" (Some base) (or_intror eq_refl) eq_refl CO ST RF c (Some q) d kids IC L D) as (jx & OA' & TJ).
            rewrite OA in OA'. injection OA' as <-. cbn in TJ. destruct old; [congruence|discriminate TJ]. }
        destruct D as (NP & us0 & -> & NE & ts' & MV & HO).
        assert (OA' : oattr (table_of "3.0.0") (OObj c (Some q) (JDict d) kids) "ref" = Ok (OPrim (JStr (pointer us0)))) by (apply ref_attr; auto).
        rewrite OA in OA'. injection OA' as ->. rewrite (normalize_pointer us uh up uq CU us0 NE) in NJ. injection NJ as <-.
        destruct HO as (y1 & WY & OY). destruct (within_resolve v30_table ts' WD30 x (BCls "OpenApi") (Some base) _ _ CO WY) as (_ & RY & _); [destruct OY as (? & ? & ? & ? & ->); apply not_prim|].
        destruct MV as (NE' & MV).
        assert (AL := ask_local path2url abspath app_url fetch upgrade prepare f us uh up uq CU a "3.0.0" (request "3.0.0" (a_original a) (url ++ pointer us0) b) o us0 ts' y1 ST eq_refl eq_refl NE' MV RY OY).
        rewrite AL in AK. injection AK as _ <-. unfold new_ref in NR. change (startswith "#" (pointer us0)) with true in NR. cbv iota in NR. rewrite (split_pointer path2url abspath us uh up uq CU) in NR. cbn in NR. injection NR as <-.
        exists ts, c, d, kids, us0, ts'. split; [exact W|]. split; [exact L|]. split; [split; [exact NE'|exact MV]|]. split; [reflexivity|]. exists y1. auto.
      - intros ts c q d kids r0 W IC L. destruct (RF ts c (Some q) (JDict d) kids W IC) as (d' & [= <-] & D). rewrite L in D. destruct D as (NP & us0 & [= ->] & NE & _).
        destruct (document_task "3.0.0" x "OpenApi" (Some base) _ vis l ts c (Some q) d kids (pointer us0) (or_intror eq_refl) WJ CO UN ltac:(discriminate) TR AT W IC L ltac:(discriminate)) as (b & _ & IL).
        apply (quiets_has _ _ _ _ _ _ l u b c q (JDict d) kids (pointer us0) eq_refl QS IL IC); [apply ref_attr; auto|discriminate].
      - intros a3 SET3. unfold finish30. cbn [so_version o String.eqb Ascii.eqb Bool.eqb]. unfold visited. change v30_table with (table_of "3.0.0"). rewrite TR.
        rewrite (normalize_ok us uh up uq CU "3.0.0" a o x "OpenApi" (Some base) (or_intror eq_refl) eq_refl CO ST RF (map snd vis) VW).
        cbn [run]. unfold bindm at 1. fold o. rewrite SET. unfold bindm at 1. rewrite RTS. unfold ask. rewrite RUN. cbn [run]. unfold bindm at 1. rewrite SET3.
        rewrite (merge_ok path2url abspath app_url us uh up uq "3.0.0" a o x "OpenApi" (Some base) (or_intror eq_refl) eq_refl CO ST RF merge_fuel (map snd vis) _ u VW). reflexivity.
    Qed.
    Lemma updated_at u ts c p d kids us0 : updated u -> within root ts (OObj c p (JDict d) kids) -> In c (referring_classes "3.0.0") -> lookup "$ref" d = Some (JStr (pointer us0)) ->
      exists us' d' kids', moved us uh up uq "3.0.0" a us0 us' /\ holds_object root us' /\
        rewrite_refs u (OObj c p (JDict d) kids) = OObj c p (JDict d') kids' /\ lookup "$ref" d' = Some (JStr (pointer us')).
    Proof.
      intros (U1 & U2) W IC L. assert (E := path30 _ _ _ _ _ W). subst p. destruct (U2 _ _ _ _ _ _ W IC L) as (r & I). destruct (lookup_first _ _ _ I) as (r' & LU & I').
      destruct (U1 _ _ I') as (ts2 & c2 & d2 & kids2 & us2 & ts' & W2 & L2 & MV & -> & HO). destruct (same_path _ _ _ _ _ _ _ _ _ W W2) as (<- & EQ). injection EQ as <- <- <-.
      rewrite L in L2. assert (EP : pointer us0 = pointer us2) by congruence.
      exists ts'. rewrite rewrite_obj, graft_kids_entries, own_ref_dict. do 2 eexists. split; [|split; [exact HO|split; [reflexivity|]]].
      - destruct MV as (NE & MV). split; [exact NE|]. cbn zeta in MV |- *. rewrite EP. exact MV.
      - unfold own_update. rewrite LU, lookup_graft, L, lookup_map, (no_ref_kid _ _ _ _ _ W). cbn [option_map opt_graft]. apply lookup_dict_set_eq.
    Qed.
    Lemma updated_contained u : updated u -> self_contained "3.0.0" (rewrite_refs u root).
    Proof.
      intros U ts c p s kids W IC. destruct (rewrite_within_inv u _ _ _ W root eq_refl) as (y & WY & E). destruct y as [j|c1 p1 s1 k1|b1 p1 e1|b1 p1 e1]; rewrite ?rewrite_list, ?rewrite_map in E; try discriminate E.
      assert (c1 = c) by (rewrite rewrite_obj in E; now injection E). subst c1. destruct (RF ts c p1 s1 k1 WY IC) as (d & -> & D). destruct (lookup "$ref" d) as [r|] eqn:L.
      - destruct D as (NP & us0 & -> & NE & _). destruct (updated_at u ts c p1 d k1 us0 U WY IC L) as (us' & d' & kids' & MV & HO & RW & L'). rewrite RW in E. injection E as -> -> ->.
        exists d'. split; [reflexivity|]. rewrite L'. split; [exact NP|]. exists us'. split; [reflexivity|]. split; [exact (proj1 MV)|]. now apply rewrite_holds.
      - rewrite rewrite_obj, graft_kids_entries, own_ref_dict in E. injection E as -> -> ->. eexists. split; [reflexivity|].
        assert (L2 : forall k2, lookup "$ref" (own_update u p1 (graft_entries k2 d)) = None) by (intros k2; apply PyValFacts.lookup_none; rewrite own_update_keys, keys_graft; now apply PyValFacts.lookup_none).
        rewrite L2. exact D.
    Qed.
    Lemma updated_still u : updated u -> (forall ts ts', moved us uh up uq "3.0.0" a ts ts' -> pointer ts' = pointer ts) -> rewrite_refs u root = root.
    Proof.
      intros (U1 & U2) ID. apply (rewrite_still v30_table u WD30 (no_ref_child v30_table no_ref30) x (BCls "OpenApi") (Some base) root WJ CO).
      intros ts c q d kids r r0 W LU L. apply PyValFacts.lookup_In in LU. destruct (U1 _ _ LU) as (ts2 & c2 & d2 & kids2 & us2 & ts' & W2 & L2 & MV & -> & HO).
      destruct (same_path _ _ _ _ _ _ _ _ _ W W2) as (<- & EQ). injection EQ as <- <- <-. rewrite (ID _ _ MV). congruence.
    Qed.
  End Doc30.

  (** ** opening *)
  Lemma through_20 : versions_through known3 "2.0" "2.0" = Ok ["2.0"]. Proof. vm_compute. reflexivity. Qed.
  Lemma through_30 : versions_through known3 "3.0.0" "3.0.0" = Ok ["3.0.0"]. Proof. vm_compute. reflexivity. Qed.
  Lemma through_2030 : versions_through known3 "2.0" "3.0.0" = Ok ["2.0"; "3.0.0"]. Proof. vm_compute. reflexivity. Qed.
  Notation opening V := (open_document path2url abspath app_url known3 fetch upgrade prepare V (S f) url (fresh_app known3)).
  Lemma migrate_run o V w vs a a' t o' : In V known3 -> swagger_version o = Ok w -> versions_through known3 w V = Ok vs ->
    rounds upgrade prepare ask url url vs o "#" w a = (a', t, Ok o') -> exists a'', migrate_obj path2url abspath known3 upgrade prepare ask o url V a = (a'', Ok o').
  Proof.
    intros IV SW VT RD. unfold migrate_obj, migrate_traced. assert (SI : str_in V known3 = true) by (unfold str_in; apply existsb_exists; exists V; split; [exact IV|apply String.eqb_refl]).
    rewrite SI. cbn [negb]. rewrite SW. cbn [bind]. rewrite VT. cbn [bind]. rewrite split_here. cbn [bind]. rewrite RD. eexists. reflexivity.
  Qed.
  Lemma opening_run V v d root a' t o' vs : In V known3 -> In v ["2.0"; "3.0.0"] -> fetch url = Ok (JDict d) -> SpecApp.declares d (JStr v) ->
    construct (table_of v) (JDict d) (BCls (root_class v)) (Some url) [] = Ok root -> versions_through known3 v V = Ok vs ->
    rounds upgrade prepare ask url url vs (mk_sobj v root []) "#" v (at_ [(v, mk_sobj v root [])] [] v [EParse url "#"]) = (a', t, Ok o') -> exists a'', opening V = (a'', Ok o').
  Proof.
    intros IV Iv FE DE CO VT RD. destruct (construct_cls_obj _ _ _ _ _ CO) as (kids & ->).
    assert (LD := load_fresh path2url abspath fetch us uh up uq CU v d _ Iv FE DE CO ltac:(do 4 eexists; reflexivity)).
    assert (RT : is_root (mk_sobj v (OObj (root_class v) (Some url) (JDict d) kids) []) = true) by (destruct Iv as [<-|[<-|[]]]; reflexivity). rewrite RT in LD.
    unfold open_document, bindm. rewrite LD. refine (migrate_run _ V v vs _ a' t o' IV _ VT RD). reflexivity.
  Qed.
  Theorem opens_20 d root : fetch url = Ok (JDict d) -> SpecApp.declares d (JStr "2.0") -> wf_json (JDict d) -> construct v20_table (JDict d) (BCls "Swagger") (Some url) [] = Ok root ->
    unmixed root -> self_contained "2.0" root -> exists a, opening "2.0" = (a, Ok (mk_sobj "2.0" root [])).
  Proof.
    intros FE DE WJ CO UN SC. eapply opening_run; [cbn; auto|left; reflexivity|exact FE|exact DE|exact CO|exact through_20|].
    cbn [rounds]. rewrite (round20 d root WJ CO UN SC). reflexivity.
  Qed.
  Theorem opens_30 d root : fetch url = Ok (JDict d) -> SpecApp.declares d (JStr "3.0.0") -> wf_json (JDict d) -> construct v30_table (JDict d) (BCls "OpenApi") (Some url) [] = Ok root ->
    unmixed root -> no_media_examples root -> self_contained "3.0.0" root -> exists a, opening "3.0.0" = (a, Ok (mk_sobj "3.0.0" root [])).
  Proof.
    intros FE DE WJ CO UN NM SC. eapply opening_run; [cbn; auto|right; left; reflexivity|exact FE|exact DE|exact CO|exact through_30|].
    cbn [rounds]. set (o := mk_sobj "3.0.0" root []). destruct (construct_cls_obj _ _ _ _ _ CO) as (kids & ER). assert (B : so_base o = true) by (unfold o; rewrite ER; reflexivity).
    set (log := [EParse url "#"]). set (a0 := at_ [("3.0.0", o)] [] "3.0.0" log).
    assert (SET : set_obj o url "#" "3.0.0" a0 = (a0, Ok tt)) by (unfold a0; rewrite (set_here us uh up uq o "3.0.0" _ _ _ _ B); reflexivity).
    set (a := at_ [("3.0.0", o)] [(url, rows [] [("#", RMap [])])] "3.0.0" log).
    assert (RTS : put_routes url "3.0.0" [("#", RMap [])] a0 = (a, Ok tt)) by (unfold a0; rewrite (routes_first us uh up uq "3.0.0" _ _ _ _ (or_intror (or_introl eq_refl))); reflexivity).
    assert (ST : stored us uh up uq a "3.0.0" o) by (apply stored_at; reflexivity).
    assert (ID : forall ts ts', moved us uh up uq "3.0.0" a ts ts' -> pointer ts' = pointer ts) by (intros ts ts' (_ & E); cbn in E; symmetry; exact (Ok_inj_local _ _ E)).
    assert (RF : references "3.0.0" (fun ts => exists ts', moved us uh up uq "3.0.0" a ts ts' /\ holds_object root ts') root).
    { intros ts c p s0 k W I. destruct (SC ts c p s0 k W I) as (d0 & -> & D). exists d0. split; [reflexivity|]. destruct (lookup "$ref" d0); [|exact D]. destruct D as (NP & us0 & -> & NE & G).
      split; [exact NP|]. exists us0. split; [reflexivity|]. split; [exact NE|]. exists us0. split; [|exact G]. split; [exact NE|reflexivity]. }
    assert (NB : url <> "") by exact (url_ne us uh up uq CU).
    destruct (finish a0 a0 a (JDict d) root url [] WJ CO UN NM SET RTS ST RF) as (u & U & RUN).
    assert (EQ : rewrite_sobj u o = o) by (unfold rewrite_sobj, o; cbn [so_obj so_version so_apis]; rewrite (updated_still a (JDict d) root url WJ CO NB u U ID); reflexivity).
    fold o in RUN. rewrite EQ in RUN. specialize (RUN a). unfold a in RUN at 1. rewrite (set_here us uh up uq o "3.0.0" _ _ _ _ B) in RUN. specialize (RUN eq_refl). fold o in RUN.
    assert (RD : round upgrade prepare ask url url o "#" "3.0.0" "3.0.0" a0 = (a, Ok (o, "#"))).
    { unfold round. change (upgrade "3.0.0") with (Some (upgrade300 path2url abspath app_url merge_fuel from20)). cbv iota. unfold bindm at 1. unfold upgrade300. rewrite split_here. cbn [so_version o String.eqb Ascii.eqb Bool.eqb].
      fold o. rewrite RUN. unfold bindm at 1. unfold a at 1. rewrite (routes_again us uh up uq "3.0.0" _ _ _ _ _ _ (or_intror (or_introl eq_refl))). cbn [String.eqb Ascii.eqb Bool.eqb dict_update fold_left dict_set fst snd].
      unfold bindm at 1. rewrite (relocate_here us uh up uq "3.0.0" _ _ _ _ _ (or_intror (or_introl eq_refl))).
      unfold bindm at 1, lift at 1, prepare at 1. unfold bindm at 1. rewrite (set_here us uh up uq o "3.0.0" _ _ _ _ B). reflexivity. }
    rewrite RD. reflexivity.
  Qed.

  Theorem opens_2030 d root root30 x reloc : fetch url = Ok (JDict d) -> SpecApp.declares d (JStr "2.0") -> wf_json (JDict d) -> construct v20_table (JDict d) (BCls "Swagger") (Some url) [] = Ok root ->
    unmixed root -> self_contained "2.0" root ->
    from20 (mk_sobj "2.0" root []) url "#" [] = Ok (mk_sobj "3.0.0" root30 [], reloc) -> wf_json x -> construct v30_table x (BCls "OpenApi") (Some "#") [] = Ok root30 ->
    unmixed root30 -> no_media_examples root30 ->
    references "3.0.0" (fun ts => exists ts', ts' <> [] /\ patch_jp (pointer ts) [("#", RMap reloc)] = Ok (pointer ts') /\ holds_object root30 ts') root30 ->
    exists a u, opening "3.0.0" = (a, Ok (mk_sobj "3.0.0" (rewrite_refs u root30) [])) /\ self_contained "3.0.0" (rewrite_refs u root30) /\
      forall ts c p d kids us0, within root30 ts (OObj c p (JDict d) kids) -> In c (referring_classes "3.0.0") -> lookup "$ref" d = Some (JStr (pointer us0)) ->
        exists us' d' kids', patch_jp (pointer us0) [("#", RMap reloc)] = Ok (pointer us') /\
          within (rewrite_refs u root30) ts (OObj c p (JDict d') kids') /\ lookup "$ref" d' = Some (JStr (pointer us')).
  Proof.
    intros FE DE WJ CO UN SC F20 WX CX UX NMX RX.
    set (o := mk_sobj "2.0" root []) in *. set (o30 := mk_sobj "3.0.0" root30 []) in *. set (log := [EParse url "#"]).
    assert (B30 : forall u, so_base (rewrite_sobj u o30) = true) by (intros u; destruct (construct_cls_obj _ _ _ _ _ CX) as (kids & ->); reflexivity).
    assert (B : so_base o30 = true) by (destruct (construct_cls_obj _ _ _ _ _ CX) as (kids & ->); reflexivity).
    set (a0 := at_ [("2.0", o)] [(url, rows [("#", RMap [])] [])] "2.0" log). set (a1 := at_ [("2.0", o); ("3.0.0", o30)] [(url, rows [("#", RMap [])] [])] "2.0" log).
    set (a := at_ [("2.0", o); ("3.0.0", o30)] [(url, rows [("#", RMap [])] [("#", RMap reloc)])] "2.0" log).
    assert (SET : set_obj o30 url "#" "3.0.0" a0 = (a1, Ok tt)) by (unfold a0; rewrite (set_here us uh up uq o30 "3.0.0" _ _ _ _ B); reflexivity).
    assert (RTS : put_routes url "3.0.0" [("#", RMap reloc)] a1 = (a, Ok tt)) by (unfold a1; rewrite (routes_again us uh up uq "3.0.0" _ _ _ _ _ _ (or_intror (or_introl eq_refl))); reflexivity).
    assert (ST : stored us uh up uq a "3.0.0" o30) by (apply stored_at; reflexivity).
    assert (RL : forall jp, store_relocate (a_store a) url jp "2.0" (Some "3.0.0") = patch_jp jp [("#", RMap reloc)]).
    { intros jp. unfold store_relocate, a. cbn [a_store s_routes LocalFacts.at_ lookup]. rewrite String.eqb_refl. cbn [truthy_str]. change (mem "3.0.0" (rows [("#", RMap [])] [("#", RMap reloc)])) with true. cbv iota.
      change (strict_version "2.0") with (@Ok ver [2; 0; 0; 2; 0]). change (strict_version "3.0.0") with (@Ok ver [3; 0; 0; 2; 0]). cbn [bind].
      unfold rows. cbn [relocate_loop]. change (strict_version "2.0") with (@Ok ver [2; 0; 0; 2; 0]). change (strict_version "1.2") with (@Ok ver [1; 2; 0; 2; 0]). change (strict_version "3.0.0") with (@Ok ver [3; 0; 0; 2; 0]). cbn [bind].
      change (ver_ltb [2; 0; 0; 2; 0] [1; 2; 0; 2; 0]) with false. change (ver_ltb [2; 0; 0; 2; 0] [2; 0; 0; 2; 0]) with false. change (ver_ltb [2; 0; 0; 2; 0] [3; 0; 0; 2; 0]) with true. change (ver_ltb [3; 0; 0; 2; 0] [3; 0; 0; 2; 0]) with false. cbn [negb].
      destruct (patch_jp jp [("#", RMap reloc)]); reflexivity. }
    assert (MV : forall ts ts', moved us uh up uq "3.0.0" a ts ts' <-> ts' <> [] /\ patch_jp (pointer ts) [("#", RMap reloc)] = Ok (pointer ts')).
    { intros ts ts'. unfold moved. cbn zeta. change (if String.eqb "3.0.0" "2.0" then "2.0" else from30 (a_original a)) with "2.0". change (String.eqb "2.0" "3.0.0") with false. cbv iota. rewrite RL. reflexivity. }
    assert (RF : references "3.0.0" (fun ts => exists ts', moved us uh up uq "3.0.0" a ts ts' /\ holds_object root30 ts') root30).
    { intros ts c p s0 k W I. destruct (RX ts c p s0 k W I) as (d0 & -> & D). exists d0. split; [reflexivity|]. destruct (lookup "$ref" d0); [|exact D]. destruct D as (NP & us0 & -> & NE & ts' & NE' & P & HO).
      split; [exact NP|]. exists us0. split; [reflexivity|]. split; [exact NE|]. exists ts'. split; [|exact HO]. apply MV. auto. }
    assert (NB : "#" <> "") by discriminate.
    destruct (finish a0 a1 a x root30 "#" reloc WX CX UX NMX SET RTS ST RF) as (u & U & RUN). fold o30 in RUN.
    set (o' := rewrite_sobj u o30) in *. set (a3 := at_ [("2.0", o); ("3.0.0", o')] [(url, rows [("#", RMap [])] [("#", RMap reloc)])] "2.0" log).
    specialize (RUN a3). unfold a in RUN at 1. rewrite (set_here us uh up uq o' "3.0.0" _ _ _ _ (B30 u)) in RUN. specialize (RUN eq_refl).
    destruct (patch_jp_total "#" [("#", RMap reloc)]) as (jp' & PJ).
    assert (RD : exists a4, round upgrade prepare ask url url o "#" "2.0" "3.0.0" a0 = (a4, Ok (o', jp'))).
    { unfold round. change (upgrade "3.0.0") with (Some (upgrade300 path2url abspath app_url merge_fuel from20)). cbv iota. unfold bindm at 1. unfold upgrade300. rewrite split_here. change (so_version o) with "2.0". cbn [String.eqb Ascii.eqb Bool.eqb run].
      unfold bindm at 1, get_under at 1. assert (GU : store_get_under (a_store a0) url "#" "3.0.0" false = (a_store a0, Ok (Some []))) by (unfold store_get_under, a0; cbn [a_store s_objs LocalFacts.at_ lookup andb]; rewrite String.eqb_refl; reflexivity).
      rewrite GU. change (with_store a0 (a_store a0)) with a0. cbn [overrides map]. rewrite F20. rewrite RUN. unfold bindm at 1. unfold a3 at 1.
      rewrite (routes_again us uh up uq "3.0.0" _ _ _ _ _ _ (or_intror (or_introl eq_refl))). cbn [String.eqb Ascii.eqb Bool.eqb dict_update fold_left dict_set fst snd]. fold a3.
      unfold bindm at 1, relocate at 1. change (store_relocate (a_store a3) url "#" "2.0" (Some "3.0.0")) with (store_relocate (a_store a) url "#" "2.0" (Some "3.0.0")). rewrite RL, PJ.
      unfold bindm at 1, lift at 1, prepare at 1. unfold bindm at 1, set_obj at 1, store_set at 1. assert (BB : so_base o' = true) by exact (B30 u). rewrite BB. eexists. reflexivity. }
    destruct RD as (a4 & RD).
    assert (OP : exists a'', opening "3.0.0" = (a'', Ok o')).
    { eapply opening_run; [cbn; auto|left; reflexivity|exact FE|exact DE|exact CO|exact through_2030|]. fold o. cbn [rounds]. rewrite (round20 d root WJ CO UN SC). fold o. fold log. fold a0. rewrite RD. reflexivity. }
    destruct OP as (a5 & OP). exists a5, u. split; [exact OP|]. split; [exact (updated_contained a x root30 "#" CX NB RF u U)|].
    intros ts c p d0 kids us0 W IC L. destruct (updated_at a x root30 "#" CX NB u ts c p d0 kids us0 U W IC L) as (us' & d' & kids' & M & HO & RW & L').
    exists us', d', kids'. split; [apply MV, M|]. split; [|exact L']. rewrite <- RW. now apply rewrite_within.
  Qed.
End Opens.
