(** Swagger 1.2 applications open: loading the listing and its declarations, the rounds of the migration. *)
From Coq Require Import String Ascii List Bool Arith Lia.
From Verif Require Import PyStr PyStrFacts PyVal PyValFacts Jp JpFacts UrlLib Urls SpecUrl UrlFacts UrlFacts2 Obj ObjFacts ShapeFacts Classes_v1_2 Classes_v2_0 Classes_v3_0_0 SpecJson SpecObj SpecScan TablesFacts DumpFacts ResolveFacts Scan TraverseFacts
  PropertiesObjAux PropertiesScanAux Store StoreFacts App SpecApp AppFacts AppFacts2 AppFacts4 AppFacts5 Main SpecDoc SpecRefs SpecLocal SpecOpen WfFacts RelocFacts RefFacts OpenFacts OpenFacts2 OverrideFacts MainFacts RewriteFacts RewriteFacts2 RewriteFacts3 TaskFacts QuietFacts LocalFacts LocalFacts2
  SpecFollow Up12 SpecUp12 SpecOpen12 Up12Facts Whole SpecTables.
Import ListNotations.
Open Scope string_scope. Open Scope nat_scope.

Lemma typed_shaped_in T (P : string -> doc -> Prop) b j : SpecFollow.typed T P b j -> shaped T b j.
Proof.
  intros H. induction H as [s|b l _ IH|b d _ IH|c cd d L Pc H IH R|r b d v L H IH|r b d L H IH|b v|b j N H IH].
  - constructor.
  - now constructor.
  - now constructor.
  - eapply sh_object; [exact L|exact IH|]. intros ch I1 I2. destruct (ch_required ch) eqn:E; [|reflexivity]. now elim (R ch I1 E).
  - apply sh_ref; [|exact IH]. apply py_in_true. cbn [py_in]. unfold mem. now rewrite L.
  - assert (X : py_in "$ref" (JDict d) = Ok false) by (cbn [py_in]; unfold mem; now rewrite L). apply py_in_false in X as [X1 X2]. now apply sh_noref.
  - constructor.
  - now apply sh_nobool.
Qed.
Section Load.
  Variables (fetch : string -> res json) (url : string).
  (** the urls of the declarations *)
  Definition decl_url (n : string) : string := url_join (url_dirname url) n.
  Definition last_url (u0 : string) (names : list string) : string := fold_left (fun _ n => decl_url n) names u0.
  Lemma paths_of es : forall l names, Forall2 (fun v e => exists p, construct v12_table v (BCls "ResourceInListing") p [] = Ok e) l es ->
    Forall2 (fun r name => exists d path, r = JDict d /\ lookup "path" d = Some (JStr path) /\ name = sdrop 1 path) l names ->
    exists ps, mapM (fun e => match e with
                   | OObj c' p' s' kids' =>
                       match lookup c' v12_table with
                       | None => Err KeyError
                       | Some cd' => x <- getattr_ v12_table cd' p' s' kids' "path" ;; match x with OPrim j => Ok j | _ => Err TypeError end
                       end
                   | _ => Err AttributeError
                   end) es = Ok ps /\ Forall2 (fun j n => exists path, j = JStr path /\ n = sdrop 1 path) ps names.
  Proof.
    induction es as [|e es IH]; intros l names F G; inversion F as [|v e' l' es' [p C] F']; subst.
    - inversion G; subst. exists []. split; [reflexivity|constructor].
    - inversion G as [|r n l1 names' (d & path & -> & L & ->) G']; subst. destruct (IH _ _ F' G') as (ps & E & FP).
      destruct (made_shape "ResourceInListing" _ e (ex_intro _ p C)) as (p0 & kids & cd & -> & Lc & _).
      assert (FG := field12_is "ResourceInListing" (JDict d) _ "path" _ (ex_intro _ p C) eq_refl). unfold field12, attr12 in FG. rewrite Lc in FG.
      assert (FV : field_get (fld "path") (JDict d) = Ok (JStr path)) by (unfold field_get; cbn; unfold mem; rewrite L; reflexivity).
      exists (JStr path :: ps). split; [|constructor; eauto]. cbn [mapM]. rewrite Lc. rewrite FV in FG. destruct (getattr_ v12_table cd p0 (JDict d) kids "path") as [x|]; cbn [bind] in *; [|discriminate FG].
      destruct x as [j| | |]; try discriminate FG. apply Ok_inj in FG. subst j. cbn [bind]. rewrite E. reflexivity.
  Qed.
  Lemma resource_paths_of d p listing names : construct v12_table (JDict d) (BCls "ResourceListing") p [] = Ok listing -> SpecOpen.listed d names ->
    exists ps, resource_paths listing = Ok ps /\ Forall2 (fun j n => exists path, j = JStr path /\ n = sdrop 1 path) ps names.
  Proof.
    intros C (rs & L & F). assert (M : made "ResourceListing" (JDict d) listing) by (exists p; exact C).
    destruct (attr12_child "ResourceListing" (JDict d) listing "apis" (BListOf (BCls "ResourceInListing")) M eq_refl) as (x & A & K).
    destruct (made_shape _ _ _ M) as (p0 & kids & cd & -> & Lc & _). unfold attr12 in A. unfold resource_paths. rewrite Lc in *. rewrite A. cbn [bind].
    apply child_list in K. unfold get in K. cbn [fields] in K. rewrite L in K. destruct K as [[K _]|(l & p1 & es & G & -> & FE)]; [discriminate K|]. injection G as <-. exact (paths_of es rs names FE F).
  Qed.
  Lemma apis_loaded ps names ds : Forall2 (fun j n => exists path, j = JStr path /\ n = sdrop 1 path) ps names -> NoDup names ->
    Forall2 (fun n nd => fst nd = n /\ decl_url n <> url /\ fetch (decl_url n) = Ok (snd nd)) names ds ->
    Forall (fun nd => SpecFollow.typed v12_table (fun _ _ => True) (BCls "ApiDeclaration") (snd nd)) ds ->
    forall acc u0, (forall n, In n names -> lookup n acc = None) ->
    exists apis, Forall2 (fun d a => fst d = fst a /\ made "ApiDeclaration" (snd d) (snd a)) ds apis /\
      foldM (fun acc p =>
             match p with
             | JStr u =>
                 let name := sdrop 1 u in
                 let url := decl_url name in
                 spec <- fetch url ;;
                 match spec with
                 | JNull => Err PyException
                 | _ => o <- construct v12_table spec (BCls "ApiDeclaration") (sub_path (Some url) name) [] ;;
                        Ok (dict_set name o (fst acc), url)
                 end
             | _ => Err TypeError
             end) ps (acc, u0) = Ok ((acc ++ apis)%list, last_url u0 names).
  Proof.
    intros F. revert ds. induction F as [|j n ps names (path & -> & ->) F IH]; intros ds ND G TY acc u0 NA; inversion G as [|n' nd names' ds' (En & Nu & Fe) G']; subst.
    - exists []. split; [constructor|]. cbn [foldM last_url fold_left]. now rewrite app_nil_r.
    - inversion ND as [|? ? NI ND']; subst. inversion TY as [|? ? T TY']; subst. set (n := sdrop 1 path) in *.
      destruct (proj2 (construct_shaped v12_table (snd nd) (BCls "ApiDeclaration") (sub_path (Some (decl_url n)) n)) (typed_shaped_in _ _ _ _ T)) as (o & C).
      destruct (IH ds' ND' G' TY' (dict_set n o acc) (decl_url n)) as (apis & FA & E).
      { intros m Im. rewrite PyValFacts.lookup_dict_set_ne; [apply NA; now right|]. intros Q. apply NI. change (In n names). rewrite Q. exact Im. }
      exists ((n, o) :: apis). split; [constructor; [split; [exact En|exists (sub_path (Some (decl_url n)) n); exact C]|exact FA]|].
      assert (Fe1 : fetch (decl_url n) = Ok (snd nd)) by exact Fe. cbn [foldM]. cbv zeta. change (sdrop 1 path) with n. rewrite Fe1. cbn [bind]. rewrite C. cbn [bind fst].
      assert (NN : snd nd <> JNull) by (inversion T; congruence). rewrite (dict_set_fresh n o acc (NA n (or_introl eq_refl))) in E |- *.
      rewrite <- app_assoc in E. cbn [List.app] in E. cbn [last_url fold_left]. destruct (snd nd); [congruence| | | | | |]; exact E.
  Qed.
  Lemma last_in u0 names : names <> [] -> exists n, In n names /\ last_url u0 names = decl_url n.
  Proof.
    revert u0. induction names as [|n names IH]; [congruence|]. intros u0 _. destruct names as [|m names]; [exists n; split; [now left|reflexivity]|].
    destruct (IH (decl_url n)) as (x & I & E); [discriminate|]. exists x. split; [now right|exact E].
  Qed.
End Load.

Section Open12.
  Variables (path2url abspath : string -> string) (app_url : string) (fetch : string -> res json) (merge_fuel f : nat)
    (from12 : sobj -> res sobj) (from20 : sobj -> string -> string -> override -> res (sobj * routes)).
  Variables (us uh up uq : string).
  Hypothesis CU : clean_url us uh up uq.
  Notation url := (abs_url us uh up uq).
  Let upgrade := modules path2url abspath app_url merge_fuel from12 from20.
  Let prepare := fun (o : sobj) (_ : string) => Ok o.
  Let ask := resolve_obj path2url abspath app_url known3 fetch upgrade prepare (S f).
  Variables (last : string) (o12 : sobj).
  Hypothesis NL : last <> url.
  Hypothesis B12 : so_base o12 = true.
  (** the listing is also stored under the url of the last declaration *)
  Definition st12 (vs : list (string * sobj)) (R : list (string * list (string * routes))) (log : list event) : app :=
    mk_app (mk_store ((last, [("#", [("1.2", o12)])]) :: match vs with [] => [] | _ => [(url, [("#", vs)])] end) R known3) "1.2" None log.
  Definition rows12 (r1 r2 r3 : routes) : list (string * list (string * routes)) := [(url, [("1.2", r1); ("2.0", r2); ("3.0.0", r3)])].
  Lemma nl_eqb : String.eqb url last = false. Proof. apply String.eqb_neq. congruence. Qed.
  Lemma set12 o v vs R log : so_base o = true -> set_obj o url "#" v (st12 vs R log) = (st12 (dict_set v o vs) R log, Ok tt).
  Proof.
    intros B. unfold set_obj, store_set. rewrite B. unfold st12, with_store. cbn [a_store a_original a_current a_log s_objs s_routes s_versions]. unfold sub.
    destruct vs as [|[v0 o0] vs]; cbn [lookup dict_set]; rewrite nl_eqb; cbn [lookup dict_set]; rewrite ?String.eqb_refl; cbn [lookup dict_set]; [reflexivity|].
    change (String.eqb "#" "#") with true. cbv iota. cbn [dict_set]. destruct (String.eqb v v0); reflexivity.
  Qed.
  Lemma st_stored vs R log v o : lookup v vs = Some o -> stored us uh up uq (st12 vs R log) v o.
  Proof. intros L. exists vs. split; [|exact L]. destruct vs as [|kv vs]; [discriminate L|]. cbn [st12 a_store s_objs lookup]. rewrite nl_eqb, String.eqb_refl. reflexivity. Qed.
  Lemma routes12_first vs log : put_routes url "1.2" [("#", RMap [])] (st12 vs [] log) = (st12 vs (rows12 [("#", RMap [])] [] []) log, Ok tt).
  Proof. reflexivity. Qed.
  Lemma routes12_2 vs r1 r2 r3 rs log : put_routes url "2.0" rs (st12 vs (rows12 r1 r2 r3) log) = (st12 vs (rows12 r1 (dict_update r2 rs) r3) log, Ok tt).
  Proof. unfold put_routes, store_update_routes, st12, with_store, rows12. cbn [a_store a_original a_current a_log s_objs s_routes s_versions lookup dict_set]. rewrite String.eqb_refl. cbn [lookup dict_set String.eqb Ascii.eqb Bool.eqb]. reflexivity. Qed.
  Lemma routes12_3 vs r1 r2 r3 rs log : put_routes url "3.0.0" rs (st12 vs (rows12 r1 r2 r3) log) = (st12 vs (rows12 r1 r2 (dict_update r3 rs)) log, Ok tt).
  Proof. unfold put_routes, store_update_routes, st12, with_store, rows12. cbn [a_store a_original a_current a_log s_objs s_routes s_versions lookup dict_set]. rewrite String.eqb_refl. cbn [lookup dict_set String.eqb Ascii.eqb Bool.eqb]. reflexivity. Qed.

  Lemma round12 log : round upgrade prepare ask url url o12 "#" "1.2" "1.2" (st12 [] [] log) = (st12 [("1.2", o12)] (rows12 [("#", RMap [])] [] []) log, Ok (o12, "#")).
  Proof.
    unfold round. change (upgrade "1.2") with (Some (fun (o : sobj) (_ : string) => Done (Ok (o, [] : routes)))). cbv iota. cbn [run]. unfold bindm at 1, lift at 1. unfold bindm at 1. rewrite routes12_first.
    unfold bindm at 1, relocate at 1. assert (RL : store_relocate (a_store (st12 [] (rows12 [("#", RMap [])] [] []) log)) url "#" "1.2" (Some "1.2") = Ok "#").
    { unfold store_relocate, st12, rows12. cbn [a_store s_routes lookup]. rewrite String.eqb_refl. vm_compute. reflexivity. }
    rewrite RL. unfold bindm at 1, lift at 1, prepare at 1. unfold bindm at 1. rewrite set12 by exact B12. reflexivity.
  Qed.

  Section Doc20.
    Variables (d : list (string * json)) (root : obj).
    Hypothesis WJ : wf_json (JDict d).
    Hypothesis CO : construct v20_table (JDict d) (BCls "Swagger") (Some "#") [] = Ok root.
    Hypothesis SC : self_contained "2.0" root.
    Let o := mk_sobj "2.0" root [].
    Hypothesis V12 : so_version o12 = "1.2".
    Hypothesis F12 : from12 o12 = Ok o.
    Let vs2 := [("1.2", o12); ("2.0", o)].
    Lemma base20 : so_base o = true. Proof. destruct (construct_cls_obj _ _ _ _ _ CO) as (kids & E). unfold o. rewrite E. reflexivity. Qed.
    Lemma media20 : no_media_examples root.
    Proof.
      intros ts p s kids W. exfalso.
      destruct (within_resolve v20_table ts (repo_wd _ rt_v20) _ _ _ _ _ CO W) as (_ & _ & j' & b' & _ & C); [intros (? & [=])|].
      apply built_class in C. discriminate C.
    Qed.
    Lemma run20_12 R log : run ask (upgrade20 path2url abspath app_url merge_fuel from12 o12 url) (st12 [("1.2", o12)] R log) = (st12 vs2 R log, Ok (o, [])).
    Proof.
      unfold upgrade20. rewrite V12. change (String.eqb "1.2" "1.2") with true. cbv iota. rewrite F12. change (so_version o) with "2.0". change (String.eqb "2.0" "2.0") with true. cbv iota.
      rewrite (split_here path2url abspath us uh up uq CU). set (a := st12 vs2 R log).
      assert (SET0 : forall k : prog (sobj * routes), run ask (Cache o url "#" "2.0" k) (st12 [("1.2", o12)] R log) = run ask k a).
      { intros k. cbn [run]. unfold bindm. rewrite (set12 o "2.0" _ _ _ base20). reflexivity. }
      assert (SET : forall k : prog (sobj * routes), run ask (Cache o url "#" "2.0" k) a = run ask k a).
      { intros k. cbn [run]. unfold bindm. unfold a at 1. rewrite (set12 o "2.0" _ _ _ base20). reflexivity. }
      rewrite SET0.
      assert (RF : references "2.0" (fun ts => exists ts', moved us uh up uq "2.0" a ts ts' /\ holds_object root ts') root).
      { intros ts c p s0 k W I. destruct (SC ts c p s0 k W I) as (d0 & -> & D). exists d0. split; [reflexivity|]. destruct (lookup "$ref" d0); [|exact D]. destruct D as (NP & us0 & -> & NE & G).
        split; [exact NP|]. exists us0. split; [reflexivity|]. split; [exact NE|]. exists us0. split; [|exact G]. split; [exact NE|reflexivity]. }
      assert (ST : stored us uh up uq a "2.0" o) by (apply st_stored; reflexivity).
      assert (UN : unmixed root) by exact (even_built _ _ _ _ _ (or_intror eq_refl) CO).
      destruct (phase path2url abspath app_url fetch upgrade prepare f us uh up uq CU "2.0" a o (JDict d) "Swagger" (Some "#") (or_introl eq_refl) WJ eq_refl CO UN media20 ST RF)
        as (vis & l & u & TR & AT & QS & VW & _ & RUN).
      unfold visited. change v20_table with (table_of "2.0"). cbn [so_obj o]. cbn [so_obj o] in TR. rewrite TR.
      rewrite (normalize_ok us uh up uq CU "2.0" a o (JDict d) "Swagger" (Some "#") (or_introl eq_refl) eq_refl CO ST RF (map snd vis) VW).
      rewrite SET. unfold ask. rewrite RUN. rewrite (merge_ok' path2url abspath app_url us uh up uq CU "2.0" a o (JDict d) "Swagger" (Some "#") (or_introl eq_refl) eq_refl CO ST RF merge_fuel (map snd vis) _ VW). reflexivity.
    Qed.
    Lemma round20_12 log : round upgrade prepare ask url url o12 "#" "1.2" "2.0" (st12 [("1.2", o12)] (rows12 [("#", RMap [])] [] []) log) =
      (st12 vs2 (rows12 [("#", RMap [])] [("#", RMap [])] []) log, Ok (o, "#")).
    Proof.
      unfold round. change (upgrade "2.0") with (Some (upgrade20 path2url abspath app_url merge_fuel from12)). cbv iota. unfold bindm at 1. rewrite run20_12.
      unfold bindm at 1. rewrite routes12_2. change (dict_update [] [("#", RMap [])]) with [("#", RMap [])].
      unfold bindm at 1, relocate at 1. assert (RL : store_relocate (a_store (st12 vs2 (rows12 [("#", RMap [])] [("#", RMap [])] []) log)) url "#" "1.2" (Some "2.0") = Ok "#").
      { unfold store_relocate, st12, rows12. cbn [a_store s_routes lookup]. rewrite String.eqb_refl. vm_compute. reflexivity. }
      rewrite RL. unfold bindm at 1, lift at 1, prepare at 1. unfold bindm at 1. rewrite (set12 o "2.0" _ _ _ base20). reflexivity.
    Qed.
    Section Doc30.
      Variables (x : json) (root30 : obj) (reloc : routes).
      Hypothesis F20 : from20 o url "#" [] = Ok (mk_sobj "3.0.0" root30 [], reloc).
      Hypothesis WX : wf_json x.
      Hypothesis CX : construct v30_table x (BCls "OpenApi") (Some "#") [] = Ok root30.
      Hypothesis UX : unmixed root30.
      Hypothesis NMX : no_media_examples root30.
      Hypothesis RX : references "3.0.0" (fun ts => exists ts', ts' <> [] /\ patch_jp (pointer ts) [("#", RMap reloc)] = Ok (pointer ts') /\ holds_object root30 ts') root30.
      Lemma round30_12 log : exists a u jp', round upgrade prepare ask url url o "#" "2.0" "3.0.0" (st12 vs2 (rows12 [("#", RMap [])] [("#", RMap [])] []) log) = (a, Ok (mk_sobj "3.0.0" (rewrite_refs u root30) [], jp')) /\
        self_contained "3.0.0" (rewrite_refs u root30) /\
        forall ts c p d kids us0, within root30 ts (OObj c p (JDict d) kids) -> In c (referring_classes "3.0.0") -> lookup "$ref" d = Some (JStr (pointer us0)) ->
          exists us' d' kids', patch_jp (pointer us0) [("#", RMap reloc)] = Ok (pointer us') /\
            within (rewrite_refs u root30) ts (OObj c p (JDict d') kids') /\ lookup "$ref" d' = Some (JStr (pointer us')).
      Proof.
        set (o30 := mk_sobj "3.0.0" root30 []) in *. set (r0 := [("#", RMap [])]).
        assert (B30 : forall u, so_base (rewrite_sobj u o30) = true) by (intros u; destruct (construct_cls_obj _ _ _ _ _ CX) as (kids & ->); reflexivity).
        assert (B : so_base o30 = true) by (destruct (construct_cls_obj _ _ _ _ _ CX) as (kids & ->); reflexivity).
        set (a0 := st12 vs2 (rows12 r0 r0 []) log). set (a1 := st12 (vs2 ++ [("3.0.0", o30)])%list (rows12 r0 r0 []) log).
        set (a := st12 (vs2 ++ [("3.0.0", o30)])%list (rows12 r0 r0 [("#", RMap reloc)]) log).
        assert (SET : set_obj o30 url "#" "3.0.0" a0 = (a1, Ok tt)) by (unfold a0; rewrite (set12 o30 "3.0.0" _ _ _ B); reflexivity).
        assert (RTS : put_routes url "3.0.0" [("#", RMap reloc)] a1 = (a, Ok tt)) by (unfold a1; rewrite routes12_3; reflexivity).
        assert (ST : stored us uh up uq a "3.0.0" o30) by (apply st_stored; reflexivity).
        assert (RL : forall jp, store_relocate (a_store a) url jp "2.0" (Some "3.0.0") = patch_jp jp [("#", RMap reloc)]).
        { intros jp. unfold store_relocate, a, rows12. cbn [a_store s_routes st12 lookup]. rewrite String.eqb_refl. cbn [truthy_str]. change (mem "3.0.0" [("1.2", r0); ("2.0", r0); ("3.0.0", [("#", RMap reloc)])]) with true. cbv iota.
          change (strict_version "2.0") with (@Ok ver [2; 0; 0; 2; 0]). change (strict_version "3.0.0") with (@Ok ver [3; 0; 0; 2; 0]). cbn [bind].
          cbn [relocate_loop]. change (strict_version "2.0") with (@Ok ver [2; 0; 0; 2; 0]). change (strict_version "1.2") with (@Ok ver [1; 2; 0; 2; 0]). change (strict_version "3.0.0") with (@Ok ver [3; 0; 0; 2; 0]). cbn [bind].
          change (ver_ltb [2; 0; 0; 2; 0] [1; 2; 0; 2; 0]) with false. change (ver_ltb [2; 0; 0; 2; 0] [2; 0; 0; 2; 0]) with false. change (ver_ltb [2; 0; 0; 2; 0] [3; 0; 0; 2; 0]) with true. change (ver_ltb [3; 0; 0; 2; 0] [3; 0; 0; 2; 0]) with false. cbn [negb].
          destruct (patch_jp jp [("#", RMap reloc)]); reflexivity. }
        assert (MV : forall ts ts', moved us uh up uq "3.0.0" a ts ts' <-> ts' <> [] /\ patch_jp (pointer ts) [("#", RMap reloc)] = Ok (pointer ts')).
        { intros ts ts'. unfold moved. cbn zeta. change (if String.eqb "3.0.0" "2.0" then "2.0" else from30 (a_original a)) with "2.0". change (String.eqb "2.0" "3.0.0") with false. cbv iota. rewrite RL. reflexivity. }
        assert (RF : references "3.0.0" (fun ts => exists ts', moved us uh up uq "3.0.0" a ts ts' /\ holds_object root30 ts') root30).
        { intros ts c p s0 k W I. destruct (RX ts c p s0 k W I) as (d0 & -> & D). exists d0. split; [reflexivity|]. destruct (lookup "$ref" d0); [|exact D]. destruct D as (NP & us0 & -> & NE & ts' & NE' & P & HO).
          split; [exact NP|]. exists us0. split; [reflexivity|]. split; [exact NE|]. exists ts'. split; [|exact HO]. apply MV. auto. }
        assert (NB : "#" <> "") by discriminate.
        destruct (finish path2url abspath app_url fetch merge_fuel f from12 from20 us uh up uq CU a0 a1 a x root30 "#" reloc WX CX UX NMX SET RTS ST RF) as (u & U & RUN). fold upgrade prepare ask in RUN. fold o30 in RUN.
        set (o' := rewrite_sobj u o30) in *. set (a3 := st12 (vs2 ++ [("3.0.0", o')])%list (rows12 r0 r0 [("#", RMap reloc)]) log).
        specialize (RUN a3). unfold a in RUN at 1. rewrite (set12 o' "3.0.0" _ _ _ (B30 u)) in RUN. specialize (RUN eq_refl).
        destruct (patch_jp_total "#" [("#", RMap reloc)]) as (jp' & PJ).
        assert (RD : exists a4, round upgrade prepare ask url url o "#" "2.0" "3.0.0" a0 = (a4, Ok (o', jp'))).
        { unfold round. change (upgrade "3.0.0") with (Some (upgrade300 path2url abspath app_url merge_fuel from20)). cbv iota. unfold bindm at 1. unfold upgrade300. rewrite (split_here path2url abspath us uh up uq CU). change (so_version o) with "2.0". change (String.eqb "2.0" "2.0") with true. cbv iota. cbn [run].
          unfold bindm at 1, get_under at 1. assert (GU : store_get_under (a_store a0) url "#" "3.0.0" false = (a_store a0, Ok (Some []))) by (unfold store_get_under, a0; cbn [a_store s_objs st12 vs2 lookup andb]; rewrite nl_eqb, String.eqb_refl; reflexivity).
          rewrite GU. change (with_store a0 (a_store a0)) with a0. cbn [overrides map]. rewrite F20. rewrite RUN. unfold bindm at 1. unfold a3 at 1.
          rewrite routes12_3. change (dict_update [("#", RMap reloc)] [("#", RMap reloc)]) with [("#", RMap reloc)]. fold a3.
          unfold bindm at 1, relocate at 1. change (store_relocate (a_store a3) url "#" "2.0" (Some "3.0.0")) with (store_relocate (a_store a) url "#" "2.0" (Some "3.0.0")). rewrite RL, PJ.
          unfold bindm at 1, lift at 1, prepare at 1. unfold bindm at 1, set_obj at 1, store_set at 1. assert (BB : so_base o' = true) by exact (B30 u). rewrite BB. eexists. reflexivity. }
        destruct RD as (a4 & RD). exists a4, u, jp'. split; [exact RD|]. split; [exact (updated_contained us uh up uq a x root30 "#" CX NB RF u U)|].
        intros ts c p d0 kids us0 W IC L. destruct (updated_at us uh up uq a x root30 "#" CX NB u ts c p d0 kids us0 U W IC L) as (us' & d' & kids' & M & HO & RW & L').
        exists us', d', kids'. split; [apply MV, M|]. split; [|exact L']. rewrite <- RW. now apply rewrite_within.
      Qed.
    End Doc30.
  End Doc20.
End Open12.
