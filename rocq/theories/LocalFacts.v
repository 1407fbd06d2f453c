(** Documents that only refer to themselves open. *)
From Coq Require Import String Ascii List Bool Arith Lia.
From Verif Require Import PyStr PyStrFacts PyVal PyValFacts Jp JpFacts UrlLib Urls SpecUrl UrlFacts UrlFacts2 Obj ObjFacts Classes_v2_0 Classes_v3_0_0 SpecJson SpecObj SpecScan TablesFacts DumpFacts ResolveFacts Scan TraverseFacts
  PropertiesObjAux PropertiesScanAux Store StoreFacts App SpecApp AppFacts AppFacts2 AppFacts4 AppFacts5 Main SpecDoc SpecRefs SpecLocal SpecOpen WfFacts RelocFacts RefFacts OpenFacts MainFacts RewriteFacts RewriteFacts2 RewriteFacts3 TaskFacts QuietFacts SpecTables.
Import ListNotations.
Open Scope string_scope. Open Scope nat_scope.

Lemma encode_escape s : jp_encode s = rfc_escape s.
Proof. apply rfc_encode. Qed.
Lemma tail_join ts : ts <> [] -> tail_of ts = String "/" (join "/" (map jp_encode ts)).
Proof.
  induction ts as [|t ts IH]; intros NE; [congruence|]. rewrite tail_cons, <- encode_escape. destruct ts as [|t' ts].
  - cbn [map join]. unfold tail_of. cbn [map String.concat]. now rewrite sapp_nil_r.
  - rewrite IH by discriminate. cbn [map join]. reflexivity.
Qed.

Definition known3 : list string := ["1.2"; "2.0"; "3.0.0"].
Section Local.
  Variables (path2url abspath : string -> string) (app_url : string) (fetch : string -> res json)
    (upgrade : string -> option (sobj -> string -> prog (sobj * routes))) (prepare : sobj -> string -> res sobj) (f : nat).
  Variables (us uh up uq : string).
  Hypothesis CU : clean_url us uh up uq.
  Let url := abs_url us uh up uq.
  Let ask := resolve_obj path2url abspath app_url known3 fetch upgrade prepare (S f).
  Lemma url_ne : url <> "". Proof. apply abs_url_ne. now destruct CU. Qed.
  Lemma url_true : truthy_str url = true. Proof. apply truthy_str_true, url_ne. Qed.
  Lemma split_url : split path2url abspath url = Ok (url, "#"). Proof. exact (jr_split_nofrag path2url abspath us uh up uq CU). Qed.
  Lemma split_pointer ts : split path2url abspath (url ++ pointer ts) = Ok (url, pointer ts).
  Proof. exact (jr_split_abs path2url abspath us uh up uq (tail_of ts) CU). Qed.
  Lemma normalize_pointer ts : ts <> [] -> normalize_jr (Some (pointer ts)) (Some url) = Ok (Some (url ++ pointer ts)).
  Proof.
    intros NE. rewrite pointer_tail, (nj_local (tail_of ts) url url_ne). rewrite (tail_join ts NE). reflexivity.
  Qed.

  (** a state with one document *)
  Definition state (vs : list (string * sobj)) (rts : list (string * routes)) (orig : string) (cur : option string) (log : list event) : app :=
    mk_app (mk_store [(url, [("#", vs)])] [(url, rts)] known3) orig cur log.
  Definition stored (a : app) (V : string) (o : sobj) : Prop := exists vs, lookup url (s_objs (a_store a)) = Some [("#", vs)] /\ lookup V vs = Some o.
  Lemma get_stored a V o ts y : stored a V o -> ts <> [] -> resolve (table_of (so_version o)) (so_obj o) ts = Ok y ->
    store_get so_resolve (a_store a) url (pointer ts) V = Ok (Some (mk_sobj (so_version o) y [])).
  Proof.
    intros (vs & E & L) NE R. unfold store_get, sub. rewrite E. cbn [first_match].
    assert (SW : startswith "#" (pointer ts) = true) by reflexivity. rewrite SW, L.
    assert (SD : sdrop (String.length "#") (pointer ts) = tail_of ts) by reflexivity. rewrite SD, (tail_join ts NE), (tl_jp_split ts NE).
    unfold so_resolve. rewrite R. reflexivity.
  Qed.
  (** a reference to an object of the document *)
  Lemma ask_local a V q o ts ts' y : stored a V o -> q_jref q = (url ++ pointer ts)%string -> target_version q = V -> ts' <> [] ->
    (if String.eqb (q_from q) V then Ok (pointer ts) else store_relocate (a_store a) url (pointer ts) (q_from q) (Some V)) = Ok (pointer ts') ->
    resolve (table_of (so_version o)) (so_obj o) ts' = Ok y -> is_object y ->
    ask q a = (a, Ok (mk_sobj (so_version o) y [], (url ++ pointer ts')%string)).
  Proof.
    intros ST QJ TV NE RL R (c & p & s & kids & ->). assert (G := get_stored a V o ts' _ ST NE R).
    assert (RC := resolve_cached path2url abspath app_url known3 fetch upgrade prepare f q a url (pointer ts) (pointer ts') (mk_sobj (so_version o) (OObj c p s kids) [])).
    rewrite url_true in RC. apply RC.
    - rewrite QJ. intros E. apply (f_equal String.length) in E. rewrite slength_app in E. cbn in E. lia.
    - rewrite QJ. apply split_pointer.
    - now rewrite TV.
    - now rewrite TV.
    - reflexivity.
  Qed.

  Section Doc.
    Variables (V : string) (a : app) (o : sobj) (j : json) (c : string) (base : option string).
    Hypothesis HV : V = "2.0" \/ V = "3.0.0".
    Hypothesis WJ : wf_json j.
    Hypothesis SV : so_version o = V.
    Hypothesis CO : construct (table_of V) j (BCls c) base [] = Ok (so_obj o).
    Hypothesis UN : unmixed (so_obj o).
    Hypothesis NM : no_media_examples (so_obj o).
    Hypothesis NR : c <> "Reference".
    Hypothesis ST : stored a V o.
    Let root := so_obj o.
    (** where the target of [ts] is *)
    Definition moved (ts ts' : list string) : Prop :=
      ts' <> [] /\ (let from := if String.eqb V "2.0" then "2.0" else from30 (a_original a) in
      (if String.eqb from V then Ok (pointer ts) else store_relocate (a_store a) url (pointer ts) from (Some V)) = Ok (pointer ts')).
    Hypothesis RF : references V (fun ts => exists ts', moved ts ts' /\ holds_object root ts') root.
    Lemma HRT : repo_table (table_of V). Proof. destruct HV as [-> | ->]; constructor. Qed.
    Lemma NPO : forall c p s k, ~ primitive (OObj c p s k). Proof. intros ? ? ? ? (? & [=]). Qed.
    Lemma no_ref_attr cx p d kids : In cx (normalized_classes V) -> lookup "$ref" d = None -> cx <> "Reference" -> exists jx, oattr (table_of V) (OObj cx p (JDict d) kids) "ref" = Ok (OPrim jx) /\ truthy jx = false.
    Proof.
      intros I L NE. assert (M : mem "$ref" d = false) by (unfold mem; now rewrite L).
      destruct HV as [-> | ->]; cbn in I; repeat (destruct I as [<-|I]; [try congruence; cbn; rewrite M; cbn; eexists; split; reflexivity|]); contradiction.
    Qed.
    Lemma task_quiet b x : (exists ts o' cx t, within root ts o' /\ In t (targets_of V cx) /\ (exists q s kids, o' = OObj cx q s kids) /\ looked_at V o' cx t b x) ->
      exists u, quiet ask path2url abspath V url a b x u.
    Proof.
      intros (ts & o' & cx & t & W & IT & (q & s & kids & ->) & LA).
      assert (OBJ : forall c1 p1 s1 k1, x = OObj c1 p1 s1 k1 -> (exists ts1, within root ts1 x) -> (V = "2.0" -> In c1 ["Reference"; "Schema"; "PathItem"; "Parameter"; "Response"]) -> exists u, quiet ask path2url abspath V url a b x u).
      { intros c1 p1 s1 k1 -> (ts1 & W1) CL. destruct (in_dec string_dec c1 (normalized_classes V)) as [IN|NI].
        - destruct (RF ts1 c1 p1 s1 k1 W1 IN) as (d & -> & D). destruct (lookup "$ref" d) as [r|] eqn:L.
          + destruct D as (NP & us0 & -> & NE & ts' & (NE' & MV) & y & WY & OY).
            destruct (within_resolve (table_of V) ts' (repo_wd _ HRT) j (BCls c) base root y CO WY) as (_ & RY & _); [destruct OY as (? & ? & ? & ? & ->); apply NPO|].
            eexists. apply (q_ref ask path2url abspath V url a b c1 p1 (JDict d) k1 (pointer us0) (url ++ pointer us0) (mk_sobj (so_version o) y []) (url ++ pointer ts') (pointer ts')); [exact IN|apply ref_attr; auto|discriminate|exact (normalize_pointer us0 NE)| | |].
            * apply (ask_local a V _ o us0 ts' y ST); [destruct HV as [-> | ->]; reflexivity|destruct HV as [-> | ->]; reflexivity|exact NE'| |rewrite SV; exact RY|exact OY].
              destruct HV as [E|E]; rewrite E in MV |- *; exact MV.
            * destruct OY as (? & ? & ? & ? & ->). reflexivity.
            * unfold new_ref. change (startswith "#" (pointer us0)) with true. cbv iota. rewrite split_pointer. reflexivity.
          + destruct (no_ref_attr c1 p1 d k1 IN L D) as (jx & OA & TJ). exists []. eapply q_none; eauto.
        - exists []. apply q_other.
          + intros I. apply NI. destruct HV as [-> | ->]; cbn in *; tauto.
          + intros E. destruct (CL E) as [E1|I]; [subst c1; destruct NI; rewrite E; cbn; auto|]. rewrite E in NI |- *. cbn in I.
            destruct I as [<-|[<-|[<-|[<-|[]]]]]; [destruct NI; cbn; auto|destruct NI; cbn; auto|reflexivity|reflexivity]. }
      destruct LA as [(jx & ->)|[(ET & ->)|((v & p & b' & CX & EB) & (n & ET) & ks & WK & _)]].
      - exists []. constructor.
      - subst t. apply (OBJ _ _ _ _ eq_refl); [eauto|]. intros E. rewrite E in IT. unfold targets_of in IT. cbn [String.eqb Ascii.eqb Bool.eqb] in IT.
        destruct (lookup cx targets20) as [tl|] eqn:L; [|contradiction]. apply TablesFacts.lookup_In in L. cbn in L.
        destruct L as [[= <- <-]|[[= <- <-]|[[= <- <-]|[]]]]; [cbn; tauto|cbn; tauto|cbn in IT; destruct IT as [IT|[IT|[]]]; discriminate IT].
      - destruct x as [jx|c1 p1 s1 k1|b1 p1 es|b1 p1 es]; [exists []; constructor| |exists []; constructor|exists []; constructor]. apply (OBJ c1 p1 s1 k1 eq_refl).
        + exists (ts ++ ks)%list. eapply within_app; eauto.
        + intros E. rewrite E in IT, CX. unfold targets_of in IT. cbn [String.eqb Ascii.eqb Bool.eqb] in IT.
          assert (KB : exists c2, In c2 ["Schema"; "PathItem"; "Parameter"; "Response"] /\ (b = BCls c2 \/ b = or_ref c2)).
          { destruct (lookup cx targets20) as [tl|] eqn:L; [|contradiction]. apply TablesFacts.lookup_In in L. cbn in L.
            assert (E2 : In b (map or_ref ["Parameter"; "Response"])).
            { destruct L as [L|[L|[L|[]]]]; apply (f_equal snd) in L; cbn [snd] in L; rewrite <- L in IT; cbn [In] in IT;
              repeat (destruct IT as [IT|IT]; [rewrite <- IT in ET; destruct ET as [ET|[ET|ET]]; try discriminate ET; inversion ET; subst; cbn; auto|]); contradiction. }
            cbn [map In] in E2. destruct E2 as [<-|[<-|[]]]; eexists; (split; [|right; reflexivity]); cbn; auto. }
          destruct KB as (c2 & I2 & EB2).
          assert (C12 : c1 = "Reference" \/ c1 = c2).
          { assert (TX := construct_typed _ _ _ _ _ _ (le_n _) CX).
            assert (TB : forall c3 o3, typed (table_of "2.0") (BCls c3) o3 -> o3 = OObj c1 p1 s1 k1 -> c1 = c3) by (intros c3 o3 H3 E3; subst o3; now inversion H3).
            assert (TR : typed (table_of "2.0") b (OObj c1 p1 s1 k1)) by (destruct EB as [->| ->]; [exact TX|now inversion TX]).
            destruct EB2 as [-> | ->]; [right; eapply TB; eauto|]. inversion TR; subst; [left|right]; eapply TB; eauto. }
          destruct C12 as [-> | ->]; [now left|]. cbn in I2 |- *. tauto.
    Qed.
    Lemma normalized_ok o1 c1 p1 s1 k1 : (exists ts, within root ts o1) -> o1 = OObj c1 p1 s1 k1 -> In c1 (normalized_classes V) ->
      exists n, normalized (table_of V) url o1 = Ok n /\ (c1 = "PathItem" -> n = None).
    Proof.
      intros (ts & W) -> IN. destruct (RF ts c1 p1 s1 k1 W IN) as (d & -> & D). unfold normalized. destruct (lookup "$ref" d) as [r|] eqn:L.
      - destruct D as (NP & us0 & -> & NE & _). exists (Some (url ++ pointer us0)%string). split; [|congruence]. assert (RA : oattr (table_of V) (OObj c1 p1 (JDict d) k1) "ref" = Ok (OPrim (JStr (pointer us0)))) by (apply ref_attr; auto).
        rewrite RA. cbn [bind]. change (truthy_str (pointer us0)) with true. cbv iota. apply normalize_pointer, NE.
      - destruct (no_ref_attr c1 p1 d k1 IN L D) as (jx & OA & TJ). rewrite OA. cbn [bind]. exists None. split; [|reflexivity]. destruct jx; cbn in TJ |- *; rewrite ?TJ; try reflexivity; discriminate TJ.
    Qed.
    Lemma normalize_ok os : (forall o1, In o1 os -> exists ts, within root ts o1) -> normalize_all V url os = Ok tt.
    Proof.
      intros H. unfold normalize_all. induction os as [|o1 os IH]; [reflexivity|]. cbn [foldM].
      assert (E : (match o1 with OObj c0 _ _ _ => if str_in c0 (normalized_classes V) then x <- normalized (table_of V) url o1 ;; Ok tt else Ok tt | _ => Ok tt end) = Ok tt).
      { destruct o1 as [jx|c1 p1 s1 k1|b1 p1 es|b1 p1 es]; try reflexivity. destruct (str_in c1 (normalized_classes V)) eqn:SI; [|reflexivity].
        assert (I1 : In c1 (normalized_classes V)) by (unfold str_in in SI; apply existsb_exists in SI as (y & I & EQ); apply String.eqb_eq in EQ as ->; exact I).
        destruct (normalized_ok _ c1 p1 s1 k1 (H _ (or_introl eq_refl)) eq_refl I1) as (n & N & _). now rewrite N. }
      rewrite E. cbn [bind]. apply IH. intros x I. apply H. now right.
    Qed.
    Lemma merge_ok fuel os k u : (forall o1, In o1 os -> exists ts, within root ts o1) -> fold_right (merge_obj path2url abspath app_url fuel V url) k (map (rewrite_refs u) os) = k.
    Proof.
      intros H. induction os as [|o1 os IH]; [reflexivity|]. cbn [map fold_right]. rewrite IH by (intros x I; apply H; now right).
      destruct o1 as [jx|c1 p1 s1 k1|b1 p1 es|b1 p1 es]; try reflexivity. rewrite rewrite_obj. unfold merge_obj. destruct (String.eqb_spec c1 "PathItem") as [->|]; [|reflexivity].
      destruct (H _ (or_introl eq_refl)) as (ts & W). assert (IP : In "PathItem" (normalized_classes V)) by (destruct HV as [-> | ->]; cbn; auto).
      destruct (RF ts "PathItem" p1 s1 k1 W IP) as (d & -> & D). destruct (lookup "$ref" d) as [r|] eqn:L; [now destruct D|].
      rewrite graft_kids_entries, own_ref_dict. set (k2 := map (fun kx => (fst kx, rewrite_refs u (snd kx))) k1). set (d2 := own_update u p1 (graft_entries k2 d)).
      assert (L2 : lookup "$ref" d2 = None) by (apply PyValFacts.lookup_none; unfold d2; rewrite own_update_keys, keys_graft; now apply PyValFacts.lookup_none).
      destruct (no_ref_attr "PathItem" p1 d2 k2 IP L2 D) as (jx & OA & TJ). unfold normalized. rewrite OA. cbn [bind]. destruct jx; cbn in TJ |- *; rewrite ?TJ; try reflexivity; discriminate TJ.
    Qed.
    Lemma merge_ok' fuel os k : (forall o1, In o1 os -> exists ts, within root ts o1) -> fold_right (merge_obj path2url abspath app_url fuel V url) k os = k.
    Proof.
      intros H. induction os as [|o1 os IH]; [reflexivity|]. cbn [fold_right]. rewrite IH by (intros x I; apply H; now right).
      destruct o1 as [jx|c1 p1 s1 k1|b1 p1 es|b1 p1 es]; try reflexivity. unfold merge_obj. destruct (String.eqb_spec c1 "PathItem") as [->|]; [|reflexivity].
      assert (IP : In "PathItem" (normalized_classes V)) by (destruct HV as [-> | ->]; cbn; auto).
      destruct (normalized_ok _ "PathItem" p1 s1 k1 (H _ (or_introl eq_refl)) eq_refl IP) as (n & N & E). rewrite N, (E eq_refl). reflexivity.
    Qed.
    Lemma phase : exists vis l u, default_tree_traversal (table_of V) (osize root) root [] = Ok vis /\ all_tasks V (map snd vis) = Ok l /\ quiets ask path2url abspath V url a l u /\
      (forall o1, In o1 (map snd vis) -> exists ts, within root ts o1) /\
      (forall b x, In (b, x) l -> is_object x -> exists ts, within root ts x) /\
      forall k, run ask (fold_right (resolve_obj_refs path2url abspath V url) k (map snd vis) []) a = run ask (k u) a.
    Proof.
      destruct (tasks_total V HV j c base root WJ CO UN NM) as (vis & l & TR & AT & VW & TL).
      destruct (quiets_ex ask path2url abspath V url a l) as (u & QS); [intros b x I; apply task_quiet, TL, I|].
      exists vis, l, u. split; [exact TR|]. split; [exact AT|]. split; [exact QS|]. split; [exact VW|]. split.
      - intros b x I (c1 & p1 & s1 & k1 & ->). destruct (TL b _ I) as (ts & o' & cx & t & W & _ & _ & LA). destruct LA as [(jx & E)|[(_ & E)|(_ & _ & ks & WK & _)]]; [discriminate E|rewrite E; eauto|].
        exists (ts ++ ks)%list. eapply within_app; eauto.
      - intros k. exact (quiet_all ask path2url abspath V url HV a _ l u k AT QS).
    Qed.
  End Doc.

  (** ** the states met when the document is opened *)
  Definition at_ (vs : list (string * sobj)) (R : list (string * list (string * routes))) (orig : string) (log : list event) : app :=
    mk_app (mk_store [(url, [("#", vs)])] R known3) orig None log.
  Lemma set_here o v vs R orig log : so_base o = true -> set_obj o url "#" v (at_ vs R orig log) = (at_ (dict_set v o vs) R orig log, Ok tt).
  Proof.
    intros B. unfold set_obj, store_set. rewrite B. unfold at_, with_store. cbn [a_store a_original a_current a_log s_objs s_routes s_versions sub lookup]. unfold sub. cbn [lookup]. rewrite String.eqb_refl. cbn [lookup dict_set]. rewrite !String.eqb_refl. reflexivity.
  Qed.
  Definition rows (r2 r3 : routes) : list (string * routes) := [("1.2", []); ("2.0", r2); ("3.0.0", r3)].
  Lemma routes_first v rs vs orig log : In v ["2.0"; "3.0.0"] -> put_routes url v rs (at_ vs [] orig log) =
    (at_ vs [(url, rows (if String.eqb v "2.0" then dict_update [] rs else []) (if String.eqb v "2.0" then [] else dict_update [] rs))] orig log, Ok tt).
  Proof. intros [<-|[<-|[]]]; reflexivity. Qed.
  Lemma routes_again v rs vs r2 r3 orig log : In v ["2.0"; "3.0.0"] -> put_routes url v rs (at_ vs [(url, rows r2 r3)] orig log) =
    (at_ vs [(url, rows (if String.eqb v "2.0" then dict_update r2 rs else r2) (if String.eqb v "2.0" then r3 else dict_update r3 rs))] orig log, Ok tt).
  Proof.
    intros I. unfold put_routes, store_update_routes, at_, with_store. cbn [a_store a_original a_current a_log s_objs s_routes s_versions lookup]. rewrite String.eqb_refl.
    destruct I as [<-|[<-|[]]]; unfold rows; cbn [lookup String.eqb Ascii.eqb Bool.eqb dict_set]; rewrite String.eqb_refl; reflexivity.
  Qed.
  Lemma relocate_here v vs r2 r3 orig log : In v ["2.0"; "3.0.0"] -> relocate url "#" v v (at_ vs [(url, rows r2 r3)] orig log) = (at_ vs [(url, rows r2 r3)] orig log, Ok "#").
  Proof.
    intros I. unfold relocate, store_relocate, at_. cbn [a_store s_routes lookup]. rewrite String.eqb_refl. destruct I as [<-|[<-|[]]]; reflexivity.
  Qed.
  Lemma load_fresh v d root : In v ["2.0"; "3.0.0"] -> fetch url = Ok (JDict d) -> declares d (JStr v) ->
    construct (table_of v) (JDict d) (BCls (root_class v)) (Some url) [] = Ok root -> is_object root ->
    load_obj path2url abspath fetch url None false (fresh_app known3) =
      (at_ [(v, mk_sobj v root [])] [] (if is_root (mk_sobj v root []) then v else "") [EParse url "#"], Ok (mk_sobj v root [])).
  Proof.
    intros I F D C (c & p & s & kids & ->). assert (DV : doc_version (JDict d) = Ok (Some (JStr v))) by (apply doc_version_declares; exact D).
    unfold load_obj, bindm at 1, lift at 1. rewrite F. unfold bindm at 1, lift at 1. rewrite DV. unfold bindm at 1, lift at 1. rewrite split_url.
    assert (VK : version_key (Some (JStr v)) = Some v) by (destruct I as [<-|[<-|[]]]; reflexivity). rewrite VK.
    unfold bindm at 1, get_obj at 1. cbn [a_store fresh_app]. change (store_get so_resolve (new_store known3) url "#" v) with (@Ok (option sobj) None). cbv iota.
    unfold bindm at 1, get_under at 1. cbn [a_store fresh_app]. change (store_get_under (new_store known3) url "#" v false) with (new_store known3 : store sobj, @Ok (option (list (string * sobj))) None). cbv iota.
    unfold bindm at 1, emit at 1. cbv iota. unfold bindm at 1, lift at 1.
    assert (P : parse fetch (JDict d) url url (Some (JStr v)) (overrides None) None = Ok (mk_sobj v (OObj c p s kids) [], v, url)).
    { unfold parse. destruct I as [<-|[<-|[]]]; cbn [String.eqb Ascii.eqb Bool.eqb]; cbn [overrides]; change v20_table with (table_of "2.0"); change v30_table with (table_of "3.0.0"); unfold root_class in C; cbn [String.eqb Ascii.eqb Bool.eqb] in C; rewrite C; reflexivity. }
    rewrite P. cbv iota. change (so_truthy (mk_sobj v (OObj c p s kids) [])) with true. cbv iota.
    unfold bindm at 1, set_obj at 1. cbn [so_base so_obj store_set]. unfold store_set. cbn [so_base so_obj with_event with_store a_store a_original a_current a_log s_objs s_routes s_versions new_store sub lookup dict_set].
    unfold sub. cbn [lookup dict_set]. unfold bindm. destruct (is_root (mk_sobj v (OObj c p s kids) [])); reflexivity.
  Qed.
End Local.
