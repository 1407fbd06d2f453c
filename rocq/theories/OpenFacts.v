(** Opening a document returns its conversion. *)
From Coq Require Import String Ascii List Bool Arith Lia.
From Verif Require Import PyStr PyStrFacts PyVal PyValFacts Jp UrlLib Urls Obj ObjFacts SpecObj
  Classes_v1_2 Classes_v2_0 Classes_v3_0_0 Store SpecStore StoreFacts Scan App SpecApp AppFacts AppFacts2 AppFacts4 AppFacts5 Main SpecOpen RewriteFacts.
Import ListNotations.
Open Scope string_scope. Open Scope nat_scope.

(** ** what a program returns *)
Section Returns.
  Variable ask : query -> M (sobj * string).
  Variable P : sobj * routes -> Prop.
  Definition R (p : prog (sobj * routes)) : Prop := forall a a' r, run ask p a = (a', Ok r) -> P r.
  Definition RC (k : cont) : Prop := forall u, R (k u).
  Lemma R_err e : R (Done (Err e)).
  Proof. intros a a' r H. discriminate H. Qed.
  Lemma R_done r0 : P r0 -> R (Done (Ok r0)).
  Proof. intros H a a' r E. cbn in E. unfold lift in E. congruence. Qed.
  Lemma R_ask q k : (forall x, R (k x)) -> R (Ask q k).
  Proof. intros H a a' r E. cbn [run] in E. unfold bindm in E. destruct (ask q a) as [a1 [x|e]]; [|discriminate E]. exact (H x _ _ _ E). Qed.
  Lemma R_cache o url jp v k : R k -> R (Cache o url jp v k).
  Proof. intros H a a' r E. cbn [run] in E. unfold bindm in E. destruct (set_obj o url jp v a) as [a1 [[]|e]]; [|discriminate E]. exact (H _ _ _ E). Qed.
  Lemma R_routes url v rs k : R k -> R (Routes url v rs k).
  Proof. intros H a a' r E. cbn [run] in E. unfold bindm in E. destruct (put_routes url v rs a) as [a1 [[]|e]]; [|discriminate E]. exact (H _ _ _ E). Qed.
  Lemma R_original k : (forall v, R (k v)) -> R (Original k).
  Proof. intros H a a' r E. cbn [run] in E. unfold bindm, get_original in E. exact (H _ _ _ _ E). Qed.
  Lemma R_fold {X} (f : X -> prog (sobj * routes) -> prog (sobj * routes)) k l : (forall y k, R k -> R (f y k)) -> R k -> R (fold_right f k l).
  Proof. intros M H. induction l as [|y l IH]; [exact H|]. exact (M _ _ IH). Qed.
  Lemma RC_fold {X} (f : X -> cont -> cont) k l : (forall y k, RC k -> RC (f y k)) -> RC k -> RC (fold_right f k l).
  Proof. intros M H. induction l as [|y l IH]; [exact H|]. exact (M _ _ IH). Qed.

  Variables (path2url abspath : string -> string) (app_url : string) (fuel : nat).
  Lemma R_resolve V url b o k : RC k -> RC (resolve_with path2url abspath V url b o k).
  Proof.
    intros H u. unfold resolve_with. destruct (String.eqb V "2.0").
    - unfold resolve20. destruct (truthy_obj o); [|apply H]. destruct (oattr (table_of "2.0") o "ref") as [r|[]]; try apply R_err; try apply H.
      destruct (truthy_obj r); [|apply H]. destruct (normalized (table_of "2.0") url o) as [[n|]|e]; try apply R_err.
      apply R_ask. intros x. destruct (so_truthy (fst x)); [apply H|apply R_err].
    - unfold resolve30. destruct o as [|c p s kids| |]; try apply H. destruct (String.eqb c "Reference" || String.eqb c "PathItem"); [|apply H].
      destruct (normalized (table_of "3.0.0") url (OObj c p s kids)) as [[n|]|e]; [|destruct (String.eqb c "Reference"); [apply R_err|apply H]|apply R_err].
      apply R_original. intros v. apply R_ask. intros x. destruct (so_truthy (fst x)); [|apply R_err].
      destruct (oattr (table_of "3.0.0") (OObj c p s kids) "ref") as [[[| | | |r| |]| | |]|e]; try apply R_err.
      destruct (new_ref path2url abspath r (snd x)); [apply H|apply R_err].
  Qed.
  Lemma R_refs V url o k : RC k -> RC (resolve_obj_refs path2url abspath V url o k).
  Proof.
    intros H. unfold resolve_obj_refs. destruct o; try exact H. apply RC_fold; [|exact H]. intros t k' H'. unfold resolve_target.
    destruct (pick _ _ t) as [[os b]|e]; [|intros u; apply R_err]. apply RC_fold; [|exact H']. intros. now apply R_resolve.
  Qed.
  Lemma R_chain V k : R k -> forall f seen cur, R (merge_chain path2url abspath app_url f V seen cur k).
  Proof.
    intros H. induction f as [|f IH]; intros seen cur; [apply R_err|]. cbn [merge_chain]. destruct (split path2url abspath cur) as [[u jp]|e]; [|apply R_err].
    cbv zeta. apply R_original. intros v. apply R_ask. intros x. destruct (so_truthy (fst x)); [|apply R_err].
    destruct (existsb _ seen); [exact H|]. destruct (normalized _ _ _) as [[n|]|e]; [|exact H|apply R_err]. destruct (truthy_str n); [apply IH|exact H].
  Qed.
  Lemma R_merge V url o k : R k -> R (merge_obj path2url abspath app_url fuel V url o k).
  Proof.
    intros H. unfold merge_obj. destruct o as [|c p s kids| |]; try exact H. destruct (String.eqb c "PathItem"); [|exact H].
    destruct (normalized _ _ _) as [[n|]|e]; [|exact H|apply R_err]. destruct (truthy_str n); [now apply R_chain|exact H].
  Qed.
End Returns.

Definition written (x y : sobj) : Prop := exists u, y = rewrite_sobj u x.
Section Modules.
  Variables (ask : query -> M (sobj * string)) (path2url abspath : string -> string) (app_url : string) (fuel : nat).
  Variables (from12 : sobj -> res sobj) (from20 : sobj -> string -> string -> override -> res (sobj * routes)).
  Lemma upgrade20_returns o jref a a' r : run ask (upgrade20 path2url abspath app_url fuel from12 o jref) a = (a', Ok r) ->
    exists o', r = (o', []) /\ so_version o' = "2.0" /\ ((so_version o = "1.2" /\ from12 o = Ok o') \/ (so_version o = "2.0" /\ o' = o)).
  Proof.
    intros E. assert (H : forall o', so_version o' = "2.0" -> R ask (fun r => r = (o', []))
       (match split path2url abspath jref with
        | Err e => Done (Err e)
        | Ok (url, jp) =>
            Cache o' url jp "2.0"
              (visited v20_table (so_obj o') (fun os =>
                 match normalize_all "2.0" url os with
                 | Err e => Done (Err e)
                 | Ok _ => Cache o' url jp "2.0" (fold_right (resolve_obj_refs path2url abspath "2.0" url) (fun _ => fold_right (merge_obj path2url abspath app_url fuel "2.0" url) (Done (Ok (o', []))) os) os [])
                 end)) end)).
    { intros o' SV. destruct (split path2url abspath jref) as [[url jp]|e]; [|apply R_err]. apply R_cache. unfold visited.
      destruct (default_tree_traversal _ _ _ _); [|apply R_err]. destruct (normalize_all _ _ _); [|apply R_err]. apply R_cache.
      match goal with |- R _ _ (fold_right ?f ?k ?l []) => assert (X : RC ask (fun r => r = (o', [])) (fold_right f k l)); [|exact (X [])] end.
      apply RC_fold; [intros; now apply R_refs|]. intros u. apply R_fold; [intros; now apply R_merge|]. now apply R_done. }
    unfold upgrade20 in E. destruct (String.eqb_spec (so_version o) "1.2") as [V|V].
    - destruct (from12 o) as [o'|e] eqn:F; [|discriminate E]. destruct (String.eqb_spec (so_version o') "2.0") as [V'|V']; [|discriminate E].
      exists o'. split; [exact (H o' V' _ _ _ E)|]. auto.
    - destruct (String.eqb_spec (so_version o) "2.0") as [V'|V']; [|discriminate E]. exists o. split; [exact (H o V' _ _ _ E)|]. auto.
  Qed.
  Lemma finish30_returns url jp o reloc a a' r : run ask (finish30 path2url abspath app_url fuel url jp o reloc) a = (a', Ok r) ->
    so_version o = "3.0.0" /\ exists o', r = (o', reloc) /\ written o o'.
  Proof.
    unfold finish30. destruct (String.eqb_spec (so_version o) "3.0.0") as [V|V]; [|discriminate]. intros E. split; [exact V|].
    assert (H : R ask (fun r => exists o', r = (o', reloc) /\ written o o')
       (visited v30_table (so_obj o) (fun os =>
        match normalize_all "3.0.0" url os with
        | Err e => Done (Err e)
        | Ok _ =>
            Cache o url jp "3.0.0"
              (Routes url "3.0.0" [(jp, RMap reloc)]
                (fold_right (resolve_obj_refs path2url abspath "3.0.0" url)
                   (fun u => Cache (rewrite_sobj u o) url jp "3.0.0"
                               (fold_right (merge_obj path2url abspath app_url fuel "3.0.0" url) (Done (Ok (rewrite_sobj u o, reloc))) (map (rewrite_refs u) os))) os []))
        end))); [|exact (H _ _ _ E)].
    unfold visited. destruct (default_tree_traversal _ _ _ _); [|apply R_err]. destruct (normalize_all _ _ _); [|apply R_err].
    apply R_cache, R_routes.
    match goal with |- R _ ?P (fold_right ?f ?k ?l []) => assert (X : RC ask P (fold_right f k l)); [|exact (X [])] end.
    apply RC_fold; [intros; now apply R_refs|]. intros u. apply R_cache. apply R_fold; [intros; now apply R_merge|]. apply R_done. exists (rewrite_sobj u o). split; [reflexivity|]. now exists u.
  Qed.
  Lemma upgrade300_returns o jref a a' r : run ask (upgrade300 path2url abspath app_url fuel from20 o jref) a = (a', Ok r) ->
    exists url jp, split path2url abspath jref = Ok (url, jp) /\
      ((so_version o = "2.0" /\ exists found o1 rs, snd (store_get_under (a_store a) url jp "3.0.0" false) = Ok found /\ from20 o url jp (overrides found) = Ok (o1, rs) /\
          so_version o1 = "3.0.0" /\ rs = snd r /\ written o1 (fst r))
       \/ (so_version o = "3.0.0" /\ written o (fst r) /\ snd r = [])).
  Proof.
    intros E. unfold upgrade300 in E. destruct (split path2url abspath jref) as [[url jp]|e] eqn:SP; [|discriminate E]. exists url, jp. split; [reflexivity|].
    destruct (String.eqb_spec (so_version o) "2.0") as [V|V].
    - left. split; [exact V|]. cbn [run] in E. unfold bindm, get_under in E. destruct (store_get_under (a_store a) url jp "3.0.0" false) as [s [found|e]] eqn:GU; [|discriminate E].
      destruct (from20 o url jp (overrides found)) as [[o1 rs]|e] eqn:F; [|discriminate E]. apply finish30_returns in E as (V' & o' & -> & W). exists found, o1, rs. auto.
    - right. apply finish30_returns in E as (V' & o' & -> & W). auto.
  Qed.
  Theorem module_stepped v m o jref a a' o' rs url jp : modules path2url abspath app_url fuel from12 from20 v = Some m ->
    run ask (m o jref) a = (a', Ok (o', rs)) -> split path2url abspath jref = Ok (url, jp) -> stepped written from12 from20 url jp v o o' rs.
  Proof.
    intros HM E S. unfold modules in HM. destruct (String.eqb_spec v "1.2") as [->|].
    { injection HM as <-. cbn in E. unfold lift in E. injection E as _ <- <-. constructor. }
    destruct (String.eqb_spec v "2.0") as [->|].
    { injection HM as <-. apply upgrade20_returns in E. destruct E as (x & E & V & [[V1 F]|[V1 ->]]); injection E as -> ->; [now constructor|now constructor]. }
    destruct (String.eqb_spec v "3.0.0") as [->|]; [|discriminate HM].
    injection HM as <-. apply upgrade300_returns in E. destruct E as (u & j & S' & H). rewrite S in S'. injection S' as <- <-. cbn [fst snd] in H.
    destruct H as [(V1 & found & o1 & rs' & _ & F & V & -> & W)|(V1 & W & ->)]; [eapply sp_20_30; eauto|now constructor].
  Qed.
End Modules.
Lemma stepped_weaken (A B : sobj -> sobj -> Prop) from12 from20 url jp v o o' rs : (forall x y, A x y -> B x y) ->
  stepped A from12 from20 url jp v o o' rs -> stepped B from12 from20 url jp v o o' rs.
Proof. intros H S. inversion S; subst; try (now constructor); econstructor; eauto. Qed.
Lemma written_rereferenced x y : written x y -> rereferenced x y.
Proof. intros [u ->]. apply rewrite_rereferenced. Qed.

(** ** loading *)
From Verif Require Import SpecUp12 Up12 Up12Facts.
Lemma list_paths es : forall l ps, Forall2 (fun v e => exists p, construct v12_table v (BCls "ResourceInListing") p [] = Ok e) l es ->
  mapM (fun e => match e with
                 | OObj c' p' s' kids' =>
                     match lookup c' v12_table with
                     | None => Err KeyError
                     | Some cd' => x <- getattr_ v12_table cd' p' s' kids' "path" ;; match x with OPrim j => Ok j | _ => Err TypeError end
                     end
                 | _ => Err AttributeError
                 end) es = Ok ps -> Forall2 (fun v j => j = get v "path") l ps.
Proof.
  induction es as [|e es IH]; intros l ps F H; inversion F as [|v e' l' es' [p C] F']; subst; cbn [mapM] in H.
  - injection H as <-. constructor.
  - destruct (made_shape "ResourceInListing" v e (ex_intro _ p C)) as (p0 & kids & cd & -> & L & _).
    assert (FG := field12_is "ResourceInListing" v _ "path" _ (ex_intro _ p C) eq_refl). unfold field12, attr12 in FG. rewrite L in H, FG.
    destruct (getattr_ v12_table cd p0 v kids "path") as [x|] eqn:G; [|discriminate H]. cbn [bind] in *.
    destruct x as [j| | |]; try discriminate H. cbn [bind] in H.
    destruct (mapM _ es) as [ps'|] eqn:M; [|discriminate H]. cbn [bind] in H. injection H as <-. constructor; [|now apply IH].
    symmetry in FG. now apply (field_get_val (fld "path")) in FG.
Qed.

Lemma keys_fresh (names : list string) : forall (l : list string),
  fold_left (fun acc n => if str_in n acc then acc else acc ++ [n])%list names l = (l ++ filter (fun n => negb (str_in n l)) (distinct names))%list.
Proof.
  induction names as [|n names IH]; intros l; [cbn; now rewrite app_nil_r|]. cbn [fold_left distinct]. rewrite IH. cbn [filter].
  destruct (str_in n l) eqn:E; cbn [negb].
  - f_equal. clear IH. induction (distinct names) as [|y ys IHy]; [reflexivity|]. cbn [filter]. destruct (String.eqb_spec n y) as [->|N]; cbn [negb filter].
    + now rewrite E.
    + destruct (str_in y l); cbn [negb]; [exact IHy|now rewrite IHy].
  - rewrite <- app_assoc. cbn [List.app]. f_equal. f_equal. clear IH. induction (distinct names) as [|y ys IHy]; [reflexivity|]. cbn [filter].
    assert (A : str_in y (l ++ [n])%list = str_in y l || String.eqb n y).
    { unfold str_in. rewrite existsb_app. cbn. rewrite orb_false_r. f_equal. apply String.eqb_sym. }
    rewrite A. destruct (String.eqb n y); cbn [negb filter]; [now rewrite orb_true_r|]. rewrite orb_false_r. destruct (str_in y l); cbn [negb]; [exact IHy|now rewrite IHy].
Qed.
Lemma mem_keys {A} k (d : list (string * A)) : mem k d = str_in k (keys d).
Proof. unfold mem. induction d as [|[k' v] d IH]; [reflexivity|]. cbn [lookup keys map fst str_in existsb]. rewrite String.eqb_sym. destruct (String.eqb k' k); [reflexivity|exact IH]. Qed.
Section LoadApis.
  Variable fetch : string -> res json.
  Lemma apis_fold jref ps : forall acc apis u url0,
    foldM (fun acc p =>
             match p with
             | JStr u =>
                 let name := sdrop 1 u in
                 let url := url_join (url_dirname jref) name in
                 spec <- fetch url ;;
                 match spec with
                 | JNull => Err PyException
                 | _ => o <- construct v12_table spec (BCls "ApiDeclaration") (sub_path (Some url) name) [] ;;
                        Ok (dict_set name o (fst acc), url)
                 end
             | _ => Err TypeError
             end) ps (acc, url0) = Ok (apis, u) ->
    exists names, Forall2 (fun j name => exists path, j = JStr path /\ name = sdrop 1 path) ps names /\
      keys apis = fold_left (fun l n => if str_in n l then l else l ++ [n])%list names (keys acc) /\
      (forall a, In a apis -> In a acc \/ declaration fetch jref (fst a) (snd a)).
  Proof.
    induction ps as [|p ps IH]; intros acc apis u url0 H; cbn [foldM] in H.
    - injection H as <- <-. exists []. split; [constructor|]. split; [reflexivity|auto].
    - destruct p as [| | | |path| |]; try discriminate H. cbv zeta in H. destruct (fetch (url_join (url_dirname jref) (sdrop 1 path))) as [spec|] eqn:F; [|discriminate H]. cbn [bind] in H.
      assert (H' : exists o place, construct v12_table spec (BCls "ApiDeclaration") place [] = Ok o /\
         exists u1, foldM (fun acc p =>
             match p with
             | JStr u =>
                 let name := sdrop 1 u in
                 let url := url_join (url_dirname jref) name in
                 spec <- fetch url ;;
                 match spec with
                 | JNull => Err PyException
                 | _ => o <- construct v12_table spec (BCls "ApiDeclaration") (sub_path (Some url) name) [] ;;
                        Ok (dict_set name o (fst acc), url)
                 end
             | _ => Err TypeError
             end) ps (dict_set (sdrop 1 path) o acc, u1) = Ok (apis, u)).
      { destruct spec; try discriminate H; (destruct (construct v12_table _ _ _ _) as [o|] eqn:C; [|discriminate H]); cbn [bind fst] in H; (do 2 eexists; split; [exact C|]; eexists; exact H). }
      clear H. destruct H' as (o & place & C & u1 & H). destruct (IH _ _ _ _ H) as (names & F2 & K & D). exists (sdrop 1 path :: names). split; [constructor; eauto|]. split.
      + rewrite K, keys_dict_set. cbn [fold_left]. now rewrite mem_keys.
      + intros a I. destruct (D a I) as [I'|D']; [|auto]. apply in_dict_set in I'. destruct I' as [->|I']; [|auto]. right. cbn [fst snd]. exists spec, place. auto.
  Qed.
  Lemma paths_listed d p listing ps : construct v12_table (JDict d) (BCls "ResourceListing") p [] = Ok listing -> resource_paths listing = Ok ps ->
    exists rs, lookup "apis" d = Some (JList rs) /\ Forall2 (fun v j => j = get v "path") rs ps.
  Proof.
    intros C H. assert (M : made "ResourceListing" (JDict d) listing) by (exists p; exact C).
    destruct (attr12_child "ResourceListing" (JDict d) listing "apis" (BListOf (BCls "ResourceInListing")) M eq_refl) as (x & A & K).
    destruct (made_shape _ _ _ M) as (p0 & kids & cd & -> & L & _). unfold attr12 in A. unfold resource_paths in H. rewrite L in A, H. rewrite A in H. cbn [bind] in H.
    apply child_list in K. destruct K as [[_ ->]|(l & p1 & es & G & -> & F)]; [discriminate H|]. apply (list_paths es l ps F) in H.
    exists l. split; [|exact H]. unfold get in G. cbn [fields] in G. destruct (lookup "apis" d) as [v|]; [congruence|discriminate G].
  Qed.
  Lemma names_listed d names rs ps : lookup "apis" d = Some (JList rs) -> Forall2 (fun v j => j = get v "path") rs ps ->
    Forall2 (fun j name => exists path, j = JStr path /\ name = sdrop 1 path) ps names -> listed d names.
  Proof.
    intros L F G. exists rs. split; [exact L|]. clear L. revert names G. induction F as [|v j rs ps E F IH]; intros names G; inversion G as [|j' name ps' names' (path & EJ & EN) G']; subst; constructor; [|now apply IH].
    rename EJ into E. symmetry in E. unfold get in E. destruct v as [| | | | | |r]; try discriminate E. cbn [fields] in E. destruct (lookup "path" r) as [x|] eqn:LP; [|discriminate E]. subst x. eauto.
  Qed.
  Lemma parse_made jref url d v o v' url' pr : parse fetch (JDict d) jref url (Some (JStr v)) [] pr = Ok (o, v', url') -> v' = v /\ made_from fetch jref d v o.
  Proof.
    unfold parse, made_from, root_class. destruct (String.eqb_spec v "1.2") as [->|N1].
    - destruct (construct v12_table (JDict d) (BCls "ResourceListing") (Some jref) []) as [l|] eqn:C; [|discriminate]. cbn [bind].
      destruct (resource_paths l) as [ps|] eqn:P; [|discriminate]. cbn [bind]. destruct (load_apis fetch jref url ps) as [[apis u]|] eqn:LA; [|discriminate]. cbn [bind fst snd].
      intros E. injection E as <- <- _. split; [reflexivity|]. cbn [so_version so_obj so_apis]. split; [reflexivity|]. split; [exact C|].
      destruct (paths_listed _ _ _ _ C P) as (rs & L & F). unfold load_apis in LA. cbv zeta in LA. apply apis_fold in LA. destruct LA as (names & F2 & K & D).
      exists names. split; [exact (names_listed _ _ _ _ L F F2)|]. cbn [keys map] in K. rewrite keys_fresh in K. cbn [List.app] in K.
      assert (FE : filter (fun n => negb (str_in n [])) (distinct names) = distinct names) by (clear; induction (distinct names) as [|y ys IH]; [reflexivity|]; cbn; f_equal; exact IH).
      rewrite FE in K. rewrite <- K. clear -D. unfold keys. induction apis as [|[n x] apis IH]; cbn [map fst]; constructor; [split; [reflexivity|]|].
      + destruct (D (n, x)) as [[]|H]; [now left|exact H].
      + apply IH. intros a I. apply D. now right.
    - destruct (String.eqb_spec v "2.0") as [->|N2].
      + destruct (construct v20_table _ _ _ _) as [l|] eqn:C; [|discriminate]. cbn [bind]. intros E. injection E as <- <- <-. split; [reflexivity|]. split; [reflexivity|]. split; [exact C|reflexivity].
      + destruct (String.eqb_spec v "3.0.0") as [->|N3]; [|discriminate].
        destruct (construct v30_table _ _ _ _) as [l|] eqn:C; [|discriminate]. cbn [bind]. intros E. injection E as <- <- <-. split; [reflexivity|]. split; [reflexivity|]. split; [exact C|reflexivity].
  Qed.
End LoadApis.

(** ** opening *)
Section Open.
  Variables (path2url abspath : string -> string) (app_url : string) (fuel merge_fuel : nat) (fetch : string -> res json) (known : list string).
  Variables (from12 : sobj -> res sobj) (from20 : sobj -> string -> string -> override -> res (sobj * routes)) (prepare : sobj -> string -> res sobj).
  Lemma fresh_load jref url jp d v a o : fetch jref = Ok (JDict d) -> declares d (JStr v) -> split path2url abspath jref = Ok (url, jp) ->
    load_obj path2url abspath fetch jref None false (fresh_app known) = (a, Ok o) -> made_from fetch jref d v o.
  Proof.
    intros F DE S L. assert (DV : doc_version (JDict d) = Ok (Some (JStr v))) by now apply doc_version_declares.
    assert (NC : not_cached (fresh_app known) url jp (Some (JStr v))).
    { left. unfold cached_for. destruct (truthy_str v); reflexivity. }
    rewrite (load_fresh _ _ _ _ _ _ _ _ _ _ _ F DV S NC) in L. unfold after_under in L. cbn [fresh_app a_store] in L. 
    assert (AU : (match version_key (Some (JStr v)) with Some k => store_get_under (new_store known) url jp k false | None => (new_store known, Ok None) end) = (new_store known, Ok (@None (list (string * sobj))))).
    { destruct (version_key _); reflexivity. }
    rewrite AU in L. cbv zeta in L. change (overrides None) with (@nil (string * obj)) in L.
    destruct (parse fetch (JDict d) jref url (Some (JStr v)) [] None) as [[[o1 v'] url']|e] eqn:PA; [|discriminate L].
    destruct (so_truthy o1); [|discriminate L]. destruct (store_set so_base _ o1 url' jp v') as [s'|e]; [|discriminate L]. injection L as _ <-. exact (proj2 (parse_made _ _ _ _ _ _ _ _ _ PA)).
  Qed.
  Lemma made_version jref d v o : made_from fetch jref d v o -> swagger_version o = Ok v.
  Proof.
    intros (V & C & _). apply construct_class in C. destruct C as (p & kids & E). unfold swagger_version. rewrite E. congruence.
  Qed.
  Theorem open_returns to jref url jp d v a o' : ascending known -> fetch jref = Ok (JDict d) -> declares d (JStr v) -> split path2url abspath jref = Ok (url, jp) ->
    open_document path2url abspath app_url known fetch (modules path2url abspath app_url merge_fuel from12 from20) prepare to fuel jref (fresh_app known) = (a, Ok o') ->
    exists o calls, made_from fetch jref d v o /\ steps_between known v to (map fst calls) /\
      handed_on (fun w x y => exists mid rs where_, stepped written from12 from20 url jp w x mid rs /\ prepare mid where_ = Ok y) o calls o' /\
      (calls <> [] -> exists jp', entry (a_store a) url jp' to = Some o') /\ (is_root o' = true -> a_current a = Some to).
  Proof.
    intros A F DE S O. unfold open_document, bindm in O. destruct (load_obj path2url abspath fetch jref None false (fresh_app known)) as [a1 [o|e]] eqn:L; [|discriminate O].
    assert (MF := fresh_load _ _ _ _ _ _ _ F DE S L). assert (SV := made_version _ _ _ _ MF).
    unfold App.migrate_obj in O. destruct (migrate_traced _ _ _ _ _ _ _ _ _ _) as [[a2 calls] r] eqn:MT. injection O as -> ->.
    destruct (migrate_ok _ _ _ _ _ _ _ _ _ _ _ _ _ _ MT A SV) as (x & _ & ST & HO & _ & EN & CU).
    exists o, calls. split; [exact MF|]. split; [exact ST|]. split; [|split; [|exact CU]].
    - clear -HO S. induction HO as [o|o o1 o2 w calls (m & b & c & mid & rs & wh & UP & RU & PR) HO IH]; [constructor|]. econstructor; [|exact IH].
      exists mid, rs, wh. split; [|exact PR]. eapply module_stepped; eauto.
    - intros N. destruct (EN N) as (u & j & jp' & S' & E). rewrite S in S'. injection S' as <- <-. eauto.
  Qed.
End Open.

Definition three : list string := ["1.2"; "2.0"; "3.0.0"].
Lemma three_ascending : ascending three.
Proof.
  assert (A : version_lt "1.2" "2.0") by (eexists; eexists; repeat split; vm_compute; reflexivity).
  assert (C : version_lt "2.0" "3.0.0") by (eexists; eexists; repeat split; vm_compute; reflexivity).
  unfold three. apply asc_cons; [exact A|]. apply asc_cons; [exact C|]. eapply asc_one. vm_compute. reflexivity.
Qed.
Lemma through_three from to x vs : In to three -> strict_version from = Ok x -> versions_through three from to = Ok vs -> forall vs', steps_between three from to vs' -> vs' = vs.
Proof.
  intros I SV H vs' ST. destruct (through_spec three from to x three_ascending I SV) as (vs2 & H2 & ST2). rewrite H in H2. injection H2 as <-. exact (steps_unique _ _ _ _ _ ST ST2).
Qed.
