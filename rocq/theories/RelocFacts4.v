(** Proofs about references to the parameters of path items in converted documents. *)
From Coq Require Import String Ascii List Bool Arith ZArith Lia.
From Verif Require Import PyStr PyStrFacts PyVal PyValFacts Jp SpecJp JpFacts NatDecFacts UrlLib Obj ObjFacts ResolveFacts Classes_v2_0 TablesFacts SpecJson ShapeFacts DumpFacts SpecObj SpecSchema SpecConv SpecBody SpecOp SpecDoc Store SpecStore StoreFacts Conv20 ConvFacts SchemaFacts SchemaFacts2 ParamFacts BodyFacts BodyFacts2 ParamListFacts ParamListFacts2 OpFacts OpFacts2 PathFacts PathFacts2 DocFacts DocFacts2 RelocFacts RelocFacts2 RelocFacts3.
Import ListNotations.
Open Scope string_scope. Open Scope nat_scope.

Lemma positions_in {A} (f : A -> bool) l : forall i j, In j (positions f i l) <-> exists x, i <= j /\ nth_error l (j - i) = Some x /\ f x = true.
Proof.
  induction l as [|y l IH]; intros i j; cbn [positions].
  - split; [intros []|]. intros (x & _ & E & _). destruct (j - i); discriminate.
  - assert (S : In j (positions f (S i) l) <-> exists x, S i <= j /\ nth_error (y :: l) (j - i) = Some x /\ f x = true).
    { rewrite IH. split; intros (x & Hj & E & Hf); exists x; (split; [exact Hj|split; [|exact Hf]]); replace (j - i) with (Datatypes.S (j - Datatypes.S i)) in * by lia; exact E. }
    destruct (f y) eqn:Ef; cbn [In]; rewrite S.
    + split.
      * intros [<-|(x & Hj & E & Hf)]; [exists y; rewrite Nat.sub_diag; auto|]. exists x. split; [lia|auto].
      * intros (x & Hj & E & Hf). destruct (Nat.eq_dec i j) as [->|]; [now left|]. right. exists x. split; [lia|auto].
    + split; intros (x & Hj & E & Hf); exists x; (split; [|auto]); [lia|]. destruct (Nat.eq_dec i j) as [->|]; [|lia]. rewrite Nat.sub_diag in E. injection E as <-. congruence.
Qed.
Lemma nth_filter_prefix {A} (f : A -> bool) : forall (l : list A) i x, nth_error l i = Some x -> f x = true -> (forall j y, j < i -> nth_error l j = Some y -> f y = true) -> nth_error (filter f l) i = Some x.
Proof.
  induction l as [|y l IH]; intros i x E Hf H; [destruct i; discriminate|]. destruct i as [|i]; [injection E as ->; cbn [filter]; now rewrite Hf|].
  cbn [filter]. rewrite (H 0 y ltac:(lia) eq_refl). cbn [nth_error] in *. apply IH; [exact E|exact Hf|]. intros j z Hj Ez. apply (H (S j) z ltac:(lia) Ez).
Qed.
Lemma pointer_text p i ts : pointer ("paths" :: p :: "parameters" :: nat_dec i :: ts) = (join "/" ["#"; "paths"; rfc_escape p; "parameters/" ++ nat_dec i] ++ tail_of ts)%string.
Proof. rewrite pointer_tail, !tail_cons, (no_escape_same _ (nat_dec_no_escape i)). cbn -[nat_dec rfc_escape tail_of]. rewrite !sapp_assoc. cbn -[nat_dec rfc_escape tail_of]. reflexivity. Qed.
Lemma param_key_prefix j i ts : prefix_of ("parameters/" ++ nat_dec j) (rfc_escape "parameters" ++ tail_of (nat_dec i :: ts)) -> j <= i.
Proof.
  intros [r E]. rewrite tail_cons, (no_escape_same _ (nat_dec_no_escape i)) in E. cbn -[nat_dec tail_of] in E. injection E as E. apply nat_dec_prefix.
  apply (prefix_token (nat_dec j) (nat_dec i) ts); [exact (no_escape_slash _ (nat_dec_no_escape j))|]. now exists r.
Qed.
Lemma sapp_prefix_split a b c d : (a ++ b = c ++ d)%string -> String.length c <= String.length a -> exists e, a = (c ++ e)%string /\ d = (e ++ b)%string.
Proof.
  revert a. induction c as [|x c IH]; intros a E Hl; [exists a; cbn in *; auto|]. destruct a as [|y a]; [cbn in Hl; lia|]. cbn in E. injection E as <- E. destruct (IH a E) as (e & -> & ->); [cbn in Hl; lia|]. exists e. auto.
Qed.

Section Paths.
  Variables (deref : obj -> res obj) (normalized_ref : obj -> res json).

  Lemma path_lookup root cs pr l ys p v : Forall2 (path_done deref normalized_ref root cs pr) l ys -> lookup p l = Some v ->
    exists o x r, loaded (BCls "PathItem") v o /\ to_path_item deref normalized_ref o root cs pr = Ok (x, r) /\ In (p, (JDict x, r)) ys /\ lookup p (map (fun y => (fst y, fst (snd y))) ys) = Some (JDict x).
  Proof.
    induction 1 as [|[k1 v1] [k2 [y r]] l ys (E & _ & o & x & Lo & Ex & Ey) F IH]; cbn [lookup fst snd map] in *; [discriminate|]. subst k2 y. destruct (String.eqb_spec p k1) as [->|].
    - intros H. injection H as <-. exists o, x, r. split; [exact Lo|]. split; [exact Ex|]. split; [now left|reflexivity].
    - intros H. destruct (IH H) as (o' & x' & r' & A & B & C & D'). exists o', x', r'. split; [exact A|]. split; [exact B|]. split; [now right|exact D'].
  Qed.
  Lemma path_doc d o x sec reloc p v : loaded (BCls "Swagger") (JDict d) o -> document d -> to_openapi deref normalized_ref o = Ok (x, sec, reloc) -> lookup p (entries_of (val d "paths")) = Some v ->
    exists po y r url cs pr rs, loaded (BCls "PathItem") v po /\ to_path_item deref normalized_ref po url cs pr = Ok (y, r) /\
      (forall ts z, jget (JDict y) ts z -> jget (JDict x) ("paths" :: p :: ts) z) /\
      lookup "paths" reloc = match rs with [] => None | _ => Some (RMap rs) end /\ NoDup (map fst rs) /\
      (forall k t, lookup k rs = Some t -> exists p' moved, k = rfc_escape p' /\ lookup p' (entries_of (val d "paths")) <> None /\ t = RMap (moved_routes moved)) /\
      lookup (rfc_escape p) rs = match r with [] => None | _ => Some (RMap r) end.
  Proof.
    intros L (W & Hi & Hi2 & He & Ht) H Hp.
    destruct (to_openapi_ok deref normalized_ref d o x sec reloc L W Hi Hi2 He Ht H) as (url & paths & schemas & ys & resps & secs & _ & _ & _ & _ & _ & _ & Fp & Lp & _ & _ & _ & _ & _ & _ & _ & _ & _ & _ & _ & _ & _ & Lr & _).
    pose proof (nodup_entries d "paths" W) as Np. destruct (path_lookup _ _ _ _ _ _ _ Fp Hp) as (po & y & r & Lpo & Ey & Iy & Ly). destruct (path_routes_keys deref normalized_ref _ _ _ _ _ Fp Np) as [N1 N2].
    exists po, y, r, url, (texts (val d "consumes")), (texts (val d "produces")), (path_routes paths). split; [exact Lpo|]. split; [exact Ey|]. split; [|split; [|split; [exact N1|split]]].
    - intros ts z J. apply (jget_dict_in x "paths" (JDict (map (fun y => (fst y, fst (snd y))) paths))); [rewrite Lp; destruct paths; [destruct Iy|reflexivity]|]. exact (jget_dict_in _ _ _ _ _ Ly J).
    - rewrite Lr. cbn [String.eqb Ascii.eqb Bool.eqb]. destruct (path_routes paths); reflexivity.
    - intros k t Hk. apply PyValFacts.lookup_In in Hk. destruct (path_routes_inner deref normalized_ref _ _ _ _ _ _ _ Fp Hk) as (moved & -> & _). destruct (N2 k) as (p' & Ip & ->); [apply (in_map fst) in Hk; exact Hk|]. exists p', moved. split; [reflexivity|]. split; [|reflexivity].
      intros X. apply PyValFacts.lookup_none in X. contradiction.
    - destruct r as [|a r].
      + apply PyValFacts.lookup_none. intros X. apply in_map_iff in X as ([k t] & Ek & Ik). cbn [fst] in Ek. subst k. unfold path_routes in Ik. apply in_flat_map in Ik as ([p2 [y2 r2]] & I2 & Ik). cbn [snd fst] in Ik. destruct r2 as [|b r2]; [destruct Ik|].
        destruct Ik as [Ik|[]]. injection Ik as Ek _. rewrite rfc_encode in Ek. apply escape_inj in Ek. subst p2.
        assert (Nk : NoDup (map fst paths)). { enough (map fst paths = keys (entries_of (val d "paths"))) as -> by exact Np. clear -Fp. unfold keys. induction Fp as [|a b l m [E _] _ IH]; [reflexivity|]. cbn [map]. congruence. }
        apply (lookup_nodup p paths _ Nk) in Iy. apply (lookup_nodup p paths _ Nk) in I2. congruence.
      + apply (path_routes_lookup deref normalized_ref _ _ _ _ _ _ _ _ Fp Np Iy). discriminate.
  Qed.
  Lemma paths_longest (rs : routes) p ts t : (forall k t, lookup k rs = Some t -> exists p', k = rfc_escape p') -> lookup (rfc_escape p) rs = Some t -> longest rs (rfc_escape p ++ tail_of ts) (rfc_escape p) t.
  Proof.
    intros Hk Hp. apply longest_only; [exact Hp|now exists (tail_of ts)|]. intros k' t' H' P. destruct (Hk _ _ H') as [p' ->]. exact (prefix_token _ _ ts (escape_slash p') P).
  Qed.

  Lemma path_body_reference d o x sec reloc p pd ps i pq ts : loaded (BCls "Swagger") (JDict d) o -> document d -> to_openapi deref normalized_ref o = Ok (x, sec, reloc) ->
    lookup p (entries_of (val d "paths")) = Some (JDict pd) -> p <> "" -> params_at deref (val pd "parameters") ps -> Forall (fun pq => param_doc (snd pq)) ps ->
    nth_error ps i = Some pq -> is_merged (snd pq) = true -> starts_well ts ->
    patch_jp (pointer ("paths" :: p :: "parameters" :: nat_dec i :: ts)) (at_root reloc) = Ok (pointer ("paths" :: p :: internal_body :: ts)) /\
    exists b, jget (JDict x) ["paths"; p; internal_body] (JDict b).
  Proof.
    intros L D H Hp Np Pa Pd Hi Mi Sw. destruct (document_table deref normalized_ref d o x sec reloc L D H) as [Tw Tk].
    destruct (path_doc d o x sec reloc p _ L D H Hp) as (po & y & r & url & cs & pr & rs & Lpo & Ey & Jy & Lrs & Nrs & Krs & Lr).
    destruct (to_path_item_ok deref normalized_ref pd po ps url cs pr y r Lpo Pa Pd Ey) as (kept & body & ops & body' & _ & Eb & Er & _ & Em & _ & Li & _).
    assert (Im : In i (positions merges 0 ps)). { apply positions_in. exists pq. split; [lia|]. rewrite Nat.sub_0_r. auto. }
    assert (Nm : no_merged ps = false). { destruct (no_merged ps) eqn:E; [|reflexivity]. apply (positions_none ps 0) in E. rewrite E in Im. destruct Im. }
    assert (Lr' : lookup (rfc_escape p) rs = Some (RMap r)). { rewrite Lr, Er. destruct (positions merges 0 ps); [destruct Im|reflexivity]. }
    assert (Lps : lookup "paths" reloc = Some (RMap rs)). { rewrite Lrs. destruct rs; [discriminate|reflexivity]. }
    assert (Nd : NoDup (positions merges 0 ps)). { destruct (item_routes deref normalized_ref _ _ _ _ _ _ Ey) as (mv & Emv & Nmv). rewrite Er in Emv. unfold moved_routes in Emv. enough (positions merges 0 ps = mv) as -> by exact Nmv.
      clear -Emv. revert mv Emv. induction (positions merges 0 ps) as [|a l IH]; intros [|b mv] E; try discriminate; [reflexivity|]. cbn [map] in E. injection E as E1 E2. apply nat_dec_inj in E1. f_equal; [exact E1|now apply IH]. }
    split.
    - rewrite pointer_text. rewrite (patch_jp_boundary (at_root reloc) ["#"; "paths"; rfc_escape p; "parameters/" ++ nat_dec i] (tail_of ts) internal_body (root_wf reloc Tw)).
      + change (startswith "#" internal_body) with false. cbn iota. rewrite pointer_tail, !tail_cons. cbn -[rfc_escape tail_of internal_body]. rewrite !sapp_assoc. cbn -[tail_of]. reflexivity.
      + repeat constructor; try discriminate. intros X. now apply escape_nil in X.
      + now apply tail_token.
      + rewrite <- pointer_text. apply root_leads. apply step_leads with (m' := rs); [apply section_longest; [exact Tk|in_list|exact Lps]|].
        apply step_leads with (m' := r); [apply paths_longest; [|exact Lr']; intros k t Hk; destruct (Krs k t Hk) as (p' & _ & -> & _); eauto|].
        apply ld_text; [|discriminate]. apply longest_only.
        * apply lookup_nodup; [|rewrite Er; apply in_map_iff; exists i; auto]. rewrite Er. unfold keys. rewrite map_map. cbn [fst]. apply nodup_map_inj; [|exact Nd]. intros a b E. apply sapp_inv_head in E. now apply nat_dec_inj.
        * exists (tail_of ts). rewrite tail_cons, (no_escape_same _ (nat_dec_no_escape i)). cbn -[nat_dec tail_of]. rewrite ?sapp_assoc. reflexivity.
        * intros k' t' Hk P'. rewrite Er in Hk. apply PyValFacts.lookup_In in Hk. apply in_map_iff in Hk as (j & Ej & _). injection Ej as <- _.
          destruct P' as [w P']. rewrite tail_cons, (no_escape_same _ (nat_dec_no_escape i)) in P'. cbn -[nat_dec tail_of] in P'. injection P' as P'.
          destruct (prefix_token (nat_dec j) (nat_dec i) ts (no_escape_slash _ (nat_dec_no_escape j)) (ex_intro _ w P')) as [z Ez]. exists z. rewrite Ez. reflexivity.
      + reflexivity.
    - destruct body as [b|]; [|destruct Eb as [Eb _]; rewrite (Eb eq_refl) in Nm; discriminate]. destruct body' as [b'|].
      + exists b'. apply Jy. econstructor; [exact Li|constructor].
      + exfalso. destruct (methods_some_body deref po url pr cs METHODS b ops None Em) as [b' E]. discriminate.
  Qed.

  Lemma path_kept_reference d o x sec reloc p pd ps i pq : loaded (BCls "Swagger") (JDict d) o -> document d -> to_openapi deref normalized_ref o = Ok (x, sec, reloc) ->
    lookup p (entries_of (val d "paths")) = Some (JDict pd) -> params_at deref (val pd "parameters") ps -> Forall (fun pq => param_doc (snd pq)) ps ->
    nth_error ps i = Some pq -> (forall j pq', j <= i -> nth_error ps j = Some pq' -> is_merged (snd pq') = false) ->
    (forall ts, patch_jp (pointer ("paths" :: p :: "parameters" :: nat_dec i :: ts)) (at_root reloc) = Ok (pointer ("paths" :: p :: "parameters" :: nat_dec i :: ts))) /\
    exists k, jget (JDict x) ["paths"; p; "parameters"; nat_dec i] k /\ kept_image (fst pq) k.
  Proof.
    intros L D H Hp Pa Pd Hi Nm. destruct (document_table deref normalized_ref d o x sec reloc L D H) as [Tw Tk].
    destruct (path_doc d o x sec reloc p _ L D H Hp) as (po & y & r & url & cs & pr & rs & Lpo & Ey & Jy & Lrs & Nrs & Krs & Lr).
    destruct (to_path_item_ok deref normalized_ref pd po ps url cs pr y r Lpo Pa Pd Ey) as (kept & body & ops & body' & Fk & _ & Er & _ & _ & _ & _ & Lk & _).
    assert (Er' : RMap r = RMap (moved_routes (positions merges 0 ps))) by (rewrite Er; reflexivity). clear Er.
    split.
    - intros ts. apply patch_jp_stays; [exact (root_wf reloc Tw)|]. rewrite pointer_tail, tail_cons.
      apply (sy_map _ _ _ _ ("/" ++ rfc_escape "paths" ++ tail_of (p :: "parameters" :: nat_dec i :: ts)) (rfc_escape "paths" ++ tail_of (p :: "parameters" :: nat_dec i :: ts)) (root_longest reloc _)); [reflexivity|left; reflexivity|].
      change (rfc_escape "paths") with "paths". destruct rs as [|e rs'] eqn:Ers.
      { apply sy_none. intros k t Hk P. pose proof (section_prefix "paths" k _ ltac:(in_list) (Tk _ _ Hk) P) as ->. congruence. }
      rewrite <- Ers in *. assert (Lps : lookup "paths" reloc = Some (RMap rs)) by (rewrite Lrs, Ers; reflexivity).
      apply (sy_map _ _ "paths" rs (tail_of (p :: "parameters" :: nat_dec i :: ts)) (rfc_escape p ++ tail_of ("parameters" :: nat_dec i :: ts)) (section_longest reloc "paths" _ _ Tk ltac:(in_list) Lps)); [reflexivity|left; now rewrite tail_cons|].
      assert (Wrs : wf_routes rs). { inversion Tw as [m N Hm]; subst m. apply (Hm "paths"). now apply PyValFacts.lookup_In. }
      destruct (leads_or_stays rs (rfc_escape p ++ tail_of ("parameters" :: nat_dec i :: ts)) Wrs) as [S|(ks & t & Ld)]; [exact S|]. exfalso.
      assert (Kr : forall k t, lookup k rs = Some t -> exists p', k = rfc_escape p'). { intros k t0 Hk. destruct (Krs k t0 Hk) as (p' & _ & -> & _). eauto. }
      inversion Ld as [m s k t0 Lo Nt|m s k m' rest s' ks' t0 Lo Es Ws Ld']; subst.
      + destruct Lo as [Hk _]. destruct (Krs _ _ Hk) as (p' & mv & _ & _ & E). discriminate.
      + destruct Lo as (Hk & Pk & Mx). destruct (Krs _ _ Hk) as (p' & mv & -> & _ & E). injection E as ->.
        pose proof (prefix_token _ _ _ (escape_slash p') Pk) as Pp. destruct Pp as [rem Erem].
        assert (Erest : rest = (rem ++ tail_of ("parameters" :: nat_dec i :: ts))%string). { rewrite Erem, sapp_assoc in Es. now apply sapp_inv_head in Es. }
        assert (Nrem : contains_char "/" rem = false). { pose proof (escape_slash p) as X. rewrite Erem, contains_char_app in X. apply orb_false_iff in X as [_ X]. exact X. }
        assert (Kin : forall k t, lookup k (moved_routes mv) = Some t -> exists j, In j mv /\ k = ("parameters/" ++ nat_dec j)%string).
        { intros k t1 X. apply PyValFacts.lookup_In in X. apply in_map_iff in X as (j & Ej & Ij). injection Ej as <- _. eauto. }
        assert (Pin : exists j, In j mv /\ prefix_of ("parameters/" ++ nat_dec j) s').
        { inversion Ld' as [m s k t0 Lo' Nt'|m s k m' rest0 s0 ks0 t0 Lo' Es' Ws' Ld'']; subst; destruct Lo' as (Hk' & Pk' & _); destruct (Kin _ _ Hk') as (j & Ij & ->); eauto. }
        destruct Pin as (j & Ij & [w Pj]). destruct rem as [|c rem].
        * (* the path itself *)
          rewrite sapp_nil_r in Erem. assert (p' = p) by (apply escape_inj; congruence). subst p'. rewrite Lr in Hk. destruct r as [|a r]; [discriminate|]. injection Hk as Hr.
          assert (Jm : In j (positions merges 0 ps)).
          { injection Er' as Er. rewrite Hr in Er. clear -Er Ij. unfold moved_routes in Er. revert Er Ij. generalize (positions merges 0 ps). induction mv as [|b mv IH]; intros [|c l] E I; try discriminate; [destruct I|]. cbn [map] in E. injection E as E1 E2. apply nat_dec_inj in E1. destruct I as [->|I]; [left; auto|right; auto]. }
          apply positions_in in Jm as (pq' & _ & Ej & Mj). rewrite Nat.sub_0_r in Ej. cbn [String.append] in Erest. subst rest. rewrite tail_cons in Ws.
          assert (Hrest : s' = (rfc_escape "parameters" ++ tail_of (nat_dec i :: ts))%string). { destruct Ws as [Ws|[_ Ws]]; [injection Ws as <-; reflexivity|]. now destruct (Ws _ eq_refl). }
          rewrite Hrest in Pj. assert (Hji : j <= i) by (apply (param_key_prefix j i ts); now exists w). specialize (Nm j pq' Hji Ej). unfold merges in Mj. congruence.
        * (* a shorter path *)
          assert (Hrest : s' = rest). { destruct Ws as [Ws|[Ws _]]; [|exact (eq_sym Ws)]. exfalso. rewrite Erest in Ws. cbn [String.append] in Ws. injection Ws as -> _. discriminate Nrem. }
          rewrite Hrest, Erest in Pj. rewrite tail_cons in Pj.
          assert (X : String.length (String c rem) <= String.length "parameters" -> False).
          { intros Hl. change ("parameters/" ++ nat_dec j)%string with ("parameters" ++ ("/" ++ nat_dec j))%string in Pj. rewrite sapp_assoc in Pj. symmetry in Pj. destruct (sapp_prefix_split _ _ _ _ Pj Hl) as (e1 & Ee & Er1).
            destruct e1 as [|a e1].
            - rewrite sapp_nil_r in Ee. cbn -[nat_dec tail_of] in Er1. injection Er1 as Er1. destruct (nat_dec_aux_head (S j) j EmptyString ltac:(lia)) as (kk & rr & Hkk & E). fold (nat_dec j) in E. rewrite E in Er1. cbn [String.append] in Er1. apply (f_equal (fun z => match z with String a _ => a | _ => "~"%char end)) in Er1. cbn iota in Er1. rename Er1 into E1. clear -E1 Hkk. do 10 (destruct kk as [|kk]; [discriminate|]). lia.
            - cbn -[nat_dec tail_of] in Er1. injection Er1 as E1 _. subst a. pose proof (f_equal (contains_char "/") Ee) as X. rewrite contains_char_app in X. cbn in X. rewrite orb_true_r in X. discriminate. }
          destruct (Nat.le_gt_cases (String.length (String c rem)) (String.length "parameters")) as [Hl|Hl]; [exact (X Hl)|].
          change ("parameters/" ++ nat_dec j)%string with ("parameters" ++ ("/" ++ nat_dec j))%string in Pj. rewrite sapp_assoc in Pj. destruct (sapp_prefix_split _ _ _ _ Pj ltac:(lia)) as (e1 & Ee & Er1).
          destruct e1 as [|a e1]; [rewrite sapp_nil_r in Ee; rewrite Ee in Hl; lia|]. cbn -[nat_dec tail_of] in Er1. injection Er1 as E1 _. subst a. rewrite Ee, contains_char_app in Nrem. cbn in Nrem. discriminate.
    - assert (Hf : nth_error (filter (fun pq => negb (is_merged (snd pq))) ps) i = Some pq). { apply nth_filter_prefix; [exact Hi|rewrite (Nm i pq ltac:(lia) Hi); reflexivity|]. intros j pq' Hj Ej. rewrite (Nm j pq' ltac:(lia) Ej). reflexivity. }
      destruct (Forall2_nth _ _ _ Fk i pq Hf) as (k & Ek & Ik). exists k. split; [|exact Ik]. apply Jy. apply (jget_dict_in y "parameters" (JList kept)); [rewrite Lk; destruct kept; [destruct i; discriminate|reflexivity]|].
      apply (jg_idx kept i (nat_dec i) k); [now apply index_text_nat_dec|exact Ek|constructor].
  Qed.
End Paths.
