(** Facts about [merge_path_item]. *)
From Coq Require Import String List Bool Arith Lia.
From Verif Require Import PyStr PyVal PyValFacts Jp Obj ObjFacts Deref MergePath SpecObj DumpFacts StateFacts TablesFacts
  Classes_v1_2 Classes_v2_0 Classes_v3_0_0 PropertiesObjAux SpecTables SpecMerge.
Import ListNotations.
Open Scope string_scope.

Lemma guard_cases v n : (In n v /\ guard_update v n = Err CycleDetectionError) \/ (~ In n v /\ guard_update v n = Ok (v ++ [n])%list).
Proof.
  unfold guard_update. destruct (existsb (Nat.eqb n) v) eqn:E.
  - left. split; [|reflexivity]. apply existsb_exists in E. destruct E as (x & I & H). apply Nat.eqb_eq in H. now subst.
  - right. split; [|reflexivity]. intros I. assert (X : existsb (Nat.eqb n) v = true) by (apply existsb_exists; exists n; split; [exact I|apply Nat.eqb_refl]). congruence.
Qed.
Lemma leads_to_seen w i s1 s2 cur l : leads_to w i s1 cur l -> (forall x, In x s1 <-> In x s2) -> leads_to w i s2 cur l.
Proof.
  intros H. revert s2. induction H as [| |i seen r n NE A I|i seen r n l NE A I L IH]; intros s2 E.
  - constructor.
  - constructor.
  - eapply lt_cycle; [exact NE|exact A|now apply E].
  - eapply lt_next; [exact NE|exact A|intros X; apply I; now apply E|]. apply IH. intros x. cbn [In]. rewrite E. reflexivity.
Qed.
Lemma leads_to_fresh w i seen cur l : leads_to w i seen cur l -> NoDup l /\ forall x, In x l -> ~ In x seen.
Proof.
  intros H. induction H as [| |i seen r n NE A I|i seen r n l NE A I L [IH1 IH2]]; [split; [constructor|intros x []]|split; [constructor|intros x []]|split; [constructor|intros x []]|].
  split.
  - constructor; [|exact IH1]. intros X. exact (IH2 n X (or_introl eq_refl)).
  - intros x [<-|X]; [exact I|]. intros Y. exact (IH2 x X (or_intror Y)).
Qed.
Lemma truthy_str_ne r : truthy_str r = true -> r <> "". Proof. destruct r; [discriminate|discriminate]. Qed.

Lemma merge_kids_no_fuel cs : forall k1 k2, merge_kids cs k1 k2 <> Err OutOfFuel.
Proof.
  induction cs as [|x l IH]; intros k1 k2; [discriminate|]. unfold merge_kids. cbn [foldM].
  destruct (truthy_obj (kid_of (ch_name x) k1)); [apply IH|]. cbv zeta. destruct (truthy_obj (kid_of (ch_name x) k2)); [|apply IH].
  destruct (kid_of (ch_name x) k2); try (apply IH). discriminate.
Qed.
Lemma merge_no_fuel T m o : merge_children T m o <> Err OutOfFuel.
Proof.
  unfold merge_children. destruct m; try discriminate. destruct o; try discriminate. match goal with |- context [lookup ?c T] => destruct (lookup c T) end; [|discriminate].
  intros H. apply bind_err in H. destruct H as [H|(ks & _ & H)]; [|discriminate H]. exact (merge_kids_no_fuel _ _ _ H).
Qed.

Section Merge.
  Context (T : ctable) (R : repo_table T) (cd : classdef) (Ec : lookup "PathItem" T = Some cd).
  Context (w : world) (PI : forall n, is_path_item (w_obj w n)).
  Lemma nearest_merge m m' o os : is_path_item m -> is_path_item o -> merge_children T m o = Ok m' ->
    is_path_item m' /\
    (forall ch, In ch (c_children cd) -> forall a, nearest T (ch_name ch) (m' :: os) a -> nearest T (ch_name ch) (m :: o :: os) a) /\
    (forall name f, names_field cd name f -> getattr T m' name = getattr T m name) /\ get_path m' = get_path m.
  Proof.
    intros (p & s & kids & ->) (p2 & s2 & kids2 & ->) H.
    destruct (merge_spec T _ _ _ _ _ _ _ _ _ R Ec H) as (S1 & S2 & S3 & _).
    assert (PM : is_path_item m').
    { cbn [merge_children] in H. rewrite Ec in H. apply bind_ok in H as (ks & _ & E). injection E as <-. now exists p, s, ks. }
    split; [exact PM|]. split; [|split; [exact S2|exact S3]].
    intros ch I a N. destruct (S1 ch I) as (x & y & X & Y & M).
    inversion N as [|o' os' a' GA TA|o' os' a' b GA FA NB]; subst.
    - rewrite M in GA. injection GA as <-. destruct (truthy_obj x) eqn:TX; [now apply near_here|].
      destruct (truthy_obj y) eqn:TY; [|congruence]. eapply near_later; [exact X|exact TX|]. now apply near_here.
    - rewrite M in GA. injection GA as <-. destruct (truthy_obj x) eqn:TX; [congruence|]. eapply near_later; [exact X|exact TX|].
      destruct (truthy_obj y) eqn:TY; [congruence|]. eapply near_later; [exact Y|exact TY|exact NB].
  Qed.
  Lemma child_attr m ch : is_path_item m -> In ch (c_children cd) -> exists a, getattr T m (ch_name ch) = Ok a.
  Proof.
    intros (p & s & kids & ->) I.
    destruct (merge_children T (OObj "PathItem" p s kids) (OObj "PathItem" p s kids)) as [m'|e] eqn:E.
    - destruct (merge_spec T _ _ _ _ _ _ _ _ _ R Ec E) as (S1 & _). destruct (S1 ch I) as (a & _ & A & _). eauto.
    - assert (X : merge_children T (OObj "PathItem" p s kids) (OObj "PathItem" p s []) = Ok (OObj "PathItem" p s kids)).
      { cbn [merge_children]. rewrite Ec. rewrite merge_kids_fix; [reflexivity|]. intros c _. right. reflexivity. }
      destruct (merge_spec T _ _ _ _ _ _ _ _ _ R Ec X) as (S1 & _). destruct (S1 ch I) as (a & _ & A & _). eauto.
  Qed.
  Lemma merge_loop_ok fuel : forall i v m cur r, is_path_item m -> merge_loop fuel T w i v m cur = Ok r ->
    exists l, leads_to w i v cur l /\ is_path_item r /\
      (forall ch, In ch (c_children cd) -> forall a, nearest T (ch_name ch) [r] a -> nearest T (ch_name ch) (m :: map (w_obj w) l) a) /\
      (forall name f, names_field cd name f -> getattr T r name = getattr T m name) /\ get_path r = get_path m.
  Proof.
    induction fuel as [|f IH]; intros i v m cur r PM H; [discriminate H|]. cbn [merge_loop] in H.
    destruct cur as [rf|]; [|injection H as <-; exists []; split; [constructor|]; split; [exact PM|]; split; [auto|]; split; [reflexivity|reflexivity]].
    destruct (truthy_str rf) eqn:TR.
    2: { injection H as <-. exists []. assert (rf = "") by (destruct rf; [reflexivity|discriminate TR]). subst rf. split; [constructor|]; split; [exact PM|]; split; [auto|]; split; [reflexivity|reflexivity]. }
    destruct (w_answer w i rf) as [[n|]|e] eqn:A; [|discriminate H|discriminate H].
    destruct (guard_cases v n) as [[I G]|[I G]]; rewrite G in H.
    - injection H as <-. exists []. split; [eapply lt_cycle; [now apply truthy_str_ne|exact A|exact I]|]. split; [exact PM|]. split; [auto|]. split; [reflexivity|reflexivity].
    - apply bind_ok in H as (m' & M & H). destruct (nearest_merge m m' (w_obj w n) [] PM (PI n) M) as (PM' & _ & F1 & P1).
      destruct (IH _ _ _ _ _ PM' H) as (l & L & PR & NR & F2 & P2). exists (n :: l). split; [|split; [|split; [|split]]].
      + eapply lt_next; [now apply truthy_str_ne|exact A|exact I|]. eapply leads_to_seen; [exact L|]. intros x. rewrite in_app_iff. cbn [In]. tauto.
      + exact PR.
      + intros ch Ic a N. cbn [map]. destruct (nearest_merge m m' (w_obj w n) (map (w_obj w) l) PM (PI n) M) as (_ & NM & _).
        exact (NM ch Ic a (NR ch Ic a N)).
      + intros name fd NF. rewrite (F2 name fd NF). exact (F1 name fd NF).
      + now rewrite P2.
  Qed.
  Lemma merge_loop_fuel (ids : list nat) :
    (forall i r n, w_answer w i r = Ok (Some n) -> In n ids) ->
    forall k fuel i v m cur, NoDup v -> incl v ids -> length ids - length v <= k -> k < fuel ->
    (merge_loop fuel T w i v m cur = Err OutOfFuel -> (exists j r, w_answer w j r = Err OutOfFuel)) /\
    (forall fuel', fuel <= fuel' -> merge_loop fuel' T w i v m cur = merge_loop fuel T w i v m cur).
  Proof.
    intros ID k. induction k as [|k IH]; intros fuel i v m cur ND IN LE LT; (destruct fuel as [|f]; [lia|]).
    - split.
      + cbn [merge_loop]. destruct cur as [rf|]; [|discriminate]. destruct (truthy_str rf); [|discriminate].
        destruct (w_answer w i rf) as [[n|]|e] eqn:A; [|discriminate|intros [= ->]; eauto].
        destruct (guard_cases v n) as [[I G]|[I G]]; rewrite G; [discriminate|].
        exfalso. apply I. apply (NoDup_length_incl ND (l' := ids)); [lia|exact IN|exact (ID _ _ _ A)].
      + intros fuel' L. destruct fuel' as [|f']; [lia|]. cbn [merge_loop]. destruct cur as [rf|]; [|reflexivity]. destruct (truthy_str rf); [|reflexivity].
        destruct (w_answer w i rf) as [[n|]|e] eqn:A; [|reflexivity|reflexivity].
        destruct (guard_cases v n) as [[I G]|[I G]]; rewrite G; [reflexivity|].
        exfalso. apply I. apply (NoDup_length_incl ND (l' := ids)); [lia|exact IN|exact (ID _ _ _ A)].
    - assert (ST : forall n j r, w_answer w j r = Ok (Some n) -> ~ In n v -> NoDup (v ++ [n]) /\ incl (v ++ [n]) ids /\ length ids - length (v ++ [n]) <= k).
      { intros n j r A I. split; [|split].
        - apply NoDup_app_join; [exact ND|constructor; [intros []|constructor]|]. intros x X [<-|[]]. exact (I X).
        - intros x X. apply in_app_or in X. destruct X as [X|[<-|[]]]; [now apply IN|exact (ID _ _ _ A)].
        - rewrite app_length. cbn [length]. lia. }
      split.
      + cbn [merge_loop]. destruct cur as [rf|]; [|discriminate]. destruct (truthy_str rf); [|discriminate].
        destruct (w_answer w i rf) as [[n|]|e] eqn:A; [|discriminate|intros [= ->]; eauto].
        destruct (guard_cases v n) as [[I G]|[I G]]; rewrite G; [discriminate|].
        destruct (merge_children T m (w_obj w n)) as [m'|e] eqn:M.
        * cbn [bind]. destruct (ST _ _ _ A I) as (S1 & S2 & S3). destruct (IH f (S i) _ m' (w_nref w n) S1 S2 S3 ltac:(lia)) as [X _]. exact X.
        * cbn [bind]. intros [= ->]. exfalso. exact (merge_no_fuel _ _ _ M).
      + intros fuel' L. destruct fuel' as [|f']; [lia|]. cbn [merge_loop]. destruct cur as [rf|]; [|reflexivity]. destruct (truthy_str rf); [|reflexivity].
        destruct (w_answer w i rf) as [[n|]|e] eqn:A; [|reflexivity|reflexivity].
        destruct (guard_cases v n) as [[I G]|[I G]]; rewrite G; [reflexivity|].
        destruct (merge_children T m (w_obj w n)) as [m'|e] eqn:M; [|reflexivity]. cbn [bind].
        destruct (ST _ _ _ A I) as (S1 & S2 & S3). destruct (IH f (S i) _ m' (w_nref w n) S1 S2 S3 ltac:(lia)) as [_ X]. apply X. lia.
  Qed.
End Merge.

Lemma empty_item T cd : repo_table T -> lookup "PathItem" T = Some cd -> construct T (JDict []) (BCls "PathItem") None [] = Ok (OObj "PathItem" None (JDict []) []).
Proof. intros R E. destruct R; [discriminate E|reflexivity|reflexivity]. Qed.
Lemma empty_item_child T cd ch : repo_table T -> lookup "PathItem" T = Some cd -> In ch (c_children cd) -> getattr T (OObj "PathItem" None (JDict []) []) (ch_name ch) = Ok (OPrim JNull).
Proof.
  intros R E I. assert (H : forallb (fun c => match getattr T (OObj "PathItem" None (JDict []) []) (ch_name c) with Ok (OPrim JNull) => true | _ => false end) (c_children cd) = true).
  { destruct R; [discriminate E|injection E as <-; vm_compute; reflexivity|injection E as <-; vm_compute; reflexivity]. }
  rewrite forallb_forall in H. specialize (H ch I). destruct (getattr T _ (ch_name ch)) as [[[]| | |]|]; try discriminate H. reflexivity.
Qed.
Lemma empty_item_field T cd name f : repo_table T -> lookup "PathItem" T = Some cd -> names_field cd name f -> getattr T (OObj "PathItem" None (JDict []) []) name = Ok (OPrim JNull).
Proof.
  intros R E N.
  assert (H : forallb (fun n => match getattr T (OObj "PathItem" None (JDict []) []) n with Ok (OPrim JNull) => true | _ => false end)
                (map f_name (c_fields cd) ++ flat_map (fun r => if existsb (fun g => String.eqb (f_name g) (snd r)) (c_fields cd) then [fst r] else []) (c_renames cd)) = true).
  { destruct R; [discriminate E|injection E as <-; vm_compute; reflexivity|injection E as <-; vm_compute; reflexivity]. }
  rewrite forallb_forall in H. assert (I : In name (map f_name (c_fields cd) ++ flat_map (fun r => if existsb (fun g => String.eqb (f_name g) (snd r)) (c_fields cd) then [fst r] else []) (c_renames cd))).
  { apply in_or_app. destruct N as [f I|a f I J]; [left; now apply in_map|]. right. apply in_flat_map. exists (a, f_name f). split; [exact J|]. cbn [fst snd].
    assert (X : existsb (fun g => String.eqb (f_name g) (f_name f)) (c_fields cd) = true) by (apply existsb_exists; exists f; split; [exact I|apply String.eqb_refl]).
    rewrite X. now left. }
  specialize (H name I). destruct (getattr T _ name) as [[[]| | |]|]; try discriminate H. reflexivity.
Qed.

Lemma merge_item_ok T cd w fuel start m : repo_table T -> lookup "PathItem" T = Some cd -> (forall n, is_path_item (w_obj w n)) ->
  merge_path_item fuel T w start = Ok m ->
  exists l, leads_to w 0 [start] (w_nref w start) l /\ NoDup (start :: l) /\ is_path_item m /\
    (forall ch, In ch (c_children cd) -> exists a, getattr T m (ch_name ch) = Ok a /\ nearest T (ch_name ch) (map (w_obj w) (start :: l)) a) /\
    (forall name f, names_field cd name f -> getattr T m name = Ok (OPrim JNull)) /\ get_path m = None.
Proof.
  intros R E PI H. unfold merge_path_item in H. destruct (guard_cases [] start) as [[[] _]|[_ G]]. rewrite G in H. cbn [bind] in H.
  rewrite (empty_item T cd R E) in H. cbn [bind] in H. apply bind_ok in H as (m0 & M & H).
  assert (PE : is_path_item (OObj "PathItem" None (JDict []) [])) by (now exists None, (JDict []), []).
  destruct (nearest_merge T R cd E _ _ _ [] PE (PI start) M) as (P0 & _ & F0 & Q0).
  destruct (merge_loop_ok T R cd E w PI fuel _ _ _ _ _ P0 H) as (l & L & PM & NM & F1 & Q1). exists l.
  split; [exact L|]. split; [destruct (leads_to_fresh _ _ _ _ _ L) as [A B]; constructor; [intros X; exact (B _ X (or_introl eq_refl))|exact A]|].
  split; [exact PM|]. split; [|split].
  - intros ch I. destruct (child_attr T R cd E m ch PM I) as (a & A). destruct (child_attr T R cd E m0 ch P0 I) as (a0 & A0).
    destruct (nearest_merge T R cd E _ _ _ (map (w_obj w) l) PE (PI start) M) as (_ & NM0 & _).
    assert (X : forall b, nearest T (ch_name ch) [m] b -> nearest T (ch_name ch) (map (w_obj w) (start :: l)) b).
    { intros b B. assert (Y := NM0 ch I b (NM ch I b B)). inversion Y as [|o' os' a' GA TA|o' os' a' b' GA FA NB]; subst; [|exact NB].
      rewrite (empty_item_child T cd ch R E I) in GA. injection GA as <-. discriminate TA. }
    exists a. split; [exact A|]. destruct (truthy_obj a) eqn:TA; [apply X; now apply near_here|].
    assert (Y := X _ (near_later T (ch_name ch) m [] a _ A TA (near_none T _))).
    (* a falsy value of the result is None *)
    assert (Z : a = OPrim JNull).
    { clear - R E PI M H A P0 PE I TA. revert H. assert (W0 : forall b, getattr T m0 (ch_name ch) = Ok b -> truthy_obj b = false -> b = OPrim JNull).
      { intros b B FB. destruct PE as (p1 & s1 & k1 & E1). destruct (PI start) as (p & s & ks & Es). rewrite Es in M.
        destruct (merge_spec T _ _ _ _ _ _ _ _ _ R E M) as (S1 & _). destruct (S1 ch I) as (x & y & Hx & Hy & Hm).
        rewrite (empty_item_child T cd ch R E I) in Hx. injection Hx as <-. rewrite Hm in B. injection B as <-. cbn [truthy_obj truthy] in *. destruct (truthy_obj y) eqn:TY; [congruence|reflexivity]. }
      clear M PE. generalize 0, ([] ++ [start])%list, (w_nref w start). revert m0 P0 W0. induction fuel as [|f IH]; intros m0 P0 W0 i v cur H; [discriminate H|]. cbn [merge_loop] in H.
      destruct cur as [rf|]; [|injection H as <-; exact (W0 a A TA)]. destruct (truthy_str rf); [|injection H as <-; exact (W0 a A TA)].
      destruct (w_answer w i rf) as [[n|]|e]; [|discriminate H|discriminate H]. destruct (guard_cases v n) as [[_ G]|[_ G]]; rewrite G in H; [injection H as <-; exact (W0 a A TA)|].
      apply bind_ok in H as (m' & M & H). destruct (nearest_merge T R cd E _ _ _ [] P0 (PI n) M) as (P' & _).
      apply (IH m' P') in H; [exact H|]. intros b B FB. destruct P0 as (p0 & s0 & k0 & ->). destruct (PI n) as (p & s & ks & Es). rewrite Es in M.
      destruct (merge_spec T _ _ _ _ _ _ _ _ _ R E M) as (S1 & _). destruct (S1 ch I) as (x & y & Hx & Hy & Hm). rewrite Hm in B. injection B as <-.
      destruct (truthy_obj x) eqn:TX; [congruence|]. destruct (truthy_obj y) eqn:TY; [congruence|]. exact (W0 x Hx TX). }
    subst a. exact Y.
  - intros name f N. rewrite (F1 name f N), (F0 name f N). exact (empty_item_field T cd name f R E N).
  - now rewrite Q1, Q0.
Qed.

Lemma merge_item_fuel T cd w ids fuel start : repo_table T -> lookup "PathItem" T = Some cd -> (forall i r n, w_answer w i r = Ok (Some n) -> In n ids) -> (forall i r, w_answer w i r <> Err OutOfFuel) ->
  length ids < fuel ->
  merge_path_item fuel T w start <> Err OutOfFuel /\ (forall fuel', fuel <= fuel' -> merge_path_item fuel' T w start = merge_path_item fuel T w start).
Proof.
  intros R E ID NF L. unfold merge_path_item. destruct (guard_cases [] start) as [[[] _]|[_ G]]. rewrite G. cbn [bind app].
  rewrite (empty_item T cd R E). cbn [bind]. set (em := OObj _ _ _ _).
  destruct (merge_children T em (w_obj w start)) as [m|e] eqn:M; [|cbn [bind]; split; [intros [= ->]; exact (merge_no_fuel _ _ _ M)|reflexivity]]. cbn [bind].
  assert (ND : NoDup [start]) by (constructor; [intros []|constructor]).
  destruct (merge_loop_fuel T w (start :: ids)) with (k := length ids) (fuel := fuel) (i := 0) (v := [start]) (m := m) (cur := w_nref w start) as [A B].
  - intros i r n X. right. exact (ID _ _ _ X).
  - exact ND.
  - intros x [<-|[]]. now left.
  - cbn [length]. lia.
  - exact L.
  - split; [|exact B]. intros X. destruct (A X) as (j & r & Y). exact (NF j r Y).
Qed.

Lemma merge_raises_only T cd m o e : repo_table T -> lookup "PathItem" T = Some cd -> is_path_item m -> is_path_item o -> merge_children T m o = Err e ->
  e = PyException /\ ~ has_objects T o.
Proof.
  intros R E (p & s & kids & ->) (p2 & s2 & kids2 & ->) H.
  assert (X := proj1 (merge_raises T _ _ _ _ _ _ _ _ R E) (ex_intro _ e H)). destruct X as (ch & a & j & I & _ & _ & G & TJ). split.
  - cbn [merge_children] in H. rewrite E in H. apply bind_err in H. destruct H as [H|(ks & _ & H)]; [|discriminate H].
    destruct (declared_nodup cd (repo_wd T R _ cd E)) as (_ & Nc & _). apply (merge_kids_err _ Nc) in H. exact (proj1 H).
  - intros HO. rewrite (HO cd ch j E I G) in TJ. discriminate TJ.
Qed.
Lemma merge_path T cd m o m' : repo_table T -> lookup "PathItem" T = Some cd -> is_path_item m -> is_path_item o -> merge_children T m o = Ok m' -> is_path_item m'.
Proof. intros R E A B H. exact (proj1 (nearest_merge T R cd E m m' o [] A B H)). Qed.
Lemma merge_loop_err T cd w : repo_table T -> lookup "PathItem" T = Some cd -> (forall n, is_path_item (w_obj w n)) -> forall fuel i v m cur e, is_path_item m ->
  merge_loop fuel T w i v m cur = Err e ->
  e = OutOfFuel \/ (exists j r, w_answer w j r = Err e) \/ (e = PyException /\ breaks w i v cur) \/ (e = PyException /\ exists n, ~ has_objects T (w_obj w n)).
Proof.
  intros R E PI. induction fuel as [|f IH]; intros i v m cur e PM H; [injection H as <-; now left|]. cbn [merge_loop] in H.
  destruct cur as [rf|]; [|discriminate H]. destruct (truthy_str rf) eqn:TR; [|discriminate H]. apply truthy_str_ne in TR.
  destruct (w_answer w i rf) as [[n|]|e'] eqn:A.
  - destruct (guard_cases v n) as [[I G]|[I G]]; rewrite G in H; [discriminate H|].
    destruct (merge_children T m (w_obj w n)) as [m'|e'] eqn:M; cbn [bind] in H.
    + assert (PM' := merge_path T cd _ _ _ R E PM (PI n) M). destruct (IH _ _ _ _ _ PM' H) as [X|[X|[[X Y]|X]]]; [now left|now right; left| |right; right; right; exact X].
      right; right; left. split; [exact X|]. eapply br_next; [exact TR|exact A|exact I|]. clear - Y.
      assert (Z : forall x, In x (v ++ [n])%list <-> In x (n :: v)) by (intros x; rewrite in_app_iff; cbn [In]; tauto).
      revert Z. generalize (n :: v). generalize dependent (v ++ [n])%list. generalize (w_nref w n), (S i). intros c j s1 B. 
      induction B as [j s1 r NE A|j s1 r k NE A I B IH]; intros s2 Z; [now apply br_here|]. eapply br_next; [exact NE|exact A|intros X; apply I; now apply Z|].
      apply IH. intros x. cbn [In]. now rewrite Z.
    + injection H as <-. destruct (merge_raises_only T cd m (w_obj w n) e' R E PM (PI n) M) as [-> X]. right; right; right. split; [reflexivity|now exists n].
  - injection H as <-. right; right; left. split; [reflexivity|now apply br_here].
  - injection H as <-. right; left. now exists i, rf.
Qed.
Lemma merge_item_err T cd w fuel start e : repo_table T -> lookup "PathItem" T = Some cd -> (forall n, is_path_item (w_obj w n)) ->
  merge_path_item fuel T w start = Err e ->
  e = OutOfFuel \/ (exists j r, w_answer w j r = Err e) \/ (e = PyException /\ breaks w 0 [start] (w_nref w start)) \/ (e = PyException /\ exists n, ~ has_objects T (w_obj w n)).
Proof.
  intros R E PI H. unfold merge_path_item in H. destruct (guard_cases [] start) as [[[] _]|[_ G]]. rewrite G in H. cbn [bind app] in H.
  rewrite (empty_item T cd R E) in H. cbn [bind] in H.
  assert (PE : is_path_item (OObj "PathItem" None (JDict []) [])) by (now exists None, (JDict []), []).
  destruct (merge_children T _ (w_obj w start)) as [m'|e'] eqn:M; cbn [bind] in H.
  - exact (merge_loop_err T cd w R E PI _ _ _ _ _ _ (merge_path T cd _ _ _ R E PE (PI start) M) H).
  - injection H as <-. destruct (merge_raises_only T cd _ (w_obj w start) e' R E PE (PI start) M) as [-> X]. right; right; right. split; [reflexivity|now exists start].
Qed.
Lemma leads_not_breaks w i seen cur l : leads_to w i seen cur l -> breaks w i seen cur -> False.
Proof.
  intros L. induction L as [| |i seen r n NE A I|i seen r n l NE A I L IH]; intros B; inversion B as [i' s' r' NE' A'|i' s' r' n' NE' A' I' B']; subst; try congruence.
Qed.
Lemma merge_item_breaks T cd w fuel start : repo_table T -> lookup "PathItem" T = Some cd -> (forall n, is_path_item (w_obj w n)) ->
  breaks w 0 [start] (w_nref w start) -> exists e, merge_path_item fuel T w start = Err e.
Proof.
  intros R E PI B. destruct (merge_path_item fuel T w start) as [m|e] eqn:M; [|now exists e]. exfalso.
  destruct (merge_item_ok T cd w fuel start m R E PI M) as (l & L & _). exact (leads_not_breaks _ _ _ _ _ L B).
Qed.
