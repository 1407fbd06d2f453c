(** [parse_float] reads decimal numerals. *)
From Coq Require Import String Ascii List Bool Arith ZArith QArith Qround Qpower Lia.
From Verif Require Import PyStr PyStrFacts PyVal PyValFacts UrlLib Obj Up12 SpecUp12.
Import ListNotations.
Close Scope Q_scope. Open Scope string_scope. Open Scope nat_scope.

Lemma take_digits_spec s : forall acc n, exists a r, s = a ++ r /\ all_digits a = true /\
  (match r with String c _ => is_digit c = false | EmptyString => True end) /\
  take_digits s acc n = (digits_value a acc, n + String.length a, r).
Proof.
  induction s as [|c s IH]; intros acc n; cbn [take_digits].
  - exists "", "". repeat (split; [reflexivity || exact I|]). cbn. now rewrite Nat.add_0_r.
  - destruct (is_digit c) eqn:E.
    + destruct (IH (acc * 10 + Z.of_nat (nat_of_ascii c - 48))%Z (S n)) as (a & r & -> & Ha & Hr & Ht). exists (String c a), r.
      split; [reflexivity|]. split; [cbn; now rewrite E|]. split; [exact Hr|]. rewrite Ht. cbn [String.length digits_value]. unfold digit_value. rewrite Nat.add_succ_r. reflexivity.
    + exists "", (String c s). split; [reflexivity|]. split; [reflexivity|]. split; [exact E|]. cbn. now rewrite Nat.add_0_r.
Qed.
Lemma digits_cut a : forall a' r r', all_digits a = true -> all_digits a' = true ->
  (match r with String c _ => is_digit c = false | EmptyString => True end) ->
  (match r' with String c _ => is_digit c = false | EmptyString => True end) -> a ++ r = a' ++ r' -> a = a' /\ r = r'.
Proof.
  induction a as [|c a IH]; intros [|c' a'] r r' Ha Ha' Hr Hr' E; cbn in *.
  - auto.
  - subst r. cbn in Hr. apply andb_true_iff in Ha' as [Ha' _]. congruence.
  - subst r'. cbn in Hr'. apply andb_true_iff in Ha as [Ha _]. congruence.
  - injection E as -> E. apply andb_true_iff in Ha as [_ Ha]. apply andb_true_iff in Ha' as [_ Ha']. destruct (IH _ _ _ Ha Ha' Hr Hr' E) as [-> ->]. auto.
Qed.
Lemma take_digits_eq a r acc n : all_digits a = true -> (match r with String c _ => is_digit c = false | EmptyString => True end) ->
  take_digits (a ++ r) acc n = (digits_value a acc, n + String.length a, r).
Proof.
  intros Ha Hr. destruct (take_digits_spec (a ++ r) acc n) as (a' & r' & E & Ha' & Hr' & ->).
  destruct (digits_cut _ _ _ _ Ha Ha' Hr Hr' E) as [-> ->]. reflexivity.
Qed.
Lemma digits_value_app a b acc : digits_value (a ++ b) acc = digits_value b (digits_value a acc).
Proof. revert acc. induction a as [|c a IH]; intros acc; cbn; [reflexivity|apply IH]. Qed.
Lemma all_digits_app a b : all_digits (a ++ b) = all_digits a && all_digits b.
Proof. induction a as [|c a IH]; cbn; [reflexivity|]. rewrite IH. apply andb_assoc. Qed.

Lemma take_sign_spec s : exists neg r, take_sign s = (neg, r) /\ signed s neg r.
Proof.
  destruct s as [|c s]; [exists false, ""; split; [reflexivity|constructor]|].
  destruct c as [b0 b1 b2 b3 b4 b5 b6 b7]; destruct b0, b1, b2, b3, b4, b5, b6, b7; cbn; eexists; eexists; (split; [reflexivity|constructor]).
Qed.
Lemma signed_take s neg r : signed s neg r -> (forall c t, r = String c t -> c <> "+"%char /\ c <> "-"%char) -> take_sign s = (neg, r).
Proof.
  intros H N. destruct H as [s|s|s]; try reflexivity. destruct s as [|c s]; [reflexivity|]. destruct (N c s eq_refl) as [N1 N2].
  unfold take_sign. destruct c as [b0 b1 b2 b3 b4 b5 b6 b7]. destruct b0, b1, b2, b3, b4, b5, b6, b7; try reflexivity; congruence.
Qed.

Lemma scale10_eq m e : (scale10 m e == inject_Z m * power10 e)%Q.
Proof.
  unfold scale10, power10. rewrite Qred_correct. change (10 # 1)%Q with (inject_Z 10). destruct (e <? 0)%Z eqn:E.
  - apply Z.ltb_lt in E. destruct e as [|p|p]; try lia. cbn [Z.opp]. 
    assert (P : (10 ^ Z.pos p > 0)%Z) by (apply Z.lt_gt, Z.pow_pos_nonneg; lia).
    assert (H : (Qpower (inject_Z 10) (Z.neg p) == / inject_Z (10 ^ Z.pos p))%Q) by (rewrite Zpower_Qpower by lia; reflexivity).
    rewrite H. rewrite (Qmake_Qdiv m). unfold Qdiv. rewrite Z2Pos.id by lia. reflexivity.
  - apply Z.ltb_ge in E. rewrite inject_Z_mult. apply Qmult_comp; [reflexivity|]. rewrite Zpower_Qpower by exact E. reflexivity.
Qed.

Lemma nondigit_point r : match String "." r with String c _ => is_digit c = false | EmptyString => True end. Proof. reflexivity. Qed.
Lemma exponent_start ex e : exponent ex e -> match ex with String c _ => is_digit c = false /\ c <> "."%char | EmptyString => True end.
Proof. intros [|c r neg ds [->| ->] _ _ _]; [exact I|split; [reflexivity|discriminate]..]. Qed.
Lemma digit_not_sign c : is_digit c = true -> c <> "+"%char /\ c <> "-"%char.
Proof. intros H. split; intros ->; discriminate. Qed.
Lemma parse_float_complete s m e : numeral s m e -> parse_float s = Some (scale10 m e).
Proof.
  intros [s' neg ip pt fp ex e' mant Hs -> Hi Hf Hne Hpt Hex].
  assert (TS : take_sign s' = (neg, ip ++ pt ++ fp ++ ex)).
  { apply signed_take; [exact Hs|]. intros c t E. destruct ip as [|c' ip]; cbn in E.
    - destruct Hpt as [->|[-> ->]]; [|contradiction Hne; reflexivity]. injection E as <- _. split; discriminate.
    - injection E as <- _. cbn in Hi. apply andb_true_iff in Hi as [Hi _]. now apply digit_not_sign. }
  unfold parse_float. rewrite TS.
  assert (T2 : forall v k, (let '(v, k, s) := (v, k, ex) in let m := if neg then (- v)%Z else v in
       if Nat.eqb (String.length ip + k) 0 then None
       else match s with
       | EmptyString => Some (scale10 m (- Z.of_nat k))
       | String c r =>
           if Ascii.eqb c "e" || Ascii.eqb c "E" then
             let (eneg, r) := take_sign r in
             let '(e, en, r) := take_digits r 0%Z 0 in
             match en, r with
             | S _, EmptyString => Some (scale10 m ((if eneg then - e else e) - Z.of_nat k))
             | _, _ => None
             end
           else None
       end) = if Nat.eqb (String.length ip + k) 0 then None else Some (scale10 (signed_value neg v) (e' - Z.of_nat k))).
  { intros v k. cbv zeta. destruct (Nat.eqb (String.length ip + k) 0); [reflexivity|]. unfold signed_value. destruct Hex as [|c r eneg ds Hc Hr Hd Hn].
    - reflexivity.
    - assert (Ce : (Ascii.eqb c "e" || Ascii.eqb c "E") = true) by (destruct Hc as [->| ->]; reflexivity). rewrite Ce.
      rewrite (signed_take _ _ _ Hr).
      + assert (Td := take_digits_eq ds "" 0%Z 0 Hd I). rewrite sapp_nil_r in Td. rewrite Td. destruct ds as [|c1 ds]; [contradiction Hn; reflexivity|]. cbn [String.length Nat.add]. destruct eneg; reflexivity.
      + intros c1 t ->. cbn in Hd. apply andb_true_iff in Hd as [Hd _]. now apply digit_not_sign. }
  destruct Hpt as [->|[-> ->]].
  - cbn [append]. rewrite (take_digits_eq ip (String "." (fp ++ ex)) 0%Z 0 Hi eq_refl). cbn [Nat.add].
    assert (Ex : match ex with String c _ => is_digit c = false | EmptyString => True end) by (apply exponent_start in Hex; destruct ex; [exact I|tauto]).
    rewrite (take_digits_eq fp ex _ 0 Hf Ex). cbn [Nat.add]. rewrite T2.
    destruct (Nat.eqb (String.length ip + String.length fp) 0) eqn:E.
    + apply Nat.eqb_eq in E. destruct ip, fp; cbn in E; try lia. contradiction Hne; reflexivity.
    + rewrite digits_value_app. reflexivity.
  - cbn [append] in *. assert (Ex := exponent_start _ _ Hex).
    rewrite (take_digits_eq ip ex 0%Z 0 Hi) by (destruct ex; [exact I|tauto]). cbn [Nat.add].
    assert (E : (match ex with String "." r => take_digits r (digits_value ip 0) 0 | _ => (digits_value ip 0%Z, 0, ex) end) = (digits_value ip 0%Z, 0, ex)).
    { destruct ex as [|c ex]; [reflexivity|]. destruct Ex as [_ Ex]. destruct c as [b0 b1 b2 b3 b4 b5 b6 b7]. destruct b0, b1, b2, b3, b4, b5, b6, b7; try reflexivity; congruence. }
    rewrite E, T2. rewrite !sapp_nil_r in *. destruct ip; [contradiction Hne; reflexivity|]. reflexivity.
Qed.
Lemma parse_float_sound s q : parse_float s = Some q -> exists m e, numeral s m e /\ q = scale10 m e.
Proof.
  unfold parse_float. destruct (take_sign_spec s) as (neg & mant & -> & Hs).
  destruct (take_digits_spec mant 0%Z 0) as (ip & r1 & E1 & Hi & Hr1 & ->). cbn [Nat.add].
  assert (exists pt fp r2, r1 = pt ++ fp ++ r2 /\ all_digits fp = true /\ (pt = "." \/ pt = "" /\ fp = "") /\
    (match r1 with String "." r => take_digits r (digits_value ip 0) 0 | _ => (digits_value ip 0%Z, 0, r1) end) = (digits_value (ip ++ fp) 0%Z, String.length fp, r2)) as (pt & fp & r2 & -> & Hf & Hpt & ->).
  { assert (D : (exists r, r1 = String "." r) \/ (match r1 with String "." r => take_digits r (digits_value ip 0) 0 | _ => (digits_value ip 0%Z, 0, r1) end) = (digits_value ip 0%Z, 0, r1)).
    { destruct r1 as [|c r]; [right; reflexivity|]. destruct (Ascii.ascii_dec c "."%char) as [->|N]; [left; eauto|right].
      destruct c as [b0 b1 b2 b3 b4 b5 b6 b7]. destruct b0, b1, b2, b3, b4, b5, b6, b7; try reflexivity; congruence. }
    destruct D as [(r & ->)|D].
    - destruct (take_digits_spec r (digits_value ip 0) 0) as (fp & r2 & -> & Hf & _ & T). exists ".", fp, r2. rewrite T, digits_value_app. auto.
    - exists "", "", r1. rewrite sapp_nil_r. cbn [append String.length]. auto 6. }
  destruct (Nat.eqb (String.length ip + String.length fp) 0) eqn:Ne; [discriminate|].
  assert (Hne : ip ++ fp <> "") by (intros E; apply sapp_eq_nil in E as [-> ->]; discriminate).
  assert (G : forall e, exponent r2 e -> exists m e', numeral s m e' /\ scale10 (signed_value neg (digits_value (ip ++ fp) 0)) (e - Z.of_nat (String.length fp)) = scale10 m e').
  { intros e He. eexists. eexists. split; [|reflexivity]. eapply nm_intro; eauto. }
  destruct r2 as [|c r].
  - intros H. injection H as <-. destruct (G 0%Z ex_none) as (m & e' & N & E). exists m, e'. split; [exact N|]. rewrite <- E. unfold signed_value. f_equal; lia.
  - destruct (Ascii.eqb c "e" || Ascii.eqb c "E") eqn:Ce; [|discriminate].
    destruct (take_sign_spec r) as (eneg & r3 & -> & Hr). destruct (take_digits_spec r3 0%Z 0) as (ds & r4 & -> & Hd & Hr4 & ->). cbn [Nat.add].
    destruct (String.length ds) eqn:L; [discriminate|]. destruct r4; [|discriminate]. intros H. injection H as <-. rewrite sapp_nil_r in Hr.
    destruct (G (signed_value eneg (digits_value ds 0))) as (m & e' & N & E).
    + apply ex_some; [|exact Hr|exact Hd|intros ->; discriminate]. apply orb_true_iff in Ce as [Ce|Ce]; apply Ascii.eqb_eq in Ce as ->; auto.
    + exists m, e'. split; [exact N|]. rewrite <- E. unfold signed_value. reflexivity.
Qed.
Lemma py_float_number j q : py_float j = Ok q -> number_of j q.
Proof.
  destruct j as [|b|z|x|s| |]; cbn [py_float]; intros H; try discriminate; try (injection H as <-).
  - destruct b; constructor.
  - constructor.
  - constructor.
  - destruct (parse_float s) as [x|] eqn:E; [|discriminate]. injection H as <-. destruct (parse_float_sound _ _ E) as (m & e & N & ->).
    econstructor; [exact N|apply scale10_eq].
Qed.
(** every number can be read *)
Lemma py_float_total j q : number_of j q -> exists q', py_float j = Ok q'.
Proof.
  intros [z|x|b|s m e x N _]; cbn [py_float]; eauto. rewrite (parse_float_complete _ _ _ N). eauto.
Qed.
Lemma trunc_spec q : truncates q (trunc q).
Proof.
  destruct q as [n d]. unfold truncates, trunc, Qle, Qlt, inject_Z. cbn [Qnum Qden]. rewrite !Z.mul_1_r.
  assert (Hd : (Z.pos d <> 0)%Z) by discriminate. assert (E := Z.quot_rem n (Z.pos d) Hd). split; intros H.
  - assert (Hn : (0 <= n)%Z) by lia. assert (B := Z.rem_bound_pos n (Z.pos d) Hn eq_refl). remember (Z.quot n (Z.pos d)) as a. remember (Z.rem n (Z.pos d)) as b. clear Heqa Heqb. nia.
  - assert (Hn : (0 <= - n)%Z) by lia. assert (B := Z.rem_bound_pos (- n) (Z.pos d) Hn eq_refl). rewrite (Z.rem_opp_l n (Z.pos d) Hd) in B. remember (Z.quot n (Z.pos d)) as a. remember (Z.rem n (Z.pos d)) as b. clear Heqa Heqb. nia.
Qed.
