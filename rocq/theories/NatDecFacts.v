(** [nat_dec] is the standard decimal numeral, and [py_int] reads it back. *)
From Coq Require Import String Ascii List Bool Arith ZArith Lia Decimal DecimalString DecimalFacts DecimalNat.
From Verif Require Import PyStr PyStrFacts PyVal PyValFacts Obj.
Import ListNotations.
Open Scope string_scope. Open Scope nat_scope.

Definition cons_digit (k : nat) (u : uint) : uint :=
  match k with
  | 0 => D0 u | 1 => D1 u | 2 => D2 u | 3 => D3 u | 4 => D4 u
  | 5 => D5 u | 6 => D6 u | 7 => D7 u | 8 => D8 u | _ => D9 u
  end.
Fixpoint aux_u (fuel n : nat) (u : uint) : uint :=
  match fuel with
  | O => u
  | S f => let u' := cons_digit (n mod 10) u in match n / 10 with O => u' | S _ as q => aux_u f q u' end
  end.
Lemma digit_cases n : n mod 10 < 10. Proof. apply Nat.mod_upper_bound. discriminate. Qed.
Lemma string_cons_digit k u : k < 10 -> NilEmpty.string_of_uint (cons_digit k u) = String (digit k) (NilEmpty.string_of_uint u).
Proof. intros H. do 10 (destruct k as [|k]; [reflexivity|]). lia. Qed.
Lemma aux_string f n u : nat_dec_aux f n (NilEmpty.string_of_uint u) = NilEmpty.string_of_uint (aux_u f n u).
Proof.
  revert n u. induction f as [|f IH]; intros n u; [reflexivity|]. cbn [nat_dec_aux aux_u].
  rewrite <- string_cons_digit by apply digit_cases. destruct (n / 10); [reflexivity|apply IH].
Qed.
Lemma of_uint_cons_digit k u a : k < 10 -> Nat.of_uint_acc (cons_digit k u) a = Nat.of_uint_acc u (10 * a + k).
Proof.
  intros H. do 10 (destruct k as [|k]; [cbn [cons_digit Nat.of_uint_acc]; rewrite Nat.tail_mul_spec; f_equal; lia|]). lia.
Qed.
Lemma div10_lt n : n <> 0 -> n / 10 < n.
Proof. intros H. apply Nat.div_lt; lia. Qed.
Lemma divmod10 n : n = 10 * (n / 10) + n mod 10.
Proof. apply Nat.div_mod. discriminate. Qed.
Lemma aux_value f n u : n < f -> Nat.of_uint_acc (aux_u f n u) 0 = Nat.of_uint_acc u n.
Proof.
  revert n u. induction f as [|f IH]; intros n u Hf; [lia|]. cbn [aux_u].
  assert (Hm := divmod10 n). assert (Hd := digit_cases n).
  destruct (n / 10) as [|q] eqn:E.
  - rewrite of_uint_cons_digit by exact Hd. f_equal. lia.
  - rewrite IH. + rewrite of_uint_cons_digit by exact Hd. f_equal. lia.
    + assert (n / 10 < n) by (apply div10_lt; intros ->; discriminate). lia.
Qed.
Lemma nzhead_cons k u : k < 10 -> k <> 0 -> nzhead (cons_digit k u) = cons_digit k u.
Proof. intros H H0. do 10 (destruct k as [|k]; [first [lia|reflexivity]|]). lia. Qed.
Lemma aux_norm f n u : n < f -> n <> 0 -> nzhead (aux_u f n u) = aux_u f n u.
Proof.
  revert n u. induction f as [|f IH]; intros n u Hf Hn; [lia|]. cbn [aux_u].
  assert (Hm := divmod10 n). assert (Hd := digit_cases n).
  destruct (n / 10) as [|q] eqn:E.
  - apply nzhead_cons; lia.
  - apply IH; [|discriminate]. assert (n / 10 < n) by now apply div10_lt. lia.
Qed.
Lemma nat_dec_uint n : nat_dec n = NilZero.string_of_uint (Nat.to_uint n).
Proof.
  unfold nat_dec. change EmptyString with (NilEmpty.string_of_uint Nil). rewrite aux_string.
  assert (E : Nat.to_uint n = aux_u (S n) n Nil).
  { rewrite <- (aux_value (S n) n Nil) at 1 by lia. change (Nat.of_uint_acc ?d 0) with (Nat.of_uint d).
    rewrite DecimalNat.Unsigned.to_of. destruct n as [|n]; [reflexivity|].
    unfold unorm. rewrite aux_norm by lia.
    assert (H : aux_u (S (S n)) (S n) Nil <> Nil).
    { intros H. assert (V := aux_value (S (S n)) (S n) Nil ltac:(lia)). rewrite H in V. discriminate. }
    destruct (aux_u (S (S n)) (S n) Nil); congruence. }
  rewrite E. unfold NilZero.string_of_uint.
  destruct (aux_u (S n) n Nil) eqn:En; try reflexivity.
  exfalso. assert (V := aux_value (S n) n Nil ltac:(lia)). rewrite En in V. simpl in V. subst n. discriminate.
Qed.

(** *** reading *)
Lemma digit_val k r a : k < 10 -> digits_val (String (digit k) r) a = digits_val r (a * 10 + Z.of_nat k)%Z.
Proof. intros H. do 10 (destruct k as [|k]; [reflexivity|]). lia. Qed.
Lemma digits_aux f n acc : n < f -> digits_val (nat_dec_aux f n acc) 0%Z = digits_val acc (Z.of_nat n).
Proof.
  revert n acc. induction f as [|f IH]; intros n acc Hf; [lia|]. cbn [nat_dec_aux].
  assert (Hm := divmod10 n). assert (Hd := digit_cases n).
  destruct (n / 10) as [|q] eqn:E.
  - rewrite digit_val by exact Hd. f_equal. lia.
  - rewrite IH.
    + rewrite digit_val by exact Hd. f_equal. lia.
    + assert (n / 10 < n) by (apply div10_lt; intros ->; discriminate). lia.
Qed.
Lemma nat_dec_aux_head f n acc : 0 < f -> exists k r, k < 10 /\ nat_dec_aux f n acc = String (digit k) r.
Proof.
  revert n acc. induction f as [|f IH]; intros n acc Hf; [lia|]. cbn [nat_dec_aux].
  destruct (n / 10) as [|q]; [exists (n mod 10), acc; split; [apply digit_cases|reflexivity]|].
  destruct f as [|f]; [exists (n mod 10), acc; split; [apply digit_cases|reflexivity]|]. apply IH. lia.
Qed.
Lemma py_int_nat_dec n : py_int (nat_dec n) = Ok (Z.of_nat n).
Proof.
  assert (H := digits_aux (S n) n EmptyString ltac:(lia)). fold (nat_dec n) in H.
  destruct (nat_dec_aux_head (S n) n EmptyString ltac:(lia)) as (k & r & Hk & E). fold (nat_dec n) in E.
  rewrite E in *.
  assert (P : py_int (String (digit k) r) = match digits_val (String (digit k) r) 0%Z with Some z => Ok z | None => Err ValueError end).
  { clear H E. do 10 (destruct k as [|k]; [reflexivity|]). lia. }
  rewrite P, H. reflexivity.
Qed.
Lemma nat_dec_inj n m : nat_dec n = nat_dec m -> n = m.
Proof.
  intros H. apply (f_equal py_int) in H. rewrite !py_int_nat_dec in H. injection H as H. lia.
Qed.
Lemma py_nth_nat {A} (l : list A) n : py_nth l (Z.of_nat n) = match nth_error l n with Some x => Ok x | None => Err IndexError end.
Proof.
  unfold py_nth. assert (E : (Z.of_nat n <? 0)%Z = false) by (apply Z.ltb_ge; lia). rewrite !E. rewrite Nat2Z.id. reflexivity.
Qed.
