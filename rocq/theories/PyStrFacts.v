(** Lemmas about the string primitives of [PyStr]. *)
From Coq Require Import String Ascii List Bool Arith Lia NArith.
From Verif Require Import PyStr.
Import ListNotations.
Open Scope string_scope.

Lemma sapp_assoc (a b c : string) : (a ++ b) ++ c = a ++ (b ++ c).
Proof. induction a as [|x a IH]; simpl; [reflexivity | now rewrite IH]. Qed.

Lemma sapp_nil_r (a : string) : a ++ "" = a.
Proof. induction a as [|x a IH]; simpl; [reflexivity | now rewrite IH]. Qed.

Lemma slength_app (a b : string) : String.length (a ++ b) = String.length a + String.length b.
Proof. induction a as [|x a IH]; simpl; [reflexivity | now rewrite IH]. Qed.

Lemma sapp_inv_head (a b c : string) : a ++ b = a ++ c -> b = c.
Proof. induction a as [|x a IH]; simpl; intros H; [exact H | injection H; auto]. Qed.

Lemma sapp_inv_tail (a b c : string) : a ++ c = b ++ c -> a = b.
Proof.
  revert b; induction a as [|x a IH]; intros [|y b] H; simpl in H.
  - reflexivity.
  - apply (f_equal String.length) in H; simpl in H; rewrite slength_app in H; lia.
  - apply (f_equal String.length) in H; simpl in H; rewrite slength_app in H; lia.
  - injection H as -> H. f_equal. now apply IH.
Qed.

Lemma sapp_eq_nil (a b : string) : a ++ b = "" -> a = "" /\ b = "".
Proof. destruct a; simpl; [auto | discriminate]. Qed.

Lemma ascii_eqb_refl c : Ascii.eqb c c = true.
Proof. apply Ascii.eqb_refl. Qed.

Lemma ascii_eqb_neq a b : a <> b -> Ascii.eqb a b = false.
Proof. intros H; apply Ascii.eqb_neq; exact H. Qed.

(** ** startswith / sdrop / stake *)

Lemma startswith_app p s : startswith p (p ++ s) = true.
Proof. induction p as [|a p IH]; simpl; [reflexivity | now rewrite ascii_eqb_refl]. Qed.

Lemma startswith_spec p s : startswith p s = true <-> exists r, s = p ++ r.
Proof.
  split.
  - revert s; induction p as [|a p IH]; intros s H; simpl in *.
    + now exists s.
    + destruct s as [|b s]; [discriminate|].
      destruct (Ascii.eqb_spec a b) as [->|]; [|discriminate].
      destruct (IH s H) as [r ->]. now exists r.
  - intros [r ->]. apply startswith_app.
Qed.

Lemma startswith_refl p : startswith p p = true.
Proof. rewrite <- (sapp_nil_r p) at 2. apply startswith_app. Qed.

Lemma startswith_nil_r p : startswith p "" = true -> p = "".
Proof. destruct p; simpl; congruence. Qed.

Lemma startswith_length p s : startswith p s = true -> String.length p <= String.length s.
Proof. rewrite startswith_spec. intros [r ->]. rewrite slength_app. lia. Qed.

Lemma startswith_trans a b c :
  startswith a b = true -> startswith b c = true -> startswith a c = true.
Proof.
  rewrite !startswith_spec. intros [r ->] [t ->]. exists (r ++ t). now rewrite sapp_assoc.
Qed.

Lemma startswith_same_length a b s :
  startswith a s = true -> startswith b s = true -> String.length a = String.length b -> a = b.
Proof.
  revert b s; induction a as [|x a IH]; intros [|y b] s Ha Hb Hl; simpl in *; try discriminate.
  - reflexivity.
  - destruct s as [|z s]; [discriminate|].
    destruct (Ascii.eqb_spec x z) as [->|]; [|discriminate].
    destruct (Ascii.eqb_spec y z) as [->|]; [|discriminate].
    f_equal. apply (IH b s); auto.
Qed.

Lemma startswith_le a b s :
  startswith a s = true -> startswith b s = true ->
  String.length a <= String.length b -> startswith a b = true.
Proof.
  revert b s; induction a as [|x a IH]; intros [|y b] s Ha Hb Hl; simpl in *; try reflexivity; try lia.
  destruct s as [|z s]; [discriminate|].
  destruct (Ascii.eqb_spec x z) as [->|]; [|discriminate].
  destruct (Ascii.eqb_spec y z) as [->|]; [|discriminate].
  rewrite ascii_eqb_refl. apply (IH b s); auto; lia.
Qed.

Lemma startswith_app_cancel a b c : startswith (a ++ b) (a ++ c) = startswith b c.
Proof. induction a as [|x a IH]; simpl; [reflexivity | now rewrite ascii_eqb_refl]. Qed.

Lemma sdrop_app_length a b : sdrop (String.length a) (a ++ b) = b.
Proof. induction a as [|x a IH]; simpl; auto. Qed.

Lemma stake_app_length a b : stake (String.length a) (a ++ b) = a.
Proof. induction a as [|x a IH]; simpl; [now destruct b | now rewrite IH]. Qed.

Lemma sdrop_0 s : sdrop 0 s = s.
Proof. destruct s; reflexivity. Qed.

Lemma stake_0 s : stake 0 s = "".
Proof. destruct s; reflexivity. Qed.

Lemma sdrop_nil n : sdrop n "" = "".
Proof. destruct n; reflexivity. Qed.

Lemma sdrop_all n s : String.length s <= n -> sdrop n s = "".
Proof. revert s; induction n as [|n IH]; intros [|c s] H; simpl in *; auto; try lia. apply IH; lia. Qed.

Lemma stake_sdrop n s : stake n s ++ sdrop n s = s.
Proof.
  revert s; induction n as [|n IH]; intros [|c s]; simpl; try reflexivity.
  now rewrite IH.
Qed.

Lemma sdrop_sdrop a b s : sdrop a (sdrop b s) = sdrop (b + a) s.
Proof.
  revert s; induction b as [|b IH]; intros s; [now rewrite sdrop_0|].
  destruct s as [|c s]; simpl; [now rewrite sdrop_nil | apply IH].
Qed.

Lemma sdrop_length n s : String.length (sdrop n s) = String.length s - n.
Proof.
  revert s; induction n as [|n IH]; intros [|c s]; simpl; try reflexivity. apply IH.
Qed.

Lemma stake_length n s : n <= String.length s -> String.length (stake n s) = n.
Proof.
  revert s; induction n as [|n IH]; intros [|c s] H; simpl in *; try reflexivity; try lia.
  rewrite IH; lia.
Qed.

Lemma sdrop_app_le n a b : n <= String.length a -> sdrop n (a ++ b) = sdrop n a ++ b.
Proof.
  revert a; induction n as [|n IH]; intros a H; [now rewrite !sdrop_0|].
  destruct a as [|c a]; simpl in *; [lia|]. apply IH; lia.
Qed.

Lemma sdrop_app_ge n a b : String.length a <= n -> sdrop n (a ++ b) = sdrop (n - String.length a) b.
Proof.
  revert a; induction n as [|n IH]; intros [|c a] H; simpl in *; try reflexivity; try lia.
  apply IH; lia.
Qed.

Lemma startswith_split p s : startswith p s = true -> s = p ++ sdrop (String.length p) s.
Proof. rewrite startswith_spec. intros [r ->]. now rewrite sdrop_app_length. Qed.

(** ** endswith *)

Lemma endswith_spec suf s : endswith suf s = true <-> exists p, s = p ++ suf.
Proof.
  unfold endswith. rewrite andb_true_iff, Nat.leb_le, String.eqb_eq. split.
  - intros [Hl H]. exists (stake (String.length s - String.length suf) s).
    rewrite <- H at 2. now rewrite stake_sdrop.
  - intros [p ->]. rewrite slength_app. split; [lia|].
    replace (String.length p + String.length suf - String.length suf) with (String.length p) by lia.
    apply sdrop_app_length.
Qed.

Lemma endswith_app p suf : endswith suf (p ++ suf) = true.
Proof. apply endswith_spec. now exists p. Qed.

Lemma endswith_refl s : endswith s s = true.
Proof. apply endswith_spec. now exists "". Qed.

(** ** characters *)

Lemma contains_char_app c a b : contains_char c (a ++ b) = contains_char c a || contains_char c b.
Proof. induction a as [|x a IH]; simpl; [reflexivity | now rewrite IH, orb_assoc]. Qed.

Lemma find_char_none c s : find_char c s = None <-> contains_char c s = false.
Proof.
  induction s as [|x s IH]; simpl; [tauto|].
  destruct (Ascii.eqb x c); simpl; [split; discriminate|].
  rewrite <- IH. destruct (find_char c s); split; congruence.
Qed.

Lemma find_char_some c s i :
  find_char c s = Some i ->
  s = stake i s ++ String c (sdrop (S i) s) /\ contains_char c (stake i s) = false
  /\ i < String.length s.
Proof.
  revert i; induction s as [|x s IH]; intros i H; simpl in H; [discriminate|].
  destruct (Ascii.eqb_spec x c) as [->|Hne].
  - injection H as <-. simpl. rewrite ?sdrop_0. repeat split; auto; lia.
  - destruct (find_char c s) as [n|]; [|discriminate]. injection H as <-.
    destruct (IH n eq_refl) as (He & Hc & Hl). cbn [stake sdrop append contains_char String.length].
    rewrite He at 1. repeat split; try lia.
    rewrite Hc. now rewrite ascii_eqb_neq.
Qed.

Lemma find_char_app_first c a b :
  contains_char c a = false -> find_char c (a ++ String c b) = Some (String.length a).
Proof.
  induction a as [|x a IH]; simpl; intros H; [now rewrite ascii_eqb_refl|].
  apply orb_false_iff in H as [Hx Ha]. now rewrite Hx, (IH Ha).
Qed.

Lemma rfind_char_none c s : rfind_char c s = None <-> contains_char c s = false.
Proof.
  induction s as [|x s IH]; simpl; [tauto|].
  destruct (rfind_char c s) as [n|] eqn:E.
  - split; [discriminate|]. intros H. apply orb_false_iff in H as [_ H].
    apply IH in H. discriminate.
  - rewrite (proj1 IH eq_refl), orb_false_r. destruct (Ascii.eqb x c); split; congruence.
Qed.

Lemma rfind_char_some c s i :
  rfind_char c s = Some i ->
  s = stake i s ++ String c (sdrop (S i) s) /\ contains_char c (sdrop (S i) s) = false
  /\ i < String.length s.
Proof.
  revert i; induction s as [|x s IH]; intros i H; simpl in H; [discriminate|].
  destruct (rfind_char c s) as [n|] eqn:E.
  - injection H as <-. destruct (IH n eq_refl) as (He & Hc & Hl).
    cbn [stake sdrop append String.length] in *. rewrite He at 1. repeat split; auto; lia.
  - destruct (Ascii.eqb_spec x c) as [->|]; [|discriminate]. injection H as <-.
    cbn [stake sdrop append String.length]. rewrite ?sdrop_0. repeat split; auto; [|lia].
    now apply rfind_char_none.
Qed.

Lemma rfind_char_app_last c a b :
  contains_char c b = false -> rfind_char c (a ++ String c b) = Some (String.length a).
Proof.
  intros Hb. induction a as [|x a IH]; simpl.
  - rewrite (proj2 (rfind_char_none c b) Hb). now rewrite ascii_eqb_refl.
  - now rewrite IH.
Qed.

Lemma contains_char_In c s : contains_char c s = true <-> exists a b, s = a ++ String c b.
Proof.
  split.
  - intros H. destruct (find_char c s) as [i|] eqn:E.
    + apply find_char_some in E as (E & _). eauto.
    + apply find_char_none in E. congruence.
  - intros (a & b & ->). rewrite contains_char_app. simpl. now rewrite ascii_eqb_refl, orb_true_r.
Qed.

(** ** split on a character, join *)

Lemma split_char_nonempty c s : split_char c s <> [].
Proof.
  destruct s as [|a s]; simpl; [discriminate|].
  destruct (Ascii.eqb a c); [discriminate|].
  destruct (split_char c s); discriminate.
Qed.

Lemma split_char_nosep c s : contains_char c s = false -> split_char c s = [s].
Proof.
  induction s as [|a s IH]; simpl; intros H; [reflexivity|].
  apply orb_false_iff in H as [Ha Hs]. now rewrite Ha, (IH Hs).
Qed.

Lemma split_char_app c a b :
  contains_char c a = false -> split_char c (a ++ String c b) = a :: split_char c b.
Proof.
  induction a as [|x a IH]; simpl; intros H; [now rewrite ascii_eqb_refl|].
  apply orb_false_iff in H as [Hx Ha]. rewrite Hx, (IH Ha). reflexivity.
Qed.

Lemma split_char_app_gen c a b :
  split_char c (a ++ String c b) = (split_char c a ++ split_char c b)%list.
Proof.
  induction a as [|x a IH]; simpl; [now rewrite ascii_eqb_refl|].
  destruct (Ascii.eqb x c); rewrite IH; [reflexivity|].
  destruct (split_char c a) as [|h t] eqn:E; [now apply split_char_nonempty in E|reflexivity].
Qed.

Lemma join_cons sep x y l : join sep (x :: y :: l) = x ++ sep ++ join sep (y :: l).
Proof. reflexivity. Qed.

Lemma join_cons_ne sep x l : l <> [] -> join sep (x :: l) = x ++ sep ++ join sep l.
Proof. destruct l; [congruence|reflexivity]. Qed.

Lemma join_app sep a b : a <> [] -> b <> [] -> join sep (a ++ b)%list = join sep a ++ sep ++ join sep b.
Proof.
  intros Ha Hb. induction a as [|x a IH]; [congruence|].
  destruct a as [|y a].
  - cbn [app]. rewrite join_cons_ne; auto.
  - cbn [app]. rewrite !join_cons, !sapp_assoc. f_equal. f_equal.
    rewrite <- IH by discriminate. reflexivity.
Qed.

Lemma join_split c s : join (String c "") (split_char c s) = s.
Proof.
  induction s as [|a s IH]; simpl; [reflexivity|].
  destruct (Ascii.eqb_spec a c) as [->|].
  - rewrite join_cons_ne by apply split_char_nonempty. rewrite IH. reflexivity.
  - destruct (split_char c s) as [|h t] eqn:E; [now apply split_char_nonempty in E|].
    destruct t as [|h2 t].
    + cbn in *. now rewrite IH.
    + rewrite join_cons in *. rewrite <- IH. reflexivity.
Qed.

Lemma split_char_pieces c s : Forall (fun p => contains_char c p = false) (split_char c s).
Proof.
  induction s as [|a s IH]; simpl; [repeat constructor|].
  destruct (Ascii.eqb a c) eqn:E; [now constructor|].
  destruct (split_char c s) as [|h t] eqn:Es; [now apply split_char_nonempty in Es|].
  inversion_clear IH. constructor; auto. simpl. now rewrite E.
Qed.

Lemma split_join c l :
  l <> [] -> Forall (fun p => contains_char c p = false) l ->
  split_char c (join (String c "") l) = l.
Proof.
  induction l as [|x l IH]; [congruence|]. intros _ Hl.
  inversion_clear Hl as [|? ? Hx Hl'].
  destruct l as [|y l].
  - simpl. now apply split_char_nosep.
  - rewrite join_cons. cbn [append]. rewrite split_char_app by exact Hx.
    f_equal. apply IH; [discriminate | exact Hl'].
Qed.

Lemma splitn_char_1 c s :
  splitn_char c 1 s = match find_char c s with None => [s] | Some i => [stake i s; sdrop (S i) s] end.
Proof. reflexivity. Qed.

(** ** truthiness *)
Lemma truthy_str_true s : truthy_str s = true <-> s <> "".
Proof. destruct s; simpl; split; congruence. Qed.
Lemma truthy_str_false s : truthy_str s = false <-> s = "".
Proof. destruct s; simpl; split; congruence. Qed.

Lemma all_chars_app p a b : all_chars p (a ++ b) = all_chars p a && all_chars p b.
Proof. induction a as [|x a IH]; simpl; [reflexivity | now rewrite IH, andb_assoc]. Qed.

Lemma all_chars_contains p c s : all_chars p s = true -> p c = false -> contains_char c s = false.
Proof.
  induction s as [|x s IH]; simpl; intros H Hp; [reflexivity|].
  apply andb_true_iff in H as [Hx Hs]. rewrite (IH Hs Hp), orb_false_r.
  destruct (Ascii.eqb_spec x c) as [->|]; [congruence|reflexivity].
Qed.

Lemma last_is_app_single c a : last_is c (a ++ String c "") = true.
Proof.
  induction a as [|x a IH]; [simpl; apply ascii_eqb_refl|].
  cbn [append]. destruct a as [|y a]; [exact IH|]. exact IH.
Qed.

Lemma last_is_spec c s : last_is c s = true <-> exists a, s = a ++ String c "".
Proof.
  split.
  - induction s as [|x s IH]; [discriminate|]. destruct s as [|y s].
    + simpl. intros H. apply Ascii.eqb_eq in H as ->. now exists "".
    + intros H. destruct (IH H) as [a ->]. now exists (String x a).
  - intros [a ->]. apply last_is_app_single.
Qed.

Lemma first_is_spec c s : first_is c s = true <-> exists a, s = String c a.
Proof.
  destruct s as [|x s]; simpl; split; try discriminate.
  - intros [a H]; discriminate.
  - intros H. apply Ascii.eqb_eq in H as ->. now exists s.
  - intros [a H]. injection H as -> ->. apply ascii_eqb_refl.
Qed.

(** ** replace *)
Lemma replace1_none a r s : contains_char a s = false -> replace1 a r s = s.
Proof.
  induction s as [|x s IH]; simpl; intros H; [reflexivity|].
  apply orb_false_iff in H as [Hx Hs]. now rewrite Hx, IH.
Qed.

Lemma replace1_app a r s t : replace1 a r (s ++ t) = replace1 a r s ++ replace1 a r t.
Proof.
  induction s as [|x s IH]; simpl; [reflexivity|].
  destruct (Ascii.eqb x a); rewrite IH; [now rewrite sapp_assoc|reflexivity].
Qed.
