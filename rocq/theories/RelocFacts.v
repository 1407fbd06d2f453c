(** Proofs about the relocation table of a converted document. *)
From Coq Require Import String Ascii List Bool Arith Lia.
From Verif Require Import PyStr PyStrFacts PyVal PyValFacts Jp SpecJp JpFacts NatDecFacts UrlLib Obj ObjFacts Classes_v2_0 TablesFacts SpecJson ShapeFacts DumpFacts SpecObj SpecSchema SpecConv SpecBody SpecOp SpecDoc Store SpecStore StoreFacts Conv20 ConvFacts SchemaFacts SchemaFacts2 ParamFacts BodyFacts BodyFacts2 ParamListFacts ParamListFacts2 OpFacts OpFacts2 PathFacts PathFacts2 DocFacts DocFacts2.
Import ListNotations.
Open Scope string_scope. Open Scope nat_scope.

(** ** pointers *)
Lemma rfc_encode s : jp_encode s = rfc_escape s.
Proof.
  rewrite jp_encode_enc1. induction s as [|c s IH]; [reflexivity|]. cbn [enc1 rfc_escape]. rewrite IH.
  destruct (Ascii.eqb_spec c "~") as [->|]; [reflexivity|]. destruct (Ascii.eqb_spec c "/") as [->|]; reflexivity.
Qed.
Definition tail_of (ts : list string) : string := String.concat "" (map (fun t => "/" ++ rfc_escape t) ts).
Lemma pointer_tail ts : pointer ts = "#" ++ tail_of ts. Proof. reflexivity. Qed.
Lemma concat_empty_cons a l : String.concat "" (a :: l) = a ++ String.concat "" l.
Proof. destruct l; cbn [String.concat]; [now rewrite sapp_nil_r|reflexivity]. Qed.
Lemma tail_cons t ts : tail_of (t :: ts) = "/" ++ rfc_escape t ++ tail_of ts.
Proof. unfold tail_of. cbn [map]. rewrite concat_empty_cons. now rewrite sapp_assoc. Qed.
Lemma escape_slash s : contains_char "/" (rfc_escape s) = false.
Proof. rewrite <- rfc_encode. apply jp_encode_noslash. Qed.
Lemma escape_inj a b : rfc_escape a = rfc_escape b -> a = b.
Proof. rewrite <- !rfc_encode. apply jp_encode_inj. Qed.
Lemma escape_nil s : rfc_escape s = "" -> s = "".
Proof. rewrite <- rfc_encode. apply jp_encode_nil. Qed.
Lemma no_escape_same s : no_escape s -> rfc_escape s = s.
Proof. induction s as [|c s IH]; [reflexivity|]. cbn [no_escape rfc_escape]. intros (H1 & H2 & H3). rewrite (ascii_eqb_neq c "~" H1), (ascii_eqb_neq c "/" H2), (IH H3). reflexivity. Qed.
Lemma no_escape_slash s : no_escape s -> contains_char "/" s = false.
Proof. intros H. rewrite <- (no_escape_same s H). apply escape_slash. Qed.
Lemma tail_token ts : starts_well ts -> token_tail (tail_of ts).
Proof.
  destruct ts as [|t ts]; [now left|]. cbn [starts_well]. intros H. right. rewrite tail_cons. pose proof (escape_slash t) as N. destruct (rfc_escape t) as [|c r] eqn:E; [now apply escape_nil in E|].
  exists c, (r ++ tail_of ts). split; [reflexivity|]. intros ->. discriminate.
Qed.
(** a key without slash matches inside the first token *)
Lemma prefix_token k : forall a ts, contains_char "/" k = false -> prefix_of k (a ++ tail_of ts) -> prefix_of k a.
Proof.
  induction k as [|c k IH]; intros a ts N H; [now exists a|]. destruct H as [r H]. destruct a as [|c' a].
  - cbn [String.append] in H. destruct ts as [|t ts]; [discriminate|]. rewrite tail_cons in H. injection H as <- _. discriminate.
  - cbn [String.append] in H. injection H as <- H. cbn [contains_char] in N. apply orb_false_iff in N as [_ N]. destruct (IH a ts N (ex_intro _ r H)) as [r' E]. exists r'. cbn [String.append]. now rewrite E.
Qed.
Lemma prefix_length a s : prefix_of a s -> String.length a <= String.length s.
Proof. intros [r ->]. rewrite slength_app. lia. Qed.

(** ** routes below the root *)
Definition at_root (m : routes) : routes := [("#", RMap m)].
Lemma root_longest m s : longest (at_root m) ("#" ++ s) "#" (RMap m).
Proof.
  split; [reflexivity|]. split; [now exists s|]. intros k t. unfold at_root. cbn [lookup]. destruct (String.eqb_spec k "#") as [->|]; [reflexivity|discriminate].
Qed.
Lemma root_wf m : wf_routes m -> wf_routes (at_root m).
Proof. intros W. constructor; [repeat constructor; intros []|]. intros k m' [E|[]]. injection E as <- <-. exact W. Qed.
(** one step: the key [k] of the table, followed by the tail *)
Lemma step_leads m k ts m' ks t : longest m (k ++ tail_of ts) k (RMap m') ->
  (match ts with [] => leads m' "" ks t | x :: ts' => leads m' (rfc_escape x ++ tail_of ts') ks t end) -> leads m (k ++ tail_of ts) (k :: ks) t.
Proof.
  intros Lo L. destruct ts as [|x ts].
  - apply (ld_map _ _ _ _ "" "" _ _ Lo); [reflexivity|right; split; [reflexivity|discriminate]|exact L].
  - apply (ld_map _ _ _ _ ("/" ++ rfc_escape x ++ tail_of ts) (rfc_escape x ++ tail_of ts) _ _ Lo); [now rewrite tail_cons|left; reflexivity|exact L].
Qed.
Lemma root_leads m x ts ks t : leads m (rfc_escape x ++ tail_of ts) ks t -> leads (at_root m) (pointer (x :: ts)) ("#" :: ks) t.
Proof. intros L. rewrite pointer_tail. apply step_leads with (m' := m); [apply root_longest|exact L]. Qed.
(** longest without competition *)
Lemma longest_only m s k t : lookup k m = Some t -> prefix_of k s -> (forall k' t', lookup k' m = Some t' -> prefix_of k' s -> prefix_of k' k) -> longest m s k t.
Proof. intros H P F. split; [exact H|]. split; [exact P|]. intros k' t' H' P'. apply prefix_length. eauto. Qed.

(** ** the table of a document *)
Definition sections : list string := ["securityDefinitions"; "responses"; "parameters"; "definitions"; "paths"].
Lemma section_escape s : In s sections -> rfc_escape s = s.
Proof. intros H. repeat (destruct H as [<-|H]; [reflexivity|]). destruct H. Qed.
Lemma section_prefix s k ts : In s sections -> In k sections -> prefix_of k (s ++ tail_of ts) -> k = s.
Proof.
  intros Hs Hk P. apply prefix_startswith in P. repeat (destruct Hs as [<-|Hs]; [repeat (destruct Hk as [<-|Hk]; [try reflexivity; discriminate P|]); destruct Hk|]). destruct Hs.
Qed.
Lemma section_longest m s ts t : (forall k x, lookup k m = Some x -> In k sections) -> In s sections -> lookup s m = Some t -> longest m (s ++ tail_of ts) s t.
Proof.
  intros Hk Hs H. apply longest_only; [exact H|now exists (tail_of ts)|]. intros k' t' H' P. rewrite (section_prefix s k' ts Hs (Hk _ _ H') P). exists "". symmetry. apply sapp_nil_r.
Qed.
Lemma relocate_section m s a b ts : wf_routes m -> (forall k x, lookup k m = Some x -> In k sections) -> In s sections ->
  lookup s m = Some (RStr (a ++ "/" ++ b)) -> no_escape a -> no_escape b -> a <> "" -> b <> "" -> startswith "#" a = false ->
  patch_jp (pointer (s :: ts)) (at_root m) = Ok (pointer (a :: b :: ts)).
Proof.
  intros W Hk Hs H Na Nb Ea Eb Ha. assert (Es := section_escape s Hs).
  assert (P : pointer (s :: ts) = (join "/" ["#"; s] ++ tail_of ts)%string) by (rewrite pointer_tail, tail_cons, Es; reflexivity).
  rewrite P. rewrite (patch_jp_deep (at_root m) ["#"; s] (tail_of ts) (a ++ "/" ++ b) (root_wf m W)).
  - assert (startswith "#" (a ++ "/" ++ b) = false) as ->.
    { destruct a as [|c a]; [congruence|]. exact Ha. }
    rewrite pointer_tail, !tail_cons, (no_escape_same a Na), (no_escape_same b Nb). cbn [removelast join]. f_equal. rewrite !sapp_assoc. reflexivity.
  - repeat constructor; [discriminate|]. intros ->. destruct Hs as [X|[X|[X|[X|[X|[]]]]]]; discriminate.
  - discriminate.
  - destruct ts; [left; reflexivity|right; now rewrite tail_cons].
  - rewrite <- P. apply root_leads. rewrite Es. apply ld_text; [now apply section_longest|]. destruct a; [congruence|discriminate].
  - rewrite endswith_last. destruct (last_is "/" (a ++ "/" ++ b)) eqn:E; [|reflexivity]. exfalso. rewrite last_is_spec in E. destruct E as [z E]. pose proof (no_escape_slash b Nb) as Nc.
    assert (X : last_is "/" b = true). { rewrite <- (last_is_app "/" "/" b Eb), <- (last_is_app "/" a ("/" ++ b)) by discriminate. apply last_is_spec. now exists z. }
    rewrite last_is_spec in X. destruct X as [w ->]. rewrite contains_char_app in Nc. cbn in Nc. now rewrite orb_true_r in Nc.
Qed.
