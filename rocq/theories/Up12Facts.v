(** Conversion of Swagger 1.2 objects: reading objects, data types, parameters. *)
From Coq Require Import String Ascii List Bool Arith ZArith QArith Lia.
From Verif Require Import PyStr PyStrFacts PyVal PyValFacts Jp Scope UrlLib Obj SpecObj ObjFacts TablesFacts Classes_v1_2 Scan Up12 SpecUp12.
Import ListNotations.
Close Scope Q_scope. Open Scope string_scope. Open Scope nat_scope.

Lemma Ok_inj {A} (a b : A) : Ok a = Ok b -> a = b. Proof. congruence. Qed.
(** ** reading *)
Definition field_of (c name : string) : option fielddef :=
  match lookup c v12_table with
  | None => None
  | Some cd =>
      match find_child name (c_children cd), find_child name (c_lazy cd) with
      | None, None =>
          let key := match lookup name (c_renames cd) with Some k => Some k | None => match lookup name (c_internal cd) with Some _ => None | None => Some name end end in
          match key with
          | None => None
          | Some k =>
              match find_child k (c_children cd), find_child k (c_lazy cd), find_field k cd with
              | None, None, Some f => if f_restricted f then None else if is_null (f_default f) then Some f else None
              | _, _, _ => None
              end
          end
      | _, _ => None
      end
  end.
Lemma made_shape c j o : made c j o -> exists p kids cd, o = OObj c p j kids /\ lookup c v12_table = Some cd /\ con_kids v12_table p [] j (c_children cd) = Ok kids.
Proof.
  intros (p & H). rewrite construct_eq in H. cbn [select bind con_core] in H. rewrite split_nil in H. cbn [bind] in H.
  destruct (lookup c v12_table) as [cd|] eqn:E; [|discriminate]. destruct (con_kids v12_table p [] j (c_children cd)) as [kids|] eqn:K; cbn [bind] in H; [|discriminate].
  injection H as <-. exists p, kids, cd. auto.
Qed.
Lemma field12_is c j o name f : made c j o -> field_of c name = Some f -> field12 o name = field_get f j.
Proof.
  intros M F. destruct (made_shape _ _ _ M) as (p & kids & cd & -> & El & _). unfold field_of in F. rewrite El in F. cbv zeta in F.
  unfold field12, attr12. rewrite El. unfold getattr_, getattr_plain.
  destruct (find_child name (c_children cd)); [discriminate|]. destruct (find_child name (c_lazy cd)); [discriminate|].
  destruct (lookup name (c_renames cd)) as [k|].
  - destruct (find_child k (c_children cd)); [discriminate|]. destruct (find_child k (c_lazy cd)); [discriminate|].
    destruct (find_field k cd) as [f0|]; [|discriminate]. destruct (f_restricted f0); [discriminate|]. destruct (is_null (f_default f0)); [|discriminate].
    injection F as ->. destruct (field_get f j); reflexivity.
  - destruct (lookup name (c_internal cd)); [discriminate|]. destruct (find_child name (c_children cd)); [discriminate|]. destruct (find_child name (c_lazy cd)); [discriminate|].
    destruct (find_field name cd) as [f0|]; [|discriminate]. destruct (f_restricted f0); [discriminate|]. destruct (is_null (f_default f0)); [|discriminate].
    injection F as ->. destruct (field_get f j); reflexivity.
Qed.
Lemma field_of_prop c name f : field_of c name = Some f -> f_restricted f = false /\ f_default f = JNull.
Proof.
  unfold field_of. destruct (lookup c v12_table) as [c0|]; [|discriminate]. destruct (find_child name (c_children c0)); [discriminate|]. destruct (find_child name (c_lazy c0)); [discriminate|]. cbv zeta.
  assert (G : forall k, match find_child k (c_children c0), find_child k (c_lazy c0), find_field k c0 with
              | None, None, Some f => if f_restricted f then None else if is_null (f_default f) then Some f else None
              | _, _, _ => None
              end = Some f -> f_restricted f = false /\ f_default f = JNull).
  { intros k. destruct (find_child k (c_children c0)); [discriminate|]. destruct (find_child k (c_lazy c0)); [discriminate|]. destruct (find_field k c0) as [f0|]; [|discriminate].
    destruct (f_restricted f0) eqn:R; [discriminate|]. destruct (f_default f0) eqn:D; cbn; try discriminate. intros H. injection H as <-. auto. }
  destruct (lookup name (c_renames c0)) as [k|]; [apply G|]. destruct (lookup name (c_internal c0)); [discriminate|apply G].
Qed.
Lemma field_get_val f j v : f_restricted f = false -> f_default f = JNull -> field_get f j = Ok v -> v = get j (f_name f).
Proof.
  intros R D H. unfold field_get in H. rewrite R, D in H. unfold get, fields. destruct j as [| | | |s|l|d]; try discriminate.
  - cbn in H. destruct (substring_of (f_name f) s); cbn in H; [discriminate|]. destruct (f_required f); [discriminate|]. injection H as <-. reflexivity.
  - cbn in H. destruct (existsb (json_is_str (f_name f)) l); cbn in H; [discriminate|]. destruct (f_required f); [discriminate|]. injection H as <-. reflexivity.
  - cbn in H. unfold mem in H. destruct (lookup (f_name f) d) as [v0|]; cbn in H.
    + injection H as <-. reflexivity.
    + destruct (f_required f); [discriminate|]. injection H as <-. reflexivity.
Qed.
Definition is_field (c name key : string) : bool := match field_of c name with Some f => String.eqb (f_name f) key | None => false end.
Lemma field12_get c j o name key v : made c j o -> is_field c name key = true -> field12 o name = Ok v -> v = get j key.
Proof.
  unfold is_field. destruct (field_of c name) as [f|] eqn:F; [|discriminate]. intros M E H. apply String.eqb_eq in E as <-.
  rewrite (field12_is _ _ _ _ _ M F) in H. destruct (field_of_prop _ _ _ F). eauto using field_get_val.
Qed.
(** which fields can be read *)
Definition is_optional (c name key : string) : bool := match field_of c name with Some f => String.eqb (f_name f) key && negb (f_required f) | None => false end.
Lemma field12_total c d o name key : made c (JDict d) o -> is_field c name key = true -> is_optional c name key = true \/ lookup key d <> None -> field12 o name = Ok (get (JDict d) key).
Proof.
  unfold is_field, is_optional. destruct (field_of c name) as [f|] eqn:F; [|discriminate]. intros M E Hr. apply String.eqb_eq in E as <-.
  rewrite (field12_is _ _ _ _ _ M F). destruct (field_of_prop _ _ _ F) as [R D]. unfold field_get, get, fields. cbn. unfold mem. rewrite R, D, String.eqb_refl in *. cbn in Hr.
  destruct (lookup (f_name f) d); cbn; [reflexivity|]. destruct (f_required f); [|reflexivity]. destruct Hr; [discriminate|congruence].
Qed.
Lemma put_if_set_ok c j o k key d d' : made c j o -> is_field c k k = true -> put_if_set o k key d = Ok d' ->
  d' = match given j k with Some v => dict_set key v d | None => d end.
Proof.
  intros M F H. unfold put_if_set in H. apply bind_ok in H as (b & Hb & H). destruct (made_shape _ _ _ M) as (p & kids & cd & E & _). rewrite E in Hb. cbn in Hb.
  destruct b.
  - apply bind_ok in H as (v & Hv & H). injection H as <-. unfold is_field in F. destruct (field_of c k) as [f|] eqn:Ff; [|discriminate].
    apply String.eqb_eq in F. rewrite (field12_is _ _ _ _ _ M Ff) in Hv. unfold field_get in Hv. rewrite F, Hb in Hv. cbn [bind] in Hv.
    destruct (f_restricted f); [discriminate|]. unfold given, fields. destruct j; cbn in Hv; try discriminate. destruct (lookup k d0); [|discriminate]. injection Hv as ->. reflexivity.
  - injection H as <-. unfold given, fields. destruct j; try reflexivity. cbn in Hb. unfold mem in Hb. destruct (lookup k d0); [discriminate|reflexivity].
Qed.
Lemma put_if_set_total c d0 o k key d : made c (JDict d0) o -> is_field c k k = true -> put_if_set o k key d = Ok (match lookup k d0 with Some v => dict_set key v d | None => d end).
Proof.
  intros M F. unfold put_if_set. destruct (made_shape _ _ _ M) as (p & kids & cd & E & _). rewrite E at 1. cbn. unfold mem. destruct (lookup k d0) as [v|] eqn:L; [|reflexivity].
  rewrite (field12_total _ _ _ _ _ M F) by (right; congruence). cbn. unfold get, fields. now rewrite L.
Qed.

(** children *)
Definition is_child (c name : string) (b : builder) : Prop :=
  match lookup c v12_table with Some cd => match find_child name (c_children cd) with Some ch => ch_builder ch = b | None => False end | None => False end.
Definition child_made (b : builder) (j : json) (x : obj) : Prop :=
  (j = JNull /\ x = OPrim JNull) \/ (j <> JNull /\ exists p, construct v12_table j b p [] = Ok x).
Lemma find_child_some name cs ch : find_child name cs = Some ch -> In ch cs /\ ch_name ch = name.
Proof. unfold find_child. intros H. apply find_some in H as [H1 H2]. apply String.eqb_eq in H2. auto. Qed.
Lemma attr12_child c j o name b : made c j o -> is_child c name b -> exists x, attr12 o name = Ok x /\ child_made b (get j name) x.
Proof.
  intros M B. destruct (made_shape _ _ _ M) as (p & kids & cd & -> & El & K). unfold is_child in B. rewrite El in B.
  destruct (find_child name (c_children cd)) as [ch|] eqn:F; [|contradiction].
  unfold attr12. rewrite El. unfold getattr_, getattr_plain. rewrite F. eexists. split; [reflexivity|].
  destruct (find_child_some _ _ _ F) as [Hin <-].
  assert (N : NoDup (map ch_name (c_children cd))).
  { assert (H := v12_well_declared _ _ El). unfold distinct_names in H. clear -H. induction (map f_name (c_fields cd)) as [|x l IH]; simpl in H; [exact H|]. inversion H; auto. }
  assert (C := con_kids_lookup _ _ _ _ _ _ ch K N Hin). unfold con_child in C. rewrite ovr_get_nil, ovr_here_nil in C.
  assert (NJ : get j (ch_name ch) = JNull -> lookup (ch_name ch) kids = None -> child_made b (get j (ch_name ch)) (match lookup (ch_name ch) kids with Some o => o | None => OPrim JNull end)).
  { intros E1 E2. rewrite E1, E2. left; auto. }
  destruct j as [| | | | | |d]; try (apply NJ; [reflexivity|]; destruct (absent_child _ ch); cbn [bind] in C; congruence).
  unfold get, fields. destruct (lookup (ch_name ch) d) as [v|] eqn:Ev.
  - destruct v; try (right; split; [discriminate|]; match type of C with rmap Some ?r = _ => destruct r as [y|] eqn:Y; cbn in C; [|discriminate] end; injection C as <-; rewrite <- B; eauto; fail).
    injection C as <-. left. auto.
  - destruct (ch_required ch); [discriminate|]. injection C as <-. left; auto.
Qed.
Lemma child_cls c j x : child_made (BCls c) j x -> (j = JNull /\ x = OPrim JNull) \/ (j <> JNull /\ made c j x).
Proof. intros [H|[H (p & C)]]; [auto|]. right. split; [exact H|]. exists p. exact C. Qed.
Lemma child_list b j x : child_made (BListOf b) j x -> (j = JNull /\ x = OPrim JNull) \/
  exists l p es, j = JList l /\ x = OList b p es /\ Forall2 (fun v e => exists p, construct v12_table v b p [] = Ok e) l es.
Proof.
  intros [H|[H (p & C)]]; [auto|]. right. rewrite construct_eq in C. cbn [select bind con_core] in C. rewrite split_nil in C. cbn [bind] in C.
  destruct j as [| | | | |l|]; try discriminate. destruct (con_list v12_table b p [] 0 l) as [es|] eqn:El; cbn [bind] in C; [|discriminate]. injection C as <-.
  exists l, p, es. split; [reflexivity|]. split; [reflexivity|]. apply con_list_ok in El as [Hl Hn]. clear H.
  assert (G : forall n v e, nth_error l n = Some v -> nth_error es n = Some e -> exists p, construct v12_table v b p [] = Ok e) by (intros n v e H1 H2; eexists; exact (Hn n v e H1 H2)).
  clear Hn. revert es Hl G. induction l as [|v l IH]; intros [|e es] Hl G; try discriminate; constructor; [exact (G 0 v e eq_refl eq_refl)|].
  apply IH; [simpl in Hl; lia|]. intros n v' e' H1 H2. exact (G (S n) v' e' H1 H2).
Qed.
Lemma child_map b j x : child_made (BMapOf b) j x -> (j = JNull /\ x = OPrim JNull) \/
  exists d p es, j = JDict d /\ x = OMap b p es /\ Forall2 (fun v e => fst v = fst e /\ exists p, construct v12_table (snd v) b p [] = Ok (snd e)) d es.
Proof.
  intros [H|[H (p & C)]]; [auto|]. right. rewrite construct_eq in C. cbn [select bind con_core] in C. rewrite split_nil in C. cbn [bind] in C.
  destruct j as [| | | | | |d]; try discriminate. destruct (con_map v12_table b p [] d) as [es|] eqn:El; cbn [bind] in C; [|discriminate]. injection C as <-.
  exists d, p, es. split; [reflexivity|]. split; [reflexivity|]. apply con_map_ok in El. clear H. induction El as [|[k v] [k' e] l l' [H1 H2] F IH]; constructor; [|exact IH].
  cbn in *. split; [exact H1|]. eexists. exact H2.
Qed.

(** ** references and types *)
Lemma truthy_str_eqb s : truthy_str s = negb (String.eqb s "").
Proof. destruct s; reflexivity. Qed.
Lemma compose12_ok scope j sep s : compose12 scope j sep = Ok s -> s = scoped sep scope (text j).
Proof.
  unfold compose12, scoped, scope_compose, truthy_opt. destruct j as [|b|z|q|n|l|d]; cbn [text]; intros H.
  - injection H as <-. cbn. destruct scope; reflexivity.
  - destruct (truthy (JBool b) || negb (truthy_str scope)) eqn:E; [discriminate|]. injection H as <-. apply orb_false_iff in E as [_ E]. rewrite truthy_str_eqb, negb_involutive in E. rewrite E. reflexivity.
  - destruct (truthy (JInt z) || negb (truthy_str scope)) eqn:E; [discriminate|]. injection H as <-. apply orb_false_iff in E as [_ E]. rewrite truthy_str_eqb, negb_involutive in E. rewrite E. reflexivity.
  - destruct (truthy (JFloat q) || negb (truthy_str scope)) eqn:E; [discriminate|]. injection H as <-. apply orb_false_iff in E as [_ E]. rewrite truthy_str_eqb, negb_involutive in E. rewrite E. reflexivity.
  - rewrite !truthy_str_eqb in H. destruct (String.eqb scope "") eqn:Es; cbn [negb andb] in H.
    + injection H as <-. reflexivity.
    + destruct (String.eqb n ""); cbn [negb] in H; injection H as <-; reflexivity.
  - destruct (truthy (JList l) || negb (truthy_str scope)) eqn:E; [discriminate|]. injection H as <-. apply orb_false_iff in E as [_ E]. rewrite truthy_str_eqb, negb_involutive in E. rewrite E. reflexivity.
  - destruct (truthy (JDict d) || negb (truthy_str scope)) eqn:E; [discriminate|]. injection H as <-. apply orb_false_iff in E as [_ E]. rewrite truthy_str_eqb, negb_involutive in E. rewrite E. reflexivity.
Qed.
Lemma compose12_text scope n sep : compose12 scope (JStr n) sep = Ok (scoped sep scope n).
Proof.
  unfold compose12, scoped, scope_compose, truthy_opt. rewrite !truthy_str_eqb. destruct (String.eqb scope ""); cbn [negb andb]; [reflexivity|].
  destruct (String.eqb n ""); reflexivity.
Qed.
Lemma definition_ref_ok scope j sep r : definition_ref scope j sep = Ok r -> r = ref_to (scoped sep scope (text j)).
Proof. unfold definition_ref. intros H. apply bind_ok in H as (s & Hs & H). injection H as <-. apply compose12_ok in Hs as ->. reflexivity. Qed.
Lemma is_primitive_eq j : is_primitive j = is_primitive_name j.
Proof.
  destruct j; try reflexivity. unfold is_primitive, is_primitive_name, PRIMITIVES, primitive_names. cbn [existsb json_is_str].
  rewrite !(String.eqb_sym s). reflexivity.
Qed.
Lemma primitive_lower j s : is_primitive_name j = true -> lower_of j = Ok s -> j = JStr s.
Proof.
  destruct j as [| | | |t| |]; try discriminate. cbn [is_primitive_name lower_of]. intros H E. injection E as <-. apply existsb_exists in H as (x & Hin & Hx).
  apply String.eqb_eq in Hx as ->. f_equal. cbn in Hin. repeat (destruct Hin as [<-|Hin]; [reflexivity|]). contradiction.
Qed.
Lemma primitive_lower_total j : is_primitive_name j = true -> exists s, lower_of j = Ok s.
Proof. destruct j; try discriminate. cbn. eauto. Qed.
Lemma primitive_truthy j : is_primitive_name j = true -> truthy j = true.
Proof.
  destruct j as [| | | |t| |]; try discriminate. cbn [is_primitive_name]. intros H. apply existsb_exists in H as (x & Hin & Hx).
  apply String.eqb_eq in Hx as ->. cbn in Hin. repeat (destruct Hin as [<-|Hin]; [reflexivity|]). contradiction.
Qed.
Lemma only_nil ks : only_keys ks []. Proof. intros k _. reflexivity. Qed.
Lemma only_set ks k v d : only_keys ks d -> In k ks -> only_keys ks (dict_set k v d).
Proof. intros H Hin x Hx. rewrite lookup_dict_set_ne; [auto|]. intros ->. contradiction. Qed.
Lemma only_opt ks k (o : option json) (g : json -> json) d : only_keys ks d -> In k ks -> only_keys ks (match o with Some v => dict_set k (g v) d | None => d end).
Proof. intros H Hin. destruct o; [apply only_set; assumption|exact H]. Qed.
Lemma only_if ks k (b : bool) v d : only_keys ks d -> In k ks -> only_keys ks (if b then dict_set k v d else d).
Proof. intros H Hin. destruct b; [apply only_set; assumption|exact H]. Qed.
Lemma only_incl ks ks' d : only_keys ks d -> incl ks ks' -> only_keys ks' d.
Proof. intros H I k Hk. apply H. intros Hin. apply Hk, I, Hin. Qed.
Lemma look_opt k k' (o : option json) d : lookup k (match o with Some v => dict_set k' v d | None => d end) = if String.eqb k k' then match o with Some v => Some v | None => lookup k d end else lookup k d.
Proof. destruct o; [|destruct (String.eqb k k'); reflexivity]. rewrite lookup_dict_set. reflexivity. Qed.
Lemma look_opt_f k k' (g : json -> json) (o : option json) d : lookup k (match o with Some v => dict_set k' (g v) d | None => d end) = if String.eqb k k' then match o with Some v => Some (g v) | None => lookup k d end else lookup k d.
Proof. destruct o; [|destruct (String.eqb k k'); reflexivity]. rewrite lookup_dict_set. reflexivity. Qed.
Lemma look_if k k' (b : bool) v (d : doc) : lookup k (if b then dict_set k' v d else d) = if String.eqb k k' then if b then Some v else lookup k d else lookup k d.
Proof. destruct b; [rewrite lookup_dict_set|]; destruct (String.eqb k k'); reflexivity. Qed.
Ltac eqbs := repeat match goal with |- context [String.eqb ?a ?b] => let v := eval compute in (String.eqb a b) in match v with true => idtac | false => idtac end; change (String.eqb a b) with v end; cbv iota.
Ltac look := repeat (rewrite lookup_dict_set || rewrite look_opt || rewrite look_if || rewrite look_opt_f); eqbs; cbn [lookup]; eqbs.
Ltac inkeys := cbn; tauto.
Ltac onlys := repeat (apply only_set; [|inkeys] || (apply only_opt with (g := fun v => v); [|inkeys]) || (apply only_opt; [|inkeys]) || (apply only_if; [|inkeys])); try apply only_nil.
(** the classes with "type", "$ref", ... *)
Definition typed (c : string) : bool := is_field c "$ref" "$ref" && is_field c "type" "type" && is_field c "format" "format".
Lemma typed_fields c : typed c = true -> is_field c "$ref" "$ref" = true /\ is_field c "type" "type" = true /\ is_field c "format" "format" = true.
Proof. unfold typed. intros H. apply andb_true_iff in H as [H H3]. apply andb_true_iff in H as [H1 H2]. auto. Qed.
Lemma update_type_ok c j o scope sep out : typed c = true -> made c j o -> update_type_and_ref o scope sep [] = Ok out ->
  type_image sep scope j out /\ only_keys ["type"; "$ref"] out.
Proof.
  intros T M H. destruct (typed_fields _ T) as (F1 & F2 & F3). unfold update_type_and_ref in H.
  apply bind_ok in H as (ref & Hr & H). apply (field12_get _ _ _ _ _ _ M F1) in Hr. subst ref.
  apply bind_ok in H as (d & Hd & H). apply bind_ok in H as (t & Ht & H). apply (field12_get _ _ _ _ _ _ M F2) in Ht. subst t.
  assert (D : d = if truthy (get j "$ref") then [("$ref", ref_to (scoped sep scope (text (get j "$ref"))))] else []).
  { destruct (truthy (get j "$ref")); [|injection Hd as <-; reflexivity]. apply bind_ok in Hd as (r & Hr & Hd). injection Hd as <-. apply definition_ref_ok in Hr as ->. reflexivity. }
  assert (D1 : d = if truthy (get j "$ref") then dict_set "$ref" (ref_to (scoped sep scope (text (get j "$ref")))) [] else []) by (subst d; destruct (truthy (get j "$ref")); reflexivity).
  clear Hd D. subst d. rewrite is_primitive_eq in H. unfold type_image. destruct (is_primitive_name (get j "type")) eqn:P.
  - apply bind_ok in H as (s & Hs & H). apply Ok_inj in H; subst out. assert (Pt := primitive_truthy _ P). apply (primitive_lower _ _ P) in Hs. rewrite Hs in *. rewrite Pt.
    cbn [negb andb]. split; [split; look; reflexivity|]. onlys.
  - destruct (truthy (get j "type")) eqn:Pt.
    + apply bind_ok in H as (r & Hr & H). apply Ok_inj in H; subst out. apply definition_ref_ok in Hr as ->. cbn [negb andb].
      split; [split; look; reflexivity|]. onlys.
    + apply Ok_inj in H; subst out. cbn [negb andb]. split; [split; look; reflexivity|]. onlys.
Qed.
