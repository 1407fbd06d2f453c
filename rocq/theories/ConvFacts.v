(** Reading attributes of loaded Swagger 2.0 objects; the dicts produced by the converters. *)
From Coq Require Import String Ascii List Bool Arith Lia.
From Verif Require Import PyStr PyStrFacts PyVal PyValFacts Jp UrlLib Obj ObjFacts Classes_v2_0 TablesFacts SpecJson ShapeFacts DumpFacts SpecSchema Store Conv20.
From Verif Require Export SpecGiven.
Import ListNotations.
Open Scope string_scope. Open Scope nat_scope.

(** ** loaded objects *)

Lemma val_lookup d k v : lookup k d = Some v -> val d k = v.
Proof. unfold val. now intros ->. Qed.
Lemma loaded_list b j o : loaded (BListOf b) j o -> exists l p es, j = JList l /\ o = OList b p es /\ Forall2 (loaded b) l es.
Proof.
  intros [path H]. rewrite construct_eq in H. cbn [select bind con_core] in H. rewrite split_nil in H. cbn [bind] in H.
  destruct j; try discriminate. apply bind_ok in H as (es & H & E). injection E as <-. exists l, path, es. split; [reflexivity|]. split; [reflexivity|].
  apply con_list_ok in H as [Hl Hn]. apply nth_error_Forall2; [congruence|]. intros i x e Hx He. exists (sub_path path (nat_dec (0 + i))). now apply (Hn i).
Qed.
Lemma loaded_map b j o : loaded (BMapOf b) j o -> exists d p es, j = JDict d /\ o = OMap b p es /\ Forall2 (fun x e => fst x = fst e /\ loaded b (snd x) (snd e)) d es.
Proof.
  intros [path H]. rewrite construct_eq in H. cbn [select bind con_core] in H. rewrite split_nil in H. cbn [bind] in H.
  destruct j; try discriminate. apply bind_ok in H as (es & H & E). injection E as <-. exists d, path, es. split; [reflexivity|]. split; [reflexivity|].
  apply con_map_ok in H. eapply Forall2_impl; [|exact H]. intros x e [Hk He]. split; [exact Hk|]. eexists; exact He.
Qed.
Lemma loaded_str j o : loaded BStr j o -> exists s, j = JStr s /\ o = OPrim (JStr s).
Proof.
  intros [path H]. rewrite construct_eq in H. cbn [select bind con_core] in H. destruct j; try discriminate. injection H as <-. eauto.
Qed.
Lemma loaded_obj c cd j o : lookup c v20_table = Some cd -> loaded (BCls c) j o ->
  exists p kids, o = OObj c p j kids /\ con_kids v20_table p [] j (c_children cd) = Ok kids.
Proof.
  intros Hc [path H]. rewrite construct_eq in H. cbn [select bind con_core] in H. rewrite split_nil in H. cbn [bind] in H. rewrite Hc in H.
  apply bind_ok in H as (kids & H & E). injection E as <-. exists path, kids. split; [reflexivity|exact H].
Qed.
Lemma loaded_bool_else b j o : loaded (BBoolElse b) j o -> (exists v, j = JBool v /\ o = OPrim (JBool v)) \/ ((forall v, j <> JBool v) /\ loaded b j o).
Proof.
  intros [path H]. rewrite construct_eq in H. destruct j; try (right; split; [discriminate|]; exists path; rewrite construct_eq; exact H).
  left. cbn [select bind con_core] in H. injection H as <-. eauto.
Qed.
Lemma loaded_ref_else r b d o : loaded (BRefElse r b) (JDict d) o -> if mem "$ref" d then loaded (BCls r) (JDict d) o else loaded b (JDict d) o.
Proof.
  intros [path H]. rewrite construct_eq in H. cbn [select py_in bind] in H. destruct (mem "$ref" d); exists path; rewrite construct_eq; exact H.
Qed.

(** ** declared names, computed *)
Definition no_alias (cd : classdef) (name : string) : bool := negb (mem name (c_renames cd)) && negb (mem name (c_internal cd)).
Definition is_none {A} (x : option A) : bool := match x with None => true | Some _ => false end.
(** the default of a plain field *)
Definition field_default (c name : string) : option json :=
  match lookup c v20_table with
  | Some cd =>
      if is_none (find_child name (c_children cd)) && is_none (find_child name (c_lazy cd)) && no_alias cd name then
        match find_field name cd with
        | Some f => if negb (f_restricted f) && negb (f_required f) && String.eqb (f_name f) name then Some (f_default f) else None
        | None => None
        end
      else None
  | None => None
  end.
Definition undeclared (c name : string) : bool :=
  match lookup c v20_table with
  | Some cd => is_none (find_child name (c_children cd)) && is_none (find_child name (c_lazy cd)) && no_alias cd name && is_none (find_field name cd)
  | None => false
  end.
Definition child_builder (c name : string) : option builder :=
  match lookup c v20_table with
  | Some cd => match find_child name (c_children cd) with Some ch => if String.eqb (ch_name ch) name then Some (ch_builder ch) else None | None => None end
  | None => None
  end.

Lemma no_alias_spec cd name : no_alias cd name = true -> lookup name (c_renames cd) = None /\ lookup name (c_internal cd) = None.
Proof. unfold no_alias, mem. intros H. destruct (lookup name (c_renames cd)), (lookup name (c_internal cd)); cbn in H; try discriminate. auto. Qed.
Lemma is_none_spec {A} (x : option A) : is_none x = true -> x = None. Proof. destruct x; [discriminate|reflexivity]. Qed.

Lemma gattr_field c d o name dflt : loaded (BCls c) (JDict d) o -> field_default c name = Some dflt ->
  gattr o name = Ok (OPrim (match lookup name d with Some v => v | None => dflt end)).
Proof.
  intros L F. unfold field_default in F. destruct (lookup c v20_table) as [cd|] eqn:Hc; [|discriminate].
  destruct (is_none _ && is_none _ && no_alias cd name) eqn:E; [|discriminate]. apply andb_true_iff in E as [E E3]. apply andb_true_iff in E as [E1 E2].
  apply is_none_spec in E1, E2. apply no_alias_spec in E3 as [E3 E4]. destruct (find_field name cd) as [f|] eqn:Ef; [|discriminate].
  destruct (negb (f_restricted f) && negb (f_required f) && String.eqb (f_name f) name) eqn:E5; [|discriminate]. injection F as <-.
  apply andb_true_iff in E5 as [E5 E6]. apply andb_true_iff in E5 as [E5 E7]. apply String.eqb_eq in E6. apply negb_true_iff in E5, E7.
  destruct (loaded_obj c cd _ _ Hc L) as (p & kids & -> & _). unfold gattr. rewrite Hc. unfold getattr_, getattr_plain. rewrite E1, E2, E3, E4, Ef.
  unfold field_get. rewrite E5, E7, E6. cbn [py_in bind py_getitem]. unfold mem. destruct (lookup name d); reflexivity.
Qed.
Lemma gattr_undeclared c j o name : loaded (BCls c) j o -> undeclared c name = true -> gattr o name = Err AttributeError.
Proof.
  intros L F. unfold undeclared in F. destruct (lookup c v20_table) as [cd|] eqn:Hc; [|discriminate].
  apply andb_true_iff in F as [F F4]. apply andb_true_iff in F as [F F3]. apply andb_true_iff in F as [F1 F2]. apply is_none_spec in F1, F2, F4.
  apply no_alias_spec in F3 as [E3 E4].
  destruct (loaded_obj c cd _ _ Hc L) as (p & kids & -> & _). unfold gattr. rewrite Hc. unfold getattr_, getattr_plain. now rewrite F1, F2, E3, E4, F4.
Qed.
Lemma find_child_in name cs ch : find_child name cs = Some ch -> In ch cs /\ ch_name ch = name.
Proof. unfold find_child. intros H. apply find_some in H as [H E]. apply String.eqb_eq in E. auto. Qed.
Lemma kids_of c cd p j kids : lookup c v20_table = Some cd -> con_kids v20_table p [] j (c_children cd) = Ok kids ->
  forall ch, In ch (c_children cd) -> con_child v20_table p [] j ch = Ok (lookup (ch_name ch) kids).
Proof.
  intros Hc H ch Hin. eapply con_kids_lookup; [exact H| |exact Hin]. pose proof (v20_well_declared c cd Hc) as D. unfold SpecObj.distinct_names in D.
  apply NoDup_app_iff_local in D. tauto.
Qed.
(** the size of a child is smaller *)
Lemma osize_pos o : 0 < osize o. Proof. destruct o; cbn; lia. Qed.
Lemma size_kids (kids : list (string * obj)) k o : lookup k kids = Some o ->
  osize o <= (fix go (l : list (string * obj)) := match l with [] => 0 | (_, x) :: l' => osize x + go l' end) kids.
Proof.
  induction kids as [|[k' x] kids IH]; cbn [lookup]; [discriminate|]. destruct (String.eqb k k'); [intros H; injection H as ->; lia|]. intros H. apply IH in H. lia.
Qed.
Lemma size_in_list (es : list obj) e : In e es -> osize e <= (fix go (l : list obj) := match l with [] => 0 | x :: l' => osize x + go l' end) es.
Proof. induction es as [|x es IH]; [intros []|]. intros [->|H]; [lia|]. apply IH in H. lia. Qed.
Lemma size_in_map (es : list (string * obj)) k e : In (k, e) es -> osize e <= (fix go (l : list (string * obj)) := match l with [] => 0 | (_, x) :: l' => osize x + go l' end) es.
Proof. induction es as [|[k' x] es IH]; [intros []|]. intros [E|H]; [injection E as -> ->; lia|]. apply IH in H. lia. Qed.

Lemma gattr_child c d o name b : loaded (BCls c) (JDict d) o -> child_builder c name = Some b ->
  (val d name = JNull /\ gattr o name = Ok (OPrim JNull)) \/
  (val d name <> JNull /\ exists ko, gattr o name = Ok ko /\ loaded b (val d name) ko /\ osize ko < osize o).
Proof.
  intros L F. unfold child_builder in F. destruct (lookup c v20_table) as [cd|] eqn:Hc; [|discriminate].
  destruct (find_child name (c_children cd)) as [ch|] eqn:Ech; [|discriminate]. destruct (String.eqb_spec (ch_name ch) name) as [En|]; [|discriminate]. injection F as <-.
  destruct (loaded_obj c cd _ _ Hc L) as (p & kids & -> & K). apply find_child_in in Ech as [Hin En'].
  pose proof (kids_of c cd p _ kids Hc K ch Hin) as Hk.
  assert (G : gattr (OObj c p (JDict d) kids) name = Ok (match lookup name kids with Some o => o | None => OPrim JNull end)).
  { unfold gattr. rewrite Hc. unfold getattr_, getattr_plain.
    assert (Fc : find_child name (c_children cd) <> None). { intros E. unfold find_child in E. apply find_none with (x := ch) in E; [|exact Hin]. rewrite En', String.eqb_refl in E. discriminate. }
    destruct (find_child name (c_children cd)); [|contradiction]. destruct (find_child name (c_lazy cd)); reflexivity. }
  rewrite G. unfold con_child in Hk. rewrite ovr_get_nil, ovr_here_nil, En' in Hk. unfold val. destruct (lookup name d) as [v|] eqn:Lk.
  - destruct (json_null_dec v) as [->|Hv].
    + left. split; [reflexivity|]. injection Hk as <-. reflexivity.
    + right. split; [exact Hv|]. assert (R : rmap Some (construct v20_table v (ch_builder ch) (sub_path p name) []) = Ok (lookup name kids)) by (destruct v; [contradiction| | | | | |]; exact Hk).
      destruct (construct v20_table v (ch_builder ch) (sub_path p name) []) as [ko|] eqn:Hko; [|discriminate]. injection R as R. rewrite <- R.
      exists ko. split; [reflexivity|]. split; [eexists; exact Hko|]. cbn [osize]. symmetry in R. apply size_kids in R. lia.
  - left. split; [reflexivity|]. destruct (ch_required ch); [discriminate|]. injection Hk as <-. reflexivity.
Qed.
Lemma gattr_none_ok o name x : gattr o name = Ok x -> gattr_none o name = Ok x.
Proof. unfold gattr_none. now intros ->. Qed.
Lemma gattr_none_undeclared c j o name : loaded (BCls c) j o -> undeclared c name = true -> gattr_none o name = Ok (OPrim JNull).
Proof. intros L U. unfold gattr_none. now rewrite (gattr_undeclared c j o name L U). Qed.
(** the value of a field or undeclared name *)
Definition readable (c name : string) : bool := match field_default c name with Some JNull => true | _ => undeclared c name end.
Definition fval (c : string) (d : dict) (name : string) : json := if undeclared c name then JNull else val d name.
Lemma gfield_none_val c d o name : loaded (BCls c) (JDict d) o -> readable c name = true -> gfield_none o name = Ok (fval c d name).
Proof.
  intros L R. unfold gfield_none, fval. destruct (undeclared c name) eqn:U.
  - now rewrite (gattr_none_undeclared c _ o name L U).
  - unfold readable in R. destruct (field_default c name) as [dv|] eqn:F; [|congruence]. destruct dv; try congruence.
    rewrite (gattr_none_ok _ _ _ (gattr_field c d o name JNull L F)). reflexivity.
Qed.
Lemma gfield_val c d o name : loaded (BCls c) (JDict d) o -> field_default c name = Some JNull -> gfield o name = Ok (val d name).
Proof. intros L F. unfold gfield. rewrite (gattr_field c d o name JNull L F). reflexivity. Qed.

(** ** dicts *)
Lemma is_null_non_null (v : json) {A} (a b : A) : (if is_null v then a else b) = match non_null v with None => a | Some _ => b end.
Proof. destruct v; reflexivity. Qed.
Lemma generate_fields_ok o (f : string -> json) names : (forall n, In n names -> gfield_none o n = Ok (f n)) ->
  exists fs, generate_fields o names = Ok fs /\ NoDup (keys fs) /\
    forall k, lookup k fs = if in_dec string_dec k names then non_null (f k) else None.
Proof.
  intros H. unfold generate_fields.
  assert (G : forall acc, NoDup (keys acc) -> (forall k, In k names -> lookup k acc = None \/ lookup k acc = non_null (f k)) ->
    exists fs, foldM (fun acc n => v <- gfield_none o n ;; Ok (if is_null v then acc else dict_set n v acc)) names acc = Ok fs /\ NoDup (keys fs) /\
      forall k, lookup k fs = if in_dec string_dec k names then non_null (f k) else lookup k acc).
  { induction names as [|n names IH]; intros acc N A; [exists acc; split; [reflexivity|split; [exact N|]]; intros k; reflexivity|].
    cbn [foldM]. rewrite H by now left. cbn [bind]. set (acc' := if is_null (f n) then acc else dict_set n (f n) acc).
    assert (La : forall k, lookup k acc' = if string_dec n k then match non_null (f n) with Some v => Some v | None => lookup k acc end else lookup k acc).
    { intros k. unfold acc'. destruct (f n) eqn:Ef; cbn [is_null non_null]; try (rewrite lookup_dict_set; destruct (string_dec n k) as [->|Hn];
        [now rewrite String.eqb_refl|]; destruct (String.eqb_spec n k); [contradiction|]; try reflexivity; destruct (String.eqb_spec k n); congruence).
      destruct (string_dec n k); reflexivity. }
    destruct (IH (fun m Hm => H m (or_intror Hm)) acc') as (fs & E & Nf & Lf).
    - unfold acc'. destruct (is_null (f n)); [exact N|now apply nodup_dict_set].
    - intros k Hk. rewrite La. destruct (string_dec n k) as [->|Hn]; [|apply A; now right]. destruct (non_null (f k)) eqn:Ek; [now right|].
      destruct (A k) as [B|B]; [now left|now left|left; congruence].
    - exists fs. split; [exact E|]. split; [exact Nf|]. intros k. rewrite Lf. destruct (in_dec string_dec k names) as [I|I].
      + destruct (in_dec string_dec k (n :: names)) as [I'|I']; [reflexivity|destruct I'; now right].
      + rewrite La. destruct (string_dec n k) as [->|Hn].
        * destruct (in_dec string_dec k (k :: names)) as [_|I']; [|destruct I'; now left]. destruct (non_null (f k)) eqn:Ek; [reflexivity|].
          destruct (A k) as [B|B]; [now left|exact B|congruence].
        * destruct (in_dec string_dec k (n :: names)) as [[->|I']|_]; [contradiction|contradiction|reflexivity]. }
  destruct (G []) as (fs & E & N & L); [constructor|intros; now left|]. exists fs. split; [exact E|]. split; [exact N|]. intros k. rewrite L. destruct (in_dec string_dec k names); reflexivity.
Qed.
(** an optional entry *)
Definition opt_set (k : string) (v : option json) (d : dict) : dict := match v with Some x => dict_set k x d | None => d end.
Lemma lookup_opt_set k k' v d : lookup k' (opt_set k v d) = if String.eqb k k' then match v with Some x => Some x | None => lookup k' d end else lookup k' d.
Proof.
  unfold opt_set. destruct v as [x|]; [|destruct (String.eqb k k'); reflexivity]. rewrite lookup_dict_set. destruct (String.eqb_spec k k'), (String.eqb_spec k' k); congruence.
Qed.
Lemma nodup_opt_set k v d : NoDup (keys d) -> NoDup (keys (opt_set k v d)).
Proof. destruct v; [apply nodup_dict_set|auto]. Qed.
