(** Conversion of Swagger 1.2 objects: what the folds over all declarations build. *)
From Coq Require Import String Ascii List Bool Arith ZArith Lia.
From Verif Require Import PyStr PyStrFacts PyVal PyValFacts Jp Scope UrlLib Obj SpecObj SpecJson ObjFacts TablesFacts Classes_v1_2 Scan Up12 SpecUp12 Up12Facts NumeralFacts Up12Facts2 Up12Facts3 Up12Facts4.
Import ListNotations.
Open Scope string_scope. Open Scope nat_scope.

(** ** the last element *)
Lemma last_such_app {A} (f : A -> bool) l x : last_such f (l ++ [x]) = if f x then Some x else last_such f l.
Proof.
  induction l as [|y l IH]; cbn [app last_such]; [destruct (f x); reflexivity|]. rewrite IH. destruct (f x); reflexivity.
Qed.
Lemma last_such_none {A} (f : A -> bool) l : last_such f l = None -> forall x, In x l -> f x = false.
Proof.
  induction l as [|y l IH]; cbn [last_such]; intros H x I; [contradiction|]. destruct (last_such f l); [discriminate|]. destruct (f y) eqn:E; [discriminate|].
  destruct I as [<-|I]; [exact E|now apply IH].
Qed.
Lemma last_such_some {A} (f : A -> bool) l x : last_such f l = Some x -> In x l /\ f x = true.
Proof.
  induction l as [|y l IH]; cbn [last_such]; intros H; [discriminate|]. destruct (last_such f l) as [z|].
  - injection H as ->. destruct (IH eq_refl) as [I E]. split; [right; exact I|exact E].
  - destruct (f y) eqn:E; [|discriminate]. injection H as <-. split; [left; reflexivity|exact E].
Qed.
Lemma last_giving_app sep n g ms dm : last_giving sep n g (ms ++ [dm]) =
  if String.eqb (model_name sep dm) n then match g dm with Some _ => Some dm | None => last_giving sep n g ms end else last_giving sep n g ms.
Proof. unfold last_giving. rewrite last_such_app. destruct (String.eqb (model_name sep dm) n), (g dm); reflexivity. Qed.

(** ** definitions *)
Definition named (sep n : string) (ms : list (json * json)) : bool := existsb (fun dm => String.eqb (model_name sep dm) n) ms.
Definition def_rep (sep n : string) (ms : list (json * json)) (sups : list json) (out : doc) : Prop :=
  (if named sep n ms then
     exists props, lookup "properties" out = Some (JDict props) /\
       forall k, match last_giving sep n (fun dm => given (get (snd dm) "properties") k) ms with
                 | None => lookup k props = None
                 | Some dm => exists p, lookup k props = Some p /\ property_image sep (resource (fst dm)) (get (get (snd dm) "properties") k) p
                 end
   else lookup "properties" out = None) /\
  (forall k, In k ["required"; "discriminator"; "description"] ->
     lookup k out = match last_giving sep n (fun dm => given (snd dm) k) ms with Some dm => given (snd dm) k | None => None end) /\
  lookup "allOf" out = list_if_any sups /\
  only_keys ["properties"; "required"; "discriminator"; "description"; "allOf"] out.
Definition INV (sep : string) (ms : list (json * json)) (sups : string -> list json) (defs : list (string * doc)) : Prop :=
  forall n, if named sep n ms || match sups n with [] => false | _ => true end
            then exists d, lookup n defs = Some d /\ def_rep sep n ms (sups n) d
            else lookup n defs = None.
Lemma named_none sep n ms g : named sep n ms = false -> last_giving sep n g ms = None.
Proof.
  intros H. destruct (last_giving sep n g ms) as [dm|] eqn:E; [|reflexivity]. apply last_such_some in E as [I E]. apply andb_prop in E as [E _].
  unfold named in H. assert (X : existsb (fun dm => String.eqb (model_name sep dm) n) ms = true) by (apply existsb_exists; eauto). congruence.
Qed.
Lemma empty_rep sep n ms : named sep n ms = false -> def_rep sep n ms [] [].
Proof.
  intros H. unfold def_rep. rewrite H. split; [reflexivity|]. split; [|split; [reflexivity|apply only_nil]]. intros k _. now rewrite named_none.
Qed.
Lemma INV_entry sep ms sups defs n : INV sep ms sups defs -> def_rep sep n ms (sups n) (entry_of n defs).
Proof.
  intros I. specialize (I n). unfold entry_of. destruct (named sep n ms) eqn:E; cbn [orb] in I.
  - destruct I as (d & -> & R). exact R.
  - destruct (sups n) eqn:Es; [rewrite I; now apply empty_rep|]. destruct I as (d & -> & R). exact R.
Qed.
Lemma props_keys sep dm props : props_image sep dm props -> keys props = keys (fields (get (snd dm) "properties")).
Proof. unfold props_image, keys. induction 1 as [|a p l m [E _] F IH]; cbn [map]; [reflexivity|]. now rewrite IH, E. Qed.
Lemma props_lookup sep dm props k : props_image sep dm props ->
  match given (get (snd dm) "properties") k with
  | None => lookup k props = None
  | Some v => exists p, lookup k props = Some p /\ property_image sep (resource (fst dm)) v p
  end.
Proof.
  unfold props_image, given. induction 1 as [|[ka va] [kp vp] l m [E P] F IH]; cbn [lookup]; [reflexivity|]. cbn [fst snd] in *. subst kp.
  destruct (String.eqb k ka); [eexists; split; [reflexivity|exact P]|exact IH].
Qed.
Lemma given_get j k v : given j k = Some v -> get j k = v.
Proof. unfold given, get. now intros ->. Qed.
Lemma model_doc_rep sep ms sups dm props old : NoDup (keys (fields (get (snd dm) "properties"))) -> props_image sep dm props ->
  def_rep sep (model_name sep dm) ms sups old -> def_rep sep (model_name sep dm) (ms ++ [dm]) sups (model_doc dm props old).
Proof.
  intros N P (R1 & R2 & R3 & R4). set (n := model_name sep dm) in *. unfold def_rep.
  assert (E : named sep n (ms ++ [dm]) = true).
  { unfold named. apply existsb_exists. exists dm. split; [apply in_or_app; right; left; reflexivity|apply String.eqb_refl]. }
  rewrite E. split; [|split; [|split]].
  - unfold model_doc. eexists. split; [look2; reflexivity|]. intros k. rewrite dict_update_lookup by (rewrite (props_keys _ _ _ P); exact N).
    rewrite last_giving_app. fold n. rewrite String.eqb_refl.
    pose proof (props_lookup _ _ _ k P) as L. destruct (given (get (snd dm) "properties") k) as [v|] eqn:G.
    + destruct L as (p & -> & Hp). exists p. split; [reflexivity|]. rewrite (given_get _ _ _ G). exact Hp.
    + rewrite L. destruct (named sep n ms) eqn:En.
      * destruct R1 as (q & -> & R1). apply R1.
      * rewrite R1. rewrite (named_none _ _ _ _ En). reflexivity.
  - intros k I. rewrite last_giving_app. fold n. rewrite String.eqb_refl. specialize (R2 k I). unfold model_doc. cbn [In] in I. destruct I as [<-|[<-|[<-|[]]]]; look2.
    + destruct (given (snd dm) "required") eqn:G; [now rewrite G|exact R2].
    + destruct (given (snd dm) "discriminator") eqn:G; [now rewrite G|exact R2].
    + destruct (given (snd dm) "description") eqn:G; [now rewrite G|exact R2].
  - unfold model_doc. look2. exact R3.
  - unfold model_doc. onlys2. exact R4.
Qed.
Lemma other_rep sep n ms dm sups d : model_name sep dm <> n -> def_rep sep n ms sups d -> def_rep sep n (ms ++ [dm]) sups d.
Proof.
  intros H (R1 & R2 & R3 & R4). assert (E : named sep n (ms ++ [dm]) = named sep n ms).
  { unfold named. rewrite existsb_app. cbn [existsb]. destruct (String.eqb_spec (model_name sep dm) n); [contradiction|]. now rewrite !orb_false_r. }
  assert (G : forall g, last_giving sep n g (ms ++ [dm]) = last_giving sep n g ms).
  { intros g. rewrite last_giving_app. destruct (String.eqb_spec (model_name sep dm) n); [contradiction|reflexivity]. }
  unfold def_rep. rewrite E. split; [|split; [|split; assumption]].
  - destruct (named sep n ms); [|exact R1]. destruct R1 as (props & L & R1). exists props. split; [exact L|]. intros k. rewrite G. apply R1.
  - intros k I. rewrite G. now apply R2.
Qed.
Lemma INV_model sep ms sups defs dm props : NoDup (keys (fields (get (snd dm) "properties"))) -> props_image sep dm props -> INV sep ms sups defs ->
  INV sep (ms ++ [dm]) sups (dict_set (model_name sep dm) (model_doc dm props (entry_of (model_name sep dm) defs)) defs).
Proof.
  intros N P I n. rewrite lookup_dict_set. destruct (String.eqb_spec n (model_name sep dm)) as [->|Hn].
  - assert (E : named sep (model_name sep dm) (ms ++ [dm]) = true).
    { unfold named. apply existsb_exists. exists dm. split; [apply in_or_app; right; left; reflexivity|apply String.eqb_refl]. }
    rewrite E. cbn [orb]. eexists. split; [reflexivity|]. apply model_doc_rep; [exact N|exact P|]. now apply INV_entry.
  - assert (E : named sep n (ms ++ [dm]) = named sep n ms).
    { unfold named. rewrite existsb_app. cbn [existsb]. destruct (String.eqb_spec (model_name sep dm) n); [congruence|]. now rewrite !orb_false_r. }
    rewrite E. specialize (I n). destruct (_ || _); [|exact I]. destruct I as (d & L & R). exists d. split; [exact L|]. apply other_rep; [congruence|exact R].
Qed.
Definition more (sups : string -> list json) (sub : string) (r : json) : string -> list json :=
  fun k => (sups k ++ (if String.eqb sub k then [r] else []))%list.
Lemma INV_super sep ms sups defs n sub : INV sep ms sups defs -> INV sep ms (more sups sub (JDict [("$ref", ref_to n)])) (add_super n defs sub).
Proof.
  intros I k. unfold add_super. rewrite lookup_dict_set. destruct (String.eqb_spec k sub) as [->|Hk].
  - unfold more. rewrite String.eqb_refl. pose proof (INV_entry _ _ _ _ sub I) as (R1 & R2 & R3 & R4).
    assert (E : match (sups sub ++ [JDict [("$ref", ref_to n)]])%list with [] => false | _ => true end = true) by (destruct (sups sub); reflexivity).
    rewrite E, orb_true_r. eexists. split; [reflexivity|]. unfold append_all_of.
    split; [|split; [|split]].
    + destruct (named sep sub ms); [|look2; exact R1]. destruct R1 as (props & L & R1). exists props. split; [look2; exact L|exact R1].
    + intros x Ix. rewrite <- (R2 x Ix). cbn [In] in Ix. destruct Ix as [<-|[<-|[<-|[]]]]; look2; reflexivity.
    + look2. rewrite R3. destruct (sups sub); reflexivity.
    + onlys2. exact R4.
  - unfold more. destruct (String.eqb_spec sub k); [congruence|]. rewrite app_nil_r. apply I.
Qed.
Lemma INV_ext sep ms s1 s2 defs : (forall k, s1 k = s2 k) -> INV sep ms s1 defs -> INV sep ms s2 defs.
Proof. intros E I n. rewrite <- E. apply I. Qed.
Lemma INV_supers sep ms n subs : forall sups defs, INV sep ms sups defs ->
  INV sep ms (fun k => sups k ++ flat_map (fun t => if String.eqb t k then [JDict [("$ref", ref_to n)]] else []) subs)%list (fold_left (add_super n) subs defs).
Proof.
  induction subs as [|t subs IH]; intros sups defs I; cbn [fold_left flat_map].
  - eapply INV_ext; [|exact I]. intros k. now rewrite app_nil_r.
  - eapply INV_ext; [|apply IH, INV_super, I]. intros k. unfold more. now rewrite <- app_assoc.
Qed.
Lemma INV_step sep ms defs dm props : NoDup (keys (fields (get (snd dm) "properties"))) -> props_image sep dm props ->
  INV sep ms (fun k => supertypes sep k ms) defs -> INV sep (ms ++ [dm]) (fun k => supertypes sep k (ms ++ [dm])) (model_step sep defs (dm, props)).
Proof.
  intros N P I. unfold model_step. cbn [fst snd]. eapply INV_ext; [|apply INV_supers, INV_model; [exact N|exact P|exact I]].
  intros k. unfold supertypes. rewrite flat_map_app. cbn [flat_map]. now rewrite app_nil_r.
Qed.
Lemma INV_all sep l props : Forall2 (props_image sep) l props -> Forall (fun dm => NoDup (keys (fields (get (snd dm) "properties")))) l -> forall ms defs,
  INV sep ms (fun k => supertypes sep k ms) defs ->
  INV sep (ms ++ l) (fun k => supertypes sep k (ms ++ l)) (fold_left (model_step sep) (combine l props) defs).
Proof.
  induction 1 as [|dm p l ps P F IH]; intros N ms defs I; cbn [combine fold_left].
  - rewrite app_nil_r. exact I.
  - inversion_clear N as [|? ? N1 N2]. change (dm :: l) with ([dm] ++ l)%list. rewrite app_assoc. apply IH; [exact N2|]. now apply INV_step.
Qed.
Lemma INV_start sep : INV sep [] (fun k => supertypes sep k []) [].
Proof. intros n. reflexivity. Qed.
Definition definitions_ok (sep : string) (ms : list (json * json)) (defs : list (string * doc)) : Prop :=
  forall n, if existsb (fun dm => String.eqb (model_name sep dm) n) ms || existsb (fun dm => existsb (String.eqb n) (subtype_names sep dm)) ms
            then exists d, lookup n defs = Some d /\ definition_image sep n ms d
            else lookup n defs = None.
Lemma supertypes_some sep n ms : match supertypes sep n ms with [] => false | _ => true end = existsb (fun dm => existsb (String.eqb n) (subtype_names sep dm)) ms.
Proof.
  unfold supertypes. induction ms as [|dm ms IH]; cbn [flat_map existsb]; [reflexivity|]. rewrite <- IH.
  assert (E : forall (r : json) l, match flat_map (fun t => if String.eqb t n then [r] else []) l with [] => false | _ => true end = existsb (String.eqb n) l).
  { intros r l. induction l as [|t l IHl]; cbn [flat_map existsb]; [reflexivity|]. rewrite (String.eqb_sym n t). destruct (String.eqb t n); [reflexivity|exact IHl]. }
  rewrite <- (E (JDict [("$ref", ref_to (model_name sep dm))]) (subtype_names sep dm)). destruct (flat_map _ (subtype_names sep dm)); reflexivity.
Qed.
Lemma INV_definitions sep ms defs : INV sep ms (fun k => supertypes sep k ms) defs -> definitions_ok sep ms defs.
Proof. intros I n. specialize (I n). cbv beta in I. rewrite supertypes_some in I. exact I. Qed.

(** ** paths *)
Definition get_op (p m : string) (t : path_table) : option doc := match lookup p t with Some ms => lookup m ms | None => None end.
Lemma get_op_put p m ss t : get_op p m (put_site t ss) = if String.eqb (full_path (fst ss)) p && String.eqb (method_of (fst ss)) m then Some (snd ss) else get_op p m t.
Proof.
  unfold get_op, put_site, add_operation. rewrite lookup_dict_set, (String.eqb_sym (full_path _)). destruct (String.eqb_spec p (full_path (fst ss))) as [->|]; [|reflexivity]. cbn [andb].
  rewrite lookup_dict_set, (String.eqb_sym m). destruct (String.eqb (method_of (fst ss)) m); [reflexivity|]. destruct (lookup (full_path (fst ss)) t); reflexivity.
Qed.
Definition at_site (p m : string) (s : site) : bool := String.eqb (full_path s) p && String.eqb (method_of s) m.
Lemma fold_sites (R : site -> doc -> Prop) l specs p m : Forall2 R l specs -> forall t,
  match last_such (at_site p m) l with
  | Some s => exists d, get_op p m (fold_left put_site (combine l specs) t) = Some d /\ R s d
  | None => get_op p m (fold_left put_site (combine l specs) t) = get_op p m t
  end.
Proof.
  induction 1 as [|s d l specs Hr F IH]; intros t; cbn [last_such combine fold_left]; [reflexivity|].
  specialize (IH (put_site t (s, d))). destruct (last_such (at_site p m) l) as [s'|]; [exact IH|]. rewrite IH, get_op_put. cbn [fst snd]. fold (at_site p m s).
  destruct (at_site p m s); [|reflexivity]. exists d. split; [reflexivity|exact Hr].
Qed.
Lemma put_keys t ss k : lookup k (put_site t ss) = None <-> (full_path (fst ss) <> k /\ lookup k t = None).
Proof.
  unfold put_site, add_operation. rewrite lookup_dict_set. destruct (String.eqb_spec k (full_path (fst ss))) as [->|H].
  - split; [discriminate|intros [? _]; contradiction].
  - split; [intros ?; split; [congruence|assumption]|now intros [_ ?]].
Qed.
Lemma fold_site_keys (l : list (site * doc)) k : forall t, lookup k (fold_left put_site l t) = None <-> ((forall ss, In ss l -> full_path (fst ss) <> k) /\ lookup k t = None).
Proof.
  induction l as [|ss l IH]; intros t; cbn [fold_left]; [split; [intros H; split; [intros ? []|exact H]|now intros [_ ?]]|].
  rewrite IH, put_keys. split.
  - intros (A & B & C). split; [|exact C]. intros x [<-|I]; [exact B|now apply A].
  - intros (A & C). split; [intros x I; apply A; now right|]. split; [apply A; now left|exact C].
Qed.
Lemma In_combine_left {A B} (x : A) l : forall (m : list B), length l = length m -> In x l -> exists y, In (x, y) (combine l m).
Proof.
  induction l as [|a l IH]; intros [|b m] E I; try discriminate; [contradiction|]. cbn [combine]. destruct I as [->|I]; [exists b; now left|].
  destruct (IH m ltac:(simpl in E; lia) I) as (y & Hy). exists y. now right.
Qed.
Lemma sites_keys (R : site -> doc -> Prop) l specs k : Forall2 R l specs ->
  lookup k (fold_left put_site (combine l specs) []) = None <-> ~ In k (map full_path l).
Proof.
  intros F. pose proof (Forall2_len _ _ _ F) as E. rewrite fold_site_keys. split.
  - intros [A _] I. apply in_map_iff in I as (s & <- & I). destruct (In_combine_left s l specs E I) as (y & Iy). exact (A _ Iy eq_refl).
  - intros N. split; [|reflexivity]. intros [s y] I Es. apply N. apply in_map_iff. exists s. split; [exact Es|]. now apply in_combine_l in I.
Qed.
(** distinct keys *)
Lemma dict_set_nodup {A} k (v : A) d : NoDup (keys d) -> NoDup (keys (dict_set k v d)).
Proof.
  intros N. induction d as [|[k' v'] d IH]; cbn [dict_set]; [unfold keys; cbn; constructor; [intros []|constructor]|].
  unfold keys in *. cbn [map] in *. inversion_clear N as [|? ? N1 N2]. destruct (String.eqb_spec k k') as [->|H]; cbn [map fst]; constructor; auto.
  intros I. apply in_map_iff in I as ([k2 v2] & E & I). cbn [fst] in E. subst k2. destruct (in_dec string_dec k' (map fst d)) as [J|J]; [contradiction|].
  apply J. apply in_map_iff. clear IH N1 N2 J. induction d as [|[k3 v3] d IHd]; cbn [dict_set] in I.
  - destruct I as [I|[]]. injection I as -> _. contradiction.
  - destruct (String.eqb_spec k k3) as [->|]; [destruct I as [I|I]; [injection I as -> _; contradiction|exists (k', v2); split; [reflexivity|now right]]|].
    destruct I as [I|I]; [injection I as -> ->; exists (k', v2); split; [reflexivity|now left]|]. destruct (IHd I) as (x & Ex & Ix). exists x. split; [exact Ex|now right].
Qed.
Lemma fold_site_nodup l : forall t, NoDup (keys t) -> NoDup (keys (fold_left put_site l t)).
Proof. induction l as [|ss l IH]; intros t N; cbn [fold_left]; [exact N|]. apply IH. unfold put_site, add_operation. now apply dict_set_nodup. Qed.
Definition inner_nodup (t : path_table) : Prop := forall k m, lookup k t = Some m -> NoDup (keys m).
Lemma fold_site_inner l : forall t, inner_nodup t -> inner_nodup (fold_left put_site l t).
Proof.
  induction l as [|ss l IH]; intros t N; cbn [fold_left]; [exact N|]. apply IH. intros k m. unfold put_site, add_operation. rewrite lookup_dict_set.
  destruct (String.eqb k (full_path (fst ss))); [|apply N]. intros H. injection H as <-. apply dict_set_nodup. destruct (lookup (full_path (fst ss)) t) eqn:E; [exact (N _ _ E)|constructor].
Qed.

(** ** tags *)
Lemma first_seen_ext l : forall s1 s2, (forall x, existsb (String.eqb x) s1 = existsb (String.eqb x) s2) -> first_seen l s1 = first_seen l s2.
Proof.
  induction l as [|x l IH]; intros s1 s2 E; cbn [first_seen]; [reflexivity|]. rewrite <- (E x). destruct (existsb (String.eqb x) s1) eqn:Ex; [now apply IH|].
  f_equal. apply IH. intros y. cbn [existsb]. now rewrite E.
Qed.
Lemma fold_tags l : forall tags, fold_left (fun t n => add_tag n t) l tags = (tags ++ first_seen l tags)%list.
Proof.
  induction l as [|n l IH]; intros tags; cbn [fold_left first_seen]; [now rewrite app_nil_r|]. rewrite IH. unfold add_tag.
  destruct (existsb (String.eqb n) tags); [reflexivity|]. rewrite <- app_assoc. cbn [app]. f_equal. f_equal. apply first_seen_ext. intros x.
  rewrite existsb_app. cbn [existsb]. rewrite orb_false_r. apply orb_comm.
Qed.
