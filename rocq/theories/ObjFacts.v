(** Lemmas about [Obj]: unfolding equations, induction on objects, construction, dump, resolve. *)
From Coq Require Import String Ascii List Bool Arith ZArith Lia.
From Verif Require Import PyStr PyStrFacts PyVal PyValFacts Jp JpFacts Obj SpecJson SpecObj.
Import ListNotations.
Open Scope string_scope. Open Scope nat_scope.

(** ** induction *)
Section ObjInd.
  Variable P : obj -> Prop.
  Hypothesis Hprim : forall j, P (OPrim j).
  Hypothesis Hobj : forall c p s kids, Forall (fun kv => P (snd kv)) kids -> P (OObj c p s kids).
  Hypothesis Hlist : forall b p es, Forall P es -> P (OList b p es).
  Hypothesis Hmap : forall b p es, Forall (fun kv => P (snd kv)) es -> P (OMap b p es).
  Fixpoint obj_ind' (o : obj) : P o :=
    let pairs := fix go (d : list (string * obj)) : Forall (fun kv => P (snd kv)) d :=
      match d with [] => Forall_nil _ | kv :: d' => Forall_cons kv (obj_ind' (snd kv)) (go d') end in
    match o with
    | OPrim j => Hprim j
    | OObj c p s kids => Hobj c p s kids (pairs kids)
    | OList b p es =>
        Hlist b p es ((fix go (l : list obj) : Forall P l :=
                         match l with [] => Forall_nil _ | x :: l' => Forall_cons x (obj_ind' x) (go l') end) es)
    | OMap b p es => Hmap b p es (pairs es)
    end.
End ObjInd.

(** ** unfolding construct *)
Definition con_slot tbl b path m key x : res obj :=
  match ovr_here (ovr_get key m) with
  | Some e => Ok e
  | None => construct tbl x b (sub_path path key) (ovr_get key m)
  end.
Definition con_list tbl b path m :=
  fix go (i : nat) (l : list json) : res (list obj) :=
    match l with
    | [] => Ok []
    | x :: l' =>
        let key := nat_dec i in
        e <- (match ovr_here (ovr_get key m) with
              | Some e => Ok e
              | None => construct tbl x b (sub_path path key) (ovr_get key m)
              end) ;;
        es <- go (S i) l' ;;
        Ok (e :: es)
    end.
Definition con_map tbl b path m :=
  fix go (d : list (string * json)) : res (list (string * obj)) :=
    match d with
    | [] => Ok []
    | (key, x) :: d' =>
        e <- (match ovr_here (ovr_get key m) with
              | Some e => Ok e
              | None => construct tbl x b (sub_path path key) (ovr_get key m)
              end) ;;
        es <- go d' ;;
        Ok ((key, e) :: es)
    end.
(** the value of a child slot *)
Definition con_child tbl path (m : list (string * override)) (j : json) (ch : childdef) : res (option obj) :=
  match ovr_here (ovr_get (ch_name ch) m) with
  | Some e => Ok (Some e)
  | None =>
      match j with
      | JDict d =>
          match lookup (ch_name ch) d with
          | None => if ch_required ch then Err FieldNotExist else Ok None
          | Some JNull => Ok None
          | Some x => rmap Some (construct tbl x (ch_builder ch) (sub_path path (ch_name ch)) (ovr_get (ch_name ch) m))
          end
      | _ => _ <- absent_child j ch ;; Ok None
      end
  end.
Fixpoint con_kids tbl path m j (cs : list childdef) : res (list (string * obj)) :=
  match cs with
  | [] => Ok []
  | ch :: cs' =>
      kid <- con_child tbl path m j ch ;;
      rest <- con_kids tbl path m j cs' ;;
      Ok (match kid with Some o => (ch_name ch, o) :: rest | None => rest end)
  end.

Definition con_core tbl (k : core) (j : json) (path : option string) (ovr : override) : res obj :=
  match k with
  | KPrim v => Ok (OPrim v)
  | KStr => match ovr with
            | [] => match j with JStr _ => Ok (OPrim j) | _ => Err PyException end
            | _ => Err PyException
            end
  | KList b' =>
      m <- split_override ovr ;;
      match j with
      | JList l => es <- con_list tbl b' path m 0 l ;; Ok (OList b' path es)
      | _ => Err PyException
      end
  | KMap b' =>
      m <- split_override ovr ;;
      match j with
      | JDict d => es <- con_map tbl b' path m d ;; Ok (OMap b' path es)
      | _ => Err PyException
      end
  | KCls c =>
      m <- split_override ovr ;;
      match lookup c tbl with
      | None => Err KeyError
      | Some cd => kids <- con_kids tbl path m j (c_children cd) ;; Ok (OObj c path j kids)
      end
  end.

Lemma bind_ext {A B} (r r' : res A) (f g : A -> res B) : r = r' -> (forall a, f a = g a) -> bind r f = bind r' g.
Proof. intros -> H. destruct r'; simpl; auto. Qed.

Lemma construct_eq tbl j b path ovr :
  construct tbl j b path ovr = (k <- select b j ;; con_core tbl k j path ovr).
Proof.
  destruct j as [| | | | |l|d].
  7: {
    cbn [construct]. apply bind_ext; [reflexivity|]. intros k. destruct k as [v|c|b'|b'|]; try reflexivity.
    cbn [con_core]. apply bind_ext; [reflexivity|]. intros m. destruct (lookup c tbl) as [cd|]; [|reflexivity].
    apply bind_ext; [|reflexivity].
    induction (c_children cd) as [|ch cs IH]; [reflexivity|].
    cbn [con_kids]. apply bind_ext; [|intros a; apply bind_ext; [exact IH | reflexivity]].
    unfold con_child. destruct (ovr_here _); [reflexivity|]. clear IH.
    induction d as [|[k' x] d IHd]; [reflexivity|].
    cbn [lookup]. destruct (String.eqb (ch_name ch) k'); [destruct x; reflexivity | exact IHd]. }
  all: cbn [construct]; apply bind_ext; [reflexivity|]; intros k; destruct k as [v|c|b'|b'|]; try reflexivity;
    cbn [con_core]; apply bind_ext; [reflexivity|]; intros m; destruct (lookup c tbl) as [cd|]; [|reflexivity];
    (apply bind_ext; [|reflexivity]);
    (induction (c_children cd) as [|ch cs IH]; [reflexivity|]);
    cbn [con_kids]; (apply bind_ext; [|intros a; apply bind_ext; [exact IH | reflexivity]]);
    unfold con_child; destruct (ovr_here _); reflexivity.
Qed.

Lemma con_list_eq tbl b path m i l :
  con_list tbl b path m i l =
  match l with
  | [] => Ok []
  | x :: l' => e <- con_slot tbl b path m (nat_dec i) x ;; es <- con_list tbl b path m (S i) l' ;; Ok (e :: es)
  end.
Proof. destruct l; reflexivity. Qed.
Lemma con_map_eq tbl b path m d :
  con_map tbl b path m d =
  match d with
  | [] => Ok []
  | (k, x) :: d' => e <- con_slot tbl b path m k x ;; es <- con_map tbl b path m d' ;; Ok ((k, e) :: es)
  end.
Proof. destruct d as [|[k x] d]; reflexivity. Qed.
Arguments construct : simpl never.
Arguments con_list : simpl never.
Arguments con_map : simpl never.

Lemma split_nil : split_override [] = Ok [].
Proof. reflexivity. Qed.
Lemma ovr_get_nil k : ovr_get k [] = [].
Proof. reflexivity. Qed.
Lemma ovr_here_nil : ovr_here [] = None.
Proof. reflexivity. Qed.

(** construction without override *)
Lemma con_slot_nil tbl b path key x : con_slot tbl b path [] key x = construct tbl x b (sub_path path key) [].
Proof. reflexivity. Qed.

Lemma con_list_ok tbl b path i l es :
  con_list tbl b path [] i l = Ok es <->
  length es = length l /\ forall n x e, nth_error l n = Some x -> nth_error es n = Some e ->
                               construct tbl x b (sub_path path (nat_dec (i + n))) [] = Ok e.
Proof.
  revert i es. induction l as [|x l IH]; intros i es; rewrite con_list_eq.
  - split.
    + intros E. injection E as <-. split; [reflexivity|]. intros [|n] x e H; discriminate.
    + intros [E _]. destruct es; [reflexivity|discriminate].
  - rewrite bind_ok. split.
    + intros (e & He & H). apply bind_ok in H as (es' & H & E). injection E as <-.
      apply IH in H as [Hl Hn]. split; [simpl; congruence|].
      intros [|n] y e' Hy He'; simpl in *.
      * injection Hy as <-. injection He' as <-. rewrite Nat.add_0_r. exact He.
      * rewrite <- plus_n_Sm. apply (Hn n); assumption.
    + intros [Hl Hn]. destruct es as [|e es]; [discriminate|]. exists e. split.
      * specialize (Hn 0 x e eq_refl eq_refl). rewrite Nat.add_0_r in Hn. exact Hn.
      * apply bind_ok. exists es. split; [|reflexivity]. apply IH. simpl in Hl. split; [congruence|].
        intros n y e' Hy He'. specialize (Hn (S n) y e' Hy He'). rewrite <- plus_n_Sm in Hn. exact Hn.
Qed.

Lemma con_map_ok tbl b path d es :
  con_map tbl b path [] d = Ok es <->
  Forall2 (fun kx ke => fst kx = fst ke /\ construct tbl (snd kx) b (sub_path path (fst kx)) [] = Ok (snd ke)) d es.
Proof.
  revert es. induction d as [|[k x] d IH]; intros es; rewrite con_map_eq.
  - split; [intros E; injection E as <-; constructor | intros H; inversion H; reflexivity].
  - rewrite bind_ok. split.
    + intros (e & He & H). apply bind_ok in H as (es' & H & E). injection E as <-.
      constructor; [split; [reflexivity|exact He]|]. now apply IH.
    + intros H. inversion H as [|? [k' e] ? es' [Hk He] Hr]; subst. simpl in Hk, He. subst k'.
      exists e. split; [exact He|]. apply bind_ok. exists es'. split; [now apply IH|reflexivity].
Qed.

(** the children of an object: for each declared child, in order, the present ones *)
Definition kid_entry (ch : childdef) (k : option obj) : list (string * obj) :=
  match k with Some o => [(ch_name ch, o)] | None => [] end.
Lemma con_kids_ok tbl path m j cs kids :
  con_kids tbl path m j cs = Ok kids <->
  exists ks, Forall2 (fun ch k => con_child tbl path m j ch = Ok k) cs ks /\
             kids = concat (map (fun p => kid_entry (fst p) (snd p)) (combine cs ks)).
Proof.
  revert kids. induction cs as [|ch cs IH]; intros kids; simpl.
  - split.
    + intros E. injection E as <-. exists []. split; [constructor|reflexivity].
    + intros (ks & H & ->). inversion H. reflexivity.
  - rewrite bind_ok. split.
    + intros (k & Hk & H). apply bind_ok in H as (rest & H & E). apply IH in H as (ks & Hks & ->).
      exists (k :: ks). split; [constructor; assumption|]. destruct k; simpl; congruence.
    + intros (ks & H & ->). inversion H as [|? k ? ks' Hk Hks]; subst. exists k. split; [exact Hk|].
      apply bind_ok. exists (concat (map (fun p => kid_entry (fst p) (snd p)) (combine cs ks'))).
      split; [apply IH; eauto|]. destruct k; reflexivity.
Qed.
Lemma con_kids_lookup tbl path m j cs kids ch :
  con_kids tbl path m j cs = Ok kids -> NoDup (map ch_name cs) -> In ch cs ->
  con_child tbl path m j ch = Ok (lookup (ch_name ch) kids).
Proof.
  revert kids. induction cs as [|c cs IH]; intros kids H Hn Hin; [destruct Hin|].
  cbn [con_kids] in H. apply bind_ok in H as (k & Hk & H). apply bind_ok in H as (rest & H & E).
  cbn [map] in Hn. apply NoDup_cons_iff in Hn as [Hni Hn]. injection E as <-.
  assert (Hrest : forall x, In x (keys rest) -> In x (map ch_name cs)).
  { clear -H. apply con_kids_ok in H as (ks & F & ->).
    induction F as [|c k cs ks _ F IH]; intros x; simpl; [tauto|]. unfold keys in *. rewrite map_app, in_app_iff.
    intros [Hx|Hx]; [|right; apply IH; exact Hx]. left. destruct k; simpl in Hx; [tauto|destruct Hx]. }
  destruct Hin as [->|Hin].
  - rewrite Hk. destruct k as [o|]; simpl.
    + now rewrite String.eqb_refl.
    + f_equal. symmetry. apply lookup_none. intros Hx. apply Hni, Hrest, Hx.
  - rewrite (IH rest H Hn Hin). f_equal. destruct k as [o|]; [|reflexivity]. simpl.
    destruct (String.eqb_spec (ch_name ch) (ch_name c)) as [E|]; [|reflexivity].
    exfalso. apply Hni. rewrite <- E. now apply in_map.
Qed.
Lemma con_kids_keys tbl path m j cs kids k :
  con_kids tbl path m j cs = Ok kids -> In k (keys kids) -> In k (map ch_name cs).
Proof.
  intros H. apply con_kids_ok in H as (ks & F & ->).
  induction F as [|c k' cs ks _ F IH]; simpl; [tauto|]. unfold keys in *. rewrite map_app, in_app_iff.
  intros [Hx|Hx]; [|right; apply IH; exact Hx]. left. destruct k'; simpl in Hx; [tauto|destruct Hx].
Qed.
Lemma con_kids_total tbl path m j cs :
  (forall ch, In ch cs -> exists k, con_child tbl path m j ch = Ok k) -> exists kids, con_kids tbl path m j cs = Ok kids.
Proof.
  induction cs as [|ch cs IH]; intros H; simpl; [eauto|].
  destruct (H ch (or_introl eq_refl)) as [k ->]. simpl.
  destruct IH as [kids ->]; [intros c Hc; apply H; now right|]. simpl. eauto.
Qed.
Lemma con_kids_each tbl path m j cs kids ch :
  con_kids tbl path m j cs = Ok kids -> In ch cs -> exists k, con_child tbl path m j ch = Ok k.
Proof.
  intros H. apply con_kids_ok in H as (ks & F & _). induction F as [|c k cs ks Hk F IH]; intros Hin; [destruct Hin|].
  destruct Hin as [->|Hin]; eauto.
Qed.

(** a list of documents and the objects built from it *)
Lemma con_list_total tbl b path i l :
  (forall x p, In x l -> exists e, construct tbl x b p [] = Ok e) -> exists es, con_list tbl b path [] i l = Ok es.
Proof.
  revert i. induction l as [|x l IH]; intros i H; rewrite con_list_eq; [eauto|].
  rewrite con_slot_nil. destruct (H x (sub_path path (nat_dec i)) (or_introl eq_refl)) as [e ->]. simpl.
  destruct (IH (S i)) as [es ->]; [intros y p Hy; apply H; now right|]. simpl. eauto.
Qed.
Lemma con_map_total tbl b path d :
  (forall k x p, In (k, x) d -> exists e, construct tbl x b p [] = Ok e) -> exists es, con_map tbl b path [] d = Ok es.
Proof.
  induction d as [|[k x] d IH]; intros H; rewrite con_map_eq; [eauto|].
  rewrite con_slot_nil. destruct (H k x (sub_path path k) (or_introl eq_refl)) as [e ->]. simpl.
  destruct IH as [es ->]; [intros k' y p Hy; apply (H k'); now right|]. simpl. eauto.
Qed.
