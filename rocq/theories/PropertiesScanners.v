(** * Properties C52, C53: path item merging (versions/comm.py) and response codes (v2_0/scanner/yaml.py). *)
From Coq Require Import String List Bool Arith ZArith Lia.
From Verif Require Import PyStr PyVal Jp Obj Deref MergePath SpecTables SpecObj SpecMerge MergeFacts YamlFix YamlFacts Classes_v2_0 Classes_v3_0_0.
Import ListNotations.
Open Scope string_scope.

(** ** C52: merging path items.  [T]: the objects of 2.0 or 3.0.0 *)
(** merging ends, for every chain, if the references lead to finitely many objects [ids]: a bound on
    the number of rounds that does not matter *)
Theorem C52_terminates (T : ctable) (cd : classdef) (w : world) (ids : list nat) (fuel start : nat) :
  repo_table T -> lookup "PathItem" T = Some cd ->
  (forall i r n, w_answer w i r = Ok (Some n) -> In n ids) -> (forall i r, w_answer w i r <> Err OutOfFuel) ->
  length ids < fuel ->
  merge_path_item fuel T w start <> Err OutOfFuel /\
  (forall fuel', fuel <= fuel' -> merge_path_item fuel' T w start = merge_path_item fuel T w start).
Proof. exact (merge_item_fuel T cd w ids fuel start). Qed.
(** every child of the result is that of the nearest object of the chain that has it; the chain ends at
    the first object that comes again.  Fields (the summary and description of 3.0.0, "$ref") are not
    taken over, not even from the item itself. *)
Theorem C52_nearest (T : ctable) (cd : classdef) (w : world) (fuel start : nat) (m : obj) :
  repo_table T -> lookup "PathItem" T = Some cd -> (forall n, is_path_item (w_obj w n)) ->
  merge_path_item fuel T w start = Ok m ->
  exists l, leads_to w 0 [start] (w_nref w start) l /\ NoDup (start :: l) /\ is_path_item m /\
    (forall ch, In ch (c_children cd) -> exists a, getattr T m (ch_name ch) = Ok a /\ nearest T (ch_name ch) (map (w_obj w) (start :: l)) a) /\
    (forall name f, names_field cd name f -> getattr T m name = Ok (OPrim JNull)) /\ get_path m = None.
Proof. exact (merge_item_ok T cd w fuel start m). Qed.
(** it raises only if resolving raises, a reference of the chain cannot be resolved, or an operation is
    no object *)
Theorem C52_raises (T : ctable) (cd : classdef) (w : world) (fuel start : nat) (e : exn) :
  repo_table T -> lookup "PathItem" T = Some cd -> (forall n, is_path_item (w_obj w n)) ->
  merge_path_item fuel T w start = Err e ->
  e = OutOfFuel \/ (exists j r, w_answer w j r = Err e) \/ (e = PyException /\ breaks w 0 [start] (w_nref w start)) \/
  (e = PyException /\ exists n, ~ has_objects T (w_obj w n)).
Proof. exact (merge_item_err T cd w fuel start e). Qed.
Theorem C52_unresolved (T : ctable) (cd : classdef) (w : world) (fuel start : nat) :
  repo_table T -> lookup "PathItem" T = Some cd -> (forall n, is_path_item (w_obj w n)) ->
  breaks w 0 [start] (w_nref w start) -> exists e, merge_path_item fuel T w start = Err e.
Proof. exact (merge_item_breaks T cd w fuel start). Qed.

(** a cycle of three path items: 0 -> 1 -> 2 -> 1 *)
Definition ex_items : list json :=
  [JDict [("$ref", JStr "#/paths/b"); ("get", JDict [("summary", JStr "a")])];
   JDict [("$ref", JStr "#/paths/c"); ("get", JDict [("summary", JStr "b")]); ("put", JDict [("summary", JStr "b")])];
   JDict [("$ref", JStr "#/paths/b"); ("put", JDict [("summary", JStr "c")]); ("post", JDict [("summary", JStr "c")])]].
Definition ex_world : world := mk_world
  (fun n => match construct v20_table (nth n ex_items (JDict [])) (BCls "PathItem") None [] with Ok o => o | Err _ => OObj "PathItem" None (JDict []) [] end)
  (fun n => nth n [Some "#/paths/b"; Some "#/paths/c"; Some "#/paths/b"] None)
  (fun _ r => if String.eqb r "#/paths/b" then Ok (Some 1) else if String.eqb r "#/paths/c" then Ok (Some 2) else Ok None).
Example C52_items_case : (forall n, is_path_item (w_obj ex_world n)) /\ (forall i r n, w_answer ex_world i r = Ok (Some n) -> In n [1; 2]).
Proof.
  split.
  - intros n. destruct n as [|[|[|n]]]; [do 3 eexists; vm_compute; reflexivity..|]. do 3 eexists. cbn [w_obj ex_world]. rewrite nth_overflow by (cbn [ex_items length]; lia). vm_compute. reflexivity.
  - intros i r n. cbn [w_answer ex_world]. destruct (String.eqb r "#/paths/b"); [intros [= <-]; now left|]. destruct (String.eqb r "#/paths/c"); [intros [= <-]; right; now left|discriminate].
Qed.
Example C52_merged_case :
  match merge_path_item 3 v20_table ex_world 0 with
  | Ok m => map (fun name => match getattr v20_table m name with Ok o => getattr v20_table o "summary" | Err e => Err e end) ["get"; "put"; "post"]
            = [Ok (OPrim (JStr "a")); Ok (OPrim (JStr "b")); Ok (OPrim (JStr "c"))] /\ getattr v20_table m "delete" = Ok (OPrim JNull)
  | Err _ => False
  end.
Proof. vm_compute. split; reflexivity. Qed.
Example C52_chain_case : leads_to ex_world 0 [0] (Some "#/paths/b") [1; 2].
Proof.
  eapply lt_next; [discriminate|reflexivity|intros [X|[]]; discriminate X|]. eapply lt_next; [discriminate|reflexivity|intros [X|[X|[]]]; discriminate X|].
  eapply lt_cycle; [discriminate|reflexivity|right; now left].
Qed.
Print Assumptions C52_terminates.
Print Assumptions C52_nearest.
Print Assumptions C52_raises.
Print Assumptions C52_unresolved.

(** ** C53: response codes *)
(** no number (or boolean) is left as a key *)
Theorem C53_strings (m : ymap) (k : ykey) (o : obj) : In (k, o) (fix_keys m) -> (exists s, k = KStr s) \/ k = KNull.
Proof. exact (fix_strings m k o). Qed.
(** nothing is lost, and the order is kept, if no two keys have the same text *)
Theorem C53_kept (m : ymap) : NoDup (map (fun kv => text_key (fst kv)) m) -> fix_keys m = map (fun kv => (text_key (fst kv), snd kv)) m.
Proof. exact (fix_kept m). Qed.
(** two keys have the same text only if one is the text of the other; then the last one wins *)
Theorem C53_clash (k1 k2 : ykey) :
  text_key k1 = text_key k2 -> k1 = k2 \/ (exists s, k1 = KStr s /\ text_key k2 = KStr s) \/ (exists s, k2 = KStr s /\ text_key k1 = KStr s).
Proof. exact (text_clash k1 k2). Qed.
Theorem C53_last_wins (before : ymap) (k : ykey) (o : obj) (after : ymap) :
  (forall k' o', In (k', o') after -> text_key k' <> text_key k) -> ylookup (text_key k) (fix_keys (before ++ (k, o) :: after)%list) = Some o.
Proof. exact (fix_last before k o after). Qed.
Theorem C53_nothing_else (m : ymap) (k : ykey) (o : obj) : ylookup k (fix_keys m) = Some o -> exists k0, In (k0, o) m /\ text_key k0 = k.
Proof. exact (fix_only m k o). Qed.
(** the text of a number is read back as that number *)
Theorem C53_text (z : Z) : exists s, text_key (KInt z) = KStr s /\ py_int s = Ok z.
Proof. exact (ex_intro _ (z_dec z) (conj eq_refl (py_int_z_dec z))). Qed.
(** fixing twice is fixing once *)
Theorem C53_twice (m : ymap) : fix_keys (fix_keys m) = fix_keys m.
Proof. exact (fix_twice m). Qed.
(** But in the upgrade to 2.0 the fix comes too late: the scan before it raises AttributeError for
    every operation with a response code that is no string; for all others it changes nothing. *)
Theorem C53_too_late_refuted (r : option (option string * ymap)) : (forall p m, r = Some (p, m) -> NoDup (map fst m)) ->
  ((exists p m k o, r = Some (p, m) /\ In (k, o) m /\ (forall s, k <> KStr s)) /\ first_scans r = Err AttributeError) \/
  ((forall p m k o, r = Some (p, m) -> In (k, o) m -> exists s, k = KStr s) /\ first_scans r = Ok r).
Proof. exact (first_scans_spec r). Qed.
Definition ex_resp (d : string) : obj := OObj "Response" None (JDict [("description", JStr d)]) [].
Example C53_fixed_case : fix_keys [(KInt 200, ex_resp "ok"); (KStr "default", ex_resp "else"); (KInt 404, ex_resp "none")] =
  [(KStr "200", ex_resp "ok"); (KStr "default", ex_resp "else"); (KStr "404", ex_resp "none")].
Proof. vm_compute. reflexivity. Qed.
Example C53_operation_case : fix_op (Some (Some "#/paths/~1p/get/responses", [(KInt (-1), ex_resp "ok")])) = Some (Some "#/paths/~1p/get/responses", [(KStr "-1", ex_resp "ok")]).
Proof. vm_compute. reflexivity. Qed.
Example C53_clash_case : fix_keys [(KInt 200, ex_resp "number"); (KStr "200", ex_resp "text")] = [(KStr "200", ex_resp "text")].
Proof. vm_compute. reflexivity. Qed.
Example C53_too_late_case : first_scans (Some (Some "#/paths/~1p/get/responses", [(KInt 200, ex_resp "ok")])) = Err AttributeError.
Proof. reflexivity. Qed.
Print Assumptions C53_kept.
Print Assumptions C53_clash.
Print Assumptions C53_too_late_refuted.
