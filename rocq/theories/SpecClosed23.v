(** * Specification vocabulary for sets of Swagger 2.0 documents that are opened at 3.0.0. *)
From Coq Require Import String List Bool.
From Verif Require Import PyStr PyVal Jp UrlLib Urls SpecUrl Obj Classes_v2_0 Classes_v3_0_0 Store SpecJson SpecObj SpecScan SpecDoc SpecApp SpecLocal SpecClosed SpecClosed30 App Main.
Import ListNotations.
Open Scope string_scope.

Section World.
  Variables (path2url abspath : string -> string) (fetch : string -> res json)
    (from20 : sobj -> string -> string -> override -> res (sobj * routes)).
  (** the document at [url], what it is converted to, and where its parts have gone *)
  Variables (url : string) (root root30 : obj) (reloc : routes).
  (** the places of the 2.0 documents, and those of other documents that are converted *)
  Variables (places : list (string * builder)) (moved : list (string * list string)).

  (** the reference [ref] in the document at [u] denotes what was at [ts] in the 2.0 document at [u'],
      and is now at [ts']: parts of the document itself have been moved by the conversion, what is
      converted alone is stored where it was *)
  Definition leads (u ref u' : string) (ts ts' : list string) : Prop :=
    clean u' /\ normalize_jr (Some ref) (Some u) = Ok (Some (place u' ts)) /\
    ((u' = url /\ patch_jp (pointer ts) [("#", RMap reloc)] = Ok (pointer ts')) \/ (u' <> url /\ ts' = ts)).
  (** the references of [Y], which was made from the 2.0 object [X] at [u]: each is to an object of the
      converted document, or to a place that is converted and to which [X] refers too; a path item
      refers to path items, to which [X] refers too and which stay where they were *)
  Definition refs_moved (u : string) (X Y : obj) : Prop :=
    forall qs c p s kids, within Y qs (OObj c p s kids) -> In c (referring_classes "3.0.0") ->
      exists d, s = JDict d /\
        match lookup "$ref" d with
        | None => c <> "Reference"
        | Some r => exists ref u' ts ts', r = JStr ref /\ ref <> "" /\ leads u ref u' ts ts' /\
            (u' = url -> exists c' p' s' kids', within root30 ts' (OObj c' p' s' kids') /\ (c = "PathItem" -> c' = "PathItem")) /\
            (u' <> url -> In (u', ts) moved /\ exists b, refers u X (place u' ts) b) /\
            (c = "PathItem" -> ts' = ts /\ refers u X (place u' ts) (BCls "PathItem"))
        end.
  (** the piece [X] at [ts] in the document at [u] is converted to [Y] *)
  Definition becomes (u : string) (ts : list string) (X Y : obj) : Prop :=
    from20 (mk_sobj "2.0" X []) u (pointer ts) [] = Ok (mk_sobj "3.0.0" Y [], []).
  (** [Y] is the conversion of what is at [p] in the document at [u]: of the document itself, or of a
      place that is converted *)
  Definition converted (u p : string) (Y : obj) : Prop :=
    (u = url /\ p = "#" /\ Y = root30) \/
    (u <> url /\ exists ts n b X, In (u, ts) moved /\ p = pointer ts /\ In (n, b) places /\ split path2url abspath n = Ok (u, pointer ts) /\ piece fetch n b X /\ becomes u ts X Y).
  (** the conversion of the document and of the places it needs.  The cache looks for prefixes of
      pointers as strings, and objects converted before are reused when something above them is
      converted: a place that is converted must be neither above nor below another place *)
  Record converts : Prop := {
    cv_root : from20 (mk_sobj "2.0" root []) url "#" [] = Ok (mk_sobj "3.0.0" root30 [], reloc);
    cv_built : exists x, wf_json x /\ construct v30_table x (BCls "OpenApi") (Some "#") [] = Ok root30;
    cv_unmixed : unmixed root30 /\ no_media_examples root30;
    cv_top : patch_jp "#" [("#", RMap reloc)] = Ok "#";
    cv_refs : refs_moved url root root30;
    cv_pieces : forall u ts, In (u, ts) moved -> u <> url /\ forall n b X, In (n, b) places -> split path2url abspath n = Ok (u, pointer ts) -> piece fetch n b X ->
      exists Y y c, becomes u ts X Y /\ c <> "Reference" /\ wf_json y /\ construct v30_table y (BCls c) (Some (pointer ts)) [] = Ok Y /\
        unmixed Y /\ no_media_examples Y /\ refs_moved u X Y /\ (forall q s kids, X = OObj "PathItem" q s kids -> c = "PathItem");
    cv_apart : forall n b u ts1 ts2, In (n, b) places -> In (u, ts2) moved -> split path2url abspath n = Ok (u, pointer ts1) ->
      startswith (pointer ts1) (pointer ts2) = true \/ startswith (pointer ts2) (pointer ts1) = true -> ts1 = ts2 }.
End World.
