(** * The object tables of the repository. *)
From Coq Require Import String List.
From Verif Require Import PyVal Obj SpecObj Classes_v1_2 Classes_v2_0 Classes_v3_0_0.
Import ListNotations.
Open Scope string_scope.

(** the classes of Swagger 1.2, Swagger 2.0 and OpenAPI 3.0.0 *)
Inductive repo_table : ctable -> Prop :=
| rt_v12 : repo_table v12_table
| rt_v20 : repo_table v20_table
| rt_v30 : repo_table v30_table.

(** reading an attribute of a constructed object *)
Definition getattr (T : ctable) (o : obj) (name : string) : res obj :=
  match o with
  | OObj c p s kids => match lookup c T with Some cd => getattr_ T cd p s kids name | None => Err KeyError end
  | _ => Err AttributeError
  end.
