(** Specification vocabulary for index files (C27-C29, C45-C47); independent of the model. *)
From Verif Require Import PyBase PyInt Json Index Spec_Descent.
Set Implicit Arguments.
Open Scope list_scope.
Open Scope Z_scope.

(** A Python dictionary has every key once, at every level. *)
Inductive proper : json -> Prop :=
| p_null : proper JNull | p_bool : forall b, proper (JBool b) | p_num : forall z, proper (JNum z)
| p_str : forall s, proper (JStr s) | p_list : forall l, proper (JList l)
| p_dict : forall d, NoDup (map fst d) -> (forall k v, In (k, v) d -> proper v) -> proper (JDict d).

Definition is_scalar (j : json) : Prop := match j with JDict _ | JList _ => False | _ => True end.

(** [merged a b r]: [r] is what merging [b] over [a] should give. *)
Inductive merged : jdict -> jdict -> jdict -> Prop :=
| merged_intro : forall a b r,
    (forall k, merged_at (dget k a) (dget k b) (dget k r)) -> merged a b r
with merged_at : option json -> option json -> option json -> Prop :=
| m_keep : forall x, merged_at x None x
| m_new : forall y, merged_at None (Some y) (Some y)
| m_null : forall y, merged_at (Some JNull) (Some y) (Some y)
| m_scalar : forall x y, is_scalar y -> merged_at (Some x) (Some y) (Some y)
| m_lists : forall l l', merged_at (Some (JList l)) (Some (JList l')) (Some (JList (l ++ l')))
| m_dicts : forall a b r, merged a b r -> merged_at (Some (JDict a)) (Some (JDict b)) (Some (JDict r)).

(** Shapes that can be merged: a dictionary only meets a dictionary, a list only a list. *)
Inductive mergeable : jdict -> jdict -> Prop :=
| mergeable_intro : forall a b,
    (forall k x y, dget k a = Some x -> dget k b = Some y -> x <> JNull -> mergeable_at x y) -> mergeable a b
with mergeable_at : json -> json -> Prop :=
| s_scalar : forall x y, is_scalar y -> mergeable_at x y
| s_lists : forall l l', mergeable_at (JList l) (JList l')
| s_dicts : forall a b, mergeable a b -> mergeable_at (JDict a) (JDict b).

(** The value under a path of keys. *)
Fixpoint at_path (p : list (list N)) (d : jdict) : option json :=
  match p with
  | [] => Some (JDict d)
  | k :: p' => match dget k d with
               | None => None
               | Some v => match p' with
                           | [] => Some v
                           | _ => match v with JDict d' => at_path p' d' | _ => None end
                           end
               end
  end.

(** No None anywhere among the dictionary entries. *)
Inductive no_null : json -> Prop :=
| n_bool : forall b, no_null (JBool b) | n_num : forall z, no_null (JNum z)
| n_str : forall s, no_null (JStr s) | n_list : forall l, no_null (JList l)
| n_dict : forall d, (forall k v, In (k, v) d -> no_null v) -> no_null (JDict d).

(** [p] is not overwritten by [d]: [d] has no value there and no non-dictionary above it. *)
Fixpoint untouched (p : list (list N)) (d : jdict) : Prop :=
  match p with
  | [] => False
  | k :: p' => match dget k d with None => True | Some (JDict d') => p' <> [] /\ untouched p' d' | Some _ => False end
  end.

(** ** Folder trees *)
(** [base_name n e]: the file name [n] stands for the file [e]: either [n] carries no version
    and is [e], or it is [e] with a version. *)
Definition unversioned (n : list N) : Prop :=
  (dots n < 2)%nat \/ (exists a v b, n = a ++ 46%N :: v ++ 46%N :: b /\ ~ In 46%N v /\ ~ In 46%N b /\ not_a_number v).
Definition base_name (n e : list N) : Prop :=
  (n = e /\ unversioned n) \/ (exists f d, good_ext f /\ n = versioned f d /\ e = plain_of f).

(** A source tree: names once per folder, folder names without version, no folder named like
    a file. *)
Inductive tidy : node -> Prop :=
| tidy_dir : forall es, NoDup (map fst es) ->
    (forall n, In (n, File) es -> exists e, base_name n e /\ forall es', ~ In (e, Dir es') es) ->
    (forall n es', In (n, Dir es') es -> unversioned n /\ tidy (Dir es')) ->
    tidy (Dir es).

(** The index has dictionaries (or nothing) where the tree has folders. *)
Inductive fits : node -> jdict -> Prop :=
| fits_dir : forall es d,
    (forall n es', In (n, Dir es') es -> dget n d = None \/ exists s, dget n d = Some (JDict s) /\ fits (Dir es') s) ->
    fits (Dir es) d.

(** [file_at t p e]: the tree has a file standing for [e] in the folder reached through [p]. *)
Inductive file_at : node -> list (list N) -> list N -> Prop :=
| fa_here : forall es n e, In (n, File) es -> base_name n e -> file_at (Dir es) [] e
| fa_sub : forall es n es' p e, In (n, Dir es') es -> file_at (Dir es') p e -> file_at (Dir es) (n :: p) e.
Inductive folder_at : node -> list (list N) -> Prop :=
| fo_here : forall es, folder_at (Dir es) []
| fo_sub : forall es n es' p, In (n, Dir es') es -> folder_at (Dir es') p -> folder_at (Dir es) (n :: p).

(** <root>/<p1>/.../<pn> *)
Definition under (root : list N) (p : list (list N)) : list N :=
  root ++ (if ends [47%N] root then [] else [47%N]) ++ join [47%N] p.
