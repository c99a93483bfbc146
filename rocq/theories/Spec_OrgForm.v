(** The words of the properties about form elements kept in separate files: which elements are areas, where their data are,
    what it means that a document is restored.  Written without the model's own helpers. *)
From Coq Require Import String.
From Verif Require Import PyBase PyText JsonText.
Set Implicit Arguments.
Open Scope list_scope.
Open Scope N_scope.

Definition fe_name : list N := Eval vm_compute in u "name"%string.
Definition fe_page : list N := Eval vm_compute in u "page"%string.
Definition fe_child : list N := Eval vm_compute in u "child"%string.
Definition fe_tree : list N := Eval vm_compute in u "tree"%string.
Definition fe_data : list N := Eval vm_compute in u "data"%string.
Definition fe_include : list N := Eval vm_compute in u "include_"%string.
Definition fe_includr : list N := Eval vm_compute in u "includr_"%string.
Definition fe_pages : list N := Eval vm_compute in u "-pages-"%string.
Definition fe_root : list N := Eval vm_compute in u "root"%string.
Definition dict : Type := list (list N * jval).

(** [a/b], with nothing before it when [a] is empty, and [a] when [b] is empty *)
Definition under (a b : list N) : list N := match a, b with [], _ => b | _, [] => a | _, _ => a ++ [47] ++ b end.
(** the first letters that make an element an area; true when its file is also written *)
Definition prefix_of (writable : bool) : list N := if writable then fe_include else fe_includr.
Definition plain_name (n : list N) : Prop := forall w, firstn 8 n <> prefix_of w.
(** the element has the name and the page *)
Definition page_is (e : dict) (pg : list N) : Prop :=
  match dget fe_page e with
  | None | Some Jnull => pg = []
  | Some (Jstr s) => pg = s
  | Some _ => False
  end.
(** the list of inner elements is the last field of an element *)
Definition child_last (e : dict) (l : list jval) : Prop := exists e0, e = e0 ++ [(fe_child, Jlist l)] /\ dget fe_child e0 = None.

(** An area of a form: whether its file is written, its name, and the path of its elements *)
Record place := mkplace { p_written : bool; p_name : list N; p_path : list N }.
(** [areas_at path tree l]: [l] are the areas among the elements [tree] that stand under the path, in order *)
Inductive areas_at : list N -> list jval -> list place -> Prop :=
| at_nil p : areas_at p [] []
| at_area p e rest w n pg c l :
    dget fe_name e = Some (Jstr (prefix_of w ++ n)) -> page_is e pg -> child_last e c -> areas_at p rest l ->
    areas_at p (Jobj e :: rest) (mkplace w n (under (under p pg) (fe_include ++ n)) :: l)
| at_leaf p e rest n pg l :
    dget fe_name e = Some (Jstr n) -> plain_name n -> page_is e pg -> dget fe_child e = None \/ dget fe_child e = Some (Jlist []) -> areas_at p rest l ->
    areas_at p (Jobj e :: rest) l
| at_group p e rest n pg c0 c l1 l2 :
    dget fe_name e = Some (Jstr n) -> plain_name n -> page_is e pg -> dget fe_child e = Some (Jlist (c0 :: c)) ->
    areas_at (under (under p pg) n) (c0 :: c) l1 -> areas_at p rest l2 ->
    areas_at p (Jobj e :: rest) (l1 ++ l2).

(** A document *)
Definition document (d : dict) (tree : list jval) (data : dict) : Prop := dget fe_tree d = Some (Jlist tree) /\ dget fe_data d = Some (Jobj data).
Definition same_map (a b : dict) : Prop := forall k, dget k a = dget k b.
(** the same document: the same fields in the same order, and the data are the same map *)
Definition same_document (a b : jval) : Prop :=
  exists da db, a = Jobj da /\ b = Jobj db /\ map fst da = map fst db /\ (forall k, k <> fe_data -> dget k da = dget k db) /\
    (forall x, dget fe_data da = Some (Jobj x) -> exists y, dget fe_data db = Some (Jobj y) /\ same_map x y).
(** every key of the data is there once, as in every file that was read *)
Definition distinct_data (a : jval) : Prop := forall d x, a = Jobj d -> dget fe_data d = Some (Jobj x) -> NoDup (map fst x).
Definition no_nulls (d : dict) : Prop := forall k, dget k d <> Some Jnull.

(** the same elements with every area writable: includr_ in the names of areas is replaced by include_ *)
Inductive writable_tree : list jval -> list jval -> Prop :=
| wt_nil : writable_tree [] []
| wt_area e w n rest rest' :
    dget fe_name e = Some (Jstr (prefix_of w ++ n)) -> writable_tree rest rest' ->
    writable_tree (Jobj e :: rest) (Jobj (dset fe_name (Jstr (fe_include ++ n)) e) :: rest')
| wt_leaf e n rest rest' :
    dget fe_name e = Some (Jstr n) -> plain_name n -> dget fe_child e = None \/ dget fe_child e = Some (Jlist []) -> writable_tree rest rest' ->
    writable_tree (Jobj e :: rest) (Jobj e :: rest')
| wt_group e n c0 c c' rest rest' :
    dget fe_name e = Some (Jstr n) -> plain_name n -> dget fe_child e = Some (Jlist (c0 :: c)) -> writable_tree (c0 :: c) c' -> writable_tree rest rest' ->
    writable_tree (Jobj e :: rest) (Jobj (dset fe_child (Jlist c') e) :: rest').

Definition fe_separate : list N := Eval vm_compute in u "В отдельном файле"%string.
(** the elements that stay: in the place of the inner elements of an area is a remark that they are in another file *)
Inductive kept_tree : list jval -> list jval -> Prop :=
| kt_nil : kept_tree [] []
| kt_area e0 c w n rest rest' :
    dget fe_name (e0 ++ [(fe_child, Jlist c)]) = Some (Jstr (prefix_of w ++ n)) -> kept_tree rest rest' ->
    kept_tree (Jobj (e0 ++ [(fe_child, Jlist c)]) :: rest) (Jobj (e0 ++ [(fe_child, Jstr fe_separate)]) :: rest')
| kt_leaf e n rest rest' :
    dget fe_name e = Some (Jstr n) -> plain_name n -> dget fe_child e = None \/ dget fe_child e = Some (Jlist []) -> kept_tree rest rest' ->
    kept_tree (Jobj e :: rest) (Jobj e :: rest')
| kt_group e n c0 c c' rest rest' :
    dget fe_name e = Some (Jstr n) -> plain_name n -> dget fe_child e = Some (Jlist (c0 :: c)) -> kept_tree (c0 :: c) c' -> kept_tree rest rest' ->
    kept_tree (Jobj e :: rest) (Jobj (dset fe_child (Jlist c') e) :: rest').
