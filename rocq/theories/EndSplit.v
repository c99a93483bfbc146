(** The conditions of C81 in one word. *)
From Coq Require Import String Permutation.
From Verif Require Import PyBase PyText Utf JsonText JsonObj Pipeline Spec_Code Spec_OrgForm Spec_OrgTree OrgTree Props_OrgTree.
From Verif Require OrgCode OrgForm.
Open Scope list_scope.
Open Scope N_scope.

(** ** What is assumed of the folder [src] that is organized: the conditions of C81 *)
Definition splittable (os : platform) table (depth : nat) (dest dest2 : list N) (src : list (list N * tree)) (st' : OrgTree.disk) : Prop :=
  let D := enter [] dest in let D2 := enter [] dest2 in
  (* every module can be split, and its read-only areas are there *)
  (forall p n b, found src p n b -> module_name n -> exists m ns, good_module os table depth dest p n b m ns /\
     forall a k data, OrgCode.unpack (text_of m) = Ok a -> In (k, (data, Some OrgCode.Includr)) a ->
     let f := include_file table false D (join [47] p) k in exists bs, text_file os data bs /\ dget (Spec_Code.written f) st' = Some bs /\ ~ within D2 f) /\
  (* every form can be split, and its read-only areas are there *)
  (forall p n b, found src p n b -> elements_name n -> exists d tree treew data places, good_elements table dest p n b d tree treew data places /\
     forall owner pl j, OrgForm.unpack_docs depth (Jobj (dset fe_tree (Jlist treew) d)) = Ok owner -> In pl places -> p_written pl = false -> In (p_name pl, j) owner ->
     let f := include_with s_elem table D (join [47] p) (p_name pl) in exists bs j', dget (Spec_Code.written f) st' = Some bs /\ json_file bs j' /\ same_document j j' /\ distinct_data j' /\ ~ within D2 f) /\
  no_conflict os table depth dest src /\
  (* the files of areas are not among the sources, and nothing extracted lies in the folder that the build clears *)
  (forall p n b k c g, found src p n b -> gives os table depth dest p n b k c -> Forall (fun e => ~ In 47 e) g -> within D g -> k = Spec_Code.written g -> g = D ++ p ++ [n]) /\
  (forall p n b k c g, found src p n b -> gives os table depth dest p n b k c -> Forall (fun e => ~ In 47 e) g -> within D2 g -> k <> Spec_Code.written g).
