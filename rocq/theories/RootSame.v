(** A build of a root does not depend on byte order marks of its modules, nor on the order of its source files. *)
From Coq Require Import String Permutation.
From Verif Require Import PyBase PyText Utf Codecs Brace JsonText JsonObj Header Pipeline ObjCode Payload MetaObj Classes EncodeLoop Types Include Tree Spec_Tree Real Spec_Again RealSame Spec_Root Root Whole MetaObj.
Open Scope list_scope.
Open Scope N_scope.

Section Same.
Variable t : list N.
Variables a b : folder.
Hypothesis S : same_files t a b.
Ltac lit := unfold nb, source_name, dotted; rewrite ?ends_app; reflexivity.
Ltac go := repeat first [ reflexivity | rewrite (parts_same t a b S) by first [right; reflexivity | reflexivity] | rewrite (encode_code_same t a b S)
  | apply bind_cong; [first [reflexivity|idtac]|let x := fresh "x" in intros x] | match goal with |- (let (_, _) := ?x in _) = _ => destruct x end ].
Section Enc.
Variables (os : platform) (alnum : N -> bool) (lower : list N -> list N) (auto : bool) (fresh : nat -> list N) (o : ropts).
Lemma root_encode_same k version h idx listed : root_encode os alnum lower auto fresh o k version h b idx listed = root_encode os alnum lower auto fresh o k version h a idx listed.
Proof. destruct k; cbn [root_encode]; unfold config_encode, proc_encode, ext_encode; go. Qed.
End Enc.
Lemma root_file_same : root_file b = root_file a.
Proof.
  unfold root_file. induction root_files as [|n l IH]; [reflexivity|]. cbn [find]. rewrite (at_same t a b S (dotted n x_json)) by lit. rewrite IH. reflexivity.
Qed.
Lemma open_root_same : open_root b = open_root a.
Proof. unfold open_root. rewrite root_file_same. destruct (root_file a) as [n|]; [|reflexivity]. rewrite (json_read_same t a b S) by lit. reflexivity. Qed.
Lemma header_again_same k h : header_again k h b = header_again k h a.
Proof. unfold header_again. rewrite (json_read_same t a b S) by lit. reflexivity. Qed.
Lemma build_tree_same os alnum lower auto fresh enc o fuel sched folders : build_tree os alnum lower auto fresh enc o fuel sched b folders = build_tree os alnum lower auto fresh enc o fuel sched a folders.
Proof.
  unfold build_tree. rewrite open_root_same. apply bind_cong; [reflexivity|]. intros [[[n v] h] k]. apply bind_cong; [reflexivity|]. intros [idx files]. rewrite header_again_same. apply bind_cong; [reflexivity|]. intros h'. rewrite root_encode_same. reflexivity.
Qed.
Lemma with_product_same o : with_product b o = with_product a o.
Proof. unfold with_product. rewrite (txt_read_same t a b S) by lit. reflexivity. Qed.
Lemma build_file_same os alnum lower auto fresh enc deflate digest o fuel sched folders dummy order time stamp :
  build_file os alnum lower auto fresh enc deflate digest o fuel sched b folders dummy order time stamp = build_file os alnum lower auto fresh enc deflate digest o fuel sched a folders dummy order time stamp.
Proof. unfold build_file. rewrite with_product_same. apply bind_cong; [reflexivity|]. intros o'. rewrite build_tree_same. reflexivity. Qed.
End Same.
