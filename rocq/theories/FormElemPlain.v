(** Managed forms whose elements stay in the file: a build leaves them alone. *)
From Coq Require Import Lia.
From Verif Require Import PyBase PyInt Brace Header CalcOffset Container HeaderProofs Spec_Misc MiscProofs MetaObjBase FormCode Payload MetaObj FormElem Spec_FormElem FormElemBase FormElemProofs FormElemList FormElemMain.
Set Implicit Arguments.
Open Scope list_scope.
Open Scope N_scope.

Lemma not_mark c : c <> VStr kids_mark -> is_str c kids_mark = false.
Proof. intros H. destruct c as [|s|]; try reflexivity. cbn [is_str]. destruct (str_eqb s kids_mark) eqn:E; [apply str_eqb_spec in E; congruence|reflexivity]. Qed.
Lemma left_enc (A : Type) (enc : A -> res val) i items raw : section_left i raw -> list_enc enc i items raw = Ok (raw, None).
Proof.
  unfold section_left, list_enc. destruct (nth_error raw i) as [sec|]; [|reflexivity]. intros (h & c & l & -> & Hc). cbn [vget nth_error bind]. rewrite (not_mark Hc). reflexivity.
Qed.
Theorem form_left parent fe raw : left_whole raw -> elems_encode parent fe raw = Ok raw.
Proof.
  intros (H5 & H3 & H4 & v0 & x & data & c & back & rest & Er & Hlo & Hc). unfold elems_encode. rewrite (@left_enc _ cmd_enc _ (fe_commands fe) _ H5). cbn [bind]. rewrite (@left_enc _ (prop_enc parent) _ (fe_props fe) _ H3). cbn [bind names_commands fold_left].
  rewrite Er. cbn [root_of vnth nth_error bind vlist].
  assert (Hi : calc_offset [(18, 2); (3, 1); (1, 0)]%Z (x :: data ++ c :: back) = Ok (zlen (x :: data))).
  { exact (@place_calc [(18, 2); (3, 1)]%Z 1%Z x data c ltac:(lia) Hlo c back). }
  rewrite (elem_index_calc _ Hi). cbn [bind].
  replace (py_nth (x :: data ++ c :: back) (zlen (x :: data))) with (Ok c) by (symmetry; exact (py_nth_mid (x :: data) c back)). cbn [bind]. rewrite (not_mark Hc). cbn [bind]. rewrite <- Er, (@left_enc _ par_enc _ (fe_params fe) _ H4). reflexivity.
Qed.
