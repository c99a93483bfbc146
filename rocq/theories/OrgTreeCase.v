(** A folder of sources for the properties C81 and C82: a plain file, a module whose area lies in a shared folder, a module that
    uses the same area read-only, and a form with an area. *)
From Coq Require Import String Permutation Lia.
From Verif Require Import PyBase PyText Paths Utf JsonText JsonObj Pipeline UpdateDictProofs Spec_Code OrgCode OrgCodeProofs OrgCodePaths OrgForm Spec_OrgForm OrgFormGood FormJsonGood Spec_OrgTree OrgTree OrgTreePaths OrgTreeProofs OrgTreeElems OrgTreeMain Props_Code Props_OrgForm.
Set Implicit Arguments.
Open Scope string_scope.
Open Scope list_scope.
Open Scope N_scope.

Definition t_dest : list N := Eval vm_compute in u "/p/src".
Definition t_out : list N := Eval vm_compute in u "/p/out".
Definition n_core_x : list N := Eval vm_compute in u "core_x".
Definition n_core_b : list N := Eval vm_compute in u "core_b".
Definition m1_open : list N := Eval vm_compute in ln "#Область include_core_x".
Definition m2_open : list N := Eval vm_compute in ln "#Область includr_core_x".
Definition m_close : list N := Eval vm_compute in ln "#КонецОбласти".
Definition m_body : list N := Eval vm_compute in ln "X = 1;".
Definition m_first : list N := Eval vm_compute in ln "A = 2;".
Definition t_m1 : code := Line m_first (Area m1_open (Line m_body End) m_close End).
Definition t_m2 : code := Area m2_open (Line m_body End) m_close End.
Definition t_tree : list jval := Eval vm_compute in [el "include_core_b" None [leaf_el "k"]].
Definition t_data : jd := Eval vm_compute in [(u "include_core_b", js "1"); (u "include_core_b/k", js "2")].
Definition t_doc : jd := Eval vm_compute in form_doc t_tree t_data.
Definition t_places : list Spec_OrgForm.place := [mkplace true n_core_b (under (under [] []) (fe_include ++ n_core_b))].
Definition the (r : res (list N)) : list N := match r with Ok b => b | Err _ => [] end.
Definition b_txt : list N := [1; 255; 13; 10].
Definition b_m1 : list N := Eval vm_compute in bom ++ the (utf8_encode (text_of t_m1)).
Definition b_m2 : list N := Eval vm_compute in the (utf8_encode (text_of t_m2)).
Definition b_form : list N := Eval vm_compute in the (json_bytes Posix (Jobj t_doc)).
Definition n_txt : list N := Eval vm_compute in u "a.txt".
Definition n_m1 : list N := Eval vm_compute in u "m1.bsl".
Definition n_m2 : list N := Eval vm_compute in u "m2.bsl".
Definition n_form : list N := Eval vm_compute in u "f.elem.json".
Definition n_dir : list N := Eval vm_compute in u "F".
Definition t_src : list (list N * tree) := [(n_txt, TFile b_txt); (n_m2, TFile b_m2); (n_dir, TDir [(n_m1, TFile b_m1); (n_form, TFile b_form)])].
Definition t_files : list (list (list N) * list N * list N) := [([], n_txt, b_txt); ([], n_m2, b_m2); ([n_dir], n_m1, b_m1); ([n_dir], n_form, b_form)].
Definition t_st : disk := Eval vm_compute in [(u "/p/src/old.bsl", [7]); (u "/p/other", [8])].

Lemma t_found p n b : found t_src p n b <-> In (p, n, b) t_files.
Proof.
  split.
  - intros H. inversion H as [? ? ? Hi|? ? ? ? ? ? Hi Hd]; subst.
    + destruct Hi as [E|[E|[E|[]]]]; try discriminate; injection E as <- <-; [left|right; left]; reflexivity.
    + destruct Hi as [E|[E|[E|[]]]]; try discriminate. injection E as <- <-. inversion Hd as [? ? ? Hi|? ? ? ? ? ? Hi Hd2]; subst.
      * destruct Hi as [E|[E|[]]]; injection E as <- <-; [right; right; left|right; right; right; left]; reflexivity.
      * destruct Hi as [E|[E|[]]]; discriminate.
  - intros [E|[E|[E|[E|[]]]]]; injection E as <- <- <-.
    + apply here. left. reflexivity.
    + apply here. right. left. reflexivity.
    + eapply deeper; [right; right; left; reflexivity|]. apply here. left. reflexivity.
    + eapply deeper; [right; right; left; reflexivity|]. apply here. right. left. reflexivity.
Qed.
Definition fitb (n : list N) : bool := match n with [] => false | _ => true end && negb (mem_ch 47 n) && negb (str_eqb n [46]) && negb (str_eqb n [46; 46]).
Lemma fit_by n : fitb n = true -> fit_name n.
Proof.
  unfold fitb. intros H. apply andb_true_iff in H. destruct H as [H H4]. apply andb_true_iff in H. destruct H as [H H3]. apply andb_true_iff in H. destruct H as [H1 H2]. split; [intros ->; discriminate|]. split; [intros Q; apply mem_ch_in in Q; rewrite Q in H2; discriminate|].
  split; intros ->; discriminate.
Qed.
Lemma t_named : well_named t_src.
Proof.
  constructor.
  - apply nodup_strs. vm_compute. reflexivity.
  - repeat (apply Forall_cons; [apply fit_by; vm_compute; reflexivity|]). apply Forall_nil.
  - intros d sub [E|[E|[E|[]]]]; try discriminate. injection E as <- <-. constructor.
    + apply nodup_strs. vm_compute. reflexivity.
    + repeat (apply Forall_cons; [apply fit_by; vm_compute; reflexivity|]). apply Forall_nil.
    + intros d sub [E|[E|[]]]; discriminate.
Qed.
Lemma proper_by ls : Forall (fun x => exists y, x = y ++ [10] /\ mem_ch 10 y = false) ls -> proper_lines ls.
Proof. intros H a x b ->. left. apply Forall_elt in H. destruct H as (y & -> & Hy). exists y. split; [reflexivity|]. intros Q. apply mem_ch_in in Q. congruence. Qed.
Lemma t_head1 : header m1_open true n_core_x None.
Proof. eapply header_intro; [discriminate|reflexivity|reflexivity|reflexivity]. Qed.
Lemma t_head2 : header m2_open false n_core_x None.
Proof. eapply header_intro; [discriminate|reflexivity|reflexivity|reflexivity]. Qed.
Ltac proper_ls := apply proper_by; repeat (apply Forall_cons; [match goal with |- exists y, ?x = y ++ [10] /\ _ => exists (removelast x) end; split; vm_compute; reflexivity|]); apply Forall_nil.
Lemma t_good1 : good_module Posix [] 9 t_dest [n_dir] n_m1 b_m1 t_m1 [n_core_x].
Proof.
  split; [vm_compute; reflexivity|]. split; [apply scb; vm_compute; reflexivity|]. split; [intros Q; apply mem_ch_in in Q; vm_compute in Q; discriminate|]. split; [intros r; vm_compute; discriminate|]. split.
  { apply wn_line; [apply plain_intro; reflexivity|]. eapply wn_area with (w := true) (name := n_core_x) (d := None); [exact t_head1|try reflexivity; try (apply unmarked_b; reflexivity)..]; try apply wn_end.
    all: try (right; apply mem_ch_in; reflexivity). all: try (apply wn_line; [apply plain_intro; reflexivity|apply wn_end]). }
  split; [proper_ls|]. split; [apply nm_line; apply (@nm_area _ _ _ _ true n_core_x None [] [] t_head1); [apply nm_line; apply nm_end|apply nm_end]|].
  split; [intros [Q|[]]; discriminate|]. split; [intros x [<-|[]] Q; apply mem_ch_in in Q; vm_compute in Q; discriminate|]. split; [|cbn; lia].
  constructor; [intros [Q|[]]; vm_compute in Q; discriminate|]. constructor; [intros []|constructor].
Qed.
Lemma t_good2 : good_module Posix [] 9 t_dest [] n_m2 b_m2 t_m2 [n_core_x].
Proof.
  split; [vm_compute; reflexivity|]. split; [apply scb; vm_compute; reflexivity|]. split; [intros Q; apply mem_ch_in in Q; vm_compute in Q; discriminate|]. split; [intros r; vm_compute; discriminate|]. split.
  { eapply wn_area with (w := false) (name := n_core_x) (d := None); [exact t_head2|try reflexivity; try (apply unmarked_b; reflexivity)..]; try apply wn_end.
    all: try (right; apply mem_ch_in; reflexivity). all: try (apply wn_line; [apply plain_intro; reflexivity|apply wn_end]). }
  split; [proper_ls|]. split; [apply (@nm_area _ _ _ _ false n_core_x None [] [] t_head2); [apply nm_line; apply nm_end|apply nm_end]|].
  split; [intros [Q|[]]; discriminate|]. split; [intros x [<-|[]] Q; apply mem_ch_in in Q; vm_compute in Q; discriminate|]. split; [|cbn; lia].
  constructor; [intros [Q|[]]; vm_compute in Q; discriminate|]. constructor; [intros []|constructor].
Qed.
Lemma t_good3 : good_elements [] t_dest [n_dir] n_form b_form t_doc t_tree t_tree t_data t_places.
Proof.
  split; [apply json_file_of; vm_compute; reflexivity|]. split.
  { repeat first [apply jgood_obj_of | apply jgood_list_of | apply jgood_str, scb; vm_compute; reflexivity | apply Forall_nil | apply Forall_cons; [first [split; [apply scb; vm_compute; reflexivity|]|idtac]|] ]. }
  split; [apply nodup_strs; vm_compute; reflexivity|]. split; [split; reflexivity|]. split.
  { eapply at_area with (w := true) (n := n_core_b) (pg := []); [reflexivity|reflexivity|last_child|constructor]. }
  split; [refine (@wt_area _ true n_core_b _ _ _ _); [reflexivity|constructor]|]. split; [apply nodup_strs; vm_compute; reflexivity|]. split; [intros [Q|[]]; discriminate|]. split; [apply nodup_strs; vm_compute; reflexivity|].
  split; [apply no_nullsb; vm_compute; reflexivity|]. split; [intros pl [<-|[]] Q; discriminate|]. split; [intros pl [<-|[]] Q; apply mem_ch_in in Q; vm_compute in Q; discriminate|].
  constructor; [intros [Q|[]]; vm_compute in Q; discriminate|]. constructor; [intros []|constructor].
Qed.
