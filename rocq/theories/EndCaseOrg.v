(** The case of C90 in the organizer: the conditions of C81 hold of it. *)
From Coq Require Import String Permutation Lia.
From Verif Require Import PyBase PyText Paths Utf JsonText JsonObj Pipeline UpdateDictProofs Spec_Code OrgCode OrgCodeProofs OrgCodePaths OrgForm Spec_OrgForm OrgFormProofs OrgFormGood FormJsonGood Spec_OrgTree OrgTree OrgTreePaths OrgTreeProofs OrgTreeElems OrgTreeMain Props_Code Props_OrgForm Props_OrgTree OrgTreeCase Real Spec_EndToEnd EndSplit EndCase.
Open Scope list_scope.
Open Scope N_scope.

(** ** What the organizer makes of them *)
Definition e_bytes (n : list N) : list N := match dget n (e_own ++ e_fo) with Some (TFile b) => b | _ => [] end.
Definition e_n1 : list N := Eval vm_compute in u "ExternalDataProcessor.obj.bsl"%string.
Definition e_n2 : list N := Eval vm_compute in u "Form.obj.bsl"%string.
Definition e_n3 : list N := Eval vm_compute in u "Form.elem.json"%string.
Definition e_b2 : list N := Eval vm_compute in e_bytes e_n2.
Definition e_b3 : list N := Eval vm_compute in e_bytes e_n3.
Definition e_l1 : list N := Eval vm_compute in ln "&НаКлиенте"%string.
Definition e_l2 : list N := Eval vm_compute in u "Процедура А() КонецПроцедуры"%string.
Definition e_m2 : code := Line e_l1 (Line e_l2 End).
Definition e_doc : list (list N * jval) := Eval vm_compute in match utf8_decode e_b3 with Ok t => match jload (univ_nl t) with Some (Jobj d) => d | _ => [] end | _ => [] end.
Definition e_tr : list jval := Eval vm_compute in match dget fe_tree e_doc with Some (Jlist l) => l | _ => [] end.
Definition e_data : list (list N * jval) := Eval vm_compute in match dget fe_data e_doc with Some (Jobj l) => l | _ => [] end.
Definition e_trw : list jval := Eval vm_compute in match e_tr with Jobj e :: rest => Jobj (dset fe_name (Jstr (fe_include ++ e_head)) e) :: rest | l => l end.
Definition e_places : list Spec_OrgForm.place := [mkplace false e_head (Spec_OrgForm.under (Spec_OrgForm.under [] []) (fe_include ++ e_head))].
Definition e_owner : list (list N * jval) := Eval vm_compute in match unpack_docs 9 (Jobj (dset fe_tree (Jlist e_trw) e_doc)) with Ok o => o | _ => [] end.
Definition e_area : jval := Eval vm_compute in match dget e_head e_owner with Some j => j | None => Jnull end.
Definition e_areab : list N := Eval vm_compute in the (json_bytes Posix e_area).
Definition e_st : disk := Eval vm_compute in [(u "/p/src/old.bsl"%string, [7]); (u "/p/core/head.elem.json"%string, e_areab)].
Definition e_done : disk := Eval vm_compute in match organize Posix e_table 9 (@rev write) (@rev write) t_dest e_tree e_st with Ok s => s | Err _ => [] end.
Lemma e_organized : organize Posix e_table 9 (@rev write) (@rev write) t_dest e_tree e_st = Ok e_done.
Proof. vm_compute. reflexivity. Qed.
Lemma e_root_names n b : In (n, TFile b) e_own -> n <> [] /\ (module_name n -> n = e_n1 /\ b = b_m1) /\ ~ elements_name n.
Proof.
  intros [E|[E|[]]]; apply pair_equal_spec in E; destruct E as [<- E]; (split; [discriminate|]); (split; [|intros [He1 He2]; vm_compute in He1, He2; discriminate]); intros Hm; [vm_compute in Hm; discriminate|].
  split; [reflexivity|]. injection E as <-. reflexivity.
Qed.
Lemma e_form_names n b : In (n, TFile b) e_fo -> (module_name n -> n = e_n2 /\ b = e_b2) /\ (elements_name n -> n = e_n3 /\ b = e_b3).
Proof.
  intros [E|[E|[E|[E|[]]]]]; apply pair_equal_spec in E; destruct E as [<- E]; injection E as <-; (split; [intros Hm; first [vm_compute in Hm; discriminate|split; reflexivity]|intros [He1 He2]; first [vm_compute in He1; discriminate|vm_compute in He2; discriminate|split; reflexivity]]).
Qed.
Lemma e_good1 : good_module Posix e_table 9 t_dest [] e_n1 b_m1 t_m1 [n_core_x].
Proof.
  split; [vm_compute; reflexivity|]. split; [apply scb; vm_compute; reflexivity|]. split; [intros Q; apply mem_ch_in in Q; vm_compute in Q; discriminate|]. split; [intros r; vm_compute; discriminate|]. split.
  { apply wn_line; [apply plain_intro; reflexivity|]. eapply wn_area with (w := true) (name := n_core_x) (d := None); [exact t_head1|try reflexivity; try (apply unmarked_b; reflexivity)..]; try apply wn_end.
    all: try (right; apply mem_ch_in; reflexivity). all: try (apply wn_line; [apply plain_intro; reflexivity|apply wn_end]). }
  split; [proper_ls|]. split; [apply nm_line; apply (@nm_area _ _ _ _ true n_core_x None [] [] t_head1); [apply nm_line; apply nm_end|apply nm_end]|].
  split; [intros [Q|[]]; discriminate|]. split; [intros x [<-|[]] Q; apply mem_ch_in in Q; vm_compute in Q; discriminate|]. split; [|cbn; lia].
  constructor; [intros [Q|[]]; vm_compute in Q; discriminate|]. constructor; [intros []|constructor].
Qed.
Lemma e_good2 : good_module Posix e_table 9 t_dest [e_type; Props_FormReal.k_fname] e_n2 e_b2 e_m2 [].
Proof.
  split; [vm_compute; reflexivity|]. split; [apply scb; vm_compute; reflexivity|]. split; [intros Q; apply mem_ch_in in Q; vm_compute in Q; discriminate|]. split; [intros r; vm_compute; discriminate|]. split.
  { apply wn_line; [apply plain_intro; reflexivity|]. apply wn_line; [apply plain_intro; reflexivity|apply wn_end]. }
  split.
  { intros a x b E. change (flatten e_m2) with [e_l1; e_l2] in E. destruct a as [|y a]; [injection E as <- <-; left; exists (removelast e_l1); split; [vm_compute; reflexivity|intros Q; apply mem_ch_in in Q; vm_compute in Q; discriminate]|].
    destruct a as [|y' a]; [injection E as <- <- <-; right; split; [reflexivity|split; [discriminate|intros Q; apply mem_ch_in in Q; vm_compute in Q; discriminate]]|]. exfalso. apply (f_equal (@List.length _)) in E. rewrite app_length in E. cbn in E. lia. }
  split; [apply nm_line, nm_line, nm_end|]. split; [intros []|]. split; [intros x []|]. split; [constructor; [intros []|constructor]|cbn; lia].
Qed.
Lemma e_good3 : good_elements e_table t_dest [e_type; Props_FormReal.k_fname] e_n3 e_b3 e_doc e_tr e_trw e_data e_places.
Proof.
  split; [apply json_file_of; vm_compute; reflexivity|]. split.
  { split; [vm_compute; reflexivity|]. apply Forall_forall. intros s Hs. apply scb. revert s Hs. apply forallb_forall. vm_compute. reflexivity. }
  split; [apply nodup_strs; vm_compute; reflexivity|]. split; [split; reflexivity|]. split.
  { eapply at_area with (w := false) (n := e_head) (pg := []); [reflexivity|reflexivity|last_child|].
    refine (@at_group _ _ _ _ [] _ _ [] [] _ _ _ _ _ _); [reflexivity|intros []; vm_compute; discriminate|reflexivity|reflexivity| |].
    - eapply at_leaf with (pg := []); [reflexivity|intros []; vm_compute; discriminate|reflexivity|left; reflexivity|constructor].
    - eapply at_leaf with (pg := []); [reflexivity|intros []; vm_compute; discriminate|reflexivity|left; reflexivity|constructor]. }
  split.
  { refine (@wt_area _ false e_head _ _ _ _); [reflexivity|]. refine (@wt_group _ _ _ _ _ _ _ _ _ _ _ _); [reflexivity|intros []; vm_compute; discriminate|reflexivity| |]; (eapply wt_leaf; [reflexivity|intros []; vm_compute; discriminate|left; reflexivity|constructor]). }
  split; [apply nodup_strs; vm_compute; reflexivity|]. split; [intros [Q|[]]; discriminate|]. split; [apply nodup_strs; vm_compute; reflexivity|].
  split; [apply no_nullsb; vm_compute; reflexivity|]. split; [intros pl [<-|[]] _; vm_compute; reflexivity|]. split; [intros pl [<-|[]] Q; apply mem_ch_in in Q; vm_compute in Q; discriminate|].
  constructor; [intros []|constructor].
Qed.

(** what each file of the folder gives *)
Definition e_files : list (list (list N) * list N * list N) := Eval vm_compute in
  flat_map (fun e : list N * tree => match snd e with TFile b => [([], fst e, b)] | _ => [] end) e_own ++ flat_map (fun e : list N * tree => match snd e with TFile b => [([e_type; Props_FormReal.k_fname], fst e, b)] | _ => [] end) e_fo.
Lemma e_found_in p n b : found e_tree p n b -> In (p, n, b) e_files.
Proof.
  intros H. apply e_found in H. destruct H as [[-> H]|[-> H]].
  - destruct H as [E|[E|[]]]; apply pair_equal_spec in E; destruct E as [<- E]; injection E as <-; repeat first [left; reflexivity | right].
  - destruct H as [E|[E|[E|[E|[]]]]]; apply pair_equal_spec in E; destruct E as [<- E]; injection E as <-; repeat first [left; reflexivity | right].
Qed.
Definition e_gives (p : list (list N)) (n b : list N) : disk := match organize Posix e_table 9 (fun x => x) (fun x => x) t_dest (single p n b) [] with Ok s => s | Err _ => [] end.
Definition e_all : list (list N * list (list N) * disk) := Eval vm_compute in map (fun f => let '(p, n, b) := f in (n, p, e_gives p n b)) e_files.
Lemma e_all_is : e_all = map (fun f => let '(p, n, b) := f in (n, p, e_gives p n b)) e_files.
Proof. vm_compute. reflexivity. Qed.
Lemma e_gives_in p n b k c : found e_tree p n b -> gives Posix e_table 9 t_dest p n b k c -> exists s, In (n, p, s) e_all /\ In (k, c) s.
Proof.
  intros Hf (s & Hs & Hk). apply e_found_in in Hf. apply dget_in in Hk. exists s. split; [|exact Hk].
  assert (Hg : e_gives p n b = s) by (unfold e_gives; rewrite Hs; reflexivity). rewrite <- Hg, e_all_is. apply in_map_iff. exists (p, n, b). split; [reflexivity|exact Hf].
Qed.
Lemma e_no_conflict : no_conflict Posix e_table 9 t_dest e_tree.
Proof.
  intros p n b p' n' b' k c c' F F' G G'. destruct (e_gives_in _ _ _ _ _ F G) as (s & H1 & H2). destruct (e_gives_in _ _ _ _ _ F' G') as (s' & H1' & H2').
  apply (@nodup_fst_in _ (concat (map snd e_all)) k c c'); [apply nodup_strs; vm_compute; reflexivity| |]; apply in_concat; [exists s|exists s']; (split; [|assumption]); apply in_map_iff; [exists (n, p, s)|exists (n', p', s')]; (split; [reflexivity|assumption]).
Qed.

Definition e_out_dir : list N := Eval vm_compute in u "/p/out/"%string.
Lemma e_splittable : splittable Posix e_table 9 t_dest t_out e_tree e_done.
Proof.
  assert (Qa : forall g f, Forall (fun e => ~ In 47 e) g -> within (enter [] t_dest) g -> Forall (fun e => ~ In 47 e) f -> f <> [] -> firstn 2 f <> enter [] t_dest -> Spec_Code.written f <> Spec_Code.written g).
  { intros g f G1 (r & Hr & ->) F1 F2 F3 E. apply written_inj in E; [|exact F2|discriminate|exact F1|exact G1]. subst f. apply F3. reflexivity. }
  assert (Ns : forall l : list (list N), forallb (fun e => negb (mem_ch 47 e)) l = true -> Forall (fun e => ~ In 47 e) l).
  { intros l H. apply Forall_forall. intros x Hx Q. rewrite forallb_forall in H. specialize (H x Hx). apply mem_ch_in in Q. rewrite Q in H. discriminate. }
  split; [|split; [|split; [exact e_no_conflict|split]]].
  - intros p n b F Hm. apply e_found in F. destruct F as [[-> H]|[-> H]].
    + destruct (e_root_names _ _ H) as (_ & Hn & _). destruct (Hn Hm) as [-> ->]. exists t_m1, [n_core_x]. split; [exact e_good1|]. intros a k data Ha Hi.
      assert (Ea : a = match OrgCode.unpack (text_of t_m1) with Ok a => a | Err _ => [] end) by (rewrite Ha; reflexivity). vm_compute in Ea. subst a. destruct Hi as [E|[E|[]]]; discriminate.
    + destruct (proj1 (e_form_names _ _ H) Hm) as [-> ->]. exists e_m2, []. split; [exact e_good2|]. intros a k data Ha Hi.
      assert (Ea : a = match OrgCode.unpack (text_of e_m2) with Ok a => a | Err _ => [] end) by (rewrite Ha; reflexivity). vm_compute in Ea. subst a. destruct Hi as [E|[]]; discriminate.
  - intros p n b F Hm. apply e_found in F. destruct F as [[-> H]|[-> H]]; [exfalso; exact (proj2 (proj2 (e_root_names _ _ H)) Hm)|].
    destruct (proj2 (e_form_names _ _ H) Hm) as [-> ->]. exists e_doc, e_tr, e_trw, e_data, e_places. split; [exact e_good3|]. intros owner pl j Ho [<-|[]] _ Hj.
    assert (Eo : owner = e_owner) by (assert (Q : unpack_docs 9 (Jobj (dset Spec_OrgForm.fe_tree (Jlist e_trw) e_doc)) = Ok e_owner) by (vm_compute; reflexivity); rewrite Q in Ho; injection Ho as <-; reflexivity).
    subst owner. assert (j = e_area) as -> by (destruct Hj as [E|[E|[]]]; [apply pair_equal_spec in E; destruct E as [_ <-]; reflexivity|apply pair_equal_spec in E; destruct E as [E _]; discriminate]).
    exists e_areab, e_area. split; [vm_compute; reflexivity|]. split; [apply json_file_of; vm_compute; reflexivity|]. split; [|split].
    + destruct e_area as [| | | | |d] eqn:Ea; try discriminate Ea. exists d, d. split; [reflexivity|]. split; [reflexivity|]. split; [reflexivity|]. split; [reflexivity|]. intros x Hx. exists x. split; [exact Hx|intros k; reflexivity].
    + intros d x Ed Hx. assert (Q : match e_area with Jobj d => match dget Spec_OrgForm.fe_data d with Some (Jobj x) => nodup_b (map fst x) | _ => true end | _ => true end = true) by (vm_compute; reflexivity).
      rewrite Ed in Q. cbv beta iota in Q. rewrite Hx in Q. apply nodup_strs. exact Q.
    + intros (r & _ & Q). vm_compute in Q. discriminate.
  - intros p n b k c g F G Hg Hw ->. destruct (e_gives_in _ _ _ _ _ F G) as (s & H1 & H2). destruct (found_fits F e_named) as [Hp Hn]. destruct (own_good t_dest Hp Hn) as [O1 O2].
    assert (Q : forall h, noslash h -> h <> [] -> Spec_Code.written g = Spec_Code.written h -> g = h) by (intros h Q1 Q2 Q3; apply written_inj; try assumption; destruct Hw as (r & Hr & ->); discriminate).
    assert (Qx : Spec_Code.written [[112]; [99;111;114;101]; [120;46;98;115;108]] <> Spec_Code.written g) by (apply Qa; [exact Hg|exact Hw|apply Ns; vm_compute; reflexivity|discriminate|vm_compute; discriminate]).
    clear F G. rewrite app_assoc in *. unfold e_all in H1.
    repeat (destruct H1 as [H1|H1]; [apply pair_equal_spec in H1; destruct H1 as [H1 <-]; apply pair_equal_spec in H1; destruct H1 as [<- <-];
      repeat (destruct H2 as [H2|H2]; [apply pair_equal_spec in H2; destruct H2 as [H2 _]; first [apply Q; [exact O1|exact O2|symmetry; exact H2] | exfalso; apply Qx; exact H2]|]); destruct H2|]). destruct H1.
  - intros p n b k c g F G Hg (r & Hr & ->) ->. destruct r as [|x r]; [congruence|]. destruct (e_gives_in _ _ _ _ _ F G) as (s & H1 & H2).
    assert (Qo : forallb (fun e : list N * list (list N) * disk => forallb (fun kc => negb (starts e_out_dir (fst kc))) (snd e)) e_all = true) by (vm_compute; reflexivity).
    rewrite forallb_forall in Qo. specialize (Qo _ H1). cbn [snd] in Qo. rewrite forallb_forall in Qo. specialize (Qo _ H2). cbn [fst] in Qo.
    assert (Qs : starts e_out_dir (Spec_Code.written (enter [] t_out ++ x :: r)) = true) by reflexivity. rewrite Qs in Qo. discriminate.
Qed.
