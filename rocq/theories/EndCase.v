(** A case for C90: an external report with a managed form.  Its module has an include area, and its form has a read-only one, the
    file of which is on the disk. *)
From Coq Require Import String Permutation Lia.
From Verif Require Import PyBase PyInt PyText Paths Utf Codecs Brace Spec_Brace Header CalcOffset Spec_Misc JsonText JsonObj Container Pipeline MetaObjBase UpdateDict UpdateDictProofs ObjCode Payload MetaObj EncodeLoop Types Include Tree Real
  FormElem Spec_FormElem FormElemList FormElemMain FormElemDescr FormElemPlain FormElemCheck FormCode Form Spec_FormObj FormObjElem FormObjMain FormObjEdit Spec_Obj Spec_Stage Root FormReal Props_FormElem Props_FormObj Whole Props_Tree Props_Root Props_FormReal
  Spec_Code OrgCode OrgCodeProofs OrgCodePaths OrgForm Spec_OrgForm OrgFormProofs OrgFormGood FormJsonGood Spec_OrgTree OrgTree OrgTreePaths OrgTreeProofs OrgTreeElems OrgTreeMain OrgTreeCase Spec_EndToEnd Classes MetaObj.
From Verif Require Props_Code Props_OrgForm.
Import Container Classes MetaObj Pipeline Tree Real Root FormElem Spec_FormElem.
Open Scope list_scope.
Open Scope N_scope.

(** ** The form: that of C66, but its button is no area *)
Definition e_but : list N := Eval vm_compute in u "Кнопка"%string.
Definition e_elems : list felem :=
  [ex_group n_head [ex_field "1" n_code to_obj]; ex_table n_body (VList [number 1; VList [VStr [49]]]) [ex_field "2" n_bcode to_code]; ex_button e_but ex_ref].
Definition e_raw : list val := [z_; VList (ex_front ++ number 3 :: pairs_of e_elems ++ fill 4); VStr [46]] ++ ex_rest.
Lemma e_but_ok : elem_ok ex_props ex_cmds e_but (ex_button e_but ex_ref).
Proof.
  constructor; cbn [fe_kind fe_name fe_front fe_kids fe_back ex_button].
  - at_place 4%nat.
  - discriminate.
  - intros _. split; reflexivity.
  - exact Logic.I.
  - discriminate.
  - intros at_ E. injection E as <-. exists ex_ref. split; [at_place 7%nat|]. split; [right; exists [49], 1%Z, [VStr ex_uuid]; split; reflexivity|]. intros _. right. right. exists [49], 1%Z, [VStr ex_uuid].
    split; [reflexivity|]. split; [reflexivity|]. split; [discriminate|]. intros c [<-|[]] _. split; [discriminate|reflexivity].
  - left. apply not_in. vm_compute. reflexivity.
Qed.
Lemma e_form : form_is e_raw ex_props ex_cmds [n_key] e_elems.
Proof.
  constructor.
  - exists z_, ex_front, (fill 4), (VStr [46] :: ex_rest), z_, (tl ex_front). split; [reflexivity|]. split; [reflexivity|]. apply lo_ok. vm_compute. reflexivity.
  - split.
    + change (all_paths e_elems) with [(n_head, ex_group n_head [ex_field "1" n_code to_obj]); (p_field, ex_field "1" n_code to_obj);
        (n_body, ex_table n_body (VList [number 1; VList [VStr [49]]]) [ex_field "2" n_bcode to_code]); (p_bfield, ex_field "2" n_bcode to_code); (e_but, ex_button e_but ex_ref)].
      constructor; [exact ex_head_ok|]. constructor; [|constructor; [exact ex_body_ok|constructor; [|constructor; [exact e_but_ok|constructor]]]]; cbn [fst snd]; apply ex_field_ok.
      * left. apply not_in. vm_compute. reflexivity.
      * right. exists 1%nat, [VList [VStr [50]]]. split; [reflexivity|]. split; [cbn; lia|]. constructor; [exists [50], []; reflexivity|constructor].
      * intros _. exists n_obj. split; [discriminate|]. exact (@lt_prop ex_props (n_obj, [50], []) [] (or_intror (or_introl eq_refl))).
      * left. apply not_in. vm_compute. reflexivity.
      * right. exists 2%nat, [VList [VStr [49]]; VList [VStr [49]]]. split; [reflexivity|]. split; [cbn; lia|]. constructor; [exists [49], []; reflexivity|constructor; [exists [49], []; reflexivity|constructor]].
      * intros [H|H]; exfalso; revert H; apply not_in; vm_compute; reflexivity.
    + apply nodup_strs. vm_compute. reflexivity.
  - exists [ex_prop n_list [49] (VStr []) [ex_col n_code [49]; ex_col n_none [50]]; ex_prop n_obj [50] ex_pattern []]. split; [exists z_, []; reflexivity|].
    constructor; [|constructor; [|constructor]].
    + exists z_, [], z_, z_, (VStr []), (fill 7), [ex_col n_code [49]; ex_col n_none [50]], [z_]. split; [reflexivity|]. split; [reflexivity|]. split; [exact Logic.I|]. constructor; [|constructor; [|constructor]]; exists z_, z_, [z_]; reflexivity.
    + exists z_, [], z_, z_, ex_pattern, (fill 7), [], [z_]. split; [reflexivity|]. split; [reflexivity|]. split; [|constructor]. cbn. intros _. exists ex_parent, []. split; [reflexivity|discriminate].
  - exists [VList [z_; ex_ref; quoted n_print; z_]]. split; [exists z_, []; reflexivity|]. constructor; [|constructor]. exists z_, [VStr ex_uuid], [z_]. split; reflexivity.
  - exists [VList [z_; quoted n_key]]. split; [exists z_, []; reflexivity|]. constructor; [|constructor]. exists z_, []. reflexivity.
  - split; [apply nodup_strs; vm_compute; reflexivity|]. split; [constructor; [apply nodup_strs; vm_compute; reflexivity|constructor; [constructor|constructor]]|apply nodup_strs; vm_compute; reflexivity].
  - split; [apply nodup_strs; vm_compute; reflexivity|]. split; [constructor; [discriminate|constructor; [discriminate|constructor]]|apply nodup_strs; vm_compute; reflexivity].
Qed.
Definition e_place (s : list N) : list val := match e_raw with _ :: a :: _ :: r => [VList (VStr t4 :: a :: VStr s :: r)] | _ => [] end.
Definition e_modb : list N := Eval vm_compute in snd (brace_file_write Posix (e_place (literal fx_module)) []).
Definition e_fsrc : folder := [(fx_uuid, TFile fx_newb); (dotted fx_uuid t0, TFile e_modb); (dotted fx_uuid t1, TFile fx_secondb)].
Lemma e_managed left : managed_is left (Some ex_parent) (e_place (literal fx_module)) fx_module.
Proof.
  refine (mg_first _ _ _ _).
  - vm_compute. tauto.
  - split; [vm_compute; intuition discriminate|]. intros r E. vm_compute in E. discriminate E.
  - left. split; [discriminate|]. pose proof e_form as F. apply (@form_is_at _ _ _ _ _ 0 (VStr t4) free_zero) in F. apply (@form_is_at _ _ _ _ _ 2 (VStr (literal fx_module)) free_two) in F. do 4 eexists. exact F.
Qed.

(** ** The container *)
Definition e_psrc : folder := [(Root.f_root, bfile y_root); (f_version, bfile y_ver); (f_versions, bfile y_versions); (f_copyinfo, bfile y_root); (y_fu, bfile k_pdata);
  (dotted y_uuid [48], TDir [(s_info, TFile Props_Stage.ex_brace); (s_text, TFile b_m1)])] ++ e_fsrc.
Definition e_left (k : ekind) (v : val) : jval := Jnull.
Definition e_forms := forms_dec Posix (fun _ => true) (fun _ => []) e_left false (fun _ _ => Err ExtExc) k_cont.
Definition e_out := Eval vm_compute in extract_tree Posix (fun _ => true) (fun _ => true) false e_forms 9 (fun _ l => l) e_psrc.
Definition e_own : folder := Eval vm_compute in match e_out with Ok (o, _) => o | _ => [] end.
Definition e_ss : sources folder := Eval vm_compute in match e_out with Ok (_, s) => s | _ => [] end.
Lemma e_extracted : extract_tree Posix (fun _ => true) (fun _ => true) false e_forms 9 (fun _ l => l) e_psrc = Ok (e_own, e_ss).
Proof. vm_compute. reflexivity. Qed.

(** ** The sources on the disk *)
Definition e_head : list N := Eval vm_compute in u "Шапка"%string.
Definition e_table : list (list N * list N) := Eval vm_compute in [(e_head, u "core_head"%string)].
Definition e_fo : folder := Eval vm_compute in match e_ss with (_, fo) :: _ => fo | [] => [] end.
Definition e_type : list N := Eval vm_compute in u "Form"%string.
Definition e_tree : list (list N * tree) := Eval vm_compute in e_own ++ [(e_type, TDir [(k_fname, TDir e_fo)])].
Lemma e_ss_is : e_ss = [([(e_type, k_fname)], e_fo)].
Proof. reflexivity. Qed.
Lemma e_found p n b : found e_tree p n b <-> (p = [] /\ In (n, TFile b) e_own) \/ (p = [e_type; k_fname] /\ In (n, TFile b) e_fo).
Proof.
  assert (Hi : forall x, In x e_tree <-> In x e_own \/ x = (e_type, TDir [(k_fname, TDir e_fo)])).
  { intros x. change e_tree with (e_own ++ [(e_type, TDir [(k_fname, TDir e_fo)])]). rewrite in_app_iff. cbn [In]. split; [intros [H|[H|[]]]; auto|intros [H|H]; auto]. }
  assert (Ho : forall d s, ~ In (d, TDir s) e_own) by (intros d s [E|[E|[]]]; discriminate).
  assert (Hf : forall d s, ~ In (d, TDir s) e_fo) by (intros d s [E|[E|[E|[E|[]]]]]; discriminate).
  split.
  - intros H. inversion H as [? ? ? H1|? ? ? ? ? ? H1 H2]; subst.
    + left. split; [reflexivity|]. apply Hi in H1. destruct H1 as [H1|H1]; [exact H1|discriminate].
    + right. apply Hi in H1. destruct H1 as [H1|H1]; [exfalso; exact (Ho _ _ H1)|]. apply pair_equal_spec in H1. destruct H1 as [-> H1]. injection H1 as ->.
      inversion H2 as [? ? ? H3|? ? ? ? ? ? H3 H4]; subst.
      * exfalso. destruct H3 as [E|[]]. discriminate.
      * destruct H3 as [E|[]]. apply pair_equal_spec in E. destruct E as [<- E]. injection E as <-. inversion H4 as [? ? ? H5|? ? ? ? ? ? H5 H6]; subst; [split; [reflexivity|exact H5]|exfalso; exact (Hf _ _ H5)].
  - intros [[-> H]|[-> H]].
    + apply here. apply Hi. left. exact H.
    + eapply deeper; [apply Hi; right; reflexivity|]. eapply deeper; [left; reflexivity|]. apply here. exact H.
Qed.
Lemma e_named : well_named e_tree.
Proof.
  constructor.
  - apply nodup_strs. vm_compute. reflexivity.
  - repeat (apply Forall_cons; [apply fit_by; vm_compute; reflexivity|]). apply Forall_nil.
  - intros d sub [E|[E|[E|[]]]]; try discriminate. apply pair_equal_spec in E. destruct E as [_ E]. injection E as <-. constructor.
    + apply nodup_strs. vm_compute. reflexivity.
    + repeat (apply Forall_cons; [apply fit_by; vm_compute; reflexivity|]). apply Forall_nil.
    + intros d' sub [E|[]]. apply pair_equal_spec in E. destruct E as [_ E]. injection E as <-. constructor.
      * apply nodup_strs. vm_compute. reflexivity.
      * repeat (apply Forall_cons; [apply fit_by; vm_compute; reflexivity|]). apply Forall_nil.
      * intros d2 sub2 [E|[E|[E|[E|[]]]]]; discriminate.
Qed.
Lemma e_own_nodup : NoDup (map fst e_own). Proof. apply nodup_strs. vm_compute. reflexivity. Qed.
Lemma e_fo_nodup : NoDup (map fst e_fo). Proof. apply nodup_strs. vm_compute. reflexivity. Qed.
Lemma e_laid_out : laid_out e_own e_ss e_tree.
Proof.
  assert (G : forall (l : folder) n t, NoDup (map fst l) -> (In (n, t) l <-> dget n l = Some t)) by (intros l n t H; split; [apply in_dget; exact H|apply dget_in]).
  split; [exact e_named|]. intros p n b. rewrite e_found, (G _ _ _ e_own_nodup), (G _ _ _ e_fo_nodup), e_ss_is. split.
  - intros [H|[-> H]]; [left; exact H|]. right. exists [(e_type, k_fname)], e_fo. split; [left; reflexivity|]. split; [reflexivity|exact H].
  - intros [H|(q & fo & [E|[]] & -> & H)]; [left; exact H|]. apply pair_equal_spec in E. destruct E as [<- <-]. right. split; [reflexivity|exact H].
Qed.
Lemma e_plain auto : auto = false -> plain_folders auto e_ss.
Proof.
  intros Ha q fo. rewrite e_ss_is. intros [E|[]]. apply pair_equal_spec in E. destruct E as [<- <-]. split; [|split; [|split]].
  - exists (match e_fo with (n, _) :: _ => n | _ => [] end), (match e_fo with (_, TFile b) :: _ => b | _ => [] end). vm_compute. reflexivity.
  - intros n t H. apply dget_in in H. destruct H as [E|[E|[E|[E|[]]]]]; apply pair_equal_spec in E; destruct E as [_ <-]; eexists; reflexivity.
  - intros n b H Hn. right. apply dget_in in H. destruct H as [E|[E|[E|[E|[]]]]]; apply pair_equal_spec in E; destruct E as [E1 E2]; subst n; try (vm_compute in Hn; discriminate); injection E2 as <-; vm_compute; reflexivity.
  - intros n [He1 He2] H. destruct (dget n e_fo) as [t|] eqn:E; [|congruence]. apply dget_in in E. destruct E as [E|[E|[E|[E|[]]]]]; apply pair_equal_spec in E; destruct E as [<- _]; try (vm_compute in He1; discriminate); try (vm_compute in He2; discriminate).
    split; [vm_compute; tauto|]. split; [vm_compute; reflexivity|left; exact Ha].
Qed.
