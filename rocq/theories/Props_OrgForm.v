(** C77-C80: form elements kept in separate files.
    Model: OrgForm.v; specification: Spec_OrgForm.v; proofs: OrgFormProofs.v, OrgFormMain.v, OrgFormDocs.v. *)
From Coq Require Import String Permutation Lia.
From Verif Require Import PyBase PyText JsonText UpdateDictProofs ClassesProofs OrgForm OrgFormProofs Spec_OrgForm OrgFormMain OrgFormDocs.
Open Scope string_scope.
Open Scope list_scope.
Open Scope N_scope.

Lemma written_pages data places : Forall (fun p => p_written p = true) places -> Forall (no_pages data) places.
Proof. apply Forall_impl. intros p H Hw. congruence. Qed.
Lemma filter_all A (f : A -> bool) l : Forall (fun x => f x = true) l -> filter f l = l.
Proof. induction 1 as [|x l H _ IH]; [reflexivity|]. cbn. rewrite H, IH. reflexivity. Qed.
Lemma unpack_docs_inv fuel doc files : unpack_docs fuel doc = Ok files -> exists doc1 areas, unpack_elems fuel doc = Ok (doc1, areas) /\ files = doc_files doc1 areas.
Proof. unfold unpack_docs. intros H. apply bind_pair in H. destruct H as (doc1 & areas & H & E). injection E as <-. exists doc1, areas. split; [exact H|reflexivity]. Qed.

Lemma path_nonempty q tree places : areas_at q tree places -> forall p, In p places -> p_path p <> [].
Proof.
  intros Ha p. induction Ha as [p0|p0 e rest w n pg c pl Hname Hpg Hlast _ IHr|p0 e rest n pg pl Hname Hpl Hpg Hch _ IHr|p0 e rest n pg c0 c l1 l2 Hname Hpl Hpg Hch _ IH1 _ IHr]; intros Hi; [destruct Hi| |exact (IHr Hi)|].
  - destruct Hi as [<-|Hi]; [|exact (IHr Hi)]. cbn [p_path]. destruct (under p0 pg); discriminate.
  - apply in_app_or in Hi. destruct Hi; auto.
Qed.

Lemma docs_restored fuel d tree data doc1 os : (forall read, Forall (holds_area read) os -> exists doc2, pack_elems fuel read doc1 = Ok doc2 /\ same_document (Jobj d) doc2 /\
    exists t r q, doc2 = with_doc (dset k_data (Jobj r) (dset k_tree (Jlist t) d)) tree q /\ NoDup (map fst q) /\ same_map data q) ->
  forall read, Forall (holds_area (fun n => j <- read n ;; area_of j)) os -> exists doc, pack_docs fuel read doc1 = Ok doc /\ same_document (Jobj d) doc /\ distinct_data doc.
Proof. intros B read H. destruct (B _ H) as (doc & H1 & H2 & t & r & q & E & Hn & _). exists doc. split; [exact H1|]. split; [exact H2|]. exact (@with_distinct _ _ _ _ _ _ E Hn). Qed.

(** ** C77: what was taken out comes back *)
(** A form whose inner areas have different names, none of them "root", no null among the data: if the extraction writes its
    files, then there is one for every area and one for the rest, and a build that reads files with the same elements and data
    gives back the document. *)
Theorem C77_areas_restored : forall fuel d tree data places files,
  document d tree data -> areas_at [] tree places -> Forall (fun p => p_written p = true) places -> NoDup (map p_name places) -> ~ In fe_root (map p_name places) ->
  NoDup (map fst data) -> no_nulls data -> unpack_docs fuel (Jobj d) = Ok files ->
  map fst files = map p_name places ++ [fe_root] /\
  forall kept read, In (fe_root, kept) files ->
    (forall n j, n <> fe_root -> In (n, j) files -> exists j', read n = Ok j' /\ same_document j j' /\ distinct_data j') ->
    exists doc, pack_docs fuel read kept = Ok doc /\ same_document (Jobj d) doc /\ distinct_data doc.
Proof.
  intros fuel d tree data places files Hd Ha Hw Hnm Hroot Hn Hnn H. apply unpack_docs_inv in H. destruct H as (doc1 & areas & H & ->).
  destruct (@docs_back fuel _ _ _ _ _ _ Hd Ha Hn Hnn (@written_pages data _ Hw) H) as (os & root' & tree' & E1 & E2 & O & _ & _ & B). rewrite (collect_places O Hnm) in E2. destruct (occs_names O) as [N1 N2]. rewrite (@filter_all _ p_written _ Hw) in N1.
  assert (Ek : map fst areas = map p_name places) by (rewrite E2, map_map; exact N1). assert (Hr : ~ In w_root (map fst areas)) by (rewrite Ek; exact Hroot). split.
  - rewrite (files_map _ _ Hr), map_app, map_map. cbn [map fst]. rewrite <- Ek. reflexivity.
  - intros kept read Hk Hf.
    assert (kept = doc1) as ->.
    { rewrite (files_map _ _ Hr) in Hk. apply in_app_or in Hk. destruct Hk as [Hk|[Hk|[]]]; [|injection Hk as ->; reflexivity]. exfalso. apply Hr. apply in_map_iff in Hk. destruct Hk as ([n a] & E & Hi). injection E as E _. apply in_map_iff. exists (n, a). split; [exact E|exact Hi]. }
    refine (@docs_restored fuel _ _ _ _ _ B read _). apply (@reads_occs doc1 areas read os); [|exact Hr|exact Hf]. intros w n a Hi. rewrite E2. apply in_map_iff. exists (w, n, a). split; [reflexivity|]. apply filter_In. split; [exact Hi|].
    cbn [fst]. clear -O Hi Hw. induction O as [|p [[w0 n0] a0] places os (A & _) _ IH]; [destruct Hi|]. inversion Hw as [|? ? Hw1 Hw2]; subst. destruct Hi as [Hi|Hi]; [congruence|exact (IH Hw2 Hi)].
Qed.
Print Assumptions C77_areas_restored.

(** ** C78: areas that are only read *)
(** An element whose name begins with includr_ has its inner elements in a file that another form owns: nothing is written
    there.  When the files that are read are those the form would write if it owned all its areas, and there are no pages at
    the top of the areas that are only read, the build gives back the document. *)
Theorem C78_read_only_areas_restored : forall fuel d tree treew data places files owner,
  document d tree data -> areas_at [] tree places -> writable_tree tree treew -> NoDup (map p_name places) -> ~ In fe_root (map p_name places) ->
  NoDup (map fst data) -> no_nulls data -> (forall p, In p places -> p_written p = false -> dget (under (p_path p) fe_pages) data = None) ->
  unpack_docs fuel (Jobj d) = Ok files -> unpack_docs fuel (Jobj (dset fe_tree (Jlist treew) d)) = Ok owner ->
  map fst files = map p_name (filter p_written places) ++ [fe_root] /\ map fst owner = map p_name places ++ [fe_root] /\
  forall kept read, In (fe_root, kept) files ->
    (forall n j, n <> fe_root -> In (n, j) owner -> exists j', read n = Ok j' /\ same_document j j' /\ distinct_data j') ->
    exists doc, pack_docs fuel read kept = Ok doc /\ same_document (Jobj d) doc /\ distinct_data doc.
Proof.
  intros fuel d tree treew data places files owner Hd Ha Hwt Hnm Hroot Hn Hnn Hpg H Ho. apply unpack_docs_inv in H. destruct H as (doc1 & areas & H & ->). apply unpack_docs_inv in Ho. destruct Ho as (docw & areasw & Ho & ->).
  assert (Hp : Forall (no_pages data) places).
  { apply Forall_forall. intros p Hi Hw. specialize (Hpg p Hi Hw). revert Hpg. pose proof (path_nonempty _ _ _ Ha p Hi) as Hne.
    destruct (p_path p); [congruence|]. exact (fun h => h). }
  destruct (@docs_back fuel _ _ _ _ _ _ Hd Ha Hn Hnn Hp H) as (os & root' & tree' & E1 & E2 & O & _ & W & B). destruct (W treew Hwt) as (dw & W2). change fe_tree with k_tree in Ho. rewrite Ho in W2. injection W2 as <- W2.
  rewrite (collect_places O Hnm) in E2. destruct (occs_names O) as [N1 N2].
  assert (N3 : map (fun o : occ => snd (fst o)) (filter (fun o : occ => fst (fst o)) (map to_written os)) = map p_name places).
  { rewrite <- N2. clear. induction os as [|[[w n] a] os IH]; [reflexivity|]. cbn [map to_written filter fst snd]. cbn [map fst snd]. rewrite IH. reflexivity. }
  rewrite collect_keys in W2; [|rewrite N3; exact Hnm|intros o _ _ []]. cbn [app] in W2.
  assert (Ek : map fst areas = map p_name (filter p_written places)) by (rewrite E2, map_map; exact N1). assert (Ew : map fst areasw = map p_name places) by (rewrite W2, map_map; exact N3).
  assert (Hrw : ~ In w_root (map fst areasw)) by (rewrite Ew; exact Hroot).
  assert (Hr : ~ In w_root (map fst areas)). { rewrite Ek. intros Q. apply Hroot. apply in_map_iff in Q. destruct Q as (x & E & Q). apply filter_In in Q. apply in_map_iff. exists x. split; [exact E|apply Q]. }
  split; [rewrite (files_map _ _ Hr), map_app, map_map; cbn [map fst]; rewrite <- Ek; reflexivity|]. split; [rewrite (files_map _ _ Hrw), map_app, map_map; cbn [map fst]; rewrite <- Ew; reflexivity|].
  intros kept read Hk Hf.
  assert (kept = doc1) as ->.
  { rewrite (files_map _ _ Hr) in Hk. apply in_app_or in Hk. destruct Hk as [Hk|[Hk|[]]]; [|injection Hk as ->; reflexivity]. exfalso. apply Hr. apply in_map_iff in Hk. destruct Hk as ([n a] & E & Hi). injection E as E _. apply in_map_iff. exists (n, a). split; [exact E|exact Hi]. }
  refine (@docs_restored fuel _ _ _ _ _ B read _). apply (@reads_occs docw areasw read os); [|exact Hrw|exact Hf]. intros w n a Hi. rewrite W2. apply in_map_iff. exists (true, n, a). split; [reflexivity|]. apply filter_In. split; [|reflexivity]. apply in_map_iff. exists (w, n, a). split; [reflexivity|exact Hi].
Qed.
Print Assumptions C78_read_only_areas_restored.

(** ** C79: what the files hold *)
(** Every value in the data that stay is the value of the form under the same path; every value in the file of an area is the
    value of the form under the path of the place of the area, its path begins with the name of the area, and it does not
    stay behind. *)
Theorem C79_areas_separated : forall fuel d tree data places files,
  document d tree data -> areas_at [] tree places -> Forall (fun p => p_written p = true) places -> NoDup (map p_name places) -> ~ In fe_root (map p_name places) ->
  NoDup (map fst data) -> no_nulls data -> unpack_docs fuel (Jobj d) = Ok files ->
  exists kept ktree kdata, In (fe_root, Jobj kept) files /\ dget fe_tree kept = Some (Jlist ktree) /\ kept_tree tree ktree /\ dget fe_data kept = Some (Jobj kdata) /\ (forall k, k <> fe_tree -> k <> fe_data -> dget k kept = dget k d) /\ (forall k v, dget k kdata = Some v -> dget k data = Some v) /\
    forall p, In p places -> exists fd adata base, In (p_name p, Jobj fd) files /\ dget fe_data fd = Some (Jobj adata) /\ p_path p = under base (fe_include ++ p_name p) /\
      forall c v, dget c adata = Some v -> (exists t, c = fe_include ++ p_name p ++ t) /\ dget (under base c) data = Some v /\ dget (under base c) kdata = None.
Proof.
  intros fuel d tree data places files Hd Ha Hw Hnm Hroot Hn Hnn H. apply unpack_docs_inv in H. destruct H as (doc1 & areas & H & ->).
  destruct (@docs_back fuel _ _ _ _ _ _ Hd Ha Hn Hnn (@written_pages data _ Hw) H) as (os & root' & tree' & E1 & E2 & O & K & _ & _). rewrite (collect_places O Hnm) in E2. destruct (occs_names O) as [N1 N2]. rewrite (@filter_all _ p_written _ Hw) in N1.
  assert (Ek : map fst areas = map p_name places) by (rewrite E2, map_map; exact N1). assert (Hr : ~ In w_root (map fst areas)) by (rewrite Ek; exact Hroot).
  destruct (docs_kept _ Hd Ha H) as (tree2 & root2 & E3 & Kt). rewrite E1 in E3. assert (tree2 = tree').
  { injection E3 as E3. apply (f_equal (dget k_tree)) in E3. rewrite !dget_dset in E3. change (str_eqb k_tree k_data) with false in E3. change (str_eqb k_tree k_tree) with true in E3. cbv iota in E3. congruence. } subst tree2.
  subst doc1. exists (dset k_data (Jobj root') (dset k_tree (Jlist tree') d)), tree', root'. split; [rewrite (files_map _ _ Hr); apply in_or_app; right; left; reflexivity|].
  split; [change fe_tree with k_tree; rewrite dget_dset_other by discriminate; apply dget_dset_same|]. split; [exact Kt|]. split; [apply dget_dset_same|]. split; [intros k Q1 Q2; rewrite !dget_dset_other by assumption; reflexivity|]. split; [exact K|].
  intros p Hp. assert (exists a, In (true, p_name p, a) os /\ moved data root' p (a_data a)) as (a & Hi & M).
  { clear -O Hp Hw. induction O as [|p0 [[w0 n0] a0] places os (A & A2 & A3) _ IH]; [destruct Hp|]. inversion Hw as [|? ? Hw1 Hw2]; subst. destruct Hp as [->|Hp]; [exists a0; split; [left; rewrite Hw1; reflexivity|exact A3]|]. destruct (IH Hw2 Hp) as (a & Q1 & Q2). exists a. split; [right; exact Q1|exact Q2]. }
  destruct M as (base & Mb & M). exists [(k_data, Jobj (a_data a)); (k_tree, a_tree a)], (a_data a), base. split; [|split; [reflexivity|split; [exact Mb|exact M]]].
  rewrite (files_map _ _ Hr). apply in_or_app. left. apply in_map_iff. exists (p_name p, a). split; [reflexivity|]. rewrite E2. apply in_map_iff. exists (true, p_name p, a). split; [reflexivity|]. apply filter_In. split; [exact Hi|reflexivity].
Qed.
Print Assumptions C79_areas_separated.

(** ** C80: forms without areas *)
(** Nothing changes, whatever the data are: extraction writes the document as it is, and nothing else; the build reads no other
    file and gives back the document as it is. *)
Theorem C80_no_areas_unchanged : forall fuel d tree data, document d tree data -> areas_at [] tree [] ->
  (forall files, unpack_docs fuel (Jobj d) = Ok files -> files = [(fe_root, Jobj d)]) /\
  (forall read doc, pack_docs fuel read (Jobj d) = Ok doc -> doc = Jobj d).
Proof.
  intros fuel d tree data Hd Ha. split.
  - intros files H. apply unpack_docs_inv in H. destruct H as (doc1 & areas & H & ->). unfold unpack_elems in H. rewrite (doc_of_ok Hd) in H. cbn [bind] in H. apply bind_trip in H. destruct H as (t & r & a & H & E). injection E as <- <-. apply wrap_ok in H.
    apply no_areas_get in H; [|exact Ha]. injection H as -> -> ->. rewrite (with_same Hd). reflexivity.
  - intros read doc H. unfold pack_docs, pack_elems in H. rewrite (doc_of_ok Hd) in H. cbn [wrap_ext bind] in H. apply bind_pair in H. destruct H as (t & r & H & E). injection E as <-. apply wrap_ok in H. apply no_areas_put in H; [|exact Ha]. injection H as -> ->. exact (with_same Hd).
Qed.
Print Assumptions C80_no_areas_unchanged.

(** ** Cases *)
Definition js (s : string) : jval := Jstr (u s).
Definition el (name : string) (pg : option string) (kids : list jval) : jval :=
  Jobj ([(k_name, js name)] ++ match pg with Some p => [(k_page, js p)] | None => [] end ++ [(k_child, Jlist kids)]).
Definition leaf_el (name : string) : jval := Jobj [(k_name, js name)].
Definition form_doc (tree : list jval) (data : jd) : jd := [(u "params", Jlist []); (k_tree, Jlist tree); (k_data, Jobj data)].
Definition ex_tree : list jval := Eval vm_compute in
  [el "Панель" None [el "include_Общее_Кнопки" (Some "Первая") [el "Группа" None [leaf_el "ОК"]; leaf_el "Отмена"]; leaf_el "Поле"]; el "includr_Итоги" None [leaf_el "Сумма"]].
Definition ex_treew : list jval := Eval vm_compute in
  [el "Панель" None [el "include_Общее_Кнопки" (Some "Первая") [el "Группа" None [leaf_el "ОК"]; leaf_el "Отмена"]; leaf_el "Поле"]; el "include_Итоги" None [leaf_el "Сумма"]].
Definition ex_form_data : jd := Eval vm_compute in
  [(u "Панель", js "1"); (u "Панель/Первая/include_Общее_Кнопки", js "2"); (u "Панель/Первая/include_Общее_Кнопки/Группа", js "3"); (u "Панель/Первая/include_Общее_Кнопки/Группа/ОК", js "4");
   (u "Панель/Первая/include_Общее_Кнопки/Отмена", js "5"); (u "Панель/Первая/include_Общее_Кнопки/-pages-", Jlist [js "Стр1"; js "Стр2"]); (u "Панель/Первая/include_Общее_Кнопки/Стр1", js "6");
   (u "Панель/Поле", js "7"); (u "includr_Итоги", js "8"); (u "include_Итоги/Сумма", js "9")].
Definition ex_places : list place := Eval vm_compute in [mkplace true (u "Общее_Кнопки") (u "Панель/Первая/include_Общее_Кнопки"); mkplace false (u "Итоги") (u "include_Итоги")].
Definition ex_areas_ok : list place := Eval vm_compute in [mkplace true (u "Общее_Кнопки") (u "Панель/Первая/include_Общее_Кнопки"); mkplace true (u "Итоги") (u "include_Итоги")].
Definition n_buttons := Eval vm_compute in u "Общее_Кнопки".
Definition n_totals := Eval vm_compute in u "Итоги".
Definition n_panel := Eval vm_compute in u "Панель".
Definition n_first := Eval vm_compute in u "Первая".
Ltac last_child := match goal with |- child_last ?e _ => exists (removelast e) end; split; vm_compute; reflexivity.
Ltac plain := let w := fresh in intros w; destruct w; vm_compute; discriminate.
Example ex_areas_at : areas_at [] ex_tree ex_places.
Proof.
  replace ex_places with ([mkplace true n_buttons (under (under (under (under [] []) n_panel) n_first) (fe_include ++ n_buttons))] ++ [mkplace false n_totals (under (under [] []) (fe_include ++ n_totals))]) by (vm_compute; reflexivity).
  eapply at_group; [reflexivity|plain|reflexivity|reflexivity| |].
  - eapply at_area with (w := true) (n := n_buttons) (pg := n_first); [reflexivity|reflexivity|last_child|]. eapply at_leaf; [reflexivity|plain|reflexivity|left; reflexivity|constructor].
  - eapply at_area with (w := false) (n := n_totals) (pg := []); [reflexivity|reflexivity|last_child|constructor].
Qed.
Example ex_areas_atw : areas_at [] ex_treew ex_areas_ok.
Proof.
  replace ex_areas_ok with ([mkplace true n_buttons (under (under (under (under [] []) n_panel) n_first) (fe_include ++ n_buttons))] ++ [mkplace true n_totals (under (under [] []) (fe_include ++ n_totals))]) by (vm_compute; reflexivity).
  eapply at_group; [reflexivity|plain|reflexivity|reflexivity| |].
  - eapply at_area with (w := true) (n := n_buttons) (pg := n_first); [reflexivity|reflexivity|last_child|]. eapply at_leaf; [reflexivity|plain|reflexivity|left; reflexivity|constructor].
  - eapply at_area with (w := true) (n := n_totals) (pg := []); [reflexivity|reflexivity|last_child|constructor].
Qed.
Example ex_writable : writable_tree ex_tree ex_treew.
Proof.
  unfold ex_tree, ex_treew. refine (@wt_group _ _ _ _ [_; _] _ [_] _ _ _ _ _); [reflexivity|plain|reflexivity| |].
  - refine (@wt_area _ true n_buttons _ _ _ _); [reflexivity|]. eapply wt_leaf; [reflexivity|plain|left; reflexivity|constructor].
  - refine (@wt_area _ false n_totals _ _ _ _); [reflexivity|constructor].
Qed.
Lemma no_nullsb d : forallb (fun e : list N * jval => match snd e with Jnull => false | _ => true end) d = true -> no_nulls d.
Proof. intros H k E. apply dget_in in E. rewrite forallb_forall in H. specialize (H _ E). discriminate. Qed.
Definition read_from (files : list (list N * jval)) (n : list N) : res jval := match dget n files with Some j => Ok j | None => Err FileNotFoundError end.
Definition ex_files : list (list N * jval) := Eval vm_compute in match unpack_docs 5 (Jobj (form_doc ex_tree ex_form_data)) with Ok f => f | _ => [] end.
Definition ex_owner : list (list N * jval) := Eval vm_compute in match unpack_docs 5 (Jobj (form_doc ex_treew ex_form_data)) with Ok f => f | _ => [] end.
(** the hypotheses of C78 hold of this form, and of C77 and C79 when both areas are its own *)
Example C77_C78_C79_hypotheses :
  document (form_doc ex_tree ex_form_data) ex_tree ex_form_data /\ NoDup (map p_name ex_places) /\ ~ In fe_root (map p_name ex_places) /\ NoDup (map fst ex_form_data) /\ no_nulls ex_form_data /\
  (forall p, In p ex_places -> p_written p = false -> dget (under (p_path p) fe_pages) ex_form_data = None) /\
  unpack_docs 5 (Jobj (form_doc ex_tree ex_form_data)) = Ok ex_files /\ unpack_docs 5 (Jobj (dset fe_tree (Jlist ex_treew) (form_doc ex_tree ex_form_data))) = Ok ex_owner /\
  map fst ex_files = [u "Общее_Кнопки"; u "root"] /\ map fst ex_owner = [u "Общее_Кнопки"; u "Итоги"; u "root"] /\
  dget (u "Общее_Кнопки") ex_files = Some (Jobj [(k_data, Jobj [(u "include_Общее_Кнопки/Группа", js "3"); (u "include_Общее_Кнопки/Группа/ОК", js "4"); (u "include_Общее_Кнопки/Отмена", js "5");
    (u "include_Общее_Кнопки/-pages-", Jlist [js "Стр1"; js "Стр2"]); (u "include_Общее_Кнопки/Стр1", js "6")]); (k_tree, Jlist [el "Группа" None [leaf_el "ОК"]; leaf_el "Отмена"])]) /\
  match dget fe_root ex_files with Some kept => match pack_docs 5 (read_from ex_owner) kept with Ok (Jobj d) => dget fe_tree d = Some (Jlist ex_tree) | _ => False end | None => False end.
Proof.
  split; [split; reflexivity|]. split; [apply nodupb_ok; vm_compute; reflexivity|]. split; [intros [H|[H|[]]]; vm_compute in H; discriminate|]. split; [apply nodupb_ok; vm_compute; reflexivity|]. split; [apply no_nullsb; vm_compute; reflexivity|].
  split; [intros p [<-|[<-|[]]] Hw; [discriminate|vm_compute; reflexivity]|]. repeat (split; [vm_compute; reflexivity|]). vm_compute. reflexivity.
Qed.
Definition plain_tree : list jval := Eval vm_compute in [el "Панель" None [leaf_el "Поле"]].
Example C80_case : areas_at [] plain_tree [] /\ unpack_docs 3 (Jobj (form_doc plain_tree [(u "Панель", Jnull)])) = Ok [(fe_root, Jobj (form_doc plain_tree [(u "Панель", Jnull)]))].
Proof.
  split; [|vm_compute; reflexivity]. change (@nil place) with (@nil place ++ @nil place). eapply at_group; [reflexivity|plain|reflexivity|reflexivity| |constructor]. eapply at_leaf; [reflexivity|plain|reflexivity|left; reflexivity|constructor].
Qed.

(** ** What does not hold *)
(** a document that came back after its files were written and read, without an error *)
Definition comes_to (d : jd) (doc : jval) : Prop :=
  exists files kept, unpack_docs 9 (Jobj d) = Ok files /\ dget fe_root files = Some kept /\ pack_docs 9 (read_from files) kept = Ok doc.
Ltac differs_at k := intros (da & db & Ea & Eb & _ & Hk & Hd); injection Ea as <-; injection Eb as <-;
  first [destruct (Hd _ eq_refl) as (y & Ey & Hm); vm_compute in Ey; injection Ey as <-; specialize (Hm k); vm_compute in Hm; discriminate | specialize (Hk k ltac:(discriminate)); vm_compute in Hk; discriminate].
(** Two areas with one name: the file of the second replaces the file of the first, and the build puts it in both places. *)
Definition twice_tree : list jval := Eval vm_compute in [el "Лево" None [el "include_X" None [leaf_el "А"]]; el "Право" None [el "include_X" None [leaf_el "А"]]].
Definition twice_data : jd := Eval vm_compute in [(u "Лево", js "1"); (u "Право", js "2"); (u "Лево/include_X", js "3"); (u "Право/include_X", js "4"); (u "Лево/include_X/А", js "левый"); (u "Право/include_X/А", js "правый")].
Theorem C77_same_name_refuted : exists doc, comes_to (form_doc twice_tree twice_data) doc /\ ~ same_document (Jobj (form_doc twice_tree twice_data)) doc.
Proof.
  eexists. split.
  - eexists. eexists. split; [vm_compute; reflexivity|]. split; [vm_compute; reflexivity|]. vm_compute. reflexivity.
  - differs_at (u "Лево/include_X/А").
Qed.
Print Assumptions C77_same_name_refuted.
(** An area with the name root is not written: the document takes its place, and the build reads the document as the area. *)
Definition root_tree : list jval := Eval vm_compute in [el "include_root" None [leaf_el "А"]].
Definition root_data : jd := Eval vm_compute in [(u "include_root", js "1"); (u "include_root/А", js "2")].
Theorem C77_root_refuted : exists files kept, unpack_docs 9 (Jobj (form_doc root_tree root_data)) = Ok files /\ map fst files = [fe_root] /\ dget fe_root files = Some kept /\
  forall read, read fe_root = Ok kept -> pack_docs 9 read kept = Err ExtExc.
Proof. eexists. eexists. split; [vm_compute; reflexivity|]. split; [reflexivity|]. split; [vm_compute; reflexivity|]. intros read Hr. unfold pack_docs, pack_elems. cbn [doc_of wrap_ext bind]. vm_compute. change [114; 111; 111; 116] with fe_root. rewrite Hr. reflexivity. Qed.
Print Assumptions C77_root_refuted.
(** A null among the pages of an area is lost. *)
Definition null_tree : list jval := Eval vm_compute in [el "include_X" None [leaf_el "А"]].
Definition null_data : jd := Eval vm_compute in [(u "include_X", js "1"); (u "include_X/А", js "2"); (u "include_X/-pages-", Jnull)].
Theorem C77_null_refuted : exists doc, comes_to (form_doc null_tree null_data) doc /\ ~ same_document (Jobj (form_doc null_tree null_data)) doc.
Proof.
  eexists. split.
  - eexists. eexists. split; [vm_compute; reflexivity|]. split; [vm_compute; reflexivity|]. vm_compute. reflexivity.
  - differs_at (u "include_X/-pages-").
Qed.
Print Assumptions C77_null_refuted.
(** Pages at the top of an area that is only read are taken out of the form and are not put back, without an error. *)
Definition pages_tree : list jval := Eval vm_compute in [el "includr_X" None [leaf_el "А"]].
Definition pages_treew : list jval := Eval vm_compute in [el "include_X" None [leaf_el "А"]].
Definition pages_data : jd := Eval vm_compute in [(u "includr_X", js "1"); (u "include_X/А", js "2"); (u "include_X/-pages-", Jlist [js "С"]); (u "include_X/С", js "3")].
Theorem C78_pages_refuted : exists files owner kept doc, unpack_docs 9 (Jobj (form_doc pages_tree pages_data)) = Ok files /\ unpack_docs 9 (Jobj (form_doc pages_treew pages_data)) = Ok owner /\
  dget fe_root files = Some kept /\ pack_docs 9 (read_from owner) kept = Ok doc /\ ~ same_document (Jobj (form_doc pages_tree pages_data)) doc.
Proof.
  eexists. eexists. eexists. eexists. split; [vm_compute; reflexivity|]. split; [vm_compute; reflexivity|]. split; [vm_compute; reflexivity|]. split; [vm_compute; reflexivity|]. differs_at (u "include_X/С").
Qed.
Print Assumptions C78_pages_refuted.
