(** The files of one form in a folder of sources. *)
From Coq Require Import String Permutation Lia.
From Verif Require Import PyBase PyText Paths Utf Codecs BraceMore JsonText JsonTextProofs JsonObj MetaObjBase Pipeline UpdateDictProofs Spec_Code OrgCode OrgCodeProofs OrgCodePaths OrgForm OrgFormProofs Spec_OrgForm OrgFormMain OrgFormAgain OrgFormDocs OrgFormGood FormJsonGood Spec_OrgTree OrgTree OrgTreePaths OrgTreeProofs Props_OrgForm.
Set Implicit Arguments.
Open Scope list_scope.
Open Scope N_scope.

Lemma last9_elem n : ends x_elem n = true -> [46] ++ last9 n = s_elem.
Proof.
  intros H. apply ends_spec in H. destruct H as [t ->]. unfold last9. change x_elem with ([46] ++ tl s_elem) at 2. rewrite app_length. change (length x_elem) with 10%nat.
  replace (length t + 10 - 9)%nat with (length (t ++ [46])) by (rewrite app_length; cbn; lia). rewrite app_assoc, skipn_app, skipn_all, Nat.sub_diag. reflexivity.
Qed.
Section Org.
Variable os : platform.
Variable table : list (list N * list N).
Variable fuel : nat.
Lemma json_back j bs : jgood j -> json_bytes os j = Ok bs -> json_of bs = Ok j.
Proof.
  intros Hg H. destruct (jprint_chars j 0 Hg) as [Hc Hs]. apply text_bytes_file in H. pose proof (text_back Hs Hc H) as Q. unfold text_of_bytes in Q. unfold json_of. destruct (utf8_decode bs) as [t|]; [|discriminate]. injection Q as ->. rewrite (jload_print _ Hg). reflexivity.
Qed.
Lemma json_writable j : jgood j -> exists bs, json_bytes os j = Ok bs.
Proof. intros Hg. destruct (jprint_chars j 0 Hg) as [Hc Hs]. destruct (utf8_roundtrip _ (scalar_write_nl os Hs)) as (bs & H & _). exists bs. apply text_bytes_file. exact H. Qed.
Lemma same_good d doc : jgood (Jobj d) -> NoDup (map fst d) -> (forall x, dget fe_data d = Some (Jobj x) -> NoDup (map fst x)) -> (exists x, dget fe_data d = Some (Jobj x)) -> same_document (Jobj d) doc -> distinct_data doc -> jgood doc.
Proof.
  intros Hg Hn Hdd (x & Hx) (da & db & Ea & -> & Hk & Hf & Hd) Hdist. injection Ea as <-. pose proof (gd_of Hg) as G. apply jgood_obj_of. apply Forall_forall. intros [k v] Hi. cbn [fst snd].
  assert (Hkd : In k (map fst d)) by (rewrite Hk; apply in_map_iff; exists (k, v); split; [reflexivity|exact Hi]). assert (Hget : dget k db = Some v) by (apply in_dget; [rewrite <- Hk; exact Hn|exact Hi]). split.
  - apply in_map_iff in Hkd. destruct Hkd as ([k' v'] & E & Hkd). cbn in E. subst k'. unfold gd in G. rewrite Forall_forall in G. exact (proj1 (G _ Hkd)).
  - destruct (str_eqb k fe_data) eqn:E.
    + apply str_eqb_spec in E. subst k. destruct (Hd _ Hx) as (y & Hy & Hm). rewrite Hy in Hget. injection Hget as <-. pose proof (Hdist _ _ eq_refl Hy) as Ny. pose proof (gd_of (gd_get _ G Hx)) as Gx. apply jgood_obj_of. apply Forall_forall. intros [c w] Hc. cbn [fst snd].
      assert (Hw : dget c x = Some w) by (rewrite Hm; apply in_dget; assumption). apply dget_in in Hw. unfold gd in Gx. rewrite Forall_forall in Gx. exact (Gx _ Hw).
    + rewrite <- Hf in Hget by (intros ->; rewrite str_eqb_refl in E; discriminate). exact (gd_get _ G Hget).
Qed.

Definition doc_key (dest : list N) (f : entry) (x : list N) : list N :=
  if str_eqb x k_root then file_key dest (e_path f) (e_name f) else let '(p, n) := parse_ext table (last9 (e_name f)) x (e_path f) in file_key dest p n.
Lemma doc_writes_in dest f docs : forall ws, doc_writes os table dest f docs = Ok ws ->
  (forall x j, In (x, j) docs -> exists bs, json_bytes os j = Ok bs /\ In (doc_key dest f x, bs) ws) /\ map fst ws = map (doc_key dest f) (map fst docs).
Proof.
  unfold doc_writes. induction docs as [|[x j] docs IH]; intros ws H; cbn [all_ok fst snd] in H; [injection H as <-; split; [intros ? ? []|reflexivity]|].
  destruct (json_bytes os j) as [bs|] eqn:Eb; [|discriminate]. cbn [bind] in H. destruct (all_ok _ docs) as [r|]; [|discriminate]. cbn [bind] in H. injection H as <-. destruct (IH _ eq_refl) as [I1 I2]. split.
  - intros x' j' [Hi|Hi]; [injection Hi as <- <-; exists bs; split; [exact Eb|left; reflexivity]|]. destruct (I1 _ _ Hi) as (b' & Q1 & Q2). exists b'. split; [exact Q1|right; exact Q2].
  - cbn [map fst]. rewrite I2. reflexivity.
Qed.
Local Notation elements_like := (good_elements table).
Lemma json_file_of b j : json_file b j <-> json_of b = Ok j.
Proof.
  unfold json_file, json_of. split; [intros (t & -> & ->); reflexivity|]. destruct (utf8_decode b) as [t|]; [|discriminate]. destruct (jload (univ_nl t)) as [j0|] eqn:E; [|discriminate]. intros Q. injection Q as <-. exists t. split; [reflexivity|exact E].
Qed.
(** the file comes back, and a form is split into the same files *)
Definition came (n b b' : list N) : Prop := restored n b b' /\ (elements_name n -> forall dd files, json_file b dd -> unpack_docs fuel dd = Ok files -> exists doc, json_file b' doc /\ unpack_docs fuel doc = Ok files).
Section Form.
Variables (dest : list N) (p : list (list N)) (n b : list N) (d : Spec_OrgForm.dict) (tree treew : list jval) (data : Spec_OrgForm.dict) (places : list Spec_OrgForm.place).
Hypothesis Hp : fits p.
Hypothesis Hn : fit_name n.
Hypothesis He : ends x_elem n = true.
Hypothesis H : elements_like dest p n b d tree treew data places.
Let f := mkentry (join [47] p) n b.
Let D := enter [] dest.
Lemma elem_key x : x <> fe_root -> ~ In 47 (target table x) -> doc_key dest f x = written (include_with s_elem table D (join [47] p) x).
Proof.
  intros Hx Ht. unfold doc_key. destruct (str_eqb x k_root) eqn:E; [apply str_eqb_spec in E; contradiction|]. 
  assert (Hs : ~ In slash (last9 (e_name f))).
  { pose proof (last9_elem _ He) as Q. cbn [e_name f]. intros Hi. assert (Q2 : In slash s_elem) by (rewrite <- Q; right; exact Hi). cbn in Q2. intuition discriminate. }
  pose proof (@include_key_ext (last9 (e_name f)) table dest (e_path f) x (join_rel Hp) Hs Ht) as Q. cbv zeta in Q. cbn [e_name f] in Q. rewrite (last9_elem _ He) in Q. cbn [e_name f e_path] in *. destruct (parse_ext table (last9 n) x (join [47] p)). exact Q.
Qed.
Lemma elem_own_key : doc_key dest f fe_root = written (D ++ p ++ [n]).
Proof. unfold doc_key. change k_root with fe_root. rewrite str_eqb_refl. exact (own_key dest Hp Hn). Qed.
Lemma owner_files files owner : unpack_docs fuel (Jobj d) = Ok files -> unpack_docs fuel (Jobj (dset fe_tree (Jlist treew) d)) = Ok owner ->
  forall x j, x <> fe_root -> In (x, j) files -> In (x, j) owner.
Proof.
  destruct H as (_ & _ & _ & Hd & Ha & Hwt & Hnm & Hroot & Hnd & Hnn & Hpg & _). intros Hf Ho. apply unpack_docs_inv in Hf. destruct Hf as (doc1 & areas & Hf & ->). apply unpack_docs_inv in Ho. destruct Ho as (docw & areasw & Ho & ->).
  assert (Hpp : Forall (no_pages data) places).
  { apply Forall_forall. intros q Hi Hw. specialize (Hpg q Hi Hw). revert Hpg. pose proof (path_nonempty _ _ _ Ha q Hi) as Hne. destruct (p_path q); [congruence|]. exact (fun h => h). }
  destruct (@docs_back fuel _ _ _ _ _ _ Hd Ha Hnd Hnn Hpp Hf) as (os0 & root' & tree' & E1 & E2 & O & _ & W & _). destruct (W treew Hwt) as (dw & W2). change fe_tree with k_tree in Ho. rewrite Ho in W2. injection W2 as <- W2.
  rewrite (collect_places O Hnm) in E2. destruct (occs_names O) as [N1 N2].
  assert (N3 : map (fun o : occ => snd (fst o)) (filter (fun o : occ => fst (fst o)) (map to_written os0)) = map p_name places).
  { rewrite <- N2. clear. induction os0 as [|[[w k] a] l IH]; [reflexivity|]. cbn [map to_written filter fst snd]. cbn [map fst snd]. rewrite IH. reflexivity. }
  rewrite collect_keys in W2; [|rewrite N3; exact Hnm|intros o _ _ []]. cbn [app] in W2.
  assert (Ew : map fst areasw = map p_name places) by (rewrite W2, map_map; exact N3). assert (Hrw : ~ In w_root (map fst areasw)) by (rewrite Ew; exact Hroot).
  assert (Ek : map fst areas = map p_name (filter p_written places)) by (rewrite E2, map_map; exact N1).
  assert (Hr : ~ In w_root (map fst areas)). { rewrite Ek. intros Q. apply Hroot. apply in_map_iff in Q. destruct Q as (y & E & Q). apply filter_In in Q. apply in_map_iff. exists y. split; [exact E|apply Q]. }
  intros x j Hx Hi. rewrite (files_map _ _ Hr) in Hi. rewrite (files_map _ _ Hrw). apply in_or_app. left. apply in_app_or in Hi. destruct Hi as [Hi|[Hi|[]]]; [|injection Hi as <- _; exfalso; apply Hx; reflexivity].
  apply in_map_iff in Hi. destruct Hi as ([x' a] & E & Hi). cbn [fst snd] in E. injection E as <- <-. apply in_map_iff. exists (x', a). split; [reflexivity|]. rewrite E2 in Hi. apply in_map_iff in Hi. destruct Hi as ([[w k] a'] & E & Hi). cbn [fst snd] in E. injection E as <- <-.
  apply filter_In in Hi. destruct Hi as [Hi Hw]. cbn [fst] in Hw. subst w. rewrite W2. apply in_map_iff. exists (true, k, a'). split; [reflexivity|]. apply filter_In. split; [|reflexivity]. apply in_map_iff. exists (true, k, a'). split; [reflexivity|exact Hi].
Qed.
Lemma owner_exists files : unpack_docs fuel (Jobj d) = Ok files -> exists owner, unpack_docs fuel (Jobj (dset fe_tree (Jlist treew) d)) = Ok owner.
Proof.
  destruct H as (_ & _ & _ & Hd & Ha & Hwt & Hnm & Hroot & Hnd & Hnn & Hpg & _). intros Hf. apply unpack_docs_inv in Hf. destruct Hf as (doc1 & areas & Hf & ->).
  assert (Hpp : Forall (no_pages data) places).
  { apply Forall_forall. intros q Hi Hw. specialize (Hpg q Hi Hw). revert Hpg. pose proof (path_nonempty _ _ _ Ha q Hi) as Hne. destruct (p_path q); [congruence|]. exact (fun h => h). }
  destruct (@docs_back fuel _ _ _ _ _ _ Hd Ha Hnd Hnn Hpp Hf) as (os0 & root' & tree' & _ & _ & _ & _ & W & _). destruct (W treew Hwt) as (dw & W2). unfold unpack_docs. change fe_tree with k_tree. rewrite W2. eexists. reflexivity.
Qed.
Lemma form_writes ws : elem_writes os table fuel dest f = Ok ws -> exists files owner, unpack_docs fuel (Jobj d) = Ok files /\ unpack_docs fuel (Jobj (dset fe_tree (Jlist treew) d)) = Ok owner /\
  map fst files = map p_name (filter p_written places) ++ [fe_root] /\ map fst owner = map p_name places ++ [fe_root] /\
  (exists kept bs, In (fe_root, kept) files /\ json_of bs = Ok kept /\ In (written (D ++ p ++ [n]), bs) ws) /\
  (forall x j, x <> fe_root -> In (x, j) files -> exists bs, json_of bs = Ok j /\ In (written (include_with s_elem table D (join [47] p) x), bs) ws) /\
  NoDup (map fst ws) /\ (forall x, In x (map fst ws) -> exists g, x = written g /\ noslash g /\ g <> []).
Proof.
  pose proof H as (H1 & H2 & H3 & Hd & Ha & Hwt & Hnm & Hroot & Hnd & Hnn & Hpg & Htg & Hloc). intros Hw. unfold elem_writes in Hw. cbn [e_bytes f] in Hw. rewrite (proj1 (json_file_of _ _) H1) in Hw. cbn [bind] in Hw.
  destruct (unpack_docs fuel (Jobj d)) as [files|] eqn:Ef; [|discriminate]. cbn [bind] in Hw. destruct (owner_exists Ef) as (owner & Eo). exists files, owner. split; [reflexivity|]. split; [exact Eo|].
  destruct (@C78_read_only_areas_restored fuel _ _ _ _ _ _ _ Hd Ha Hwt Hnm Hroot Hnd Hnn Hpg Ef Eo) as (N1 & N2 & _). split; [exact N1|]. split; [exact N2|]. destruct (doc_writes_in _ _ _ Hw) as [W1 W2]. pose proof (unpack_docs_good _ H2 Ef) as Gf. rewrite Forall_forall in Gf.
  assert (Pl : forall x, In x (map p_name (filter p_written places)) -> x <> fe_root /\ ~ In 47 (target table x)).
  { intros x Hx. apply in_map_iff in Hx. destruct Hx as (pl & <- & Hx). apply filter_In in Hx. split; [|apply Htg; apply Hx]. intros E. apply Hroot. rewrite <- E. apply in_map. apply Hx. }
  split; [|split; [|split]].
  - assert (In fe_root (map fst files)) as Hi by (rewrite N1; apply in_or_app; right; left; reflexivity). apply in_map_iff in Hi. destruct Hi as ([r kept] & E & Hi). cbn in E. subst r. destruct (W1 _ _ Hi) as (bs & B1 & B2). exists kept, bs. split; [exact Hi|]. split; [exact (json_back (proj2 (Gf _ Hi)) B1)|]. rewrite <- elem_own_key. exact B2.
  - intros x j Hx Hi. destruct (W1 _ _ Hi) as (bs & B1 & B2). exists bs. split; [exact (json_back (proj2 (Gf _ Hi)) B1)|]. rewrite <- elem_key; [exact B2|exact Hx|]. assert (Hk : In x (map fst files)) by (apply in_map_iff; exists (x, j); split; [reflexivity|exact Hi]). rewrite N1 in Hk. apply in_app_or in Hk. destruct Hk as [Hk|[Hk|[]]]; [apply Pl; exact Hk|congruence].
  - rewrite W2, N1, map_app. cbn [map]. rewrite elem_own_key. apply (@Permutation_NoDup _ (written (D ++ p ++ [n]) :: map (doc_key dest f) (map p_name (filter p_written places)))); [apply Permutation_cons_append|].
    rewrite (map_ext_in _ (fun x => written (include_with s_elem table D (join [47] p) x))) by (intros x Hx; destruct (Pl x Hx); apply elem_key; assumption). rewrite <- (map_map (include_with s_elem table D (join [47] p)) written).
    change (NoDup (map written ((D ++ p ++ [n]) :: map (include_with s_elem table D (join [47] p)) (map p_name (filter p_written places))))). rewrite (map_map p_name). apply nodup_written; [|exact Hloc]. constructor; [exact (own_good dest Hp Hn)|]. apply Forall_forall. intros g Hg. apply in_map_iff in Hg. destruct Hg as (pl & <- & Hg).
    apply include_good; [intros Q; cbn in Q; intuition discriminate|]. apply filter_In in Hg. apply Htg. apply Hg.
  - intros x Hx. rewrite W2, N1, map_app in Hx. cbn [map] in Hx. apply in_app_or in Hx. destruct Hx as [Hx|[<-|[]]].
    + apply in_map_iff in Hx. destruct Hx as (k & <- & Hk). destruct (Pl k Hk) as [K1 K2]. exists (include_with s_elem table D (join [47] p) k). split; [apply elem_key; assumption|]. apply include_good; [intros Q; cbn in Q; intuition discriminate|exact K2].
    + exists (D ++ p ++ [n]). split; [exact elem_own_key|exact (own_good dest Hp Hn)].
Qed.
Lemma form_built (st : disk) ws : elem_writes os table fuel dest f = Ok ws -> (forall x c, In (x, c) ws -> dget x st = Some c) ->
  (forall owner pl j, unpack_docs fuel (Jobj (dset fe_tree (Jlist treew) d)) = Ok owner -> In pl places -> p_written pl = false -> In (p_name pl, j) owner ->
    exists bs j', dget (written (include_with s_elem table D (join [47] p) (p_name pl))) st = Some bs /\ json_of bs = Ok j' /\ same_document j j' /\ distinct_data j') ->
  forall g, e_path g = join [47] p -> e_name g = n -> dget (written (D ++ p ++ [n])) st = Some (e_bytes g) ->
  exists kept doc bs, json_of (e_bytes g) = Ok kept /\ pack_docs fuel (read_include table dest st g) kept = Ok doc /\ json_bytes os doc = Ok bs /\ json_of bs = Ok doc /\ same_document (Jobj d) doc /\ distinct_data doc /\ (forall files, unpack_docs fuel (Jobj d) = Ok files -> unpack_docs fuel doc = Ok files).
Proof.
  pose proof H as (H1 & H2 & H3 & Hd & Ha & Hwt & Hnm & Hroot & Hnd & Hnn & Hpg & Htg & Hloc). intros Hw Hin Hro g G1 G2 Hg. destruct (form_writes Hw) as (files & owner & Ef & Eo & N1 & N2 & (kept & b0 & K1 & K2 & K3) & W & _).
  assert (e_bytes g = b0) as -> by (rewrite (Hin _ _ K3) in Hg; injection Hg as <-; reflexivity).
  destruct (@C78_read_only_areas_restored fuel _ _ _ _ _ _ _ Hd Ha Hwt Hnm Hroot Hnd Hnn Hpg Ef Eo) as (_ & _ & R). 
  assert (Rd : forall x j, x <> fe_root -> In (x, j) owner -> exists j', read_include table dest st g x = Ok j' /\ same_document j j' /\ distinct_data j').
  { intros x j Hx Hi. assert (Hk : In x (map p_name places)). { assert (Q : In x (map fst owner)) by (apply in_map_iff; exists (x, j); split; [reflexivity|exact Hi]). rewrite N2 in Q. apply in_app_or in Q. destruct Q as [Q|[Q|[]]]; [exact Q|congruence]. }
    apply in_map_iff in Hk. destruct Hk as (pl & Ex & Hpl).
    assert (Key : read_include table dest st g x = match dget (written (include_with s_elem table D (join [47] p) x)) st with Some bs => json_of bs | None => Err FileNotFoundError end).
    { pose proof (Htg pl Hpl) as Ht1. rewrite Ex in Ht1. rewrite <- (elem_key Hx Ht1). unfold read_include, doc_key. rewrite G1, G2. destruct (str_eqb x k_root) eqn:E; [apply str_eqb_spec in E; contradiction|]. cbn [f e_name e_path]. destruct (parse_ext table (last9 n) x (join [47] p)). reflexivity. }
    destruct (p_written pl) eqn:Ewr.
    - assert (Hf : In x (map fst files)) by (rewrite N1; apply in_or_app; left; apply in_map_iff; exists pl; split; [exact Ex|apply filter_In; split; assumption]). apply in_map_iff in Hf. destruct Hf as ([x' j0] & E & Hf). cbn in E. subst x'. pose proof (owner_files Ef Eo _ Hx Hf) as Hio.
      assert (j = j0) as ->. { refine (nodup_fst_in _ _ _ _ _ Hi Hio). rewrite N2. apply (@Permutation_NoDup _ (fe_root :: map p_name places)); [apply Permutation_cons_append|]. constructor; assumption. }
      destruct (W _ _ Hx Hf) as (bs & B1 & B2). exists j0. rewrite Key, (Hin _ _ B2). split; [exact B1|]. 
      destruct (@unpack_docs_nd _ _ _ Ef _ _ Hx Hf) as (a & Ej & Ha0). subst j0. split.
      + eexists. eexists. split; [reflexivity|]. split; [reflexivity|]. split; [reflexivity|]. split; [reflexivity|]. intros y Hy. exists y. split; [exact Hy|intros c; reflexivity].
      + intros dd y E Hy. injection E as <-. cbn in Hy. injection Hy as <-. exact Ha0.
    - rewrite <- Ex in Hi. destruct (Hro owner pl j Eo Hpl Ewr Hi) as (bs & j' & B1 & B2 & B3 & B4). exists j'. rewrite Ex in B1. rewrite Key, B1. split; [exact B2|split; assumption]. }
  destruct (R kept (read_include table dest st g) K1 Rd) as (doc & P1 & P2 & P3). 
  assert (Gd : jgood doc). { apply (@same_good d doc H2 H3); [intros x Hx; destruct Hd as [_ Hd]; rewrite Hx in Hd; injection Hd as ->; exact Hnd|exists data; apply Hd|exact P2|exact P3]. }
  destruct (json_writable Gd) as (bs & B). exists kept, doc, bs. split; [exact K2|]. split; [exact P1|]. split; [exact B|]. split; [exact (json_back Gd B)|split; [exact P2|split; [exact P3|]]]. intros files' Ef'. assert (files' = files) as -> by congruence. refine (@split_again fuel d tree data files kept _ doc Hd Hnd Ef _ P1 P2 P3).
  apply in_dget; [|exact K1]. rewrite N1. apply (@Permutation_NoDup _ (fe_root :: map p_name (filter p_written places))); [apply Permutation_cons_append|]. constructor; [intros Q; apply Hroot; apply in_map_iff in Q; destruct Q as (pl & Eq & Q); apply filter_In in Q; apply in_map_iff; exists pl; split; [exact Eq|apply Q]|apply filter_nodup; exact Hnm].
Qed.
End Form.
End Org.
