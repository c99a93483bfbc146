(** The files of one module or form in a folder of sources with an index: what OrgTreeProofs.v and OrgTreeElems.v say, with the
    file itself at another place [g], read as [qn] in [q]. *)
From Coq Require Import String Permutation Lia.
From Verif Require Import PyBase PyText Paths Json Index Utf Codecs BraceMore JsonText JsonTextProofs JsonObj MetaObjBase Pipeline UpdateDictProofs Spec_Code OrgCode OrgCodeProofs OrgCodePaths OrgCodePack OrgForm OrgFormProofs Spec_OrgForm OrgFormMain OrgFormAgain OrgFormDocs OrgFormGood FormJsonGood Spec_OrgTree OrgTree OrgTreePaths OrgTreeProofs OrgTreeElems Props_OrgForm OrgIndex Spec_OrgIndex OrgIndexPaths.
Set Implicit Arguments.
Open Scope list_scope.
Open Scope N_scope.

Section Org.
Variable os : platform.
Variable idx : json.
Variable fuel : nat.
Let table := table_of idx.
Definition ikey (own dest : list N) (f : entry) (elem : list N) : list N := if str_eqb elem k_root then own else area_key table dest f elem.
Lemma iarea_writes_in own dest f a : forall ws, iarea_writes os idx own dest f a = Ok ws ->
  (forall k data kd, In (k, (data, kd)) a -> skipped k kd = false -> exists bs, text_file os data bs /\ In (ikey own dest f k, bs) ws) /\
  map fst ws = map (ikey own dest f) (map fst (filter (fun e => negb (skipped (fst e) (snd (snd e)))) a)).
Proof.
  induction a as [|[k [data kd]] a IH]; intros ws H; cbn [iarea_writes] in H; [injection H as <-; split; [intros ? ? ? []|reflexivity]|].
  cbn [filter fst snd]. fold (skipped k kd) in H. destruct (skipped k kd) eqn:Es; cbn [negb].
  - destruct (IH _ H) as [I1 I2]. split; [|exact I2]. intros k' data' kd' [Hi|Hi] Hs; [injection Hi as <- <- <-; congruence|exact (I1 _ _ _ Hi Hs)].
  - destruct (text_bytes os data) as [bs|] eqn:Eb; [|discriminate]. cbn [bind] in H. destruct (iarea_writes os idx own dest f a) as [r|]; [|discriminate]. cbn [bind] in H.
    assert (Ek : (if str_eqb k k_root then own else let '(p, n) := parse_include_path k (e_path f) (table_of idx) false in file_key dest p n) = ikey own dest f k) by (unfold ikey, area_key; destruct (str_eqb k k_root); reflexivity).
    rewrite Ek in H. injection H as <-. destruct (IH _ eq_refl) as [I1 I2]. split.
    + intros k' data' kd' [Hi|Hi] Hs; [injection Hi as <- <- <-; exists bs; split; [apply text_bytes_file; exact Eb|left; reflexivity]|]. destruct (I1 _ _ _ Hi Hs) as (bs' & Q1 & Q2). exists bs'. split; [exact Q1|right; exact Q2].
    + cbn [map fst]. rewrite I2. reflexivity.
Qed.
Definition idoc_key (own dest : list N) (f : entry) (x : list N) : list N := if str_eqb x k_root then own else doc_key table dest f x.
Lemma idoc_writes_in own dest f docs : forall ws, idoc_writes os idx own dest f docs = Ok ws ->
  (forall x j, In (x, j) docs -> exists bs, json_bytes os j = Ok bs /\ In (idoc_key own dest f x, bs) ws) /\ map fst ws = map (idoc_key own dest f) (map fst docs).
Proof.
  unfold idoc_writes. induction docs as [|[x j] docs IH]; intros ws H; cbn [all_ok fst snd] in H; [injection H as <-; split; [intros ? ? []|reflexivity]|].
  destruct (json_bytes os j) as [bs|] eqn:Eb; [|discriminate]. cbn [bind] in H. destruct (all_ok _ docs) as [r|]; [|discriminate]. cbn [bind] in H.
  assert (Ek : (if str_eqb x k_root then own else let '(p, n) := parse_ext (table_of idx) (last9 (e_name f)) x (e_path f) in file_key dest p n) = idoc_key own dest f x) by (unfold idoc_key, doc_key; destruct (str_eqb x k_root); reflexivity).
  rewrite Ek in H. injection H as <-. destruct (IH _ eq_refl) as [I1 I2]. split.
  - intros x' j' [Hi|Hi]; [injection Hi as <- <-; exists bs; split; [exact Eb|left; reflexivity]|]. destruct (I1 _ _ Hi) as (b' & Q1 & Q2). exists b'. split; [exact Q1|right; exact Q2].
  - cbn [map fst]. rewrite I2. reflexivity.
Qed.
Variables (dest : list N) (p : list (list N)) (n b : list N) (g : list (list N)) (q qn : list N).
Hypothesis Hp : fits p.
Hypothesis Hn : fit_name n.
Let f := mkentry (join [47] p) n b.
Let D := enter [] dest.
Hypothesis Hown : own_place idx dest f = Ok (written g).
Hypothesis Hg1 : noslash g.
Hypothesis Hg2 : g <> [].
Hypothesis Hkey : file_key dest q qn = written g.
Hypothesis Hrel : is_abs q = false.
Section Module.
Variables (m : code) (ns : list (list N)).
Hypothesis H : good_module os table fuel dest p n b m ns.
Hypothesis Hng : ~ In g (map (include_file table false D (join [47] p)) ns).
Hypothesis Hinc : forall k, In k ns -> include_file table false D q k = include_file table false D (join [47] p) k.
Lemma module_key k : In k ns -> ikey (written g) dest f k = written (include_file table false D (join [47] p) k).
Proof.
  intros Hk. destruct H as (_ & _ & _ & _ & _ & _ & _ & H8 & H9 & _). unfold ikey, area_key. destruct (str_eqb k k_root) eqn:E; [apply str_eqb_spec in E; subst; contradiction|].
  pose proof (@include_place k (e_path f) table false dest (join_rel Hp) (H9 k Hk)) as Q. cbv zeta in Q. destruct (parse_include_path k (e_path f) table false). exact Q.
Qed.
Lemma module_own_key : ikey (written g) dest f k_root = written g.
Proof. unfold ikey, area_key. rewrite str_eqb_refl. reflexivity. Qed.
Lemma module_writes ws : icode_writes os idx dest f = Ok ws ->
  (exists bs, text_file os (concat (own m)) bs /\ In (written g, bs) ws) /\
  (forall k data kd, In (k, (data, kd)) (areas_of m) -> kd <> Some Includr -> exists bs, text_file os data bs /\ In (written (include_file table false D (join [47] p) k), bs) ws) /\
  NoDup (map fst ws) /\ (forall x, In x (map fst ws) -> exists g, x = written g /\ noslash g /\ g <> []).
Proof.
  intros Hw. pose proof (module_areas H) as Ha. destruct H as (H1 & H2 & H3 & H4 & H5 & H6 & H7 & H8 & H9 & H10 & H11). unfold icode_writes in Hw. cbn [e_bytes f] in Hw. rewrite (@sig_text os _ _ H2 H3 H1) in Hw. rewrite univ_write_nocr in Hw by exact H3. rewrite Ha, Hown in Hw. cbn [bind] in Hw.
  destruct (iarea_writes_in _ _ _ _ Hw) as [W1 W2]. pose proof (names_keys H7) as Ek. 
  assert (Kin : forall k data kd, In (k, (data, kd)) (areas_of m) -> In k ns) by (intros k data kd Hi; rewrite <- Ek; apply in_map_iff; exists (k, (data, kd)); split; [reflexivity|exact Hi]).
  assert (Hnr : forall k, In k ns -> str_eqb k k_root = false). { intros k Hk. destruct (str_eqb k k_root) eqn:E; [|reflexivity]. apply str_eqb_spec in E. subst. contradiction. }
  split; [|split; [|split]].
  - destruct (W1 k_root _ _ (or_introl eq_refl)) as (bs & B1 & B2); [reflexivity|]. exists bs. split; [exact B1|]. rewrite <- module_own_key. exact B2.
  - intros k data kd Hi Hk. destruct (W1 k data kd (or_intror Hi)) as (bs & B1 & B2).
    { unfold skipped. rewrite (Hnr k (Kin _ _ _ Hi)). destruct kd as [[|]|]; try reflexivity. congruence. }
    exists bs. split; [exact B1|]. rewrite <- (@module_key k (Kin _ _ _ Hi)). exact B2.
  - rewrite W2. cbn [filter map fst snd skipped]. change (skipped k_root None) with false. cbn [negb map fst]. rewrite map_map.
    assert (Q : NoDup (map (ikey (written g) dest f) (k_root :: keys m))).
    { cbn [map]. rewrite Ek, module_own_key. rewrite (map_ext_in _ (fun k => written (include_file table false D (join [47] p) k)) ns) by (intros k Hk; exact (@module_key k Hk)). rewrite <- (map_map (include_file table false D (join [47] p)) written).
      change (NoDup (map written (g :: map (include_file table false D (join [47] p)) ns))). apply nodup_written; [|inversion H10; subst; constructor; assumption]. constructor; [split; [exact Hg1|exact Hg2]|]. apply Forall_forall. intros g0 Hg. apply in_map_iff in Hg. destruct Hg as (k & <- & Hk).
      rewrite <- include_bsl. apply include_good; [intros Q; cbn in Q; intuition discriminate|exact (H9 k Hk)]. }
    cbn [map] in Q. inversion Q as [|? ? Q1 Q2]; subst. constructor.
    + intros Hi. apply Q1. apply in_map_iff in Hi. destruct Hi as (e & E & Hi). apply filter_In in Hi. rewrite <- E. apply in_map_iff. exists (fst e). split; [reflexivity|]. apply in_map. apply Hi.
    + rewrite <- map_map. unfold keys in Q2. rewrite map_map in *. apply nodup_map_filter. exact Q2.
  - intros x Hx. rewrite W2 in Hx. cbn [filter map fst snd] in Hx. change (skipped k_root None) with false in Hx. cbn [negb map fst] in Hx. destruct Hx as [<-|Hx].
    + exists g. split; [exact module_own_key|]. split; [exact Hg1|exact Hg2].
    + apply in_map_iff in Hx. destruct Hx as (k & <- & Hx). apply in_map_iff in Hx. destruct Hx as ([k' [data kd]] & E & Hx). cbn in E. subst k'. apply filter_In in Hx. destruct Hx as [Hx _]. pose proof (Kin _ _ _ Hx) as Hk.
      exists (include_file table false D (join [47] p) k). split; [exact (@module_key k Hk)|]. rewrite <- include_bsl. apply include_good; [intros Q; cbn in Q; intuition discriminate|exact (H9 k Hk)].
Qed.
Lemma module_built (st : disk) ws : icode_writes os idx dest f = Ok ws -> NoDup (map fst st) -> (forall x c, In (x, c) ws -> dget x st = Some c) ->
  (forall k data, In (k, (data, Some Includr)) (areas_of m) -> exists bs, text_file os data bs /\ dget (written (include_file table false D (join [47] p) k)) st = Some bs) ->
  pack_file fuel (texts st) dest q qn table None = Ok (text_of m).
Proof.
  intros Hw Hst Hin Hro. destruct (module_writes Hw) as ((b0 & B1 & B2) & W & _). destruct H as (H1 & H2 & H3 & H4 & H5 & H6 & H7 & H8 & H9 & H10 & H11).
  assert (Tx : forall k c t, dget k st = Some c -> text_file os t c -> (forall x, In x t -> In x (text_of m)) -> dget k (texts st) = Some t).
  { intros k c t Hk Ht Hs. apply texts_get with (bs := c); [exact Hst|exact Hk|]. apply (@text_back os); [|intros Q; apply H3, Hs; exact Q|exact Ht]. rewrite Forall_forall in *. intros x Hx. apply H2, Hs. exact Hx. }
  destruct fuel as [|fu] eqn:Ef; [lia|]. rewrite pack_file_go. rewrite Hkey. rewrite (@Tx _ _ _ (Hin _ _ B2) B1 (own_chars m)).
  rewrite lines_proper by (apply (sub_proper (own_sub H5)); exact H6). rewrite <- (app_nil_r (own m)). rewrite (@pack_code _ dest q table _ _ _ H5).
  - cbn [pack_go bind]. rewrite app_nil_r. reflexivity.
  - rewrite (names_keys H7). lia.
  - reflexivity.
  - intros k data kd Hi. assert (Hk : In k ns) by (rewrite <- (names_keys H7); apply in_map_iff; exists (k, (data, kd)); split; [reflexivity|exact Hi]).
    unfold OrgCodePack.place. rewrite include_place by (first [exact Hrel | exact (H9 k Hk)]). fold D. rewrite (Hinc _ Hk).
    assert (exists bs, text_file os data bs /\ dget (written (include_file table false D (join [47] p) k)) st = Some bs) as (bs & Q1 & Q2).
    { destruct kd as [[|]|]; [|exact (Hro _ _ Hi)|]; destruct (W _ _ _ Hi) as (bs & Q1 & Q2); try discriminate; exists bs; (split; [exact Q1|exact (Hin _ _ Q2)]). }
    exact (Tx _ _ _ Q2 Q1 (fun x => @area_chars m k data kd x Hi)).
  - exact H6.
  - intros k Hk. rewrite (names_keys H7) in Hk. exact (H9 k Hk).
Qed.
End Module.
Section Form.
Variables (d : Spec_OrgForm.dict) (tree treew : list jval) (data : Spec_OrgForm.dict) (places : list Spec_OrgForm.place).
Hypothesis He : ends x_elem n = true.
Hypothesis H : good_elements table dest p n b d tree treew data places.
Hypothesis Hng : ~ In g (map (fun pl => include_with s_elem table D (join [47] p) (p_name pl)) (filter p_written places)).
Hypothesis Hqe : ends x_elem qn = true.
Hypothesis Hince : forall pl, In pl places -> include_with s_elem table D q (p_name pl) = include_with s_elem table D (join [47] p) (p_name pl).
Lemma elem_key x : x <> fe_root -> ~ In 47 (target table x) -> idoc_key (written g) dest f x = written (include_with s_elem table D (join [47] p) x).
Proof.
  intros Hx Ht. unfold idoc_key, doc_key. destruct (str_eqb x k_root) eqn:E; [apply str_eqb_spec in E; contradiction|]. 
  assert (Hs : ~ In slash (last9 (e_name f))).
  { pose proof (last9_elem _ He) as Q. cbn [e_name f]. intros Hi. assert (Q2 : In slash s_elem) by (rewrite <- Q; right; exact Hi). cbn in Q2. intuition discriminate. }
  pose proof (@include_key_ext (last9 (e_name f)) table dest (e_path f) x (join_rel Hp) Hs Ht) as Q. cbv zeta in Q. cbn [e_name f] in Q. rewrite (last9_elem _ He) in Q. cbn [e_name f e_path] in *. destruct (parse_ext table (last9 n) x (join [47] p)). exact Q.
Qed.
Lemma elem_own_key : idoc_key (written g) dest f fe_root = written g.
Proof. unfold idoc_key. change k_root with fe_root. rewrite str_eqb_refl. reflexivity. Qed.
Lemma form_writes ws : ielem_writes os idx fuel dest f = Ok ws -> exists files owner, unpack_docs fuel (Jobj d) = Ok files /\ unpack_docs fuel (Jobj (dset fe_tree (Jlist treew) d)) = Ok owner /\
  map fst files = map p_name (filter p_written places) ++ [fe_root] /\ map fst owner = map p_name places ++ [fe_root] /\
  (exists kept bs, In (fe_root, kept) files /\ json_of bs = Ok kept /\ In (written g, bs) ws) /\
  (forall x j, x <> fe_root -> In (x, j) files -> exists bs, json_of bs = Ok j /\ In (written (include_with s_elem table D (join [47] p) x), bs) ws) /\
  NoDup (map fst ws) /\ (forall x, In x (map fst ws) -> exists g, x = written g /\ noslash g /\ g <> []).
Proof.
  pose proof H as (H1 & H2 & H3 & Hd & Ha & Hwt & Hnm & Hroot & Hnd & Hnn & Hpg & Htg & Hloc). intros Hw. unfold ielem_writes in Hw. cbn [e_bytes f] in Hw. rewrite (proj1 (json_file_of _ _) H1) in Hw. cbn [bind] in Hw.
  destruct (unpack_docs fuel (Jobj d)) as [files|] eqn:Ef; [|discriminate]. cbn [bind] in Hw. rewrite Hown in Hw. cbn [bind] in Hw. destruct (owner_exists fuel H Ef) as (owner & Eo). exists files, owner. split; [reflexivity|]. split; [exact Eo|].
  destruct (@C78_read_only_areas_restored fuel _ _ _ _ _ _ _ Hd Ha Hwt Hnm Hroot Hnd Hnn Hpg Ef Eo) as (N1 & N2 & _). split; [exact N1|]. split; [exact N2|]. destruct (idoc_writes_in _ _ _ _ Hw) as [W1 W2]. pose proof (unpack_docs_good _ H2 Ef) as Gf. rewrite Forall_forall in Gf.
  assert (Pl : forall x, In x (map p_name (filter p_written places)) -> x <> fe_root /\ ~ In 47 (target table x)).
  { intros x Hx. apply in_map_iff in Hx. destruct Hx as (pl & <- & Hx). apply filter_In in Hx. split; [|apply Htg; apply Hx]. intros E. apply Hroot. rewrite <- E. apply in_map. apply Hx. }
  split; [|split; [|split]].
  - assert (In fe_root (map fst files)) as Hi by (rewrite N1; apply in_or_app; right; left; reflexivity). apply in_map_iff in Hi. destruct Hi as ([r kept] & E & Hi). cbn in E. subst r. destruct (W1 _ _ Hi) as (bs & B1 & B2). exists kept, bs. split; [exact Hi|]. split; [exact (json_back os (proj2 (Gf _ Hi)) B1)|]. rewrite <- elem_own_key. exact B2.
  - intros x j Hx Hi. destruct (W1 _ _ Hi) as (bs & B1 & B2). exists bs. split; [exact (json_back os (proj2 (Gf _ Hi)) B1)|]. rewrite <- elem_key; [exact B2|exact Hx|]. assert (Hk : In x (map fst files)) by (apply in_map_iff; exists (x, j); split; [reflexivity|exact Hi]). rewrite N1 in Hk. apply in_app_or in Hk. destruct Hk as [Hk|[Hk|[]]]; [apply Pl; exact Hk|congruence].
  - rewrite W2, N1, map_app. cbn [map]. rewrite elem_own_key. apply (@Permutation_NoDup _ (written g :: map (idoc_key (written g) dest f) (map p_name (filter p_written places)))); [apply Permutation_cons_append|].
    rewrite (map_ext_in _ (fun x => written (include_with s_elem table D (join [47] p) x))) by (intros x Hx; destruct (Pl x Hx); apply elem_key; assumption). rewrite <- (map_map (include_with s_elem table D (join [47] p)) written).
    change (NoDup (map written (g :: map (include_with s_elem table D (join [47] p)) (map p_name (filter p_written places))))). rewrite (map_map p_name). apply nodup_written; [|inversion Hloc; subst; constructor; assumption]. constructor; [split; [exact Hg1|exact Hg2]|]. apply Forall_forall. intros g0 Hg. apply in_map_iff in Hg. destruct Hg as (pl & <- & Hg).
    apply include_good; [intros Q; cbn in Q; intuition discriminate|]. apply filter_In in Hg. apply Htg. apply Hg.
  - intros x Hx. rewrite W2, N1, map_app in Hx. cbn [map] in Hx. apply in_app_or in Hx. destruct Hx as [Hx|[<-|[]]].
    + apply in_map_iff in Hx. destruct Hx as (k & <- & Hk). destruct (Pl k Hk) as [K1 K2]. exists (include_with s_elem table D (join [47] p) k). split; [apply elem_key; assumption|]. apply include_good; [intros Q; cbn in Q; intuition discriminate|exact K2].
    + exists g. split; [exact elem_own_key|split; [exact Hg1|exact Hg2]].
Qed.
Lemma form_built (st : disk) ws : ielem_writes os idx fuel dest f = Ok ws -> (forall x c, In (x, c) ws -> dget x st = Some c) ->
  (forall owner pl j, unpack_docs fuel (Jobj (dset fe_tree (Jlist treew) d)) = Ok owner -> In pl places -> p_written pl = false -> In (p_name pl, j) owner ->
    exists bs j', dget (written (include_with s_elem table D (join [47] p) (p_name pl))) st = Some bs /\ json_of bs = Ok j' /\ same_document j j' /\ distinct_data j') ->
  forall e, e_path e = q -> e_name e = qn -> dget (written g) st = Some (e_bytes e) ->
  exists kept doc bs, json_of (e_bytes e) = Ok kept /\ pack_docs fuel (read_include table dest st e) kept = Ok doc /\ json_bytes os doc = Ok bs /\ json_of bs = Ok doc /\ same_document (Jobj d) doc /\ distinct_data doc /\ (forall files, unpack_docs fuel (Jobj d) = Ok files -> unpack_docs fuel doc = Ok files).
Proof.
  pose proof H as (H1 & H2 & H3 & Hd & Ha & Hwt & Hnm & Hroot & Hnd & Hnn & Hpg & Htg & Hloc). intros Hw Hin Hro e G1 G2 Hg. destruct (form_writes Hw) as (files & owner & Ef & Eo & N1 & N2 & (kept & b0 & K1 & K2 & K3) & W & _).
  assert (e_bytes e = b0) as -> by (rewrite (Hin _ _ K3) in Hg; injection Hg as <-; reflexivity).
  destruct (@C78_read_only_areas_restored fuel _ _ _ _ _ _ _ Hd Ha Hwt Hnm Hroot Hnd Hnn Hpg Ef Eo) as (_ & _ & R). 
  assert (Rd : forall x j, x <> fe_root -> In (x, j) owner -> exists j', read_include table dest st e x = Ok j' /\ same_document j j' /\ distinct_data j').
  { intros x j Hx Hi. assert (Hk : In x (map p_name places)). { assert (Q : In x (map fst owner)) by (apply in_map_iff; exists (x, j); split; [reflexivity|exact Hi]). rewrite N2 in Q. apply in_app_or in Q. destruct Q as [Q|[Q|[]]]; [exact Q|congruence]. }
    apply in_map_iff in Hk. destruct Hk as (pl & Ex & Hpl).
    assert (Key : read_include table dest st e x = match dget (written (include_with s_elem table D (join [47] p) x)) st with Some bs => json_of bs | None => Err FileNotFoundError end).
    { pose proof (Htg pl Hpl) as Ht1. rewrite Ex in Ht1. assert (Hs : ~ In slash (last9 qn)) by (intros Hi0; assert (Q2 : In slash s_elem) by (rewrite <- (last9_elem _ Hqe); right; exact Hi0); cbn in Q2; intuition discriminate). pose proof (@include_key_ext (last9 qn) table dest q x Hrel Hs Ht1) as Qk. cbv zeta in Qk. rewrite (last9_elem _ Hqe) in Qk. change (enter [] dest) with D in Qk. rewrite <- Ex in Qk at 3. rewrite (Hince _ Hpl) in Qk. rewrite Ex in Qk. unfold read_include. rewrite G1, G2. destruct (parse_ext table (last9 qn) x q). cbn [fst snd] in Qk. rewrite Qk. reflexivity. }
    destruct (p_written pl) eqn:Ewr.
    - assert (Hf : In x (map fst files)) by (rewrite N1; apply in_or_app; left; apply in_map_iff; exists pl; split; [exact Ex|apply filter_In; split; assumption]). apply in_map_iff in Hf. destruct Hf as ([x' j0] & E & Hf). cbn in E. subst x'. pose proof (owner_files fuel H Ef Eo _ Hx Hf) as Hio.
      assert (j = j0) as ->. { refine (nodup_fst_in _ _ _ _ _ Hi Hio). rewrite N2. apply (@Permutation_NoDup _ (fe_root :: map p_name places)); [apply Permutation_cons_append|]. constructor; assumption. }
      destruct (W _ _ Hx Hf) as (bs & B1 & B2). exists j0. rewrite Key, (Hin _ _ B2). split; [exact B1|]. 
      destruct (@unpack_docs_nd _ _ _ Ef _ _ Hx Hf) as (a & Ej & Ha0). subst j0. split.
      + eexists. eexists. split; [reflexivity|]. split; [reflexivity|]. split; [reflexivity|]. split; [reflexivity|]. intros y Hy. exists y. split; [exact Hy|intros c; reflexivity].
      + intros dd y E Hy. injection E as <-. cbn in Hy. injection Hy as <-. exact Ha0.
    - rewrite <- Ex in Hi. destruct (Hro owner pl j Eo Hpl Ewr Hi) as (bs & j' & B1 & B2 & B3 & B4). exists j'. rewrite Ex in B1. rewrite Key, B1. split; [exact B2|split; assumption]. }
  destruct (R kept (read_include table dest st e) K1 Rd) as (doc & P1 & P2 & P3). 
  assert (Gd : jgood doc). { apply (@same_good d doc H2 H3); [intros x Hx; destruct Hd as [_ Hd]; rewrite Hx in Hd; injection Hd as ->; exact Hnd|exists data; apply Hd|exact P2|exact P3]. }
  destruct (json_writable os Gd) as (bs & B). exists kept, doc, bs. split; [exact K2|]. split; [exact P1|]. split; [exact B|]. split; [exact (json_back os Gd B)|split; [exact P2|split; [exact P3|]]]. intros files' Ef'. assert (files' = files) as -> by congruence. refine (@split_again fuel d tree data files kept _ doc Hd Hnd Ef _ P1 P2 P3).
  apply in_dget; [|exact K1]. rewrite N1. apply (@Permutation_NoDup _ (fe_root :: map p_name (filter p_written places))); [apply Permutation_cons_append|]. constructor; [intros Q; apply Hroot; apply in_map_iff in Q; destruct Q as (pl & Eq & Q); apply filter_In in Q; apply in_map_iff; exists pl; split; [exact Eq|apply Q]|apply filter_nodup; exact Hnm].
Qed.
End Form.
End Org.
