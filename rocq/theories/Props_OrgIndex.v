(** C92, C93: a whole folder of sources with an index.  Model: OrgIndex.v.  Vocabulary: Spec_OrgIndex.v, Spec_OrgTree.v. *)
From Coq Require Import String Permutation Lia.
From Verif Require Import PyBase PyText Paths Json Index Utf JsonText JsonObj Pipeline UpdateDictProofs Spec_Code OrgCode OrgCodeProofs OrgCodePaths OrgForm OrgFormProofs Spec_OrgForm Spec_OrgTree OrgTree OrgTreePaths OrgTreeProofs OrgTreeElems OrgTreeMain OrgTreeCase Props_Code Props_OrgForm Props_OrgTree OrgIndex Spec_OrgIndex OrgIndexPaths OrgIndexProofs OrgIndexMain.
Set Implicit Arguments.
Open Scope string_scope.
Open Scope list_scope.
Open Scope N_scope.

(** what the extraction of a folder with only this file writes on an empty disk, with this index *)
Definition igives os d fuel dest (p : list (list N)) (n b k c : list N) : Prop :=
  exists s, iorganize os (JDict d) fuel (fun x => x) (fun x => x) dest (single p n b) [] = Ok s /\ dget k s = Some c.
(** two files of the folder never give one file with different contents *)
Definition ino_conflict os d fuel dest src : Prop := forall p n b p' n' b' k c c',
  found src p n b -> found src p' n' b' -> igives os d fuel dest p n b k c -> igives os d fuel dest p' n' b' k c' -> c = c'.
Lemma table_areas d t : index_areas d t -> table_of (JDict d) = t.
Proof.
  unfold index_areas, table_of. change k_areas with areas_name. destruct (dget areas_name d) as [[| | | | |e]|]; try contradiction; [|congruence]. intros <-.
  induction t as [|[x y] t IH]; [reflexivity|]. cbn [map flat_map fst snd app]. rewrite IH. reflexivity.
Qed.
Section Index.
Variables (os : platform) (d : list (list N * json)) (t : list (list N * list N)) (fuel : nat) (ordc orde : list write -> list write) (dest dest2 : list N) (src : list (list N * tree)) (st st' : disk).
Let D := enter [] dest.
Let D2 := enter [] dest2.
(** the index names files of the sources; what it moves keeps its kind of name *)
Definition index_fits : Prop := proper_index d /\ index_areas d t /\ (forall p n b, found src p n b -> ~ In areas_name p /\ n <> areas_name) /\
  forall p n loc, moved_to d p n loc -> (exists b, found src p n b) /\ file_path loc /\ (elements_name n -> ends s_elem loc = true).
Definition modules_split : Prop := forall p n b, found src p n b -> module_name n -> exists m ns,
  good_module os t fuel dest p n b m ns /\ areas_apart d t D p n ns (map (include_file t false D (join [47] p)) ns).
Definition forms_split : Prop := forall p n b, found src p n b -> elements_name n -> exists d0 tree treew data places,
  good_elements t dest p n b d0 tree treew data places /\ areas_apart d t D p n (map p_name places) (map (fun pl => include_with s_elem t D (join [47] p) (p_name pl)) (filter p_written places)).
Definition modules_readable : Prop := forall p n b, found src p n b -> module_name n -> exists m ns,
  (good_module os t fuel dest p n b m ns /\ areas_apart d t D p n ns (map (include_file t false D (join [47] p)) ns)) /\
  forall a k data, OrgCode.unpack (text_of m) = Ok a -> In (k, (data, Some Includr)) a ->
    let f := include_file t false D (join [47] p) k in exists bs, text_file os data bs /\ dget (written f) st' = Some bs /\ ~ within D2 f.
Definition forms_readable : Prop := forall p n b, found src p n b -> elements_name n -> exists d0 tree treew data places,
  (good_elements t dest p n b d0 tree treew data places /\ areas_apart d t D p n (map p_name places) (map (fun pl => include_with s_elem t D (join [47] p) (p_name pl)) (filter p_written places))) /\
  forall owner pl j, unpack_docs fuel (Jobj (dset fe_tree (Jlist treew) d0)) = Ok owner -> In pl places -> p_written pl = false -> In (p_name pl, j) owner ->
    let f := include_with s_elem t D (join [47] p) (p_name pl) in exists bs j', dget (written f) st' = Some bs /\ json_file bs j' /\ same_document j j' /\ distinct_data j' /\ ~ within D2 f.
End Index.
Lemma apart_elems d t D p n places files : areas_apart d t D p n (map p_name places) files -> forall loc, moved_to d p n loc -> (forall pl, In pl places -> In 95 (target t (p_name pl))) /\ ~ In (place_in D loc) files.
Proof. intros H loc M. destruct (H loc M) as [A B]. split; [|exact B]. intros pl Hp. apply A. apply in_map_iff. exists pl. split; [reflexivity|exact Hp]. Qed.

(** ** C92: extraction and build of a folder of sources with an index *)
Theorem C92_index_sources_restored : forall os d t fuel ordc orde ordl ordw dest dest2 src st st',
  let D := enter [] dest in let D2 := enter [] dest2 in
  well_named src -> index_fits d t src -> NoDup (map fst st) -> reorders ordc -> reorders orde -> reorders ordl -> reorders ordw ->
  (* every module and form can be split, and its read-only areas are there *)
  modules_readable os d t fuel dest dest2 src st' -> forms_readable d t fuel dest dest2 src st' ->
  ino_conflict os d fuel dest src ->
  (* the folders are apart; the only files extracted to the folder of the sources are those that the index does not move, and nothing extracted lies in the folder that the build clears *)
  (forall g, within D g -> ~ within D2 g) ->
  (forall p n b k c g, found src p n b -> igives os d fuel dest p n b k c -> Forall (fun e => ~ In 47 e) g -> within D g -> k = written g -> (forall loc, ~ moved_to d p n loc) /\ g = D ++ p ++ [n]) ->
  (forall p n b k c g, found src p n b -> igives os d fuel dest p n b k c -> Forall (fun e => ~ In 47 e) g -> within D2 g -> k <> written g) ->
  iorganize os (JDict d) fuel ordc orde dest src st = Ok st' ->
  (forall p n b, found src p n b -> exists g c, lies d D p n g /\ dget (written g) st' = Some c /\ (other_name n -> c = b)) /\
  exists sf, iassemble os (JDict d) fuel ordl ordw dest dest2 st' = Ok sf /\
    (forall p n b, found src p n b -> exists b', dget (written (D2 ++ p ++ [n])) sf = Some b' /\ restored n b b') /\
    (forall g, within D2 g -> Forall (fun e => ~ In 47 e) g -> dget (written g) sf <> None -> exists p n b, found src p n b /\ g = D2 ++ p ++ [n]) /\
    (forall g, Forall (fun e => ~ In 47 e) g -> g <> [] -> ~ within D2 g -> dget (written g) sf = dget (written g) st').
Proof.
  intros os d t fuel ordc orde ordl ordw dest dest2 src st st' D D2 Hwn (Hidx & Ht & Hno & Hmv) Hst Hoc Hoe Hol How Hm He Hag Hdj Ho Ho2 H.
  apply table_areas in Ht. subst t.
  assert (Hm0 : forall p n b, found src p n b -> module_name n -> exists m ns, module_ok os d fuel dest p n b m ns) by (intros p n b Hf Hn; destruct (Hm p n b Hf Hn) as (m & ns & Q & _); exists m, ns; exact Q).
  assert (He0 : forall p n b, found src p n b -> elements_name n -> exists d0 tree treew data places, elements_ok d dest p n b d0 tree treew data places).
  { intros p n b Hf Hn. destruct (He p n b Hf Hn) as (d0 & tree & treew & data & places & (Q1 & Q2) & _). exists d0, tree, treew, data, places. split; [exact Q1|exact (@apart_elems _ _ _ _ _ _ _ Q2)]. }
  assert (Hag' : forall p n b s p' n' b' s' k c c', found src p n b -> found src p' n' b' -> ialone os d fuel dest p n b s -> ialone os d fuel dest p' n' b' s' -> dget k s = Some c -> dget k s' = Some c' -> c = c').
  { intros p n b s p' n' b' s' k c c' F F' A A' K K'. refine (@Hag p n b p' n' b' k c c' F F' _ _); eexists; (split; eassumption). }
  split.
  - intros p n b Hf. destruct (@placed os d fuel dest src Hwn Hidx Hno Hmv ordc orde st st' Hm0 He0 Hag' Hoc Hoe H p n b Hf) as (g & q & qn & c & Ha & _ & Hc & Hb). exists g, c. split; [exact (address_lies Ha)|]. split; assumption.
  - refine (@iassembled os d fuel dest dest2 src Hwn Hidx Hno Hmv ordc orde st st' Hm0 He0 Hag' Hoc Hoe Hst H Hdj _ _ Hm _ ordl ordw Hol How).
    + intros p n b s k c g F A K. apply (@Ho p n b k c g F). eexists. split; eassumption.
    + intros p n b s k c g F A K. apply (@Ho2 p n b k c g F). eexists. split; eassumption.
    + intros p n b Hf Hn. destruct (He p n b Hf Hn) as (d0 & tree & treew & data & places & (Q1 & Q2) & Q3). exists d0, tree, treew, data, places. split; [split; [exact Q1|exact (@apart_elems _ _ _ _ _ _ _ Q2)]|exact Q3].
Qed.
Print Assumptions C92_index_sources_restored.

(** ** C93: what extraction with an index leaves, whatever order the processes work in *)
Theorem C93_index_extraction_deterministic : forall os d t fuel ordc orde dest src st st',
  let D := enter [] dest in
  well_named src -> index_fits d t src -> NoDup (map fst st) -> reorders ordc -> reorders orde ->
  modules_split os d t fuel dest src -> forms_split d t dest src -> ino_conflict os d fuel dest src ->
  iorganize os (JDict d) fuel ordc orde dest src st = Ok st' ->
  (forall p n b k c, found src p n b -> igives os d fuel dest p n b k c -> dget k st' = Some c) /\
  (forall g, Forall (fun e => ~ In 47 e) g -> g <> [] -> (forall p n b c, found src p n b -> ~ igives os d fuel dest p n b (written g) c) ->
     (within D g -> dget (written g) st' = None) /\ (~ within D g -> dget (written g) st' = dget (written g) st)) /\
  (forall ordc' orde', reorders ordc' -> reorders orde' -> exists st1, iorganize os (JDict d) fuel ordc' orde' dest src st = Ok st1 /\ forall k, dget k st1 = dget k st').
Proof.
  intros os d t fuel ordc orde dest src st st' D Hwn (Hidx & Ht & Hno & Hmv) Hst Hoc Hoe Hm He0' Hag H. apply table_areas in Ht. subst t.
  assert (He : forall p n b, found src p n b -> elements_name n -> exists d0 tree treew data places, elements_ok d dest p n b d0 tree treew data places).
  { intros p n b Hf Hn. destruct (He0' p n b Hf Hn) as (d0 & tree & treew & data & places & Q1 & Q2). exists d0, tree, treew, data, places. split; [exact Q1|exact (@apart_elems _ _ _ _ _ _ _ Q2)]. }
  assert (Hag' : forall p n b s p' n' b' s' k c c', found src p n b -> found src p' n' b' -> ialone os d fuel dest p n b s -> ialone os d fuel dest p' n' b' s' -> dget k s = Some c -> dget k s' = Some c' -> c = c').
  { intros p n b s p' n' b' s' k c c' F F' A A' K K'. refine (@Hag p n b p' n' b' k c c' F F' _ _); eexists; (split; eassumption). }
  split; [|split].
  - intros p n b k c F (s & A & K). apply (@extracted_get os d fuel dest src Hwn Hidx Hno Hmv ordc orde st st' Hm He Hag' Hoc Hoe H). exists p, n, b, s. split; [exact F|split; [exact A|exact K]].
  - intros g G1 G2 Hg. assert (E : dget (written g) st' = dget (written g) (clear_dir dest st)).
    { apply (@extracted_other os d fuel dest src Hwn Hidx Hno Hmv ordc orde st st' Hm He Hag' Hoc Hoe H). intros p n b s F A. destruct (dget (written g) s) as [c|] eqn:K; [|reflexivity]. exfalso. apply (Hg p n b c F). exists s. split; assumption. }
    rewrite E. split; intros Hw.
    + apply (below_in dest G1 G2) in Hw. destruct Hw as (r & Hr). destruct (dget (written g) (clear_dir dest st)) as [x|] eqn:Ed; [|reflexivity]. apply dget_in, clear_in in Ed. destruct Ed as [_ Ed]. congruence.
    + apply clear_same; [exact Hst|]. destruct (below dest (written g)) eqn:Eb; [|reflexivity]. exfalso. apply Hw. apply (below_in dest G1 G2). eexists. exact Eb.
  - intros ordc' orde' Hc' He'. destruct (@iorganize_any os d fuel ordc orde ordc' orde' dest src st st' H) as (st1 & H1). exists st1. split; [exact H1|].
    destruct (@extracted os d fuel dest src Hwn Hidx Hno Hmv ordc orde st st' Hm He Hag' Hoc Hoe H) as (ws & -> & A & W & _). destruct (@extracted os d fuel dest src Hwn Hidx Hno Hmv ordc' orde' st st1 Hm He Hag' Hc' He' H1) as (ws1 & -> & A1 & W1 & _).
    apply same_writes; [exact A1|exact A|]. intros [k c]. rewrite W, W1. reflexivity.
Qed.
Print Assumptions C93_index_extraction_deterministic.

(** ** A case: the folder of Props_OrgTree.v with an index that moves a file, a module and a form *)
Definition i_index : list (list N * json) := Eval vm_compute in
  [(u "a.txt", JStr (u "lib/b.txt")); (u "m2.bsl", JStr []); (u "F", JDict [(u "m1.bsl", JStr (u "lib/F/mod.bsl")); (u "f.elem.json", JStr (u "lib/g.elem.json"))]); (areas_name, JDict [])].
Definition i_gives (p : list (list N)) (n b : list N) : disk := match iorganize Posix (JDict i_index) 9 (fun x => x) (fun x => x) t_dest (single p n b) [] with Ok s => s | Err _ => [] end.
Definition i_all : list (list N * list (list N) * disk) := Eval vm_compute in map (fun f => let '(p, n, b) := f in (n, p, i_gives p n b)) t_files.
Example C92_case_writes : map (fun e => map fst (snd e)) i_all = [[u "/p/lib/b.txt"]; [u "/p/src/m2.bsl"]; [u "/p/lib/F/mod.bsl"; u "/p/core/x.bsl"]; [u "/p/core/b.elem.json"; u "/p/lib/g.elem.json"]].
Proof. vm_compute. reflexivity. Qed.
Definition i_sub : list (list N * json) := Eval vm_compute in [(u "m1.bsl", JStr (u "lib/F/mod.bsl")); (u "f.elem.json", JStr (u "lib/g.elem.json"))].
Definition i_moved : list (list (list N) * list N * list N) := Eval vm_compute in [([], n_txt, u "lib/b.txt"); ([n_dir], n_m1, u "lib/F/mod.bsl"); ([n_dir], n_form, u "lib/g.elem.json")].
Lemma i_moves p n loc : moved_to i_index p n loc <-> In (p, n, loc) i_moved.
Proof.
  split.
  - intros M. inversion M as [d0 n0 l0 Hn E Hl|d0 x sub p0 n0 l0 Hx E M2]; subst.
    + apply dget_in in E. destruct E as [E|[E|[E|[E|[]]]]]; injection E as; subst; try discriminate; try congruence. left. reflexivity.
    + apply dget_in in E. destruct E as [E|[E|[E|[E|[]]]]]; try discriminate; injection E as; subst; [|exfalso; apply Hx; reflexivity].
      inversion M2 as [d0 n1 l1 Hn E Hl|d0 x sub p1 n1 l1 Hx2 E M3]; subst; apply dget_in in E; destruct E as [E|[E|[]]]; try discriminate; injection E as; subst; right; [left|right; left]; reflexivity.
  - intros [E|[E|[E|[]]]]; injection E as <- <- <-.
    + apply moved_here; [discriminate|reflexivity|discriminate].
    + apply moved_deep with (sub := i_sub); [discriminate|reflexivity|]. apply moved_here; [discriminate|reflexivity|discriminate].
    + apply moved_deep with (sub := i_sub); [discriminate|reflexivity|]. apply moved_here; [discriminate|reflexivity|discriminate].
Qed.
Lemma file_by loc : negb (starts [47] loc) && fitb (last (split_ch 47 loc) []) = true -> file_path loc.
Proof. intros H. apply andb_true_iff in H. destruct H as [H1 H2]. split; [intros r ->; discriminate|exact (fit_by _ H2)]. Qed.
Lemma i_fits : index_fits i_index [] t_src.
Proof.
  split; [|split; [vm_compute; reflexivity|split]].
  - constructor; [apply nodup_strs; vm_compute; reflexivity|]. intros k v Hi Hk.
    assert (Hst : forall r, k <> 42 :: r) by (intros r ->; destruct Hi as [E|[E|[E|[E|[]]]]]; discriminate). destruct Hi as [E|[E|[E|[E|[]]]]]; injection E as; subst; [| | |exfalso; apply Hk; reflexivity];
      (split; [apply fit_by; vm_compute; reflexivity|split; [exact Hst|]]); [left; eexists; reflexivity|left; eexists; reflexivity|right; eexists; split; [reflexivity|]].
    constructor; [apply nodup_strs; vm_compute; reflexivity|]. intros k v Hi2 Hk2. assert (Hs2 : forall r, k <> 42 :: r) by (intros r ->; destruct Hi2 as [E|[E|[]]]; discriminate).
    destruct Hi2 as [E|[E|[]]]; injection E as; subst; (split; [apply fit_by; vm_compute; reflexivity|split; [exact Hs2|left; eexists; reflexivity]]).
  - intros p n b F. apply t_found in F. destruct F as [E|[E|[E|[E|[]]]]]; injection E as <- <- <-; (split; [first [intros []; fail | intros [Q|[]]; discriminate]|discriminate]).
  - intros p n loc M. apply i_moves in M. destruct M as [E|[E|[E|[]]]]; injection E as <- <- <-; (split; [eexists; apply t_found; idtac; first [left; reflexivity|right; right; left; reflexivity|right; right; right; left; reflexivity|idtac]|split; [apply file_by; vm_compute; reflexivity|]]); intros [_ Q]; try (vm_compute in Q; discriminate). reflexivity.
Qed.
Lemma i_gives_in p n b k c : found t_src p n b -> igives Posix i_index 9 t_dest p n b k c -> exists s, In (n, p, s) i_all /\ In (k, c) s.
Proof.
  intros Hf (s & Hs & Hk). apply t_found in Hf. apply dget_in in Hk. exists s. split; [|exact Hk].
  assert (Hg : i_gives p n b = s) by (unfold i_gives; rewrite Hs; reflexivity). rewrite <- Hg. change i_all with (map (fun f => let '(p, n, b) := f in (n, p, i_gives p n b)) t_files). apply in_map_iff. exists (p, n, b). split; [reflexivity|exact Hf].
Qed.
Lemma i_no_conflict : ino_conflict Posix i_index 9 t_dest t_src.
Proof.
  intros p n b p' n' b' k c c' F F' G G'. destruct (i_gives_in F G) as (s & H1 & H2). destruct (i_gives_in F' G') as (s' & H1' & H2').
  apply (@nodup_fst_in _ (concat (map snd i_all)) k c c'); [apply nodup_strs; vm_compute; reflexivity| |]; apply in_concat; [exists s|exists s']; (split; [|assumption]); apply in_map_iff; [exists (n, p, s)|exists (n', p', s')]; (split; [reflexivity|assumption]).
Qed.
Definition i_done : disk := Eval vm_compute in match iorganize Posix (JDict i_index) 9 (@rev write) (@rev write) t_dest t_src t_st with Ok s => s | Err _ => [] end.
Example C92_case_extracted : map fst i_done = map u ["/p/other"; "/p/lib/b.txt"; "/p/core/x.bsl"; "/p/lib/F/mod.bsl"; "/p/src/m2.bsl"; "/p/lib/g.elem.json"; "/p/core/b.elem.json"].
Proof. vm_compute. reflexivity. Qed.
Definition in_srcb (h : list (list N)) : bool := match h with x :: y :: _ => str_eqb x [112] && str_eqb y [115; 114; 99] | _ => false end.
Lemma t_apart : forall g, within (enter [] t_dest) g -> ~ within (enter [] t_out) g.
Proof. intros g (r & _ & ->) (r' & _ & E). vm_compute in E. discriminate. Qed.
Lemma i_unmoved loc : ~ moved_to i_index [] n_m2 loc.
Proof. intros M. apply i_moves in M. destruct M as [E|[E|[E|[]]]]; discriminate. Qed.
Lemma i_apart1 : areas_apart i_index [] (enter [] t_dest) [n_dir] n_m1 [n_core_x] (map (include_file [] false (enter [] t_dest) (join [47] [n_dir])) [n_core_x]).
Proof.
  intros loc M. apply i_moves in M. destruct M as [E|[E|[E|[]]]]; [discriminate| |discriminate]. injection E as <-. split; [intros k [<-|[]]; apply mem_ch_in; vm_compute; reflexivity|]. intros [Q|[]]. vm_compute in Q. discriminate.
Qed.
Lemma i_apart2 : areas_apart i_index [] (enter [] t_dest) [] n_m2 [n_core_x] (map (include_file [] false (enter [] t_dest) (join [47] [])) [n_core_x]).
Proof. intros loc M. destruct (i_unmoved M). Qed.
Lemma i_apart3 : areas_apart i_index [] (enter [] t_dest) [n_dir] n_form (map p_name t_places) (map (fun pl => include_with s_elem [] (enter [] t_dest) (join [47] [n_dir]) (p_name pl)) (filter p_written t_places)).
Proof.
  intros loc M. apply i_moves in M. destruct M as [E|[E|[E|[]]]]; [discriminate|discriminate|]. injection E as <-. split; [intros k [<-|[]]; apply mem_ch_in; vm_compute; reflexivity|]. intros [Q|[]]. vm_compute in Q. discriminate.
Qed.
(** the conditions of C92 hold of it *)
Example C92_case : exists sf, iassemble Posix (JDict i_index) 9 (@rev entry) (@rev write) t_dest t_out i_done = Ok sf /\
  (forall p n b, found t_src p n b -> exists b', dget (written (enter [] t_out ++ p ++ [n])) sf = Some b' /\ restored n b b').
Proof.
  destruct (@C92_index_sources_restored Posix i_index [] 9 (@rev write) (@rev write) (@rev entry) (@rev write) t_dest t_out t_src t_st i_done t_named i_fits) as (_ & sf & A & B & _); try apply rev_reorders.
  - apply nodup_strs. vm_compute. reflexivity.
  - intros p n b F Hn. apply t_found in F. destruct F as [E|[E|[E|[E|[]]]]]; injection E as <- <- <-; try (vm_compute in Hn; discriminate).
    + exists t_m2, [n_core_x]. split; [split; [exact t_good2|exact i_apart2]|]. intros a k data Ha Hi.
      assert (Ea : a = match OrgCode.unpack (text_of t_m2) with Ok a => a | Err _ => [] end) by (rewrite Ha; reflexivity). vm_compute in Ea. subst a. destruct Hi as [E|[E|[]]]; [discriminate|]. injection E as <- <-. exists m_body. split; [vm_compute; reflexivity|]. split; [vm_compute; reflexivity|]. intros (r & _ & Q). vm_compute in Q. discriminate.
    + exists t_m1, [n_core_x]. split; [split; [exact t_good1|exact i_apart1]|]. intros a k data Ha Hi.
      assert (Ea : a = match OrgCode.unpack (text_of t_m1) with Ok a => a | Err _ => [] end) by (rewrite Ha; reflexivity). vm_compute in Ea. subst a. destruct Hi as [E|[E|[]]]; discriminate.
  - intros p n b F [_ Hn]. apply t_found in F. destruct F as [E|[E|[E|[E|[]]]]]; injection E as <- <- <-; try (vm_compute in Hn; discriminate).
    exists t_doc, t_tree, t_tree, t_data, t_places. split; [split; [exact t_good3|exact i_apart3]|]. intros owner pl j Ho [<-|[]] Hw. discriminate.
  - exact i_no_conflict.
  - exact t_apart.
  - intros p n b k c g F G Hg Hw Ek. destruct (i_gives_in F G) as (s & H1 & H2). 
    assert (Q : forall h, noslash h -> h <> [] -> written g = written h -> g = h) by (intros h Q1 Q2 Q3; apply written_inj; try assumption; destruct Hw as (r & Hr & ->); discriminate).
    assert (Q2 : forall h, noslash h -> in_srcb h = false -> h <> [] -> k <> written h).
    { intros h Hs H3 Hne E. rewrite Ek in E. apply Q in E; try assumption. subst g. destruct Hw as (r & _ & ->). vm_compute in H3. discriminate. }
    assert (Hin : k = u "/p/src/m2.bsl" /\ p = [] /\ n = n_m2).
    { destruct H1 as [E|[E|[E|[E|[]]]]]; injection E as <- <- <-;
      repeat (destruct H2 as [H2|H2]; [apply pair_equal_spec in H2; destruct H2 as [H2 _]; first [split; [symmetry; exact H2|split; reflexivity] | exfalso; symmetry in H2; revert H2; match goal with |- k = ?x -> False => change (k <> written (split_ch 47 (tl x))) end; apply Q2; [repeat (apply Forall_cons; [intros Hi; apply mem_ch_in in Hi; vm_compute in Hi; discriminate|]); apply Forall_nil|vm_compute; reflexivity|discriminate]]|]); destruct H2. }
    destruct Hin as (Hk & -> & ->). split; [exact i_unmoved|]. destruct (found_fits F t_named) as [Hp Hn]. destruct (own_good t_dest Hp Hn) as [O1 O2]. apply Q; [exact O1|exact O2|]. rewrite <- Ek, Hk. vm_compute. reflexivity.
  - intros p n b k c g F G Hg (r & Hr & ->) ->. destruct r as [|x r]; [congruence|]. destruct (i_gives_in F G) as (s & H1 & H2).
    destruct H1 as [E|[E|[E|[E|[]]]]]; injection E as <- <- <-; repeat (destruct H2 as [H2|H2]; [injection H2 as E _; vm_compute in E; discriminate|]); destruct H2.
  - vm_compute. reflexivity.
  - exists sf. split; [exact A|exact B].
Qed.

(** ** What does not hold *)
(** An area without underscore of a module that the index moves: the extraction writes it beside the old place, the build looks for it
    beside the new one and ends with an error. *)
Definition r_local : list (list N * tree) := Eval vm_compute in [(u "m.bsl", TFile (own_area "local" "X = 1;"))].
Definition r_index : list (list N * json) := Eval vm_compute in [(u "m.bsl", JStr (u "lib/m.bsl"))].
Theorem C92_local_area_refuted : exists s1 e, iorganize Posix (JDict r_index) 9 (fun l => l) (fun l => l) t_dest r_local [] = Ok s1 /\ map fst s1 = map u ["/p/lib/m.bsl"; "/p/src/local.bsl"] /\
  iassemble Posix (JDict r_index) 9 (fun l => l) (fun l => l) t_dest t_out s1 = Err e.
Proof. eexists. eexists. split; [vm_compute; reflexivity|]. split; vm_compute; reflexivity. Qed.
Print Assumptions C92_local_area_refuted.
(** An index with an entry for a file that does not exist is fine for the extraction and ends the build. *)
Theorem C92_missing_file_refuted : exists s1, iorganize Posix (JDict i_index) 9 (fun l => l) (fun l => l) t_dest [(n_m2, TFile [32])] [] = Ok s1 /\
  iassemble Posix (JDict i_index) 9 (fun l => l) (fun l => l) t_dest t_out s1 = Err ExtExc.
Proof. eexists. split; [vm_compute; reflexivity|]. vm_compute; reflexivity. Qed.
Print Assumptions C92_missing_file_refuted.
(** An index that gives two files one place: both are extracted to it and both are built from what came last, without an error. *)
Definition r_twice : list (list N * json) := Eval vm_compute in [(u "a.txt", JStr (u "lib/x.txt")); (u "b.txt", JStr (u "lib/x.txt"))].
Theorem C92_one_place_refuted : exists s1 sf, iorganize Posix (JDict r_twice) 9 (fun l => l) (fun l => l) t_dest [(u "a.txt", TFile [65]); (u "b.txt", TFile [66])] [] = Ok s1 /\
  iassemble Posix (JDict r_twice) 9 (fun l => l) (fun l => l) t_dest t_out s1 = Ok sf /\ dget (u "/p/out/a.txt") sf = Some [66] /\ dget (u "/p/out/b.txt") sf = Some [66].
Proof. eexists. eexists. split; [vm_compute; reflexivity|]. split; [vm_compute; reflexivity|]. split; vm_compute; reflexivity. Qed.
Print Assumptions C92_one_place_refuted.
(** A form that the index moves to a name with another ending: its areas are looked for with the ending of the new name. *)
Definition r_form : list (list N * json) := Eval vm_compute in [(u "f.elem.json", JStr (u "lib/f.json"))].
Theorem C92_ending_refuted : exists s1 e, iorganize Posix (JDict r_form) 9 (fun l => l) (fun l => l) t_dest [(n_form, TFile b_form)] [] = Ok s1 /\
  iassemble Posix (JDict r_form) 9 (fun l => l) (fun l => l) t_dest t_out s1 = Err e.
Proof. eexists. eexists. split; [vm_compute; reflexivity|]. vm_compute; reflexivity. Qed.
Print Assumptions C92_ending_refuted.
