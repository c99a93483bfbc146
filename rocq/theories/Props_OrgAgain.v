(** C94: extracting what was built gives the same sources.  Models: OrgTree.v, OrgIndex.v.  Vocabulary: Spec_OrgAgain.v. *)
From Coq Require Import String Permutation Lia.
From Verif Require Import PyBase PyText Paths Json Index Utf JsonText JsonObj Pipeline UpdateDictProofs Spec_Code OrgCode OrgCodeProofs OrgCodePaths OrgForm OrgFormProofs Spec_OrgForm Spec_OrgTree OrgTree OrgTreePaths OrgTreeProofs OrgTreeElems OrgTreeMain OrgTreeCase Props_Code Props_OrgForm Props_OrgTree OrgIndex Spec_OrgIndex OrgIndexPaths OrgIndexProofs OrgIndexMain Props_OrgIndex Spec_OrgAgain OrgAgain.
Set Implicit Arguments.
Open Scope string_scope.
Open Scope list_scope.
Open Scope N_scope.

(** ** C94: whatever the disk holds before, whatever the order of the processes *)
Theorem C94_second_extraction_same : forall os table fuel ordc orde ordc' orde' dest src src' st st0 s1,
  let D := enter [] dest in
  well_named src -> well_named src' -> comes_back fuel src src' -> NoDup (map fst st) -> NoDup (map fst st0) -> reorders ordc -> reorders orde -> reorders ordc' -> reorders orde' ->
  (forall p n b, found src p n b -> module_name n -> exists m ns, good_module os table fuel dest p n b m ns) ->
  (forall p n b, found src p n b -> elements_name n -> exists d tree treew data places, good_elements table dest p n b d tree treew data places) ->
  no_conflict os table fuel dest src ->
  organize os table fuel ordc orde dest src st = Ok s1 ->
  exists s2, organize os table fuel ordc' orde' dest src' st0 = Ok s2 /\
    (forall g, Forall (fun e => ~ In 47 e) g -> g <> [] -> within D g \/ (exists p n b c, found src p n b /\ gives os table fuel dest p n b (written g) c) -> dget (written g) s2 = dget (written g) s1) /\
    (forall g, Forall (fun e => ~ In 47 e) g -> g <> [] -> ~ within D g -> (forall p n b c, found src p n b -> ~ gives os table fuel dest p n b (written g) c) -> dget (written g) s2 = dget (written g) st0).
Proof.
  intros os table fuel ordc orde ordc' orde' dest src src' st st0 s1 D Hwn Hwn' Hb Hst Hst0 Hoc Hoe Hoc' Hoe' Hm He Hag H.
  assert (Hag' : forall p n b s p' n' b' s' k c c', found src p n b -> found src p' n' b' -> alone os table fuel dest p n b s -> alone os table fuel dest p' n' b' s' -> dget k s = Some c -> dget k s' = Some c' -> c = c').
  { intros p n b s p' n' b' s' k c c' F F' A A' K K'. refine (@Hag p n b p' n' b' k c c' F F' _ _); eexists; (split; eassumption). }
  destruct (@OrgTreeMain.extracted os table fuel dest src Hwn ordc orde st s1 Hm He Hag' Hoc Hoe H) as (ws & E & Ha & Hin & _). destruct (@organize_inv os table fuel ordc orde dest src st s1 Hoc Hoe H) as (ws1 & E1 & Hin1 & Hall1).
  pose proof (@walk_back fuel src src' (writes_of os table fuel dest) Hwn Hwn' Hb (fun q n b b' l => @same_writes_of os table fuel dest q n b b' l) Hall1) as Wb.
  destruct (@organize_ok os table fuel ordc' orde' dest src' st0) as (s2 & H2); [exact (@walk_back_ok fuel src src' (writes_of os table fuel dest) Hwn Hwn' Hb (fun q n b b' l => @same_writes_of os table fuel dest q n b b' l) Hall1)|].
  destruct (@organize_inv os table fuel ordc' orde' dest src' st0 s2 Hoc' Hoe' H2) as (ws2 & E2 & Hin2 & _).
  assert (Q1 : forall w, In w ws1 <-> In w ws).
  { intros [k c]. rewrite Hin, Hin1. split.
    - intros (f & l & Hf & Hl & Hi). apply (walk_all_found f Hwn) in Hf. destruct Hf as (p & n & b & Hf & ->). destruct (@OrgTreeMain.alone_facts os table fuel dest src Hwn Hm He p n b l Hf Hl) as (s & S1 & S2). exists p, n, b, s. split; [exact Hf|]. split; [exact S1|]. apply S2. exact Hi.
    - intros (p & n & b & s & Hf & Hs & Hd). assert (Hi : In (mkentry (join [47] p) n b) (walk_all src)) by (apply (walk_all_found _ Hwn); exists p, n, b; split; [exact Hf|reflexivity]). destruct (Hall1 _ Hi) as (l & Hl). exists (mkentry (join [47] p) n b), l. split; [exact Hi|]. split; [exact Hl|].
      destruct (@OrgTreeMain.alone_facts os table fuel dest src Hwn Hm He p n b l Hf Hl) as (s0 & S1 & S2). unfold alone in *. rewrite S1 in Hs. injection Hs as <-. apply S2. exact Hd. }
  assert (Q2 : forall w, In w ws2 <-> In w ws).
  { intros w. rewrite <- Q1, Hin1, Hin2. split; intros (f & l & Hf & Hl & Hi).
    - destruct (proj2 (Wb l) (ex_intro _ f (conj Hf Hl))) as (f0 & Hf0 & Ef). exists f0, l. repeat split; assumption.
    - destruct (proj1 (Wb l) (ex_intro _ f (conj Hf Hl))) as (f0 & Hf0 & Ef). exists f0, l. repeat split; assumption. }
  destruct (@written_again dest ws ws2 st st0 Ha Q2 Hst0 Hst) as [W1 W2]. exists s2. split; [exact H2|]. rewrite E, E2. split.
  - intros g G1 G2 Hg. apply W1. destruct Hg as [Hg|(p & n & b & c & F & (s & A & K))].
    + left. destruct (below_in dest G1 G2) as [_ Q]. destruct (Q Hg) as (r & Er). rewrite Er. discriminate.
    + right. apply in_map_iff. exists (written g, c). split; [reflexivity|]. apply Hin. exists p, n, b, s. split; [exact F|split; [exact A|exact K]].
  - intros g G1 G2 Hg Hno. apply W2.
    + destruct (below dest (written g)) as [r|] eqn:Eb; [|reflexivity]. exfalso. apply Hg. apply (below_in dest G1 G2). exists r. exact Eb.
    + intros Hi. apply in_map_iff in Hi. destruct Hi as ([k c] & Ek & Hi). cbn in Ek. subst k. apply Hin in Hi. destruct Hi as (p & n & b & s & F & A & K). apply (Hno p n b c F). exists s. split; [exact A|exact K].
Qed.
Print Assumptions C94_second_extraction_same.

(** ** Extraction, build and extraction again: nothing on the disk changes *)
Theorem C94_extract_build_extract : forall os table fuel ordc orde ordl ordw ordc' orde' dest dest2 src src' st st' sf,
  let D := enter [] dest in let D2 := enter [] dest2 in
  well_named src -> NoDup (map fst st) -> reorders ordc -> reorders orde -> reorders ordl -> reorders ordw -> reorders ordc' -> reorders orde' ->
  (forall p n b, found src p n b -> module_name n -> exists m ns, good_module os table fuel dest p n b m ns /\
     forall a k data, OrgCode.unpack (text_of m) = Ok a -> In (k, (data, Some Includr)) a ->
     let f := include_file table false D (join [47] p) k in exists bs, text_file os data bs /\ dget (written f) st' = Some bs /\ ~ within D2 f) ->
  (forall p n b, found src p n b -> elements_name n -> exists d tree treew data places, good_elements table dest p n b d tree treew data places /\
     forall owner pl j, unpack_docs fuel (Jobj (dset fe_tree (Jlist treew) d)) = Ok owner -> In pl places -> p_written pl = false -> In (p_name pl, j) owner ->
     let f := include_with s_elem table D (join [47] p) (p_name pl) in exists bs j', dget (written f) st' = Some bs /\ json_file bs j' /\ same_document j j' /\ distinct_data j' /\ ~ within D2 f) ->
  no_conflict os table fuel dest src ->
  (forall g, within D g -> ~ within D2 g) ->
  (forall p n b k c g, found src p n b -> gives os table fuel dest p n b k c -> Forall (fun e => ~ In 47 e) g -> within D g -> k = written g -> g = D ++ p ++ [n]) ->
  (forall p n b k c g, found src p n b -> gives os table fuel dest p n b k c -> Forall (fun e => ~ In 47 e) g -> within D2 g -> k <> written g) ->
  organize os table fuel ordc orde dest src st = Ok st' -> assemble os table fuel ordl ordw dest dest2 st' = Ok sf ->
  (* what the build gave is extracted *)
  holds_folder sf D2 src' ->
  exists s2, organize os table fuel ordc' orde' dest src' sf = Ok s2 /\
    forall g, Forall (fun e => ~ In 47 e) g -> g <> [] -> dget (written g) s2 = dget (written g) sf.
Proof.
  intros os table fuel ordc orde ordl ordw ordc' orde' dest dest2 src src' st st' sf D D2 Hwn Hst Hoc Hoe Hol How Hoc' Hoe' Hm He Hag Hdj Ho Ho2 H Hf [Hwn' Hsrc].
  assert (Hm0 : forall p n b, found src p n b -> module_name n -> exists m ns, good_module os table fuel dest p n b m ns) by (intros p n b F Hn; destruct (Hm p n b F Hn) as (m & ns & Q & _); exists m, ns; exact Q).
  assert (He0 : forall p n b, found src p n b -> elements_name n -> exists d tree treew data places, good_elements table dest p n b d tree treew data places) by (intros p n b F Hn; destruct (He p n b F Hn) as (d & tree & treew & data & places & Q & _); exists d, tree, treew, data, places; exact Q).
  assert (Hag' : forall p n b s p' n' b' s' k c c', found src p n b -> found src p' n' b' -> alone os table fuel dest p n b s -> alone os table fuel dest p' n' b' s' -> dget k s = Some c -> dget k s' = Some c' -> c = c').
  { intros p n b s p' n' b' s' k c c' F F' A0 A' K K'. refine (@Hag p n b p' n' b' k c c' F F' _ _); eexists; (split; eassumption). }
  assert (Ho' : forall p n b s k c g, found src p n b -> alone os table fuel dest p n b s -> dget k s = Some c -> Forall (fun e => ~ In 47 e) g -> within D g -> k = written g -> g = D ++ p ++ [n]) by (intros p n b s k c g F A K; apply (@Ho p n b k c g F); eexists; split; eassumption).
  assert (Ho2' : forall p n b s k c g, found src p n b -> alone os table fuel dest p n b s -> dget k s = Some c -> Forall (fun e => ~ In 47 e) g -> within D2 g -> k <> written g) by (intros p n b s k c g F A K; apply (@Ho2 p n b k c g F); eexists; split; eassumption).
  destruct (@OrgTreeMain.assembled_came os table fuel dest dest2 src Hwn ordc orde st st' Hm0 He0 Hag' Hoc Hoe Hst H Ho' Ho2' Hm He ordl ordw Hol How) as (sf' & Ef & A & B & C).
  rewrite Hf in Ef. injection Ef as <-.
  assert (Hb : comes_back fuel src src').
  { split.
    - intros p n b F. destruct (A p n b F) as (b' & Q & R). destruct (found_fits F Hwn) as [Hp Hn]. exists b'. split; [apply Hsrc; assumption|]. exact R.
    - intros p n b' F'. destruct (found_fits F' Hwn') as [Hp Hn]. apply (Hsrc p n b' Hn Hp) in F'. destruct (own_good dest2 Hp Hn) as [O1 O2].
      destruct (B (D2 ++ p ++ [n])) as (p0 & n0 & b & F & E); [exists (p ++ [n]); split; [destruct p; discriminate|reflexivity]|exact O1|rewrite F'; discriminate|]. apply app_inv_head in E. apply snoc_inj in E. destruct E as [<- <-].
      destruct (A p n b F) as (b'' & Q & R). pose proof (eq_trans (eq_sym F') Q) as EE. injection EE as EE. subst b''. exists b. split; [exact F|]. exact R. }
  assert (N1 : NoDup (map fst st')) by exact (@OrgTreeMain.extracted_nodup os table fuel dest src Hwn ordc orde st st' Hm0 He0 Hag' Hoc Hoe Hst H).
  destruct (@C94_second_extraction_same os table fuel ordc orde ordc' orde' dest src src' st sf st' Hwn Hwn' Hb Hst (@assemble_nodup _ _ _ _ _ _ _ _ _ N1 Hf) Hoc Hoe Hoc' Hoe' Hm0 He0 Hag H) as (s2 & E2 & S1 & S2).
  exists s2. split; [exact E2|]. intros g G1 G2.
  destruct (@C82_extraction_deterministic os table fuel ordc orde dest src st st' Hwn Hst Hoc Hoe Hm0 He0 Hag H) as (T1 & T2 & _).
  destruct (@OrgTreeMain.extracted os table fuel dest src Hwn ordc orde st st' Hm0 He0 Hag' Hoc Hoe H) as (ws & E & Ha & Hin & _).
  assert (Dec : (within D g \/ exists p n b c, found src p n b /\ gives os table fuel dest p n b (written g) c) \/ (~ within D g /\ forall p n b c, found src p n b -> ~ gives os table fuel dest p n b (written g) c)).
  { destruct (below dest (written g)) as [r|] eqn:Eb.
    - left. left. apply (below_in dest G1 G2). exists r. exact Eb.
    - destruct (in_dec (list_eq_dec N.eq_dec) (written g) (map fst ws)) as [Hi|Hi].
      + left. right. apply in_map_iff in Hi. destruct Hi as ([k c] & Ek & Hi). cbn in Ek. subst k. apply Hin in Hi. destruct Hi as (p & n & b & s & F & A0 & K). exists p, n, b, c. split; [exact F|]. exists s. split; [exact A0|exact K].
      + right. split.
        * intros Q. apply (below_in dest G1 G2) in Q. destruct Q as (r & Er). rewrite Er in Eb. discriminate.
        * intros p n b c F (s & A0 & K). apply Hi. apply in_map_iff. exists (written g, c). split; [reflexivity|]. apply Hin. exists p, n, b, s. split; [exact F|split; [exact A0|exact K]]. }
  destruct Dec as [Q|[Q1 Q2]].
  - rewrite (S1 g G1 G2 Q). symmetry. apply C; [exact G1|exact G2|]. destruct Q as [Q|(p & n & b & c & F & Q)]; [exact (Hdj g Q)|]. intros W. exact (Ho2 p n b _ c g F Q G1 W eq_refl).
  - apply S2; assumption.
Qed.
Print Assumptions C94_extract_build_extract.

(** ** The same with an index *)
Theorem C94_index_second_extraction_same : forall os d t fuel ordc orde ordc' orde' dest src src' st st0 s1,
  let D := enter [] dest in
  well_named src -> well_named src' -> comes_back fuel src src' -> index_fits d t src -> NoDup (map fst st) -> NoDup (map fst st0) -> reorders ordc -> reorders orde -> reorders ordc' -> reorders orde' ->
  modules_split os d t fuel dest src -> forms_split d t dest src -> ino_conflict os d fuel dest src ->
  iorganize os (JDict d) fuel ordc orde dest src st = Ok s1 ->
  exists s2, iorganize os (JDict d) fuel ordc' orde' dest src' st0 = Ok s2 /\
    (forall g, Forall (fun e => ~ In 47 e) g -> g <> [] -> within D g \/ (exists p n b c, found src p n b /\ igives os d fuel dest p n b (written g) c) -> dget (written g) s2 = dget (written g) s1) /\
    (forall g, Forall (fun e => ~ In 47 e) g -> g <> [] -> ~ within D g -> (forall p n b c, found src p n b -> ~ igives os d fuel dest p n b (written g) c) -> dget (written g) s2 = dget (written g) st0).
Proof.
  intros os d t fuel ordc orde ordc' orde' dest src src' st st0 s1 D Hwn Hwn' Hb (Hidx & Ht & Hno & Hmv) Hst Hst0 Hoc Hoe Hoc' Hoe' Hm He0' Hag H. apply table_areas in Ht. subst t.
  assert (He : forall p n b, found src p n b -> elements_name n -> exists d0 tree treew data places, elements_ok d dest p n b d0 tree treew data places).
  { intros p n b Hf Hn. destruct (He0' p n b Hf Hn) as (d0 & tree & treew & data & places & Q1 & Q2). exists d0, tree, treew, data, places. split; [exact Q1|exact (@apart_elems _ _ _ _ _ _ _ Q2)]. }
  assert (Hag' : forall p n b s p' n' b' s' k c c', found src p n b -> found src p' n' b' -> ialone os d fuel dest p n b s -> ialone os d fuel dest p' n' b' s' -> dget k s = Some c -> dget k s' = Some c' -> c = c').
  { intros p n b s p' n' b' s' k c c' F F' A A' K K'. refine (@Hag p n b p' n' b' k c c' F F' _ _); eexists; (split; eassumption). }
  destruct (@extracted os d fuel dest src Hwn Hidx Hno Hmv ordc orde st s1 Hm He Hag' Hoc Hoe H) as (ws & E & Ha & Hin & Hall). destruct (@iorganize_inv os d fuel ordc orde dest src st s1 Hoc Hoe H) as (ws1 & E1 & Hin1 & Hall1).
  pose proof (@walk_back fuel src src' (iwrites_of os d fuel dest) Hwn Hwn' Hb (fun q n b b' l => @same_iwrites_of os d fuel dest q n b b' l) Hall1) as Wb.
  destruct (@iorganize_ok os d fuel ordc' orde' dest src' st0) as (s2 & H2); [exact (@walk_back_ok fuel src src' (iwrites_of os d fuel dest) Hwn Hwn' Hb (fun q n b b' l => @same_iwrites_of os d fuel dest q n b b' l) Hall1)|].
  destruct (@iorganize_inv os d fuel ordc' orde' dest src' st0 s2 Hoc' Hoe' H2) as (ws2 & E2 & Hin2 & _).
  assert (Q1 : forall w, In w ws1 <-> In w ws).
  { intros [k c]. rewrite Hin, Hin1. split.
    - intros (f & l & Hf & Hl & Hi). apply (walk_all_found f Hwn) in Hf. destruct Hf as (p & n & b & Hf & ->). destruct (@alone_facts os d fuel dest src Hwn Hidx Hno Hmv ordc orde Hm He p n b l Hf Hl) as (s & S1 & S2). exists p, n, b, s. split; [exact Hf|]. split; [exact S1|]. apply S2. exact Hi.
    - intros (p & n & b & s & Hf & Hs & Hd). assert (Hi : In (mkentry (join [47] p) n b) (walk_all src)) by (apply (walk_all_found _ Hwn); exists p, n, b; split; [exact Hf|reflexivity]). destruct (Hall1 _ Hi) as (l & Hl). exists (mkentry (join [47] p) n b), l. split; [exact Hi|]. split; [exact Hl|].
      destruct (@alone_facts os d fuel dest src Hwn Hidx Hno Hmv ordc orde Hm He p n b l Hf Hl) as (s0 & S1 & S2). unfold ialone in *. rewrite S1 in Hs. injection Hs as <-. apply S2. exact Hd. }
  assert (Q2 : forall w, In w ws2 <-> In w ws).
  { intros w. rewrite <- Q1, Hin1, Hin2. split; intros (f & l & Hf & Hl & Hi).
    - destruct (proj2 (Wb l) (ex_intro _ f (conj Hf Hl))) as (f0 & Hf0 & Ef). exists f0, l. repeat split; assumption.
    - destruct (proj1 (Wb l) (ex_intro _ f (conj Hf Hl))) as (f0 & Hf0 & Ef). exists f0, l. repeat split; assumption. }
  destruct (@written_again dest ws ws2 st st0 Ha Q2 Hst0 Hst) as [W1 W2]. exists s2. split; [exact H2|]. rewrite E, E2. split.
  - intros g G1 G2 Hg. apply W1. destruct Hg as [Hg|(p & n & b & c & F & (s & A & K))].
    + left. destruct (below_in dest G1 G2) as [_ Q]. destruct (Q Hg) as (r & Er). rewrite Er. discriminate.
    + right. apply in_map_iff. exists (written g, c). split; [reflexivity|]. apply Hin. exists p, n, b, s. split; [exact F|split; [exact A|exact K]].
  - intros g G1 G2 Hg Hno2. apply W2.
    + destruct (below dest (written g)) as [r|] eqn:Eb; [|reflexivity]. exfalso. apply Hg. apply (below_in dest G1 G2). exists r. exact Eb.
    + intros Hi. apply in_map_iff in Hi. destruct Hi as ([k c] & Ek & Hi). cbn in Ek. subst k. apply Hin in Hi. destruct Hi as (p & n & b & s & F & A & K). apply (Hno2 p n b c F). exists s. split; [exact A|exact K].
Qed.
Print Assumptions C94_index_second_extraction_same.

Theorem C94_index_extract_build_extract : forall os d t fuel ordc orde ordl ordw ordc' orde' dest dest2 src src' st st' sf,
  let D := enter [] dest in let D2 := enter [] dest2 in
  well_named src -> index_fits d t src -> NoDup (map fst st) -> reorders ordc -> reorders orde -> reorders ordl -> reorders ordw -> reorders ordc' -> reorders orde' ->
  modules_readable os d t fuel dest dest2 src st' -> forms_readable d t fuel dest dest2 src st' -> ino_conflict os d fuel dest src ->
  (forall g, within D g -> ~ within D2 g) ->
  (forall p n b k c g, found src p n b -> igives os d fuel dest p n b k c -> Forall (fun e => ~ In 47 e) g -> within D g -> k = written g -> (forall loc, ~ moved_to d p n loc) /\ g = D ++ p ++ [n]) ->
  (forall p n b k c g, found src p n b -> igives os d fuel dest p n b k c -> Forall (fun e => ~ In 47 e) g -> within D2 g -> k <> written g) ->
  iorganize os (JDict d) fuel ordc orde dest src st = Ok st' -> iassemble os (JDict d) fuel ordl ordw dest dest2 st' = Ok sf ->
  holds_folder sf D2 src' ->
  exists s2, iorganize os (JDict d) fuel ordc' orde' dest src' sf = Ok s2 /\
    forall g, Forall (fun e => ~ In 47 e) g -> g <> [] -> dget (written g) s2 = dget (written g) sf.
Proof.
  intros os d t fuel ordc orde ordl ordw ordc' orde' dest dest2 src src' st st' sf D D2 Hwn Hfit Hst Hoc Hoe Hol How Hoc' Hoe' Hm He2 Hag Hdj Ho Ho2 H Hf [Hwn' Hsrc].
  assert (Hm1 : modules_split os d t fuel dest src) by (intros p n b Q Hn; destruct (Hm p n b Q Hn) as (m & ns & R & _); exists m, ns; exact R).
  assert (He1 : forms_split d t dest src) by (intros p n b Q Hn; destruct (He2 p n b Q Hn) as (d0 & tree & treew & data & places & R & _); exists d0, tree, treew, data, places; exact R).
  assert (Hcame : exists sf', iassemble os (JDict d) fuel ordl ordw dest dest2 st' = Ok sf' /\
    (forall p n b, found src p n b -> exists b', dget (written (D2 ++ p ++ [n])) sf' = Some b' /\ came fuel n b b') /\
    (forall g, within D2 g -> Forall (fun e => ~ In 47 e) g -> dget (written g) sf' <> None -> exists p n b, found src p n b /\ g = D2 ++ p ++ [n]) /\
    (forall g, Forall (fun e => ~ In 47 e) g -> g <> [] -> ~ within D2 g -> dget (written g) sf' = dget (written g) st')).
  { destruct Hfit as (Hidx & Ht & Hno & Hmv). apply table_areas in Ht. subst t.
    assert (He : forall p n b, found src p n b -> elements_name n -> exists d0 tree treew data places, elements_ok d dest p n b d0 tree treew data places) by (intros p n b Q Hn; destruct (He1 p n b Q Hn) as (d0 & tree & treew & data & places & Q1 & Q2); exists d0, tree, treew, data, places; (split; [exact Q1|exact (@apart_elems _ _ _ _ _ _ _ Q2)])).
    assert (Hag' : forall p n b s p' n' b' s' k c c', found src p n b -> found src p' n' b' -> ialone os d fuel dest p n b s -> ialone os d fuel dest p' n' b' s' -> dget k s = Some c -> dget k s' = Some c' -> c = c').
    { intros p n b s p' n' b' s' k c c' F F' A0 A' K K'. refine (@Hag p n b p' n' b' k c c' F F' _ _); eexists; (split; eassumption). }
    refine (@iassembled_came os d fuel dest dest2 src Hwn Hidx Hno Hmv ordc orde st st' Hm1 He Hag' Hoc Hoe Hst H Hdj _ _ Hm _ ordl ordw Hol How).
    - intros p n b s k c g F A K. apply (@Ho p n b k c g F). eexists. split; eassumption.
    - intros p n b s k c g F A K. apply (@Ho2 p n b k c g F). eexists. split; eassumption.
    - intros p n b Q Hn. destruct (He2 p n b Q Hn) as (d0 & tree & treew & data & places & (Q1 & Q2) & Q3). exists d0, tree, treew, data, places. split; [split; [exact Q1|exact (@apart_elems _ _ _ _ _ _ _ Q2)]|exact Q3]. }
  destruct Hcame as (sf' & Ef & A & B & C). rewrite Hf in Ef. injection Ef as <-.
  assert (Hb : comes_back fuel src src').
  { split.
    - intros p n b F. destruct (A p n b F) as (b' & Q & R). destruct (found_fits F Hwn) as [Hp Hn]. exists b'. split; [apply Hsrc; assumption|]. exact R.
    - intros p n b' F'. destruct (found_fits F' Hwn') as [Hp Hn]. apply (Hsrc p n b' Hn Hp) in F'. destruct (own_good dest2 Hp Hn) as [O1 O2].
      destruct (B (D2 ++ p ++ [n])) as (p0 & n0 & b & F & E); [exists (p ++ [n]); split; [destruct p; discriminate|reflexivity]|exact O1|rewrite F'; discriminate|]. apply app_inv_head in E. apply snoc_inj in E. destruct E as [<- <-].
      destruct (A p n b F) as (b'' & Q & R). pose proof (eq_trans (eq_sym F') Q) as EE. injection EE as EE. subst b''. exists b. split; [exact F|]. exact R. }
  assert (Hall : (forall g, Forall (fun e => ~ In 47 e) g -> g <> [] -> (within D g \/ exists p n b c, found src p n b /\ igives os d fuel dest p n b (written g) c) \/ (~ within D g /\ forall p n b c, found src p n b -> ~ igives os d fuel dest p n b (written g) c)) /\ NoDup (map fst st')).
  { destruct Hfit as (Hidx & Ht & Hno & Hmv). apply table_areas in Ht. subst t.
    assert (He : forall p n b, found src p n b -> elements_name n -> exists d0 tree treew data places, elements_ok d dest p n b d0 tree treew data places) by (intros p n b Q Hn; destruct (He1 p n b Q Hn) as (d0 & tree & treew & data & places & Q1 & Q2); exists d0, tree, treew, data, places; (split; [exact Q1|exact (@apart_elems _ _ _ _ _ _ _ Q2)])).
    assert (Hag' : forall p n b s p' n' b' s' k c c', found src p n b -> found src p' n' b' -> ialone os d fuel dest p n b s -> ialone os d fuel dest p' n' b' s' -> dget k s = Some c -> dget k s' = Some c' -> c = c').
    { intros p n b s p' n' b' s' k c c' F F' A0 A' K K'. refine (@Hag p n b p' n' b' k c c' F F' _ _); eexists; (split; eassumption). }
    split; [|exact (@extracted_nodup os d fuel dest src Hwn Hidx Hno Hmv ordc orde st st' Hm1 He Hag' Hoc Hoe Hst H)].
    destruct (@extracted os d fuel dest src Hwn Hidx Hno Hmv ordc orde st st' Hm1 He Hag' Hoc Hoe H) as (ws & E & Ha & Hin & _).
    intros g G1 G2. destruct (below dest (written g)) as [r|] eqn:Eb.
    - left. left. apply (below_in dest G1 G2). exists r. exact Eb.
    - destruct (in_dec (list_eq_dec N.eq_dec) (written g) (map fst ws)) as [Hi|Hi].
      + left. right. apply in_map_iff in Hi. destruct Hi as ([k c] & Ek & Hi). cbn in Ek. subst k. apply Hin in Hi. destruct Hi as (p & n & b & s & F & A0 & K). exists p, n, b, c. split; [exact F|]. exists s. split; [exact A0|exact K].
      + right. split.
        * intros Q. apply (below_in dest G1 G2) in Q. destruct Q as (r & Er). rewrite Er in Eb. discriminate.
        * intros p n b c F (s & A0 & K). apply Hi. apply in_map_iff. exists (written g, c). split; [reflexivity|]. apply Hin. exists p, n, b, s. split; [exact F|split; [exact A0|exact K]]. }
  destruct Hall as [Dec N1].
  assert (N2 : NoDup (map fst sf)).
  { unfold iassemble in Hf. eapply iassemble_nodup; eassumption. }
  destruct (@C94_index_second_extraction_same os d t fuel ordc orde ordc' orde' dest src src' st sf st' Hwn Hwn' Hb Hfit Hst N2 Hoc Hoe Hoc' Hoe' Hm1 He1 Hag H) as (s2 & E2 & S1 & S2).
  exists s2. split; [exact E2|]. intros g G1 G2. destruct (Dec g G1 G2) as [Q|[Q1 Q2]].
  - rewrite (S1 g G1 G2 Q). symmetry. apply C; [exact G1|exact G2|]. destruct Q as [Q|(p & n & b & c & F & Q)]; [exact (Hdj g Q)|]. intros W. exact (Ho2 p n b _ c g F Q G1 W eq_refl).
  - apply S2; assumption.
Qed.
Print Assumptions C94_index_extract_build_extract.

(** ** A case: the folder of Props_OrgTree.v *)
Definition t_sf : disk := Eval vm_compute in match assemble Posix [] 9 (@rev entry) (@rev write) t_dest t_out t_done with Ok s => s | Err _ => [] end.
(** one of the modules comes back without its byte order mark *)
Definition b_m1_back : list N := Eval vm_compute in bare b_m1.
Definition t_src_back : list (list N * tree) := [(n_dir, TDir [(n_form, TFile b_form); (n_m1, TFile b_m1_back)]); (n_m2, TFile b_m2); (n_txt, TFile b_txt)].
Definition t_back_files : list (list (list N) * list N * list N) := [([], n_txt, b_txt); ([], n_m2, b_m2); ([n_dir], n_m1, b_m1_back); ([n_dir], n_form, b_form)].
Lemma t_back_found p n b : found t_src_back p n b <-> In (p, n, b) t_back_files.
Proof.
  split.
  - intros H. inversion H as [? ? ? Hi|? ? ? ? ? ? Hi Hd]; subst.
    + destruct Hi as [E|[E|[E|[]]]]; try discriminate; injection E as <- <-; [right; left|left]; reflexivity.
    + destruct Hi as [E|[E|[E|[]]]]; try discriminate. injection E as <- <-. inversion Hd as [? ? ? Hi|? ? ? ? ? ? Hi Hd2]; subst.
      * destruct Hi as [E|[E|[]]]; injection E as <- <-; [right; right; right; left|right; right; left]; reflexivity.
      * destruct Hi as [E|[E|[]]]; discriminate.
  - intros [E|[E|[E|[E|[]]]]]; injection E as <- <- <-.
    + apply here. right. right. left. reflexivity.
    + apply here. right. left. reflexivity.
    + eapply deeper; [left; reflexivity|]. apply here. right. left. reflexivity.
    + eapply deeper; [left; reflexivity|]. apply here. left. reflexivity.
Qed.
Lemma t_back_named : well_named t_src_back.
Proof.
  constructor.
  - apply nodup_strs. vm_compute. reflexivity.
  - repeat (apply Forall_cons; [apply fit_by; vm_compute; reflexivity|]). apply Forall_nil.
  - intros d sub [E|[E|[E|[]]]]; try discriminate. injection E as <- <-. constructor.
    + apply nodup_strs. vm_compute. reflexivity.
    + repeat (apply Forall_cons; [apply fit_by; vm_compute; reflexivity|]). apply Forall_nil.
    + intros d sub [E|[E|[]]]; discriminate.
Qed.
Lemma t_sf_keys : forallb (fun e => existsb (fun f => str_eqb (fst e) (written (enter [] t_out ++ fst (fst f) ++ [snd (fst f)])) && str_eqb (snd e) (snd f)) t_back_files || (match below t_out (fst e) with None => true | Some _ => false end)) t_sf = true.
Proof. vm_compute. reflexivity. Qed.
Lemma t_sf_vals : forallb (fun f => match dget (written (enter [] t_out ++ fst (fst f) ++ [snd (fst f)])) t_sf with Some b => str_eqb b (snd f) | None => false end) t_back_files = true.
Proof. vm_compute. reflexivity. Qed.
Lemma t_holds : holds_folder t_sf (enter [] t_out) t_src_back.
Proof.
  split; [exact t_back_named|]. intros p n b Hn Hp. rewrite t_back_found. split.
  - intros Hi. pose proof t_sf_vals as V. rewrite forallb_forall in V. specialize (V _ Hi). cbn [fst snd] in V. destruct (dget _ t_sf) as [b'|]; [|discriminate]. apply str_eqb_spec in V. subst b'. reflexivity.
  - intros Hd. apply dget_in in Hd. pose proof t_sf_keys as V. rewrite forallb_forall in V. specialize (V _ Hd). cbn [fst snd] in V. destruct (own_good t_out Hp Hn) as [O1 O2]. apply orb_true_iff in V. destruct V as [V|V].
    + apply existsb_exists in V. destruct V as ([[p0 n0] b0] & Hi & V). cbn [fst snd] in V. apply andb_true_iff in V. destruct V as [V1 V2]. apply str_eqb_spec in V1, V2. subst b0.
      assert (Hf : found t_src_back p0 n0 b) by (apply t_back_found; exact Hi). destruct (found_fits Hf t_back_named) as [Hp0 Hn0]. destruct (own_good t_out Hp0 Hn0) as [O3 O4].
      apply written_inj in V1; try assumption. apply app_inv_head in V1. apply snoc_inj in V1. destruct V1 as [<- <-]. exact Hi.
    + exfalso. assert (W : within (enter [] t_out) (enter [] t_out ++ p ++ [n])) by (exists (p ++ [n]); split; [destruct p; discriminate|reflexivity]).
      apply (below_in t_out O1 O2) in W. destruct W as (r & W). rewrite W in V. discriminate.
Qed.
Example C94_case : exists s2, organize Posix [] 9 (fun l => l) (fun l => l) t_dest t_src_back t_sf = Ok s2 /\ forall g, Forall (fun e => ~ In 47 e) g -> g <> [] -> dget (written g) s2 = dget (written g) t_sf.
Proof.
  apply (@C94_extract_build_extract Posix [] 9 (@rev write) (@rev write) (@rev entry) (@rev write) (fun l => l) (fun l => l) t_dest t_out t_src t_src_back t_st t_done t_sf t_named); try apply rev_reorders; try apply id_reorders.
  - apply nodup_strs. vm_compute. reflexivity.
  - intros p n b F Hn. apply t_found in F. destruct F as [E|[E|[E|[E|[]]]]]; injection E as <- <- <-; try (vm_compute in Hn; discriminate).
    + exists t_m2, [n_core_x]. split; [exact t_good2|]. intros a k data Ha Hi.
      assert (Ea : a = match OrgCode.unpack (text_of t_m2) with Ok a => a | Err _ => [] end) by (rewrite Ha; reflexivity). vm_compute in Ea. subst a. destruct Hi as [E|[E|[]]]; [discriminate|]. injection E as <- <-. exists m_body. split; [vm_compute; reflexivity|]. split; [vm_compute; reflexivity|]. intros (r & _ & Q). vm_compute in Q. discriminate.
    + exists t_m1, [n_core_x]. split; [exact t_good1|]. intros a k data Ha Hi.
      assert (Ea : a = match OrgCode.unpack (text_of t_m1) with Ok a => a | Err _ => [] end) by (rewrite Ha; reflexivity). vm_compute in Ea. subst a. destruct Hi as [E|[E|[]]]; discriminate.
  - intros p n b F [_ Hn]. apply t_found in F. destruct F as [E|[E|[E|[E|[]]]]]; injection E as <- <- <-; try (vm_compute in Hn; discriminate).
    exists t_doc, t_tree, t_tree, t_data, t_places. split; [exact t_good3|]. intros owner pl j Ho [<-|[]] Hw. discriminate.
  - exact t_no_conflict.
  - intros g (r & Hr & ->) (r2 & Hr2 & Q). vm_compute in Q. discriminate.
  - intros p n b k c g F G Hg Hw ->. destruct (t_gives_in F G) as (s & H1 & H2). destruct (found_fits F t_named) as [Hp Hn]. destruct (own_good t_dest Hp Hn) as [O1 O2].
    assert (Q : forall h, noslash h -> h <> [] -> written g = written h -> g = h) by (intros h Q1 Q2 Q3; apply written_inj; try assumption; destruct Hw as (r & Hr & ->); discriminate).
    assert (Q2 : written g <> written [[112]; [99;111;114;101]; [120;46;98;115;108]] /\ written g <> written [[112]; [99;111;114;101]; [98;46;101;108;101;109;46;106;115;111;110]]).
    { split; intros E; apply Q in E; try discriminate; try (repeat constructor; intros Hi; apply mem_ch_in in Hi; vm_compute in Hi; discriminate); subst g; destruct Hw as (r & _ & E); vm_compute in E; discriminate. }
    destruct Q2 as [Qa Qb]. destruct H1 as [E|[E|[E|[E|[]]]]]; injection E as <- <- <-;
      repeat (destruct H2 as [H2|H2]; [apply pair_equal_spec in H2; destruct H2 as [H2 _]; first [apply Q; [exact O1|exact O2|symmetry; exact H2] | exfalso; apply Qa; symmetry; exact H2 | exfalso; apply Qb; symmetry; exact H2]|]); destruct H2.
  - intros p n b k c g F G Hg (r & Hr & ->) ->. destruct r as [|x r]; [congruence|]. destruct (t_gives_in F G) as (s & H1 & H2).
    destruct H1 as [E|[E|[E|[E|[]]]]]; injection E as <- <- <-; repeat (destruct H2 as [H2|H2]; [injection H2 as E _; vm_compute in E; discriminate|]); destruct H2.
  - vm_compute. reflexivity.
  - vm_compute. reflexivity.
  - exact t_holds.
Qed.

(** *** The same folder with an index *)
Definition i_sf : disk := Eval vm_compute in match iassemble Posix (JDict i_index) 9 (@rev entry) (@rev write) t_dest t_out i_done with Ok s => s | Err _ => [] end.
Lemma i_sf_keys : forallb (fun e => existsb (fun f => str_eqb (fst e) (written (enter [] t_out ++ fst (fst f) ++ [snd (fst f)])) && str_eqb (snd e) (snd f)) t_back_files || (match below t_out (fst e) with None => true | Some _ => false end)) i_sf = true.
Proof. vm_compute. reflexivity. Qed.
Lemma i_sf_vals : forallb (fun f => match dget (written (enter [] t_out ++ fst (fst f) ++ [snd (fst f)])) i_sf with Some b => str_eqb b (snd f) | None => false end) t_back_files = true.
Proof. vm_compute. reflexivity. Qed.
Lemma i_holds : holds_folder i_sf (enter [] t_out) t_src_back.
Proof.
  split; [exact t_back_named|]. intros p n b Hn Hp. rewrite t_back_found. split.
  - intros Hi. pose proof i_sf_vals as V. rewrite forallb_forall in V. specialize (V _ Hi). cbn [fst snd] in V. destruct (dget _ i_sf) as [b'|]; [|discriminate]. apply str_eqb_spec in V. subst b'. reflexivity.
  - intros Hd. apply dget_in in Hd. pose proof i_sf_keys as V. rewrite forallb_forall in V. specialize (V _ Hd). cbn [fst snd] in V. destruct (own_good t_out Hp Hn) as [O1 O2]. apply orb_true_iff in V. destruct V as [V|V].
    + apply existsb_exists in V. destruct V as ([[p0 n0] b0] & Hi & V). cbn [fst snd] in V. apply andb_true_iff in V. destruct V as [V1 V2]. apply str_eqb_spec in V1, V2. subst b0.
      assert (Hf : found t_src_back p0 n0 b) by (apply t_back_found; exact Hi). destruct (found_fits Hf t_back_named) as [Hp0 Hn0]. destruct (own_good t_out Hp0 Hn0) as [O3 O4].
      apply written_inj in V1; try assumption. apply app_inv_head in V1. apply snoc_inj in V1. destruct V1 as [<- <-]. exact Hi.
    + exfalso. assert (W : within (enter [] t_out) (enter [] t_out ++ p ++ [n])) by (exists (p ++ [n]); split; [destruct p; discriminate|reflexivity]).
      apply (below_in t_out O1 O2) in W. destruct W as (r & W). rewrite W in V. discriminate.
Qed.
Example C94_index_case : exists s2, iorganize Posix (JDict i_index) 9 (fun l => l) (fun l => l) t_dest t_src_back i_sf = Ok s2 /\ forall g, Forall (fun e => ~ In 47 e) g -> g <> [] -> dget (written g) s2 = dget (written g) i_sf.
Proof.
  apply (@C94_index_extract_build_extract Posix i_index [] 9 (@rev write) (@rev write) (@rev entry) (@rev write) (fun l => l) (fun l => l) t_dest t_out t_src t_src_back t_st i_done i_sf t_named i_fits); try apply rev_reorders; try apply id_reorders.
  - apply nodup_strs. vm_compute. reflexivity.
  - intros p n b F Hn. apply t_found in F. destruct F as [E|[E|[E|[E|[]]]]]; injection E as <- <- <-; try (vm_compute in Hn; discriminate).
    + exists t_m2, [n_core_x]. split; [split; [exact t_good2|exact i_apart2]|]. intros a k data Ha Hi.
      assert (Ea : a = match OrgCode.unpack (text_of t_m2) with Ok a => a | Err _ => [] end) by (rewrite Ha; reflexivity). vm_compute in Ea. subst a. destruct Hi as [E|[E|[]]]; [discriminate|]. injection E as <- <-. exists m_body. split; [vm_compute; reflexivity|]. split; [vm_compute; reflexivity|]. intros (r & _ & Q). vm_compute in Q. discriminate.
    + exists t_m1, [n_core_x]. split; [split; [exact t_good1|exact i_apart1]|]. intros a k data Ha Hi.
      assert (Ea : a = match OrgCode.unpack (text_of t_m1) with Ok a => a | Err _ => [] end) by (rewrite Ha; reflexivity). vm_compute in Ea. subst a. destruct Hi as [E|[E|[]]]; discriminate.
  - intros p n b F [_ Hn]. apply t_found in F. destruct F as [E|[E|[E|[E|[]]]]]; injection E as <- <- <-; try (vm_compute in Hn; discriminate).
    exists t_doc, t_tree, t_tree, t_data, t_places. split; [split; [exact t_good3|exact i_apart3]|]. intros owner pl j Ho [<-|[]] Hw. discriminate.
  - exact i_no_conflict.
  - exact t_apart.
  - intros p n b k c g F G Hg Hw Ek. destruct (i_gives_in F G) as (s & H1 & H2). 
    assert (Q : forall h, noslash h -> h <> [] -> written g = written h -> g = h) by (intros h Q1 Q2 Q3; apply written_inj; try assumption; destruct Hw as (r & Hr & ->); discriminate).
    assert (Q2 : forall h, noslash h -> in_srcb h = false -> h <> [] -> k <> written h).
    { intros h Hs H3 Hne E. rewrite Ek in E. apply Q in E; try assumption. subst g. destruct Hw as (r & _ & ->). vm_compute in H3. discriminate. }
    assert (Hin : k = u "/p/src/m2.bsl" /\ p = [] /\ n = n_m2).
    { destruct H1 as [E|[E|[E|[E|[]]]]]; injection E as <- <- <-;
      repeat (destruct H2 as [H2|H2]; [apply pair_equal_spec in H2; destruct H2 as [H2 _]; first [split; [symmetry; exact H2|split; reflexivity] | exfalso; symmetry in H2; revert H2; match goal with |- k = ?x -> False => change (k <> written (split_ch 47 (tl x))) end; apply Q2; [repeat (apply Forall_cons; [intros Hi; apply mem_ch_in in Hi; vm_compute in Hi; discriminate|]); apply Forall_nil|vm_compute; reflexivity|discriminate]]|]); destruct H2. }
    destruct Hin as (Hk & -> & ->). split; [exact i_unmoved|]. destruct (found_fits F t_named) as [Hp Hn]. destruct (own_good t_dest Hp Hn) as [O1 O2]. apply Q; [exact O1|exact O2|]. rewrite <- Ek, Hk. vm_compute. reflexivity.
  - intros p n b k c g F G Hg (r & Hr & ->) ->. destruct r as [|x r]; [congruence|]. destruct (i_gives_in F G) as (s & H1 & H2).
    destruct H1 as [E|[E|[E|[E|[]]]]]; injection E as <- <- <-; repeat (destruct H2 as [H2|H2]; [injection H2 as E _; vm_compute in E; discriminate|]); destruct H2.
  - vm_compute. reflexivity.
  - vm_compute. reflexivity.
  - exact i_holds.
Qed.
