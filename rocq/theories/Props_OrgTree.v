(** C81, C82: a whole folder of sources.  Model: OrgTree.v.  Vocabulary: Spec_OrgTree.v. *)
From Coq Require Import String Permutation Lia.
From Verif Require Import PyBase PyText Paths Utf JsonText JsonObj Pipeline UpdateDictProofs Spec_Code OrgCode OrgCodeProofs OrgCodePaths OrgForm Spec_OrgForm Spec_OrgTree OrgTree OrgTreePaths OrgTreeProofs OrgTreeElems OrgTreeMain OrgTreeCase Props_Code Props_OrgForm.
Set Implicit Arguments.
Open Scope string_scope.
Open Scope list_scope.
Open Scope N_scope.

(** what the extraction of a folder with only this file writes on an empty disk *)
Definition gives os table fuel dest (p : list (list N)) (n b k c : list N) : Prop :=
  exists s, organize os table fuel (fun x => x) (fun x => x) dest (single p n b) [] = Ok s /\ dget k s = Some c.
(** two files of the folder never give one file with different contents *)
Definition no_conflict os table fuel dest src : Prop := forall p n b p' n' b' k c c',
  found src p n b -> found src p' n' b' -> gives os table fuel dest p n b k c -> gives os table fuel dest p' n' b' k c' -> c = c'.

(** ** C81: extraction and build of a folder of sources *)
Theorem C81_sources_restored : forall os table fuel ordc orde ordl ordw dest dest2 src st st',
  let D := enter [] dest in let D2 := enter [] dest2 in
  well_named src -> NoDup (map fst st) -> reorders ordc -> reorders orde -> reorders ordl -> reorders ordw ->
  (* every module can be split, and its read-only areas are there *)
  (forall p n b, found src p n b -> module_name n -> exists m ns, good_module os table fuel dest p n b m ns /\
     forall a k data, OrgCode.unpack (text_of m) = Ok a -> In (k, (data, Some Includr)) a ->
     let f := include_file table false D (join [47] p) k in exists bs, text_file os data bs /\ dget (written f) st' = Some bs /\ ~ within D2 f) ->
  (* every form can be split, and its read-only areas are there *)
  (forall p n b, found src p n b -> elements_name n -> exists d tree treew data places, good_elements table dest p n b d tree treew data places /\
     forall owner pl j, unpack_docs fuel (Jobj (dset fe_tree (Jlist treew) d)) = Ok owner -> In pl places -> p_written pl = false -> In (p_name pl, j) owner ->
     let f := include_with s_elem table D (join [47] p) (p_name pl) in exists bs j', dget (written f) st' = Some bs /\ json_file bs j' /\ same_document j j' /\ distinct_data j' /\ ~ within D2 f) ->
  no_conflict os table fuel dest src ->
  (* the files of areas are not among the sources, and nothing extracted lies in the folder that the build clears *)
  (forall p n b k c g, found src p n b -> gives os table fuel dest p n b k c -> Forall (fun e => ~ In 47 e) g -> within D g -> k = written g -> g = D ++ p ++ [n]) ->
  (forall p n b k c g, found src p n b -> gives os table fuel dest p n b k c -> Forall (fun e => ~ In 47 e) g -> within D2 g -> k <> written g) ->
  organize os table fuel ordc orde dest src st = Ok st' ->
  exists sf, assemble os table fuel ordl ordw dest dest2 st' = Ok sf /\
    (forall p n b, found src p n b -> exists b', dget (written (D2 ++ p ++ [n])) sf = Some b' /\ restored n b b') /\
    (forall g, within D2 g -> Forall (fun e => ~ In 47 e) g -> dget (written g) sf <> None -> exists p n b, found src p n b /\ g = D2 ++ p ++ [n]) /\
    (forall g, Forall (fun e => ~ In 47 e) g -> g <> [] -> ~ within D2 g -> dget (written g) sf = dget (written g) st').
Proof.
  intros os table fuel ordc orde ordl ordw dest dest2 src st st' D D2 Hwn Hst Hoc Hoe Hol How Hm He Hag Ho Ho2 H.
  refine (@assembled os table fuel dest dest2 src Hwn ordc orde st st' _ _ _ Hoc Hoe Hst H _ _ Hm He ordl ordw Hol How).
  - intros p n b Hf Hn. destruct (Hm p n b Hf Hn) as (m & ns & Q & _). exists m, ns. exact Q.
  - intros p n b Hf Hn. destruct (He p n b Hf Hn) as (d & tree & treew & data & places & Q & _). exists d, tree, treew, data, places. exact Q.
  - intros p n b s p' n' b' s' k c c' F F' A A' K K'. refine (@Hag p n b p' n' b' k c c' F F' _ _); eexists; (split; eassumption).
  - intros p n b s k c g F A K. apply (@Ho p n b k c g F). eexists. split; eassumption.
  - intros p n b s k c g F A K. apply (@Ho2 p n b k c g F). eexists. split; eassumption.
Qed.
Print Assumptions C81_sources_restored.

(** ** C82: what extraction leaves, whatever order the processes work in *)
Theorem C82_extraction_deterministic : forall os table fuel ordc orde dest src st st',
  let D := enter [] dest in
  well_named src -> NoDup (map fst st) -> reorders ordc -> reorders orde ->
  (forall p n b, found src p n b -> module_name n -> exists m ns, good_module os table fuel dest p n b m ns) ->
  (forall p n b, found src p n b -> elements_name n -> exists d tree treew data places, good_elements table dest p n b d tree treew data places) ->
  no_conflict os table fuel dest src ->
  organize os table fuel ordc orde dest src st = Ok st' ->
  (forall p n b k c, found src p n b -> gives os table fuel dest p n b k c -> dget k st' = Some c) /\
  (forall g, Forall (fun e => ~ In 47 e) g -> g <> [] -> (forall p n b c, found src p n b -> ~ gives os table fuel dest p n b (written g) c) ->
     (within D g -> dget (written g) st' = None) /\ (~ within D g -> dget (written g) st' = dget (written g) st)) /\
  (forall ordc' orde', reorders ordc' -> reorders orde' -> exists st1, organize os table fuel ordc' orde' dest src st = Ok st1 /\ forall k, dget k st1 = dget k st').
Proof.
  intros os table fuel ordc orde dest src st st' D Hwn Hst Hoc Hoe Hm He Hag H.
  assert (Hag' : forall p n b s p' n' b' s' k c c', found src p n b -> found src p' n' b' -> alone os table fuel dest p n b s -> alone os table fuel dest p' n' b' s' -> dget k s = Some c -> dget k s' = Some c' -> c = c').
  { intros p n b s p' n' b' s' k c c' F F' A A' K K'. refine (@Hag p n b p' n' b' k c c' F F' _ _); eexists; (split; eassumption). }
  split; [|split].
  - intros p n b k c F (s & A & K). apply (@extracted_get os table fuel dest src Hwn ordc orde st st' Hm He Hag' Hoc Hoe H). exists p, n, b, s. split; [exact F|split; [exact A|exact K]].
  - intros g G1 G2 Hg. assert (E : dget (written g) st' = dget (written g) (clear_dir dest st)).
    { apply (@extracted_other os table fuel dest src Hwn ordc orde st st' Hm He Hag' Hoc Hoe H). intros p n b s F A. destruct (dget (written g) s) as [c|] eqn:K; [|reflexivity]. exfalso. apply (Hg p n b c F). exists s. split; assumption. }
    rewrite E. split; intros Hw.
    + apply (below_in dest G1 G2) in Hw. destruct Hw as (r & Hr). destruct (dget (written g) (clear_dir dest st)) as [x|] eqn:Ed; [|reflexivity]. apply dget_in, clear_in in Ed. destruct Ed as [_ Ed]. congruence.
    + apply clear_same; [exact Hst|]. destruct (below dest (written g)) eqn:Eb; [|reflexivity]. exfalso. apply Hw. apply (below_in dest G1 G2). eexists. exact Eb.
  - intros ordc' orde' Hc' He'. destruct (@organize_any os table fuel ordc orde ordc' orde' dest src st st' H) as (st1 & H1). exists st1. split; [exact H1|].
    destruct (@extracted os table fuel dest src Hwn ordc orde st st' Hm He Hag' Hoc Hoe H) as (ws & -> & A & W & _). destruct (@extracted os table fuel dest src Hwn ordc' orde' st st1 Hm He Hag' Hc' He' H1) as (ws1 & -> & A1 & W1 & _).
    apply same_writes; [exact A1|exact A|]. intros [k c]. rewrite W, W1. reflexivity.
Qed.
Print Assumptions C82_extraction_deterministic.

(** ** A case *)
(** what each file of the folder gives *)
Definition t_gives (p : list (list N)) (n b : list N) : disk := match organize Posix [] 9 (fun x => x) (fun x => x) t_dest (single p n b) [] with Ok s => s | Err _ => [] end.
Definition t_all : list (list N * list (list N) * disk) := Eval vm_compute in map (fun f => let '(p, n, b) := f in (n, p, t_gives p n b)) t_files.
Example C81_case_writes : map (fun e => map fst (snd e)) t_all = [[u "/p/src/a.txt"]; [u "/p/src/m2.bsl"]; [u "/p/src/F/m1.bsl"; u "/p/core/x.bsl"]; [u "/p/core/b.elem.json"; u "/p/src/F/f.elem.json"]].
Proof. vm_compute. reflexivity. Qed.
Lemma t_gives_in p n b k c : found t_src p n b -> gives Posix [] 9 t_dest p n b k c -> exists s, In (n, p, s) t_all /\ In (k, c) s.
Proof.
  intros Hf (s & Hs & Hk). apply t_found in Hf. apply dget_in in Hk. exists s. split; [|exact Hk].
  assert (Hg : t_gives p n b = s) by (unfold t_gives; rewrite Hs; reflexivity). rewrite <- Hg. change t_all with (map (fun f => let '(p, n, b) := f in (n, p, t_gives p n b)) t_files). apply in_map_iff. exists (p, n, b). split; [reflexivity|exact Hf].
Qed.
Lemma t_no_conflict : no_conflict Posix [] 9 t_dest t_src.
Proof.
  intros p n b p' n' b' k c c' F F' G G'. destruct (t_gives_in F G) as (s & H1 & H2). destruct (t_gives_in F' G') as (s' & H1' & H2').
  apply (@nodup_fst_in _ (concat (map snd t_all)) k c c'); [apply nodup_strs; vm_compute; reflexivity| |]; apply in_concat; [exists s|exists s']; (split; [|assumption]); apply in_map_iff; [exists (n, p, s)|exists (n', p', s')]; (split; [reflexivity|assumption]).
Qed.
Definition t_done : disk := Eval vm_compute in match organize Posix [] 9 (@rev write) (@rev write) t_dest t_src t_st with Ok s => s | Err _ => [] end.
Lemma rev_reorders A : reorders (@rev A). Proof. intros l. apply Permutation_rev. Qed.
Lemma id_reorders A : reorders (fun l : list A => l). Proof. intros l. apply Permutation_refl. Qed.
(** the conditions of C81 hold of it *)
Example C81_case : exists sf, assemble Posix [] 9 (@rev entry) (@rev write) t_dest t_out t_done = Ok sf /\
  (forall p n b, found t_src p n b -> exists b', dget (written (enter [] t_out ++ p ++ [n])) sf = Some b' /\ restored n b b').
Proof.
  destruct (@C81_sources_restored Posix [] 9 (@rev write) (@rev write) (@rev entry) (@rev write) t_dest t_out t_src t_st t_done t_named) as (sf & A & B & _); try apply rev_reorders.
  - apply nodup_strs. vm_compute. reflexivity.
  - intros p n b F Hn. apply t_found in F. destruct F as [E|[E|[E|[E|[]]]]]; injection E as <- <- <-; try (vm_compute in Hn; discriminate).
    + exists t_m2, [n_core_x]. split; [exact t_good2|]. intros a k data Ha Hi.
      assert (Ea : a = match OrgCode.unpack (text_of t_m2) with Ok a => a | Err _ => [] end) by (rewrite Ha; reflexivity). vm_compute in Ea. subst a. destruct Hi as [E|[E|[]]]; [discriminate|]. injection E as <- <-. exists m_body. split; [vm_compute; reflexivity|]. split; [vm_compute; reflexivity|]. intros (r & _ & Q). vm_compute in Q. discriminate.
    + exists t_m1, [n_core_x]. split; [exact t_good1|]. intros a k data Ha Hi.
      assert (Ea : a = match OrgCode.unpack (text_of t_m1) with Ok a => a | Err _ => [] end) by (rewrite Ha; reflexivity). vm_compute in Ea. subst a. destruct Hi as [E|[E|[]]]; discriminate.
  - intros p n b F [_ Hn]. apply t_found in F. destruct F as [E|[E|[E|[E|[]]]]]; injection E as <- <- <-; try (vm_compute in Hn; discriminate).
    exists t_doc, t_tree, t_tree, t_data, t_places. split; [exact t_good3|]. intros owner pl j Ho [<-|[]] Hw. discriminate.
  - exact t_no_conflict.
  - intros p n b k c g F G Hg Hw ->. destruct (t_gives_in F G) as (s & H1 & H2). destruct (found_fits F t_named) as [Hp Hn]. destruct (own_good t_dest Hp Hn) as [O1 O2].
    assert (Q : forall h, noslash h -> h <> [] -> written g = written h -> g = h) by (intros h Q1 Q2 Q3; apply written_inj; try assumption; destruct Hw as (r & Hr & ->); discriminate).
    assert (Q2 : written g <> written [[112]; [99;111;114;101]; [120;46;98;115;108]] /\ written g <> written [[112]; [99;111;114;101]; [98;46;101;108;101;109;46;106;115;111;110]]).
    { split; intros E; apply Q in E; try discriminate; try (repeat constructor; intros Hi; apply mem_ch_in in Hi; vm_compute in Hi; discriminate); subst g; destruct Hw as (r & _ & E); vm_compute in E; discriminate. }
    destruct Q2 as [Qa Qb]. destruct H1 as [E|[E|[E|[E|[]]]]]; injection E as <- <- <-;
      repeat (destruct H2 as [H2|H2]; [apply pair_equal_spec in H2; destruct H2 as [H2 _]; first [apply Q; [exact O1|exact O2|symmetry; exact H2] | exfalso; apply Qa; symmetry; exact H2 | exfalso; apply Qb; symmetry; exact H2]|]); destruct H2.
  - intros p n b k c g F G Hg (r & Hr & ->) ->. destruct r as [|x r]; [congruence|]. destruct (t_gives_in F G) as (s & H1 & H2).
    destruct H1 as [E|[E|[E|[E|[]]]]]; injection E as <- <- <-; repeat (destruct H2 as [H2|H2]; [injection H2 as E _; vm_compute in E; discriminate|]); destruct H2.
  - vm_compute. reflexivity.
  - exists sf. split; [exact A|exact B].
Qed.

(** ** What does not hold *)
Definition own_area (name body : string) : list N := the (utf8_encode (ln ("#Область include_" ++ name) ++ ln body ++ ln "#КонецОбласти")).
(** Two modules with one area of different texts: the area has the text of the process that came last, and the other module is
    built with a foreign text, without an error. *)
Definition clash_src : list (list N * tree) := Eval vm_compute in [(u "a.bsl", TFile (own_area "core_x" "X = 1;")); (u "b.bsl", TFile (own_area "core_x" "X = 2;"))].
Theorem C82_conflict_refuted : exists s1 s2 sf, organize Posix [] 9 (fun l => l) (fun l => l) t_dest clash_src [] = Ok s1 /\ organize Posix [] 9 (@rev write) (fun l => l) t_dest clash_src [] = Ok s2 /\
  dget (u "/p/core/x.bsl") s1 = Some (ln "X = 2;") /\ dget (u "/p/core/x.bsl") s2 = Some (ln "X = 1;") /\
  assemble Posix [] 9 (fun l => l) (fun l => l) t_dest t_out s1 = Ok sf /\ dget (u "/p/out/a.bsl") sf = Some (own_area "core_x" "X = 2;").
Proof. eexists. eexists. eexists. split; [vm_compute; reflexivity|]. split; [vm_compute; reflexivity|]. split; [vm_compute; reflexivity|]. split; [vm_compute; reflexivity|]. split; [vm_compute; reflexivity|]. vm_compute. reflexivity. Qed.
Print Assumptions C82_conflict_refuted.
(** The file of an area without underscore lies among the sources: the build takes it for a module of its own. *)
Definition inside_src : list (list N * tree) := Eval vm_compute in [(u "a.bsl", TFile (own_area "local" "X = 1;"))].
Theorem C81_area_among_sources_refuted : exists s1 sf, organize Posix [] 9 (fun l => l) (fun l => l) t_dest inside_src [] = Ok s1 /\ assemble Posix [] 9 (fun l => l) (fun l => l) t_dest t_out s1 = Ok sf /\
  dget (u "/p/out/a.bsl") sf = Some (own_area "local" "X = 1;") /\ dget (u "/p/out/local.bsl") sf = Some (ln "X = 1;").
Proof. eexists. eexists. split; [vm_compute; reflexivity|]. split; [vm_compute; reflexivity|]. split; vm_compute; reflexivity. Qed.
Print Assumptions C81_area_among_sources_refuted.
(** And if the area has the name of its module, its file replaces what is left of the module: the lines around the area are lost. *)
Definition self_src : list (list N * tree) := Eval vm_compute in [(u "a.bsl", TFile (own_area "a" "X = 1;"))].
Theorem C81_area_named_as_module_refuted : exists s1, organize Posix [] 9 (fun l => l) (fun l => l) t_dest self_src [] = Ok s1 /\ s1 = [(u "/p/src/a.bsl", ln "X = 1;")].
Proof. eexists. split; vm_compute; reflexivity. Qed.
Print Assumptions C81_area_named_as_module_refuted.
(** A file *.bsl comes back without its byte order mark, whatever it is: a module does not need it, a template named so does. *)
Definition marked_src : list (list N * tree) := Eval vm_compute in [(u "Template.bsl", TFile (bom ++ ln "X = 1;"))].
Theorem C81_mark_kept_refuted : exists s1 sf, organize Posix [] 9 (fun l => l) (fun l => l) t_dest marked_src [] = Ok s1 /\ assemble Posix [] 9 (fun l => l) (fun l => l) t_dest t_out s1 = Ok sf /\
  dget (u "/p/out/Template.bsl") sf = Some (ln "X = 1;") /\ bom ++ ln "X = 1;" <> ln "X = 1;".
Proof. eexists. eexists. split; [vm_compute; reflexivity|]. split; [vm_compute; reflexivity|]. split; [vm_compute; reflexivity|vm_compute; discriminate]. Qed.
Print Assumptions C81_mark_kept_refuted.
(** And if it is no text in UTF-8, nothing is extracted. *)
Definition binary_src : list (list N * tree) := Eval vm_compute in [(u "Template.bsl", TFile [255; 254])].
Theorem C81_binary_module_name_refuted : organize Posix [] 9 (fun l => l) (fun l => l) t_dest binary_src [] = Err ExtExc.
Proof. vm_compute. reflexivity. Qed.
Print Assumptions C81_binary_module_name_refuted.
