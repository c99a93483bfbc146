(** The header tree of a root through extraction and build (Root.v). *)
From Coq Require Import String Permutation.
From Verif Require Import PyBase PyInt PyText Utf Brace Spec_Brace BraceMore JsonText JsonTextProofs JsonObj Header Pipeline Spec_Stage ObjCode Spec_Obj Payload PayloadProofs MetaObj Spec_MetaObj MetaObjBase MetaObjGood MetaObjMain ClassesProofs UpdateDictProofs
  Container ContainerProofs Spec_Container EncodeLoop EncodeLoopProofs Spec_Encode EncodeLoopMain Types Include Spec_Include IncludeProofs IncludeMain Tree Spec_Tree TreeProofs TreeBuild Classes MetaObj Real Spec_Real RealProofs RealMain Root Spec_Root RootLists.
Set Implicit Arguments.
Open Scope list_scope.
Open Scope N_scope.

(** the three shapes; [ty], [b]: data[0][3][0] and data[0][3][1][1] *)
Inductive has_lists : rkind -> list val -> list inc -> val -> val -> Prop :=
| hl_groups k r0 r1 count m ms more rest : k <> RProc -> int_of_str count = Ok (Z.of_nat (length (m :: ms))) -> Forall mgroup_ok (m :: ms) -> m_wrap m = None ->
    has_lists k (groups_tree r0 r1 count (m :: ms) more rest) (map m_inc (m :: ms)) (VStr (m_id m)) (n_b (m_inc m))
| hl_proc x0 x1 x2 ty i t3 t0 rest : inc_ok i -> has_lists RProc (proc_tree x0 x1 x2 ty i t3 t0 rest) [i] ty (n_b i).

Lemma scal_cons x l : scal (VList (x :: l)) <-> scal x /\ scal (VList l).
Proof.
  split.
  - intros H. split; [eapply scal_list_in; [exact H|left; reflexivity]|]. apply scal_list, Forall_forall. intros y Hy. eapply scal_list_in; [exact H|right; exact Hy].
  - intros [H1 H2]. apply scal_list. constructor; [exact H1|]. apply Forall_forall. intros y Hy. eapply scal_list_in; eassumption.
Qed.
Lemma scal_app a b : scal (VList (a ++ b)) <-> scal (VList a) /\ scal (VList b).
Proof.
  split.
  - intros H. split; apply scal_list, Forall_forall; intros y Hy; (eapply scal_list_in; [exact H|]); apply in_or_app; auto.
  - intros [H1 H2]. apply scal_list, Forall_forall. intros y Hy. apply in_app_or in Hy. destruct Hy as [Hy|Hy]; [exact (scal_list_in _ _ H1 Hy)|exact (scal_list_in _ _ H2 Hy)].
Qed.
Lemma scal_forall_list l : scal (VList l) <-> Forall scal l.
Proof. split; [|apply scal_list]. intros H. apply Forall_forall. intros x Hx. eapply scal_list_in; eassumption. Qed.
Lemma inc_with_scal i ss ss' : scal (inc_with i ss) -> Forall scal ss' -> scal (inc_with i ss').
Proof. unfold inc_with. rewrite !scal_cons, !scal_app, !scal_forall_list. tauto. Qed.
Lemma inc_scal_slots i ss : scal (inc_with i ss) -> Forall scal ss.
Proof. unfold inc_with. rewrite !scal_cons, !scal_app, !scal_forall_list. tauto. Qed.
Lemma mval_scal g ss : scal (mval (g, ss)) <-> scal (mval (g, [])) /\ scal (inc_with (m_inc g) ss).
Proof.
  assert (E : scal (inc_with (m_inc g) ss) -> scal (inc_with (m_inc g) [])) by (intros H; eapply inc_with_scal; [exact H|constructor]).
  unfold mval, put_inc. cbn [fst snd]. destruct (m_wrap g); rewrite !scal_cons; tauto.
Qed.

Section T.
Variable os : platform.
Variable alnum : N -> bool.
Variable valid : list N -> bool.
Variable lower : list N -> list N.
Variable auto : bool.
Variable src : folder.
Notation inner := (inner_of os alnum valid src).
Notation object := (object folder written).
Notation made := (made os alnum valid src).
Notation kid_groups := (list (list N * list (child (list N * folder)))).
Notation root_includes := (root_includes os alnum valid auto).
Notation root_fill := (root_fill lower auto).
Notation includes := (dec_include auto inner).

Definition matching (idx : option (tindex val)) (xs : list item) : Prop := forall t, Permutation (match idx with Some d => of_type d t | None => [] end) (it_entries t xs).

Lemma kids_nonempty ss : forall ss' (kss : kid_groups), dec_slots auto inner ss = Ok (ss', kss) -> Forall (fun g => snd g <> []) kss.
Proof.
  induction ss as [|s ss IH]; intros ss' kss H; [injection H as <- <-; constructor|]. cbn [dec_slots] in H. destruct (dec_slot auto inner s) as [[s2 k]|] eqn:E; [|discriminate]. cbn [bind] in H.
  destruct (dec_slots auto inner ss) as [[r ks]|]; [|discriminate]. injection H as <- <-. apply Forall_app. split; [|eapply IH; reflexivity]. clear - E.
  destruct s as [| |[|ty [|[|c|] rest]]]; try discriminate. unfold dec_slot in E. destruct (int_of_str c) as [n|]; [|discriminate]. destruct (type_of ty) as [t|].
  - cbv zeta in E. destruct (length rest <? Z.to_nat n)%nat; [discriminate|]. destruct (dec_objs auto inner t (firstn (Z.to_nat n) rest)) as [[os0 ks]|]; [|discriminate]. cbn [bind] in E.
    destruct ks as [|x ks]; injection E as _ <-; [constructor|]. constructor; [discriminate|constructor].
  - destruct (n =? 0)%Z; [injection E as _ <-; constructor|]. destruct rest; [discriminate|]. injection E as _ <-; constructor.
Qed.
Lemma flat_kids_nil (kss : kid_groups) : Forall (fun g => snd g <> []) kss -> flat_kids kss = [] -> kss = [].
Proof. destruct kss as [|[t ks] r]; [reflexivity|]. intros H E. inversion H as [|? ? H1 _]; subst. cbn [snd] in H1. destruct ks; [congruence|discriminate]. Qed.
Lemma entry_exists x xs : In x xs -> it_entries (it_type x) xs <> [].
Proof.
  intros Hi E. unfold it_entries in E. assert (H : In x (filter (fun y => str_eqb (it_type x) (it_type y)) xs)) by (apply filter_In; split; [exact Hi|apply str_eqb_refl]).
  destruct (filter (fun y => str_eqb (it_type x) (it_type y)) xs); [destruct H|discriminate].
Qed.

Lemma all_files_no_inner xs (os' : list object) (kss : kid_groups) : Forall2 made xs os' -> (forall x, In x xs -> it_inner x = false) -> flat_kids kss = map (@child_of _ _) os' ->
  forall g, In g kss -> all_files_kids (snd g).
Proof.
  intros Hm Hi E [t ks] Hg k Hk. cbn [snd] in Hk.
  assert (H : In (t, k) (flat_kids kss)) by (apply in_flat_map; exists (t, ks); split; [exact Hg|apply in_map; exact Hk]).
  rewrite E in H. apply in_map_iff in H. destruct H as (o & Eo & Ho).
  assert (Hx : o_inner o = false). { clear - Hm Hi Ho. induction Hm as [|x o' xs os' H Hr IH]; [destruct Ho|]. destruct Ho as [<-|Ho]; [rewrite (md_inner H); apply Hi; left; reflexivity|]. apply IH; [intros y Hy; apply Hi; right; exact Hy|exact Ho]. }
  unfold child_of in Eo. rewrite Hx in Eo. assert (k = CFile _ (o_uuid o)) as -> by congruence. eauto.
Qed.

Lemma lists_through k data incs ty b xs (os' : list object) : has_lists k data incs ty b -> lists_name os alnum valid auto src incs xs -> Forall2 made xs os' -> different lower xs -> scal (VList data) ->
  exists tree ks, root_includes k src (VList data) = Ok (tree, ks) /\ flat_kids ks = map (@child_of _ _) os' /\ scal tree /\ vat [0; 3; 0]%nat tree = Ok ty /\ vat [0; 3; 1; 1]%nat tree = Ok b /\
    vat [0; 3; 0]%nat (VList data) = Ok ty /\ vat [0; 3; 1; 1]%nat (VList data) = Ok b /\ forall idx, matching idx xs -> root_fill k idx tree = Ok (VList data).
Proof.
  intros Hl (L1 & L2 & L3) Hm Hd Sd.
  assert (Hincs : Forall inc_ok incs).
  { destruct Hl as [k r0 r1 count m ms more rest Hk Hc Hg Hw|]; [|constructor; [assumption|constructor]]. apply Forall_forall. intros i Hi. apply in_map_iff in Hi. destruct Hi as (g & <- & Hg2). rewrite Forall_forall in Hg. apply (Hg g Hg2). }
  destruct (@listed_lists os alnum valid lower auto src incs xs os' L1 L2 Hm Hd Hincs) as (rs & R1 & R2 & R3 & R4 & R5).
  pose proof (all_files_no_inner _ Hm L3 R2) as Hfiles.
  assert (Same : auto = false \/ xs = [] -> Forall2 (fun i r => fst r = map group_val (n_gs i)) incs rs).
  { intros Ha. assert (Hn : xs = [] -> concat (map snd rs) = []).
    { intros ->. inversion Hm; subst. apply flat_kids_nil; [|exact R2]. clear - R1. induction R1 as [|i r incs rs (_ & H & _) Hr IH]; [constructor|]. cbn [map concat]. apply Forall_app. split; [|exact IH]. destruct r as [ss ks]. eapply kids_nonempty; exact H. }
    clear R2 R3 R4 R5 Hl L1 L2 Hincs. induction R1 as [|i [ss ks] incs rs (H1 & H2 & H3) Hr IH]; [constructor|]. cbn [fst snd] in *. cbn [map concat snd] in *. constructor.
    - destruct Ha as [->|Ha]; [|apply H3; specialize (Hn Ha); apply app_eq_nil in Hn; apply Hn]. cbn [fst]. eapply dec_slots_same; [exact H2|]. intros g Hg. apply Hfiles. apply in_or_app. left. exact Hg.
    - apply IH; [intros g Hg; apply Hfiles; apply in_or_app; right; exact Hg|]. intros E. specialize (Hn E). apply app_eq_nil in Hn. apply Hn. }
  assert (Fill : forall idx, matching idx xs -> (exists d, auto = true /\ idx = Some d /\ d <> [] /\ Forall2 (fun i r => vfill_include lower d (inc_with i (fst r)) = Ok (inc_val i)) incs rs) \/
      ((forall tree, root_fill k idx tree = Ok tree) /\ Forall2 (fun i r => fst r = map group_val (n_gs i)) incs rs)).
  { intros idx Hx.
    assert (E0 : (forall t, Permutation [] (it_entries t xs)) -> xs = []).
    { intros Ht. destruct xs as [|x xs0] eqn:E; [reflexivity|]. exfalso. specialize (Ht (it_type x)). apply Permutation_nil in Ht. exact (@entry_exists x (x :: xs0) (or_introl eq_refl) Ht). }
    destruct auto; [|right; split; [intros tree; reflexivity|apply Same; left; reflexivity]].
    destruct idx as [[|e d]|].
    - right. split; [intros tree; reflexivity|]. apply Same. right. apply E0. intros t. apply (Hx t).
    - left. exists (e :: d). split; [reflexivity|]. split; [reflexivity|]. split; [discriminate|]. apply R5. intros t _. apply (Hx t).
    - right. split; [intros tree; reflexivity|]. apply Same. right. apply E0. intros t. apply (Hx t). }
  clear Same. destruct Hl as [k r0 r1 count m ms more rest Hk Hc Hg Hw|x0 x1 x2 ty i t3 t0 rest Hi].
  - set (gs := m :: ms) in *. set (ps := map plain_pair gs).
    assert (Ed : VList (groups_tree r0 r1 count gs more rest) = tree_with r0 r1 count ps more rest) by (symmetry; apply tree_with_plain).
    assert (F1 : Forall2 (fun p r => mgroup_ok (fst p) /\ includes (inc_with (m_inc (fst p)) (snd p)) = Ok (inc_with (m_inc (fst p)) (fst r), snd r)) ps rs).
    { unfold ps. clear - R1 Hg. revert rs R1 Hg. induction gs as [|g gs IH]; intros rs R1 Hg; inversion R1 as [|? r ? rs' (A & B & C) Hr]; subst; [constructor|]. apply Forall_cons_iff in Hg. destruct Hg as [Hg1 Hg2]. constructor; [|apply IH; assumption]. cbn [plain_pair fst snd]. split; [exact Hg1|]. exact A. }
    assert (Lr : length ps = length rs) by (clear - F1; induction F1; cbn [length]; congruence).
    assert (Lps : length ps = length gs) by apply map_length.
    assert (Fps : map fst ps = gs) by (unfold ps; rewrite map_map; apply map_id).
    assert (Hc' : int_of_str count = Ok (Z.of_nat (length ps))) by (rewrite Lps; exact Hc).
    pose proof (@in_root_ok _ includes r0 r1 count ps rs more rest Hc' F1) as I1. rewrite Fps in I1.
    set (ps2 := combine gs (map fst rs)) in *. set (tree2 := tree_with r0 r1 count ps2 more rest) in *.
    exists tree2, (concat (map snd rs)).
    assert (Er : exists r rs', rs = r :: rs') by (destruct rs as [|r rs']; [rewrite Lps in Lr; discriminate|eauto]).
    split. { unfold Root.root_includes. destruct k; try contradiction; rewrite Ed, I1; cbn [bind]; rewrite (proj2 (nodup_names_ok _) R3); reflexivity. }
    split; [exact R2|]. split.
    { rewrite Ed in Sd. unfold tree2. unfold tree_with in *. rewrite !scal_cons, !scal_app in *. destruct Sd as ((A1 & A2 & A3 & A4 & A5) & A6). split; [split; [exact A1|split; [exact A2|split; [exact A3|split; [|exact A5]]]]|exact A6].
      clear - F1 A4 R1 Fps. unfold ps2. rewrite <- Fps. clear Fps ps2. rewrite scal_forall_list in A4 |- *. 
      assert (R2 : Forall2 (fun p r => dec_slots auto inner (snd p) = Ok r) ps rs).
      { unfold ps. clear - R1. revert rs R1. induction gs as [|g gs IH]; intros rs R1; inversion R1 as [|? r ? rs' (A & B & C) Hr]; subst; [constructor|]. constructor; [exact B|]. apply IH. exact Hr. }
      clear R1 F1. revert A4 R2. generalize ps. clear. intros ps A4 R2. induction R2 as [|[g ss] [ss' ks] ps rs H Hr IH]; [constructor|]. cbn [map combine fst snd] in *. apply Forall_cons_iff in A4. destruct A4 as [A1 A2]. constructor; [|apply IH; exact A2].
      apply mval_scal in A1. destruct A1 as [A1 A3]. apply mval_scal. split; [exact A1|]. eapply inc_with_scal; [exact A3|]. eapply dec_slots_scal; [apply inner_texts|eapply inc_scal_slots; exact A3|exact H]. }
    destruct Er as (r & rs' & Er).
    assert (V : forall ss, vat [0; 3; 0]%nat (tree_with r0 r1 count ((m, ss) :: combine ms (map fst rs')) more rest) = Ok (VStr (m_id m)) /\ vat [0; 3; 1; 1]%nat (tree_with r0 r1 count ((m, ss) :: combine ms (map fst rs')) more rest) = Ok (n_b (m_inc m))).
    { intros ss. unfold tree_with, mval, put_inc. cbn [map fst snd app]. rewrite Hw. split; reflexivity. }
    split. { unfold tree2, ps2, gs. rewrite Er. cbn [map combine]. apply V. } split. { unfold tree2, ps2, gs. rewrite Er. cbn [map combine]. apply V. }
    split; [reflexivity|]. split. { unfold groups_tree, gs, mgroup_val. cbn [map app]. rewrite Hw. reflexivity. }
    intros idx Hx. destruct (Fill idx Hx) as [(d & -> & -> & Hd0 & Hf)|[Hf Hs]].
    + assert (F2 : Forall2 (fun p r => mgroup_ok (fst p) /\ (fun j => j <- vfill_include lower d j ;; Ok (j, tt)) (inc_with (m_inc (fst p)) (snd p)) = Ok (inc_with (m_inc (fst p)) (fst r), snd r)) ps2 (map (fun g => (map group_val (n_gs (m_inc g)), tt)) gs)).
      { unfold ps2. clear - Hf Hg. revert rs Hf Hg. induction gs as [|g gs IH]; intros rs Hf Hg; inversion Hf as [|? r ? rs' A Hr]; subst; [constructor|]. apply Forall_cons_iff in Hg. destruct Hg as [Hg1 Hg2]. cbn [map combine]. constructor; [|apply IH; assumption].
        cbn [fst snd]. split; [exact Hg1|]. rewrite A. reflexivity. }
      assert (Lr2 : length ps2 = length gs) by (unfold ps2; rewrite combine_length, map_length; lia).
      assert (Hc2 : int_of_str count = Ok (Z.of_nat (length ps2))) by (rewrite Lr2; exact Hc).
      pose proof (@in_root_ok _ _ r0 r1 count ps2 _ more rest Hc2 F2) as I2.
      assert (Fps2 : map fst ps2 = gs). { unfold ps2. rewrite <- Fps at 1. rewrite combine_fst; [exact Fps|rewrite map_length; exact Lr]. }
      assert (Ec : combine gs (map fst (map (fun g => (map group_val (n_gs (m_inc g)), tt)) gs)) = ps) by (unfold ps, plain_pair; clear; induction gs as [|g gs IH]; [reflexivity|]; cbn [map combine fst]; rewrite IH; reflexivity).
      rewrite Fps2, Ec in I2. unfold Root.root_fill. destruct d as [|e d]; [congruence|]. destruct k; try contradiction; unfold tree2; rewrite I2; cbn [bind]; rewrite <- Ed; reflexivity.
    + rewrite Hf, Ed. unfold tree2. f_equal. f_equal. unfold ps2, ps. clear - Hs. revert rs Hs. induction gs as [|g gs IH]; intros rs Hs; inversion Hs as [|? r ? rs' A Hr]; subst; [reflexivity|]. cbn [map combine]. rewrite (IH _ Hr), A. reflexivity.
  - inversion R1 as [|? [ss ks] ? rs' (A & B & C) Hr]; subst. inversion Hr; subst. clear Hr. cbn [fst snd] in *.
    set (tr := fun v => VList (VList (x0 :: x1 :: x2 :: VList (ty :: v :: t3) :: t0) :: rest)).
    assert (Ed : VList (proc_tree x0 x1 x2 ty i t3 t0 rest) = tr (inc_val i)) by reflexivity.
    assert (P : forall v w, vat proc_list (tr v) = Ok v /\ vput proc_list w (tr v) = Ok (tr w)) by (intros; split; reflexivity).
    exists (tr (inc_with i ss)), ks. cbn [map concat snd] in *. rewrite app_nil_r in *.
    split. { unfold Root.root_includes. rewrite Ed, (proj1 (P (inc_val i) VNone)). cbn [bind]. rewrite A. cbn [bind]. rewrite (proj2 (P _ _)). reflexivity. }
    split; [exact R2|]. split.
    { rewrite Ed in Sd. unfold tr in *. rewrite !scal_cons in *. assert (S1 : scal (inc_val i)) by tauto. enough (scal (inc_with i ss)) by tauto. rewrite <- inc_with_val in S1. eapply inc_with_scal; [exact S1|]. eapply dec_slots_scal; [apply inner_texts|eapply inc_scal_slots; exact S1|exact B]. }
    split; [reflexivity|]. split; [reflexivity|]. split; [reflexivity|]. split; [reflexivity|].
    intros idx Hx. destruct (Fill idx Hx) as [(d & -> & -> & Hd0 & Hf)|[Hf Hs]].
    + inversion Hf as [|? ? ? ? A2 _]; subst. cbn [fst] in A2. unfold Root.root_fill. destruct d as [|e d]; [congruence|]. rewrite (proj1 (P (inc_with i ss) VNone)). cbn [bind]. rewrite A2. cbn [bind]. rewrite (proj2 (P _ _)). reflexivity.
    + inversion Hs as [|? ? ? ? A2 _]; subst. cbn [fst] in A2. rewrite Hf, A2. reflexivity.
Qed.
End T.
