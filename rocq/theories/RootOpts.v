(** Options of a build: a changed value among the properties of a root. *)
From Coq Require Import Lia Permutation.
From Verif Require Import PyBase PyInt PyText Utf Cp1251 Codecs Brace Spec_Brace BraceMore BraceFile PipelineMore JsonText JsonTextProofs JsonObj Header HeaderProofs Spec_Misc Pipeline Spec_Stage ObjCode Spec_Obj ObjCodeMain Payload
  Spec_Payload PayloadProofs UpdateDictProofs MetaObj Spec_MetaObj MetaObjBase MetaObjPart MetaObjGood MetaObjList MetaObjMain ClassesProofs EncodeLoop Spec_Encode EncodeLoopMain Types Include Spec_Include IncludeMain Tree Spec_Tree TreeBuild Real Spec_Real RealProofs Classes MetaObj Root Spec_Root RootCore RootLists RootTree RootSteps RootDetect RootVersions IncludeProofs.
Set Implicit Arguments.
Open Scope list_scope.
Open Scope N_scope.

(** ** Changed values *)
Lemma vget_app a (x : val) b : vget (VList (a ++ x :: b)) (length a) = Ok x.
Proof. cbn [vget]. rewrite nth_error_app2, Nat.sub_diag by lia. reflexivity. Qed.
Lemma set_nth_app (y : val) b x : forall a, set_nth (length a) y (a ++ x :: b) = a ++ y :: b.
Proof. induction a as [|z a IH]; [reflexivity|]. cbn [app length set_nth]. rewrite IH. reflexivity. Qed.
Lemma changed_put p old new v w : changed_at p old new v w -> vat p v = Ok old /\ vput p new v = Ok w.
Proof.
  induction 1 as [old new|i p old new x y a b Ha H [IH1 IH2]]; [split; reflexivity|]. subst i. cbn [vat vput]. rewrite vget_app. cbn [bind]. rewrite IH1, IH2. cbn [bind]. unfold Payload.vset. rewrite nth_error_app2, Nat.sub_diag by lia. cbn [nth_error].
  rewrite set_nth_app. split; reflexivity.
Qed.
(** ** Texts *)
Lemma elems_leaf s' : leaf_ok s' -> forall a b old c, is_leaf old -> elems_ok c (a ++ old :: b) -> elems_ok c (a ++ VStr s' :: b).
Proof.
  intros Hs a. induction a as [|x a IH]; intros b old c Hl H; cbn [app] in *.
  - apply e_leaf; [exact Hs|]. inversion H; subst; try assumption; [constructor|contradiction].
  - inversion H; subst; first [constructor; first [assumption|eapply IH; eassumption]|destruct a; discriminate].
Qed.
Lemma elems_obj l l' : (obj_ok l -> obj_ok l') -> forall a b c, elems_ok c (a ++ VList l :: b) -> elems_ok c (a ++ VList l' :: b).
Proof.
  intros Hs a. induction a as [|x a IH]; intros b c H; cbn [app] in *.
  - inversion H; subst. constructor; [apply Hs; assumption|assumption].
  - inversion H; subst; first [constructor; first [assumption|eapply IH; eassumption]|destruct a; discriminate].
Qed.
Lemma changed_obj s' p : leaf_ok s' -> forall old l w, changed_at p old (VStr s') (VList l) w -> is_leaf old -> (0 < last p 0)%nat -> exists l', w = VList l' /\ (obj_ok l -> obj_ok l').
Proof.
  intros Hs. induction p as [|i p IH]; intros old l w H Hl Hp; inversion H; subst; [contradiction|]. eexists. split; [reflexivity|]. intros Ho.
  match goal with Hc : changed_at p _ _ ?x ?y |- _ => rename x into x0; rename y into y0; rename Hc into Hc0 end.
  assert (Ne : forall s, a ++ x0 :: b = [VStr s] -> a = [] /\ x0 = VStr s) by (intros s E; destruct a as [|z [|]]; [injection E as -> _; split; reflexivity|discriminate|discriminate]).
  destruct p as [|j p].
  - assert (x0 = old /\ y0 = VStr s') as [-> ->] by (inversion Hc0; split; reflexivity). cbn [last] in Hp. destruct a as [|z a]; [cbn in Hp; lia|]. remember ((z :: a) ++ old :: b) as L eqn:EL. destruct Ho as [s Hb|l0 N1 F1 E1]; [destruct (Ne s); [congruence|discriminate]|]. subst l0. apply o_list; [discriminate|exact F1|]. exact (@elems_leaf s' Hs (z :: a) b _ false Hl E1).
  - destruct x0 as [|s|l0]; [inversion Hc0|inversion Hc0|]. destruct (IH _ _ _ Hc0 Hl Hp) as (l' & -> & Hob).
    remember (a ++ VList l0 :: b) as L eqn:EL. destruct Ho as [s Hb|l1 N1 F1 E1]; [destruct (Ne s); [congruence|discriminate]|]. subst l1. apply o_list; [destruct a; discriminate| |exact (@elems_obj l0 l' Hob a b false E1)]. destruct a; [exact Logic.I|exact F1].
Qed.
Lemma changed_canonical s' p old d d' : changed_at (0%nat :: 3%nat :: p) old (VStr s') (VList d) (VList d') -> leaf_ok s' -> is_leaf old -> (0 < last (3%nat :: p) 0)%nat -> canonical d -> canonical d'.
Proof.
  intros H Hs Hl Hp (_ & F & Hb). inversion H as [|i q o n x y a b Ha Hc]; subst. destruct a; [|discriminate]. cbn [app] in *. split; [discriminate|]. apply Forall_cons_iff in F. destruct F as [(l & -> & Fo) F]. destruct (changed_obj Hs Hc Hl Hp) as (l' & -> & Ho).
  split; [constructor; [exists l'; split; [reflexivity|exact (Ho Fo)]|exact F]|]. inversion Hc as [|i q o n x y a b' Ha' Hc']; subst. destruct a as [|a0 [|a1 a]]; [discriminate|discriminate|]. exact Hb.
Qed.
Lemma changed_scal p old new v w : changed_at p old new v w -> scal new -> scal v -> scal w.
Proof.
  intros H Hn. induction H as [old new|i p old new x y a b Ha H IH]; intros Hv; [exact Hn|]. rewrite scal_app in *. destruct Hv as [H1 H2]. split; [exact H1|]. rewrite scal_cons in *. destruct H2 as [H2 H3]. split; [exact (IH Hn H2)|exact H3].
Qed.
Lemma changed_list p old new d w : changed_at (0%nat :: p) old new (VList d) w -> exists d', w = VList d'.
Proof. inversion 1; subst. eexists. reflexivity. Qed.

(** ** The lists of included objects do not depend on the properties *)
Definition set_b (b : val) (i : inc) : inc := mkinc (n_a i) b (n_count i) (n_gs i) (n_more i).
Definition set_mb (b : val) (m : mgroup) : mgroup := mkmgroup (m_id m) (m_wrap m) (set_b b (m_inc m)) (m_rest m).
Section T.
Variable os : platform.
Variable alnum : N -> bool.
Variable valid : list N -> bool.
Variable lower : list N -> list N.
Variable auto : bool.
Variable src : folder.
Notation inner := (inner_of os alnum valid src).
Notation object := (object folder written).
Notation made := (made os alnum valid src).
Notation root_includes := (root_includes os alnum valid auto).
Notation root_fill := (root_fill lower auto).
Notation includes := (dec_include auto inner).
Notation slots i r := (dec_slots auto inner (map group_val (n_gs i)) = Ok r).

(** the tree with the lists [rs] in place of the objects *)
Lemma groups_shape k r0 r1 count gs more rest xs (os' : list object) tree ks : k <> RProc -> int_of_str count = Ok (Z.of_nat (length gs)) -> Forall mgroup_ok gs -> lists_name os alnum valid auto src (map m_inc gs) xs -> Forall2 made xs os' -> different lower xs ->
  root_includes k src (VList (groups_tree r0 r1 count gs more rest)) = Ok (tree, ks) ->
  exists rs, Forall2 (fun i r => slots i r) (map m_inc gs) rs /\ tree = tree_with r0 r1 count (combine gs (map fst rs)) more rest.
Proof.
  intros Hk Hc Hg (L1 & L2 & L3) Hm Hd Hi.
  assert (Hincs : Forall inc_ok (map m_inc gs)).
  { apply Forall_forall. intros i Hin. apply in_map_iff in Hin. destruct Hin as (g & <- & Hg2). rewrite Forall_forall in Hg. apply (Hg g Hg2). }
  destruct (@listed_lists os alnum valid lower auto src (map m_inc gs) xs os' L1 L2 Hm Hd Hincs) as (rs & R1 & _ & R3 & _ & _).
  set (ps := map plain_pair gs).
  assert (F1 : Forall2 (fun p r => mgroup_ok (fst p) /\ includes (inc_with (m_inc (fst p)) (snd p)) = Ok (inc_with (m_inc (fst p)) (fst r), snd r)) ps rs).
  { unfold ps. clear - R1 Hg. revert rs R1 Hg. induction gs as [|g gs IH]; intros rs R1 Hg; inversion R1 as [|? r ? rs' (A & B & C) Hr]; subst; [constructor|]. apply Forall_cons_iff in Hg. destruct Hg as [Hg1 Hg2]. constructor; [|apply IH; assumption]. cbn [plain_pair fst snd]. split; [exact Hg1|]. exact A. }
  assert (Hc' : int_of_str count = Ok (Z.of_nat (length ps))) by (unfold ps; rewrite map_length; exact Hc).
  assert (Fps : map fst ps = gs) by (unfold ps; rewrite map_map; apply map_id).
  pose proof (@in_root_ok _ includes r0 r1 count ps rs more rest Hc' F1) as I1. rewrite Fps in I1.
  exists rs. split; [clear - R1; induction R1 as [|i r a b (_ & H & _) Hr IH]; constructor; assumption|].
  rewrite <- tree_with_plain in Hi. fold ps in Hi. unfold Root.root_includes in Hi. destruct k; try contradiction; rewrite I1 in Hi; cbn [bind] in Hi; rewrite (proj2 (nodup_names_ok _) R3) in Hi; congruence.
Qed.
Lemma slots_same incs incs' rs : map n_gs incs' = map n_gs incs -> Forall2 (fun i r => slots i r) incs rs -> forall rs', Forall2 (fun i r => slots i r) incs' rs' -> rs' = rs.
Proof.
  revert incs' rs. induction incs as [|i incs IH]; intros [|i' incs'] rs E H rs' H'; try discriminate; inversion H; subst; inversion H'; subst; [reflexivity|]. cbn [map] in E. assert (E1 : n_gs i' = n_gs i) by congruence. assert (E2 : map n_gs incs' = map n_gs incs) by congruence.
  rewrite E1 in *. assert (y0 = y) as -> by congruence. f_equal. eapply IH; eassumption.
Qed.
Lemma lists_put k data incs ty b xs (os' : list object) tree ks : has_lists k data incs ty b -> lists_name os alnum valid auto src incs xs -> Forall2 made xs os' -> different lower xs -> scal (VList data) ->
  root_includes k src (VList data) = Ok (tree, ks) ->
  forall b', scal b' -> exists data' tree', vput props_at b' (VList data) = Ok (VList data') /\ vput props_at b' tree = Ok tree' /\ forall idx, matching idx xs -> root_fill k idx tree' = Ok (VList data').
Proof.
  intros Hl Hn Hm Hd Sd Hi b' Sb. destruct Hl as [k r0 r1 count m ms more rest Hk Hc Hg Hw|x0 x1 x2 ty i t3 t0 rest Hio].
  - set (m' := set_mb b' m). assert (Hg' : Forall mgroup_ok (m' :: ms)) by (apply Forall_cons_iff in Hg; destruct Hg as [(G1 & G2 & G3) G]; constructor; [split; [exact G1|split; [exact G2|exact G3]]|exact G]).
    assert (Egs : map n_gs (map m_inc (m' :: ms)) = map n_gs (map m_inc (m :: ms))) by reflexivity.
    assert (Hn' : lists_name os alnum valid auto src (map m_inc (m' :: ms)) xs) by exact Hn.
    assert (Vd : vput props_at b' (VList (groups_tree r0 r1 count (m :: ms) more rest)) = Ok (VList (groups_tree r0 r1 count (m' :: ms) more rest))).
    { unfold groups_tree, mgroup_val. cbn [map]. rewrite Hw. cbn [m' set_mb m_wrap m_id m_inc m_rest]. rewrite Hw. reflexivity. }
    assert (Sd' : scal (VList (groups_tree r0 r1 count (m' :: ms) more rest))).
    { unfold groups_tree, mgroup_val in *. cbn [map app] in *. rewrite Hw in Sd. cbn [m' set_mb m_wrap m_id m_inc m_rest]. rewrite Hw. unfold inc_val, list_val in *. cbn [set_b n_a n_b n_count n_gs n_more]. rewrite !scal_cons in *. tauto. }
    assert (HL' : has_lists k (groups_tree r0 r1 count (m' :: ms) more rest) (map m_inc (m' :: ms)) (VStr (m_id m')) (n_b (m_inc m'))) by (constructor; assumption).
    destruct (@lists_through os alnum valid lower auto src k _ _ _ _ xs os' HL' Hn' Hm Hd Sd') as (tree' & ks' & I1 & _ & _ & _ & _ & _ & _ & Fill).
    destruct (@groups_shape k r0 r1 count (m :: ms) more rest xs os' tree ks Hk Hc Hg Hn Hm Hd Hi) as (rs & Rs & ->). destruct (@groups_shape k r0 r1 count (m' :: ms) more rest xs os' tree' ks' Hk Hc Hg' Hn' Hm Hd I1) as (rs' & Rs' & ->).
    rewrite (slots_same Egs Rs Rs') in *. eexists _, _. split; [exact Vd|]. split; [|exact Fill].
    cbn [map] in Rs. inversion Rs as [|? r ? rs2 H1 H2]; subst. cbn [map combine]. unfold tree_with, mval, put_inc. cbn [map fst snd m' set_mb m_wrap m_id m_inc m_rest]. rewrite Hw. reflexivity.
  - set (i' := set_b b' i). assert (Hn' : lists_name os alnum valid auto src [i'] xs) by exact Hn.
    assert (Sd' : scal (VList (proc_tree x0 x1 x2 ty i' t3 t0 rest))).
    { unfold proc_tree, inc_val, list_val in *. cbn [i' set_b n_a n_b n_count n_gs n_more]. rewrite !scal_cons in *. tauto. }
    destruct (@lists_through os alnum valid lower auto src RProc _ _ _ _ xs os' (@hl_proc x0 x1 x2 ty i' t3 t0 rest Hio) Hn' Hm Hd Sd') as (tree' & ks' & I1 & _ & _ & _ & _ & _ & _ & Fill).
    assert (Hio' : Forall inc_ok [i]) by (constructor; [exact Hio|constructor]). assert (Hio2 : Forall inc_ok [i']) by (constructor; [exact Hio|constructor]).
    destruct Hn as (L1 & L2 & L3).
    destruct (@listed_lists os alnum valid lower auto src [i] xs os' L1 L2 Hm Hd Hio') as (rs & R1 & _). destruct (@listed_lists os alnum valid lower auto src [i'] xs os' L1 L2 Hm Hd Hio2) as (rs' & R1' & _).
    inversion R1 as [|? r ? ? (A & B & _) Hr]; subst. inversion Hr; subst. inversion R1' as [|? r' ? ? (A' & B' & _) Hr']; subst. inversion Hr'; subst. change (n_gs i') with (n_gs i) in B'. assert (r' = r) as -> by congruence.
    unfold Root.root_includes in Hi, I1. cbn [proc_list vat proc_tree vget nth_error bind] in Hi, I1. rewrite A in Hi. rewrite A' in I1. cbn [bind] in Hi, I1.
    eexists _, tree'. split; [reflexivity|]. split; [|exact Fill].
    assert (Et : Ok tree = vput proc_list (inc_with i (fst r)) (VList (proc_tree x0 x1 x2 ty i t3 t0 rest))) by (destruct (vput proc_list (inc_with i (fst r)) _); [cbn [bind] in Hi; congruence|discriminate]).
    assert (Et' : Ok tree' = vput proc_list (inc_with i' (fst r)) (VList (proc_tree x0 x1 x2 ty i' t3 t0 rest))) by (destruct (vput proc_list (inc_with i' (fst r)) _); [cbn [bind] in I1; congruence|discriminate]).
    cbn [proc_list vput proc_tree vget nth_error bind Payload.vset set_nth] in Et, Et'. assert (tree = VList (VList (x0 :: x1 :: x2 :: VList (ty :: inc_with i (fst r) :: t3) :: t0) :: rest)) as -> by congruence. assert (tree' = VList (VList (x0 :: x1 :: x2 :: VList (ty :: inc_with i' (fst r) :: t3) :: t0) :: rest)) as -> by congruence. reflexivity.
Qed.
End T.

(** ** Changes in the properties *)
Lemma vset_get v i y w : Payload.vset v i y = Ok w -> vget w i = Ok y /\ forall j, j <> i -> vget w j = vget v j.
Proof.
  destruct v as [|s|l]; try discriminate. unfold Payload.vset. destruct (nth_error l i) as [z|] eqn:E; [|discriminate]. intros Q. injection Q as <-. cbn [vget]. split.
  - rewrite (@set_nth_same _ l i y z E). reflexivity.
  - intros j Hj. rewrite set_nth_other by congruence. reflexivity.
Qed.
Lemma vset_twice v i y z w : Payload.vset v i y = Ok w -> Payload.vset w i z = Payload.vset v i z.
Proof.
  destruct v as [|s|l]; try discriminate. unfold Payload.vset. destruct (nth_error l i) as [x|] eqn:E; [|discriminate]. intros Q. injection Q as <-. rewrite (@set_nth_same _ l i y x E), set_nth_twice. reflexivity.
Qed.
Lemma vput_inv i p x v w : vput (i :: p) x v = Ok w -> exists y z, vget v i = Ok y /\ vput p x y = Ok z /\ Payload.vset v i z = Ok w.
Proof. cbn [vput]. destruct (vget v i) as [y|]; [|discriminate]. cbn [bind]. destruct (vput p x y) as [z|] eqn:E; [|discriminate]. cbn [bind]. intros H. exists y, z. split; [reflexivity|]. split; [exact E|exact H]. Qed.
Lemma vat_vput p x : forall v w, vput p x v = Ok w -> vat p w = Ok x.
Proof.
  induction p as [|i p IH]; intros v w H; [injection H as ->; reflexivity|]. destruct (vput_inv _ _ _ _ H) as (y & z & H1 & H2 & H3). cbn [vat]. rewrite (proj1 (vset_get _ _ _ H3)). cbn [bind]. apply (IH _ _ H2).
Qed.
Lemma vput_twice p x x' : forall v w, vput p x v = Ok w -> vput p x' w = vput p x' v.
Proof.
  induction p as [|i p IH]; intros v w H; [reflexivity|]. destruct (vput_inv _ _ _ _ H) as (y & z & H1 & H2 & H3). cbn [vput]. rewrite (proj1 (vset_get _ _ _ H3)), H1. cbn [bind]. rewrite (IH _ _ H2). destruct (vput p x' y) as [z'|]; [|reflexivity]. cbn [bind]. eapply vset_twice, H3.
Qed.
Lemma vput_under p q x : forall v b w, vat p v = Ok b -> vput (p ++ q) x v = Ok w -> exists b', vput q x b = Ok b' /\ vput p b' v = Ok w.
Proof.
  induction p as [|i p IH]; intros v b w H1 H2; [injection H1 as ->; exists w; split; [exact H2|reflexivity]|]. cbn [app] in H2. destruct (vput_inv _ _ _ _ H2) as (y & z & E1 & E2 & E3). cbn [vat] in H1. rewrite E1 in H1. cbn [bind] in H1.
  destruct (IH _ _ _ H1 E2) as (b' & B1 & B2). exists b'. split; [exact B1|]. cbn [vput]. rewrite E1. cbn [bind]. rewrite B2. exact E3.
Qed.

(** what the tree of the sources and the tree of the form have in common *)
Definition twin (tree2 d0 : val) (b t d : val) : Prop := vput props_at b tree2 = Ok t /\ vput props_at b d0 = Ok d.
Lemma twin_start tree2 d0 l : vat props_at tree2 = Ok (VList l) -> vat props_at d0 = Ok (VList l) -> twin tree2 d0 (VList l) tree2 d0.
Proof. intros H1 H2. split; apply vput_same; assumption. Qed.
Lemma twin_step tree2 d0 b t d q x d' : twin tree2 d0 b t d -> vput (props_at ++ q) x d = Ok d' -> exists b' t', vput q x b = Ok b' /\ vput (props_at ++ q) x t = Ok t' /\ twin tree2 d0 b' t' d'.
Proof.
  intros [T1 T2] H. pose proof (vat_vput _ _ _ T1) as A1. pose proof (vat_vput _ _ _ T2) as A2. destruct (vput_under props_at q x _ A2 H) as (b' & B1 & B2). rewrite (vput_twice _ _ _ _ T2) in B2.
  assert (Hq : exists t', vput props_at b' tree2 = Ok t').
  { clear - T1. revert T1. generalize props_at. intros p. revert tree2 t. induction p as [|i p IH]; intros tree2 t H; [exists b'; reflexivity|]. destruct (vput_inv _ _ _ _ H) as (y & z & E1 & E2 & E3). destruct (IH _ _ E2) as (z' & Z). cbn [vput]. rewrite E1. cbn [bind]. rewrite Z. cbn [bind].
    destruct tree2 as [|s|l]; try discriminate. unfold Payload.vset in *. destruct (nth_error l i); [eexists; reflexivity|discriminate]. }
  destruct Hq as (t' & Ht). exists b', t'. split; [exact B1|]. split; [|split; assumption]. rewrite (vput_cat props_at q x t b b' A1 B1), (vput_twice _ _ _ _ T1). exact Ht.
Qed.
Lemma twin_vat tree2 d0 b t d q : twin tree2 d0 b t d -> vat (props_at ++ q) t = vat q b /\ vat (props_at ++ q) d = vat q b.
Proof. intros [T1 T2]. split; apply vat_cat; eapply vat_vput; eassumption. Qed.
Lemma vat_vput_other i p j q x : i <> j -> forall v w, vput (i :: p) x v = Ok w -> vat (j :: q) w = vat (j :: q) v.
Proof. intros Hij v w H. destruct (vput_inv _ _ _ _ H) as (y & z & E1 & E2 & E3). cbn [vat]. rewrite (proj2 (vset_get _ _ _ E3) j) by congruence. reflexivity. Qed.
Lemma fill_twin os alnum valid lower auto src k data incs ty b0 xs (os' : list (object folder written)) tree ks b t d :
  has_lists k data incs ty b0 -> lists_name os alnum valid auto src incs xs -> Forall2 (made os alnum valid src) xs os' -> different lower xs -> scal (VList data) -> root_includes os alnum valid auto k src (VList data) = Ok (tree, ks) ->
  twin tree (VList data) b t (VList d) -> scal (VList d) -> forall idx, matching idx xs -> root_fill lower auto k idx t = Ok (VList d).
Proof.
  intros Hl Hn Hm Hd Sd Hi [T1 T2] Sd' idx Hx. assert (Sb : scal b) by (eapply scal_vat; [exact Sd'|eapply vat_vput; exact T2]).
  destruct (lists_put Hl Hn Hm Hd Sd Hi Sb) as (data' & tree' & P1 & P2 & P3). specialize (P3 idx Hx). assert (t = tree') as -> by congruence. assert (data' = d) as <- by congruence. exact P3.
Qed.

(** ** The options *)
Lemma comment_found c a b : c = a ++ ver_mark ++ b -> (forall a' b', c = a' ++ ver_mark ++ b' -> (length a <= length a')%nat) -> find_sub ver_mark c = Some (length a).
Proof.
  intros Hc Hmin. apply find_sub_intro.
  - rewrite Hc, app_length. lia.
  - replace (skipn (length a) c) with (ver_mark ++ b); [apply starts_app|]. rewrite Hc. clear. induction a as [|x a IH]; [reflexivity|exact IH].
  - intros j Hj. destruct (starts ver_mark (skipn j c)) eqn:E; [|reflexivity]. exfalso. apply starts_spec in E. destruct E as [t E].
    assert (Hlen : (length a <= length (firstn j c))%nat) by (apply (Hmin (firstn j c) t); rewrite <- E; symmetry; apply firstn_skipn). rewrite firstn_length in Hlen. lia.
Qed.
Lemma comment_kept k o data hdr comment : vat (c_path (root_class k)) data = Ok (VList hdr) -> vnth 4 hdr = Ok (quoted comment) -> keeps_comment o comment -> product_comment o k data = Ok data.
Proof.
  intros H1 H2 H3. unfold product_comment. destruct (o_file o) as [|c f] eqn:Ef; [reflexivity|]. rewrite H1. cbn [bind vlist]. rewrite H2. cbn [bind vstr quoted].
  change (34 :: comment ++ [34]) with (str_encode comment). rewrite str_decode_encode. cbv zeta. destruct (find_sub ver_mark comment) as [i|] eqn:E; [|reflexivity]. destruct H3 as [H3|[H3|H3]]; [congruence| |].
  - rewrite H3. reflexivity.
  - exfalso. apply H3. destruct (find_sub_some _ _ E) as (t & Et & _). exists (firstn i comment), t. rewrite <- Et. symmetry. apply firstn_skipn.
Qed.
Lemma hset_nth y z : forall i l, nth_error l i = Some z -> Header.vset i y l = Ok (set_nth i y l).
Proof. induction i as [|i IH]; intros [|x l] H; try discriminate; [reflexivity|]. cbn [Header.vset set_nth nth_error] in *. rewrite (IH _ H). reflexivity. Qed.
Definition putv (new : option val) (p : list nat) (v w : val) : Prop := match new with None => w = v | Some x => vput p x v = Ok w end.
Lemma comment_step k o data hdr comment c : vat (c_path (root_class k)) data = Ok (VList hdr) -> vnth 4 hdr = Ok (quoted comment) -> commented o comment c ->
  forall w, putv c (c_path (root_class k) ++ [4%nat]) data w -> product_comment o k data = Ok w.
Proof.
  intros H1 H2 Hc w Hw. destruct Hc as [Hc|a b Hf Hv Hc Hmin].
  - cbn [putv] in Hw. subst w. eapply comment_kept; eassumption.
  - cbn [putv] in Hw. unfold product_comment. destruct (o_file o) as [|c0 f0] eqn:Ef; [congruence|]. rewrite <- Ef in *. rewrite H1. cbn [bind vlist]. rewrite H2. cbn [bind vstr quoted].
    change (34 :: comment ++ [34]) with (str_encode comment). rewrite str_decode_encode. cbv zeta. rewrite (comment_found a b Hc Hmin). destruct (o_product_version o) as [|p0 pv] eqn:Ep; [congruence|]. rewrite <- Ep in *. rewrite Ep at 1. cbn [length Nat.eqb].
    assert (Hne : o_file o ++ [58] ++ o_product_version o <> []) by (intros E; apply app_eq_nil in E; destruct E as [E _]; congruence).
    destruct (@set_comment_shape _ [] comment (length a) Hne (comment_found a b Hc Hmin)) as (r & -> & ->).
    assert (E3 : firstn (length a + 3) comment ++ 58 :: (o_file o ++ [58] ++ o_product_version o) ++ [] = a ++ ver_mark ++ o_file o ++ [58] ++ o_product_version o).
    { rewrite Hc. rewrite firstn_app, firstn_all2 by lia. replace (length a + 3 - length a)%nat with 3%nat by lia. rewrite app_nil_r, <- app_assoc. reflexivity. }
    rewrite E3. destruct (vput_under _ _ _ _ H1 Hw) as (b' & B1 & B2). cbn [vput bind] in B1. destruct (vget (VList hdr) 4) as [z|] eqn:Ez; [|discriminate]. cbn [bind vput] in B1. unfold Payload.vset in B1. cbn [vget] in Ez.
    destruct (nth_error hdr 4) as [y|] eqn:E4; [|discriminate]. injection B1 as <-. rewrite (hset_nth _ _ _ E4). cbn [bind]. exact B2.
Qed.

(** the same as the effects of the specification, of values that need not fit in a file *)
Definition put_opt (new : option val) (p : list nat) (d d' : list val) : Prop := putv new p (VList d) (VList d').
Lemma given_put new p d d' : if_given new p d d' -> put_opt new p d d'.
Proof. destruct new as [x|]; [|intros ->; reflexivity]. intros (_ & old & _ & H). exact (proj2 (changed_put H)). Qed.
Definition product_text (o : ropts) : list N := match o_product o with [] => o_product_version o | p => p ++ [95] ++ o_product_version o end.
Definition ext_puts (o : ropts) (comment : list N) (d d' : list val) : Prop :=
  exists c d1 d2 d3, commented o comment c /\ put_opt (Some (quoted (product_text o))) (at_prop 15) d d1 /\ put_opt c [0; 3; 1; 1; 1; 1; 4]%nat d1 d2 /\
    put_opt (option_map VStr (o_version o)) (at_prop 43) d2 d3 /\ put_opt (option_map quoted (o_prefix o)) (at_prop 42) d3 d'.
Definition proc_puts (o : ropts) (comment : list N) (d d' : list val) : Prop := exists c, commented o comment c /\ put_opt c [0; 3; 1; 1; 3; 1; 4]%nat d d'.
Lemma ext_effect_puts o comment d d' : ext_effect o comment d d' -> ext_puts o comment d d'.
Proof. intros (c & d1 & d2 & d3 & H0 & H1 & H2 & H3 & H4). exists c, d1, d2, d3. split; [exact H0|]. repeat split; apply given_put; assumption. Qed.
Lemma proc_effect_puts o comment d d' : proc_effect o comment d d' -> proc_puts o comment d d'.
Proof. intros (c & H0 & H1). exists c. split; [exact H0|]. apply given_put, H1. Qed.

(** the changed file can be written *)
Lemma given_written os new p d d' bs : brace_bytes os d bs -> if_given new (0%nat :: 3%nat :: p) d d' -> (0 < last (3%nat :: p) 0)%nat -> exists bs', brace_bytes os d' bs'.
Proof.
  intros (C & Sx & W) H Hp. destruct new as [x|]; cbn [if_given] in H; [|subst d'; exists bs; split; [exact C|split; [exact Sx|exact W]]].
  destruct H as ((s & -> & Hl & Hs) & old & Ho & Hc). assert (C2 : canonical d') by (eapply changed_canonical; eassumption).
  assert (S2 : scal (VList d')) by (eapply changed_scal; [exact Hc|apply (proj1 (scal_str _)); exact Hs|exact Sx]).
  destruct (file_roundtrip os cp1251_decode [] C2 S2) as (bs' & W' & _). exists bs'. split; [exact C2|]. split; [exact S2|exact W'].
Qed.
Lemma config_written os o d d' bs : brace_bytes os d bs -> config_effect o d d' -> exists bs', brace_bytes os d' bs'.
Proof. intros H1 H2. eapply given_written; [exact H1|exact H2|cbn; lia]. Qed.
Lemma proc_written os o comment d d' bs : brace_bytes os d bs -> proc_effect o comment d d' -> exists bs', brace_bytes os d' bs'.
Proof. intros H1 (c & _ & H2). eapply given_written; [exact H1|exact H2|cbn; lia]. Qed.
Lemma ext_written os o comment d d' bs : brace_bytes os d bs -> ext_effect o comment d d' -> exists bs', brace_bytes os d' bs'.
Proof.
  intros H0 (c & d1 & d2 & d3 & _ & H1 & H2 & H3 & H4). destruct (@given_written _ _ _ _ _ _ H0 H1) as (b1 & B1); [cbn; lia|]. destruct (@given_written _ _ _ _ _ _ B1 H2) as (b2 & B2); [cbn; lia|].
  destruct (@given_written _ _ _ _ _ _ B2 H3) as (b3 & B3); [cbn; lia|]. eapply given_written; [exact B3|exact H4|cbn; lia].
Qed.
Lemma vput_is_list i p x v w : vput (i :: p) x v = Ok w -> exists l, w = VList l.
Proof. intros H. destruct (vput_inv _ _ _ _ H) as (y & z & _ & _ & E). destruct v as [|s|l]; try discriminate. unfold Payload.vset in E. destruct (nth_error l i); [|discriminate]. injection E as <-. eexists. reflexivity. Qed.
(** the steps of an extension *)
Lemma ext_steps o comment tree2 data data' props compat hdr h :
  vat props_at tree2 = Ok (VList props) -> vat props_at (VList data) = Ok (VList props) -> vat (props_at ++ [1; 1]%nat) tree2 = Ok (VList hdr) -> vnth 4 hdr = Ok (quoted comment) -> nth_error props 43 = Some compat -> dget k_compat h = Some compat ->
  ext_puts o comment data data' -> exists t1 t2 t3 t4 b4, set_product_version o tree2 = Ok t1 /\ product_comment o RExt t1 = Ok t2 /\ set_compat o RExt h t2 = Ok t3 /\ match o_prefix o with Some p => vput ext_prefix_at (VStr (str_encode p)) t3 | None => Ok t3 end = Ok t4 /\ twin tree2 (VList data) b4 t4 (VList data').
Proof.
  intros T2 T4 Hh H4 Hcp Hk (c & d1 & d2 & d3 & Hc & P1 & P2 & P3 & P4). rewrite (vat_cat _ _ _ _ T2) in Hh. cbn [put_opt putv] in P1.
  destruct (@twin_step _ _ _ _ _ [15%nat] _ _ (twin_start _ _ T2 T4) P1) as (b1 & t1 & B1 & E1 & W1). exists t1.
  destruct (vput_is_list _ _ _ _ B1) as (l1 & ->).
  assert (Hh1 : vat (c_path (root_class RExt)) t1 = Ok (VList hdr)).
  { change (c_path (root_class RExt)) with (props_at ++ [1; 1]%nat). rewrite (proj1 (twin_vat _ W1)). rewrite (@vat_vput_other 15 [] 1 _ _ ltac:(discriminate) _ _ B1). exact Hh. }
  assert (Hc1 : nth_error l1 43 = Some compat).
  { pose proof (@vat_vput_other 15 [] 43 [] _ ltac:(discriminate) _ _ B1) as Q. cbn [vat vget] in Q. rewrite Hcp in Q. cbn [bind] in Q. destruct (nth_error l1 43) as [z|]; [|discriminate]. cbn [bind] in Q. congruence. }
  assert (S2 : exists l2 t2, product_comment o RExt t1 = Ok t2 /\ twin tree2 (VList data) (VList l2) t2 (VList d2) /\ nth_error l2 43 = Some compat).
  { destruct c as [cv|]; cbn [put_opt putv] in P2.
    - destruct (@twin_step _ _ _ _ _ [1; 1; 4]%nat _ _ W1 P2) as (b2 & t2 & B2 & E2 & W2). destruct (vput_is_list _ _ _ _ B2) as (l2 & ->). exists l2, t2. split; [exact (@comment_step RExt o t1 hdr comment _ Hh1 H4 Hc _ E2)|]. split; [exact W2|].
      pose proof (@vat_vput_other 1 [1; 4]%nat 43 [] _ ltac:(discriminate) _ _ B2) as Q. cbn [vat vget] in Q. rewrite Hc1 in Q. cbn [bind] in Q. destruct (nth_error l2 43) as [z|]; [|discriminate]. cbn [bind] in Q. congruence.
    - assert (d2 = d1) as -> by congruence. exists l1, t1. split; [exact (@comment_step RExt o t1 hdr comment _ Hh1 H4 Hc _ eq_refl)|]. split; [exact W1|exact Hc1]. }
  destruct S2 as (l2 & t2 & E2 & W2 & Hc2). exists t2.
  assert (S3 : exists b3 t3, set_compat o RExt h t2 = Ok t3 /\ twin tree2 (VList data) b3 t3 (VList d3)).
  { unfold set_compat. change (compat_at RExt) with (props_at ++ [43%nat]). destruct (o_version o) as [v|]; cbn [option_map put_opt putv] in P3.
    - destruct (@twin_step _ _ _ _ _ [43%nat] _ _ W2 P3) as (b3 & t3 & B3 & E3 & W3). exists b3, t3. split; [exact E3|exact W3].
    - assert (d3 = d2) as -> by congruence. exists (VList l2), t2. rewrite Hk. split; [|exact W2]. refine (proj2 (prop_same _ _ _ _ _ Hc2)). eapply vat_vput. exact (proj1 W2). }
  destruct S3 as (b3 & t3 & E3 & W3). exists t3.
  assert (S4 : exists b4 t4, match o_prefix o with Some p => vput ext_prefix_at (VStr (str_encode p)) t3 | None => Ok t3 end = Ok t4 /\ twin tree2 (VList data) b4 t4 (VList data')).
  { destruct (o_prefix o) as [v|]; cbn [option_map put_opt putv] in P4.
    - destruct (@twin_step _ _ _ _ _ [42%nat] _ _ W3 P4) as (b4 & t4 & B4 & E4 & W4). exists b4, t4. split; [exact E4|exact W4].
    - assert (data' = d3) as -> by congruence. exists b3, t3. split; [reflexivity|exact W3]. }
  destruct S4 as (b4 & t4 & E4 & W4). exists t4, b4. split; [exact E1|]. split; [exact E2|]. split; [exact E3|]. split; [exact E4|exact W4].
Qed.
Lemma put_changed p new : forall v w, vput p new v = Ok w -> exists old, vat p v = Ok old /\ changed_at p old new v w.
Proof.
  induction p as [|i p IH]; intros v w H; [injection H as ->; exists v; split; [reflexivity|constructor]|]. destruct (vput_inv _ _ _ _ H) as (y & z & E1 & E2 & E3). destruct (IH _ _ E2) as (old & Ho & Hc).
  exists old. cbn [vat]. rewrite E1. cbn [bind]. split; [exact Ho|]. destruct v as [|s|l]; [discriminate|discriminate|]. unfold Payload.vset in E3. destruct (nth_error l i) as [x|] eqn:E; [|discriminate]. injection E3 as <-. cbn [vget] in E1. rewrite E in E1. injection E1 as ->.
  destruct (nth_error_split l i E) as (a & b & -> & Ha). subst i. rewrite set_nth_app. constructor; [reflexivity|exact Hc].
Qed.
