(** A whole container: the root and all its objects through extraction and build (Root.v, Tree.v, EncodeLoop.v). *)
From Coq Require Import String Permutation.
From Verif Require Import PyBase PyInt PyText Utf Cp1251 Codecs Brace Spec_Brace JsonText JsonObj Header Spec_Misc Pipeline Spec_Stage ObjCode Spec_Obj Payload
  Spec_Payload UpdateDictProofs MetaObj Spec_MetaObj MetaObjBase ClassesProofs EncodeLoop Spec_Encode EncodeLoopMain Types Include Spec_Include IncludeMain Tree Spec_Tree Spec_Again TreeProofs TreeBuild Real Spec_Real RealProofs RealMain RealFiles
  Props_Tree Classes MetaObj Root Spec_Root RootCore RootLists RootTree RootSteps RootDetect RootVersions RootConfig RootProc RootExt.
Open Scope list_scope.
Open Scope N_scope.

Lemma few_perm a b : Permutation a b -> few a -> few b.
Proof. intros H [H1 H2]. split; [|rewrite <- (Permutation_length H); exact H2]. apply Forall_forall. intros n Hn. rewrite Forall_forall in H1. apply H1. eapply Permutation_in; [symmetry; exact H|exact Hn]. Qed.

Lemma listed_first (v : list N) own B b : Permutation b B -> Permutation (v :: own ++ B) (b ++ own ++ [v]).
Proof.
  intros H. eapply perm_trans; [apply Permutation_cons; [reflexivity|apply Permutation_app_head; symmetry; exact H]|].
  change (v :: own ++ b) with ([v] ++ own ++ b). eapply perm_trans; [apply Permutation_app_comm|]. rewrite <- app_assoc. eapply perm_trans; [apply Permutation_app_comm|]. rewrite <- !app_assoc. apply Permutation_app_head. apply Permutation_app_comm.
Qed.

Section M.
Variable os : platform.
Variable alnum : N -> bool.
Variable valid : list N -> bool.
Variable lower : list N -> list N.
Variable auto : bool.
Variable src : folder.
Variable other_dec : list N -> list N -> res (list N * folder * list (list N * list (child (list N * folder)))).
Variable other_enc : info folder -> res (option val * list written).

Lemma all_made version xs : Forall scalar version -> (forall x, In x xs -> placed os alnum valid lower auto version src other_dec other_enc x) ->
  exists os' : list (object folder written), Forall2 (made os alnum valid src) xs os'.
Proof.
  intros Hv. induction xs as [|x xs IH]; intros H; [exists []; constructor|]. destruct (item_handled Hv (H x (or_introl eq_refl))) as (o & _ & _ & C).
  destruct IH as (os' & F); [intros y Hy; apply H; right; exact Hy|]. exists (o :: os'). constructor; assumption.
Qed.

Lemma root_tasks xs (os' : list (object folder written)) ks own : Forall2 (made os alnum valid src) xs os' -> (forall x, In x xs -> it_inner x = false) -> flat_kids ks = map (@child_of _ _) os' ->
  new_tasks [] ks = map (fun x => mkxtask (it_type x) (it_uuid x) []) xs /\ tl (new_sources [] own ks) = [].
Proof.
  intros Hm Hi Hk.
  assert (E : Forall2 (fun x c => c = (it_type x, CFile _ (it_uuid x))) xs (flat_kids ks)).
  { rewrite Hk. clear Hk ks. induction Hm as [|x o xs os' H Hr IH]; [constructor|]. cbn [map]. constructor; [|apply IH; intros y Hy; apply Hi; right; exact Hy].
    unfold child_of. rewrite (md_inner H), (Hi x (or_introl eq_refl)), (md_type H), (md_uuid H). reflexivity. }
  clear Hk Hm Hi os'. assert (T : new_tasks [] ks = flat_map (fun c : list N * child (list N * folder) => match snd c with CFile _ u => [mkxtask (fst c) u []] | CInner _ _ => [] end) (flat_kids ks)).
  { clear. unfold new_tasks, flat_kids. induction ks as [|[t l] ks IH]; [reflexivity|]. cbn [flat_map]. rewrite flat_map_app, <- IH. f_equal. cbn [fst snd]. clear. induction l as [|k l IH]; [reflexivity|]. cbn. rewrite IH. reflexivity. }
  assert (Q : tl (new_sources [] own ks) = flat_map (fun c : list N * child (list N * folder) => match snd c with CFile _ _ => [] | CInner _ (n, o) => [([(fst c, n)], o)] end) (flat_kids ks)).
  { clear. unfold new_sources, flat_kids. cbn [tl app]. induction ks as [|[t l] ks IH]; [reflexivity|]. cbn [flat_map]. rewrite flat_map_app, <- IH. f_equal. cbn [fst snd]. clear. induction l as [|k l IH]; [reflexivity|]. cbn [flat_map map fst snd]. rewrite IH. reflexivity. }
  rewrite T, Q. clear T Q. induction E as [|x c xs cs H Hr IH]; [split; reflexivity|]. destruct IH as [I1 I2]. cbn [flat_map map]. rewrite I1, I2, H. split; reflexivity.
Qed.

Lemma placed_below version xs : (forall x, In x xs -> placed os alnum valid lower auto version src other_dec other_enc x) -> forall x, In x (flat_map below xs) -> placed os alnum valid lower auto version src other_dec other_enc x.
Proof.
  intros Hpl x Hx. apply in_flat_map in Hx. destruct Hx as (y & Hy & Hx). pose proof (Hpl y Hy) as Hpy. clear - Hpy Hx. revert x Hx.
  induction Hpy as [| |c uuid name locs comment data hdr a b count gs more rest ys Hc Hnm Hat Hf Ed Hl Hto Hid Hls Hdf Hpl IH|]; intros x [<-|Hx]; try destruct Hx.
  - eapply placed_simple; eassumption.
  - eapply placed_inner; eassumption.
  - eapply placed_container; eassumption.
  - change (In x (flat_map below ys)) in Hx. apply in_flat_map in Hx. destruct Hx as (k & Hk & Hx). exact (IH k Hk x Hx).
  - eapply placed_other; eassumption.
Qed.
Lemma placed_numbers version x : placed os alnum valid lower auto version src other_dec other_enc x -> NoDup (numbers (it_class x)).
Proof.
  assert (Q : forall c, In c classes -> NoDup (numbers c)). { intros c Hc. apply (@ok_numbers c []). apply all_classes_ok; [exact Hc|intros []]. }
  intros Hp. destruct Hp; cbn [it_class]; try (apply Q; first [apply simple_in; assumption|apply inner_in; assumption|apply container_in; assumption]). assumption.
Qed.

(** the names of the files *)
Lemma here_in uuid n ns : In n (here uuid src ns) -> exists m, n = dotted uuid m.
Proof. intros H. apply in_flat_map in H. destruct H as (m & _ & H). destruct (dget (dotted uuid m) src); [|destruct H]. destruct H as [<-|[]]. eauto. Qed.
Lemma all_names_nodup k fu uuid xs : own_names fu uuid xs -> (forall x, In x xs -> NoDup (numbers (it_class x))) ->
  NoDup (f_versions :: root_own k fu uuid src ++ flat_map (it_files src) xs).
Proof.
  intros (Hn & Hf & Hd) Hc. apply NoDup_cons_iff in Hn. destruct Hn as [N1 N2].
  assert (Dr : forall n, In n reserved -> ~ In 46 n) by (intros n Hr; apply nodotb; repeat (destruct Hr as [<-|Hr]; [reflexivity|]); destruct Hr).
  assert (F : forall n, In n (flat_map (it_files src) xs) -> exists x, In x xs /\ (n = it_uuid x \/ exists m, n = dotted (it_uuid x) m)).
  { intros n H. apply in_flat_map in H. destruct H as (x & Hx & H). exists x. split; [exact Hx|]. eapply file_of. exact H. }
  assert (Hno : forall n, In n (here uuid src (numbers (root_class k))) -> ~ ~ In 46 n). { intros n H Hx. apply here_in in H. destruct H as (m & ->). apply (nodot_dotted _ uuid m Hx). reflexivity. }
  assert (Own : NoDup (f_versions :: root_own k fu uuid src)).
  { unfold root_own. assert (Hfu : ~ In 46 fu /\ ~ In fu reserved) by (apply Hd; right; left; reflexivity).
    assert (B : NoDup (here uuid src (numbers (root_class k)))).
    { unfold here. destruct (Hd uuid (or_introl eq_refl)) as [Hu _]. apply nodup_flat.
      - intros m _. destruct (dget (dotted uuid m) src); [constructor; [intros []|constructor]|constructor].
      - apply (@ok_numbers _ []). apply root_class_ok. 
      - intros a b n _ _ H1 H2. destruct (dget (dotted uuid a) src); [|destruct H1]. destruct (dget (dotted uuid b) src); [|destruct H2]. destruct H1 as [<-|[]], H2 as [H2|[]]. unfold dotted in H2. apply app_inv_head in H2. apply (app_inv_head [46]) in H2. symmetry. exact H2. }
    assert (A : forall l, NoDup l -> (forall n, In n l -> ~ In 46 n) -> NoDup (l ++ here uuid src (numbers (root_class k)))).
    { intros l L1 L2. apply NoDup_app_intro; [exact L1|exact B|]. intros n H1 H2. exact (Hno n H2 (L2 n H1)). }
    destruct Hfu as [Q1 Q2].
    assert (E : forall l, NoDup l -> incl l reserved -> NoDup (l ++ [fu]) /\ forall n, In n (l ++ [fu]) -> ~ In 46 n).
    { intros l L1 L2. split; [apply NoDup_app_intro; [exact L1|constructor; [intros []|constructor]|]; intros n H1 [<-|[]]; exact (Q2 (L2 _ H1))|]. intros n H. apply in_app_or in H. destruct H as [H|[<-|[]]]; [apply Dr, L2, H|exact Q1]. }
    destruct k; rewrite app_comm_cons;
      [destruct (E [f_versions; f_root; f_version]) as [E1 E2]|destruct (E [f_versions; f_configinfo]) as [E1 E2]|destruct (E [f_versions; f_root; f_version; f_copyinfo]) as [E1 E2]];
      try (apply nodup_strs; reflexivity); try (intros n Hi; unfold reserved; cbn [In] in *; tauto); exact (A _ E1 E2). }
  rewrite app_comm_cons. apply NoDup_app_intro; [exact Own|apply files_nodup; [exact N2|intros x Hx; split; [apply Hd; right; right; apply in_map; exact Hx|apply Hc; exact Hx]]|].
  intros n H1 H2. apply F in H2. destruct H2 as (x & Hx & H2). assert (Hxu : In (it_uuid x) (map it_uuid xs)) by (apply in_map; exact Hx). destruct (Hd (it_uuid x) (or_intror (or_intror Hxu))) as [X1 X2].
  assert (K : In n (fu :: reserved) \/ exists m, n = dotted uuid m).
  { destruct H1 as [<-|H1]; [left; right; right; right; left; reflexivity|]. unfold root_own in H1. apply in_app_or in H1. destruct H1 as [H1|H1]; [|right; eapply here_in; exact H1].
    left. destruct k; cbn [In] in *; unfold reserved; cbn [In]; tauto. }
  destruct K as [K|(m & ->)].
  - assert (Hnd : ~ In 46 n) by (destruct K as [<-|K]; [apply Hd; right; left; reflexivity|apply Dr; exact K]).
    destruct H2 as [->|(m & ->)]; [|exact (nodot_dotted _ (it_uuid x) m Hnd eq_refl)]. destruct K as [K|K]; [apply Hf; rewrite K; exact Hxu|exact (X2 K)].
  - apply N1. destruct H2 as [H2|(m' & H2)].
    + exfalso. apply X1. rewrite <- H2. unfold dotted. apply in_or_app. right. left. reflexivity.
    + assert (Eu : uuid = it_uuid x); [|rewrite Eu; exact Hxu]. eapply (@before_dot _ _ (dotted uuid m)); [apply (Hd uuid (or_introl eq_refl))|exact X1|right; exists m; reflexivity|right; exists m'; exact H2].
Qed.

(** the root read, its objects read, its objects built, the root built *)
Lemma whole fresh (dec : folder -> list N -> list N -> res (list N * folder * list (list N * list (child (list N * folder))))) k version xs (os' : list (object folder written)) own ks :
  dec src = other_dec -> Forall scalar version -> (forall x, In x xs -> placed os alnum valid lower auto version src other_dec other_enc x /\ it_inner x = false) -> different lower xs -> by_name auto other_enc -> Forall2 (made os alnum valid src) xs os' ->
  detect src = Ok (k, version) -> root_decode os alnum valid auto k [] version src = Ok (own, ks) -> flat_kids ks = map (@child_of _ _) os' ->
  forall xsched xfuel, schedule xsched -> (it_heights xs <= xfuel)%nat ->
  exists ss, extract_tree os alnum valid auto dec xfuel xsched src = Ok (own, ss) /\ Permutation (map fst ss) (flat_map it_folders xs) /\ NoDup (map fst ss) /\
    forall srcs folders bsched bfuel h h', open_root srcs = Ok (c_name (root_class k), version, h, k) -> header_again k h srcs = Ok h' ->
      reads_again auto ss folders -> schedule bsched -> (2 * it_heights xs <= bfuel)%nat ->
    exists idx files, matching idx xs /\ Permutation (map fst files) (flat_map (it_files src) (flat_map below xs)) /\ Forall (fun e : written => same_entry (dget (fst e) src) (snd e)) files /\
      forall o out names, root_encode os alnum lower auto fresh o k version h' srcs idx (map fst files) = Ok (out, names) ->
        build_tree os alnum lower auto fresh other_enc o bfuel bsched srcs folders = Ok (files ++ map (fun n => (n, dget n out)) (match k with RExt => names | _ => skipn (length files) names end)).
Proof.
  intros Ed Sv Hpl Hdf Hbn Hm Hdet Hdec Hk xsched xfuel Hs Hf. destruct (C60_tree_restored os alnum valid lower auto version src other_dec other_enc xs Sv Hpl Hdf Hbn xsched xfuel Hs Hf) as (ss & X1 & X2 & X3 & X4).
  destruct (root_tasks xs os' ks own Hm (fun x Hx => proj2 (Hpl x Hx)) Hk) as [T1 T2].
  exists ss. split; [|split; [exact X2|split; [exact X3|]]].
  - unfold extract_tree. rewrite Hdet. cbn [bind]. rewrite Hdec. cbn [bind]. rewrite T1, T2. cbn [put_sources bind]. rewrite Ed, X1. reflexivity.
  - intros srcs folders bsched bfuel h h' Ho Hh Hr Hbs Hbf. destruct (X4 (c_name (root_class k)) bsched bfuel folders Hr Hbs Hbf) as (idx & files & E1 & E2 & E3 & _ & E5).
    exists idx, files. split; [exact E5|]. split; [exact E2|]. split; [exact E3|]. intros o out names E. unfold build_tree. rewrite Ho. cbn [bind]. rewrite E1. cbn [bind]. rewrite Hh. cbn [bind]. rewrite E. reflexivity.
Qed.

Lemma built_names (files : list written) (out : folder) names : map fst (files ++ map (fun n => (n, dget n out)) names) = map fst files ++ names.
Proof. rewrite map_app, map_map. cbn [fst]. rewrite map_id. reflexivity. Qed.
Lemma skip_listed (files : list written) names : skipn (length files) (map fst files ++ names) = names.
Proof. rewrite <- (map_length fst files) at 1. rewrite skipn_app, skipn_all, Nat.sub_diag. reflexivity. Qed.
End M.

(** ** Releases *)
Lemma split_dot_eq s : split_str [46] s = split_ch 46 s.
Proof.
  unfold split_str. induction s as [|c s IH]; [reflexivity|]. cbn [split_go split_ch starts length Nat.sub]. rewrite N.eqb_sym. destruct (N.eqb c 46); cbn [andb]; rewrite IH; reflexivity.
Qed.
Lemma split_ch_ne s : split_ch 46 s <> [].
Proof. destruct s as [|c s]; [discriminate|]. cbn [split_ch]. destruct (N.eqb c 46); [discriminate|]. destruct (split_ch 46 s); discriminate. Qed.
Lemma split_ch_parts s : forall a r, split_ch 46 s = a :: r -> ~ In 46 a /\ match r with [] => s = a | _ => exists t, s = a ++ [46] ++ t /\ split_ch 46 t = r end.
Proof.
  induction s as [|c s IH]; intros a r H; [injection H as <- <-; split; [intros []|reflexivity]|]. cbn [split_ch] in H. destruct (N.eqb_spec c 46) as [->|Hc].
  - injection H as <- <-. split; [intros []|]. destruct (split_ch 46 s) eqn:E; [exfalso; exact (split_ch_ne s E)|]. exists s. split; [reflexivity|exact E].
  - destruct (split_ch 46 s) as [|b q] eqn:E; [exfalso; exact (split_ch_ne s E)|]. cbn [cons_first] in H. injection H as <- <-. destruct (IH b q eq_refl) as [H1 H2]. split; [intros [Hi|Hi]; [congruence|exact (H1 Hi)]|].
    destruct q as [|b2 q]; [rewrite H2; reflexivity|]. destruct H2 as (t & -> & H2). exists t. split; [reflexivity|exact H2].
Qed.
Lemma split_ch_app a t : ~ In 46 a -> split_ch 46 (a ++ [46] ++ t) = a :: split_ch 46 t.
Proof.
  induction a as [|c a IH]; intros H; [reflexivity|]. cbn [app split_ch]. destruct (N.eqb_spec c 46) as [->|Hc]; [exfalso; apply H; left; reflexivity|]. change (a ++ 46 :: t) with (a ++ [46] ++ t). rewrite IH by (intros Hi; apply H; right; exact Hi). reflexivity.
Qed.
Lemma split_ch_last a : ~ In 46 a -> split_ch 46 a = [a].
Proof.
  induction a as [|c a IH]; intros H; [reflexivity|]. cbn [split_ch]. destruct (N.eqb_spec c 46) as [->|Hc]; [exfalso; apply H; left; reflexivity|]. rewrite IH by (intros Hi; apply H; right; exact Hi). reflexivity.
Qed.
Lemma check_release s : check_version v8_version s = Ok tt <-> same_release s.
Proof.
  unfold check_version. assert (E0 : split_str [46] v8_version = [[49]; [50]; [49; 49]]) by reflexivity. rewrite E0, split_dot_eq. split.
  - destruct (split_ch 46 s) as [|c [|d [|e [|]]]] eqn:E; try discriminate. cbn [bind]. change (int_of_str [49]) with (Ok 1%Z). change (int_of_str [50]) with (Ok 2%Z). cbn [bind].
    destruct (int_of_str c) as [x|] eqn:Ec; [|discriminate]. cbn [bind]. destruct (int_of_str d) as [y|] eqn:Ed; [|discriminate]. cbn [bind]. destruct ((1 =? x)%Z && (2 =? y)%Z) eqn:Exy; [|discriminate]. intros _.
    apply andb_true_iff in Exy. destruct Exy as [X Y]. apply Z.eqb_eq in X, Y. subst x y.
    destruct (split_ch_parts s _ _ E) as [H1 (t & -> & H2)]. destruct (split_ch_parts t _ _ H2) as [H3 (t2 & -> & H4)]. destruct (split_ch_parts t2 _ _ H4) as [H5 ->].
    exists c, d, e. repeat split; assumption.
  - intros (a & b & c & -> & H1 & H2 & H3 & H4 & H5). rewrite split_ch_app, split_ch_app, split_ch_last by assumption. change (int_of_str [49]) with (Ok 1%Z). change (int_of_str [50]) with (Ok 2%Z). cbn [bind]. rewrite H4, H5. reflexivity.
Qed.
Lemma check_ok_or ours s r : check_version ours s = Ok r -> r = tt.
Proof. destruct r. reflexivity. Qed.
