(** A folder of sources is built back from what was extracted. *)
From Coq Require Import String Permutation Lia.
From Verif Require Import PyBase PyText Paths Utf Codecs BraceMore JsonText JsonTextProofs JsonObj MetaObjBase Pipeline UpdateDictProofs Spec_Code OrgCode OrgCodeProofs OrgCodePaths OrgForm OrgFormProofs Spec_OrgForm OrgFormMain OrgFormAgain OrgFormDocs OrgFormGood FormJsonGood Spec_OrgTree OrgTree OrgTreePaths OrgTreeProofs OrgTreeElems.
Set Implicit Arguments.
Open Scope list_scope.
Open Scope N_scope.

Lemma nodup_agree ws : NoDup (map fst ws) -> agree ws.
Proof. intros H k c c' H1 H2. exact (nodup_fst_in _ _ _ _ H H1 H2). Qed.
Lemma kind_code n : kind_of n = Code <-> module_name n.
Proof. unfold kind_of, module_name. change x_bsl with s_bsl. destruct (ends s_bsl n); [tauto|]. destruct (ends x_elem n); split; discriminate. Qed.
Lemma kind_elems n : kind_of n = Elems <-> elements_name n.
Proof. unfold kind_of, elements_name. change x_bsl with s_bsl. change s_elem with x_elem. destruct (ends s_bsl n); [split; [discriminate|intros [Q _]; discriminate]|]. destruct (ends x_elem n); split; try discriminate; [split; reflexivity|reflexivity|intros [_ Q]; discriminate]. Qed.
Lemma last_snoc A (l : list A) x d : last (l ++ [x]) d = x.
Proof. induction l as [|y l IH]; [reflexivity|]. cbn [app last]. destruct (l ++ [x]) eqn:E; [destruct l; discriminate|exact IH]. Qed.
Lemma removelast_snoc A (l : list A) x : removelast (l ++ [x]) = l.
Proof. rewrite removelast_app by discriminate. apply app_nil_r. Qed.
Lemma snoc_inj A (l l' : list A) x x' : l ++ [x] = l' ++ [x'] -> l = l' /\ x = x'.
Proof. intros H. apply app_inj_tail in H. exact H. Qed.
Lemma ok_pair A B (a a' : A) (b b' : B) : Ok (a, b) = Ok (a', b') -> a = a' /\ b = b'.
Proof. intros H. injection H as -> ->. split; reflexivity. Qed.
Section Org.
Variable os : platform.
Variable table : list (list N * list N).
Variable fuel : nat.
Section Main.
Variables (dest dest2 : list N) (src : list (list N * tree)).
Let D := enter [] dest.
Let D2 := enter [] dest2.
Hypothesis Hwn : well_named src.
(** what one file gives *)
Definition alone (p : list (list N)) (n b : list N) (s : disk) : Prop := organize os table fuel (fun x => x) (fun x => x) dest (single p n b) [] = Ok s.
Variables (ordc orde : list write -> list write) (st st' : disk).
Hypothesis Hmod0 : forall p n b, found src p n b -> module_name n -> exists m ns, good_module os table fuel dest p n b m ns.
Hypothesis Hel0 : forall p n b, found src p n b -> elements_name n -> exists d tree treew data places, good_elements table dest p n b d tree treew data places.

Lemma file_facts p n b l : found src p n b -> writes_of os table fuel dest (mkentry (join [47] p) n b) = Ok l ->
  NoDup (map fst l) /\ (forall x, In x (map fst l) -> exists g, x = written g /\ noslash g /\ g <> []) /\ (exists c, In (written (D ++ p ++ [n]), c) l /\ (other_name n -> c = b)).
Proof.
  intros Hf Hw. destruct (found_fits Hf Hwn) as [Hp Hn]. unfold writes_of in Hw. cbn [e_name] in Hw. destruct (kind_of n) eqn:Ek.
  - apply kind_code in Ek. destruct (Hmod0 Hf Ek) as (m & ns & Hm). destruct (module_writes Hp Hn Hm Hw) as ((bs & _ & B) & _ & W1 & W2). split; [exact W1|]. split; [exact W2|]. exists bs. split; [exact B|]. intros [Q _]. unfold module_name in Ek. congruence.
  - apply kind_elems in Ek. destruct (Hel0 Hf Ek) as (d & tree & treew & data & places & Hd). destruct (form_writes _ _ Hp Hn (proj2 Ek) Hd Hw) as (files & owner & _ & _ & _ & _ & (kept & bs & _ & _ & B) & _ & W1 & W2). split; [exact W1|]. split; [exact W2|]. exists bs. split; [exact B|]. intros [_ Q]. destruct Ek as [_ Ek]. change s_elem with x_elem in *. congruence.
  - injection Hw as <-. unfold plain_write. cbn [e_path e_name e_bytes map fst]. rewrite (own_key dest Hp Hn). split; [constructor; [intros []|constructor]|]. split; [intros x [<-|[]]; exists (D ++ p ++ [n]); split; [reflexivity|exact (own_good dest Hp Hn)]|]. exists b. split; [left; reflexivity|reflexivity].
Qed.
Lemma alone_facts p n b l : found src p n b -> writes_of os table fuel dest (mkentry (join [47] p) n b) = Ok l -> exists s, alone p n b s /\ forall k c, dget k s = Some c <-> In (k, c) l.
Proof.
  intros Hf Hw. destruct (found_fits Hf Hwn) as [Hp Hn]. destruct (file_facts Hf Hw) as (N1 & _). exists (write_all l []). split; [exact (@organize_single os table fuel dest p n b l Hp Hn Hw)|]. intros k c. split.
  - intros H. destruct (in_dec (list_eq_dec N.eq_dec) k (map fst l)) as [Hi|Hi]; [|rewrite write_out in H by exact Hi; discriminate]. apply in_map_iff in Hi. destruct Hi as ([k' c'] & E & Hi). cbn in E. subst k'. rewrite (@write_in l [] _ _ (@nodup_agree l N1) Hi) in H. injection H as <-. exact Hi.
  - intros Hi. exact (@write_in l [] _ _ (@nodup_agree l N1) Hi).
Qed.
Hypothesis Hagree : forall p n b s p' n' b' s' k c c', found src p n b -> found src p' n' b' -> alone p n b s -> alone p' n' b' s' -> dget k s = Some c -> dget k s' = Some c' -> c = c'.
Hypothesis Hoc : reorders ordc.
Hypothesis Hoe : reorders orde.
Hypothesis Hst : NoDup (map fst st).
Hypothesis Horg : organize os table fuel ordc orde dest src st = Ok st'.

Lemma entries_found f : In f (walk_all src) <-> exists p n b, found src p n b /\ f = mkentry (join [47] p) n b.
Proof. exact (walk_all_found f Hwn). Qed.
(** what the extraction leaves on the disk *)
Lemma extracted : exists ws, st' = write_all ws (clear_dir dest st) /\ agree ws /\
  (forall k c, In (k, c) ws <-> exists p n b s, found src p n b /\ alone p n b s /\ dget k s = Some c) /\
  (forall p n b, found src p n b -> exists l, writes_of os table fuel dest (mkentry (join [47] p) n b) = Ok l /\ forall k c, In (k, c) l -> In (k, c) ws).
Proof.
  destruct (@organize_inv os table fuel ordc orde dest src st st' Hoc Hoe Horg) as (ws & E & Hin & Hall). exists ws. split; [exact E|].
  assert (Q : forall k c, In (k, c) ws <-> exists p n b s, found src p n b /\ alone p n b s /\ dget k s = Some c).
  { intros k c. rewrite Hin. split.
    - intros (f & l & Hf & Hl & Hi). apply entries_found in Hf. destruct Hf as (p & n & b & Hf & ->). destruct (alone_facts Hf Hl) as (s & S1 & S2). exists p, n, b, s. split; [exact Hf|]. split; [exact S1|]. apply S2. exact Hi.
    - intros (p & n & b & s & Hf & Hs & Hd). assert (Hi : In (mkentry (join [47] p) n b) (walk_all src)) by (apply entries_found; exists p, n, b; split; [exact Hf|reflexivity]). destruct (Hall _ Hi) as (l & Hl). exists (mkentry (join [47] p) n b), l. split; [exact Hi|]. split; [exact Hl|].
      destruct (alone_facts Hf Hl) as (s0 & S1 & S2). unfold alone in *. rewrite S1 in Hs. injection Hs as <-. apply S2. exact Hd. }
  split; [|split; [exact Q|]].
  - intros k c c' H1 H2. apply Q in H1, H2. destruct H1 as (p & n & b & s & A1 & A2 & A3). destruct H2 as (p' & n' & b' & s' & B1 & B2 & B3). exact (@Hagree _ _ _ _ _ _ _ _ _ _ _ A1 B1 A2 B2 A3 B3).
  - intros p n b Hf. assert (Hi : In (mkentry (join [47] p) n b) (walk_all src)) by (apply entries_found; exists p, n, b; split; [exact Hf|reflexivity]). destruct (Hall _ Hi) as (l & Hl). exists l. split; [exact Hl|]. intros k c Hk. apply Hin. eexists. exists l. split; [exact Hi|]. split; assumption.
Qed.
Lemma extracted_get k c : (exists p n b s, found src p n b /\ alone p n b s /\ dget k s = Some c) -> dget k st' = Some c.
Proof. destruct extracted as (ws & -> & Ha & Hin & _). intros H. apply Hin in H. exact (@write_in ws _ _ _ Ha H). Qed.
Lemma extracted_other k : (forall p n b s, found src p n b -> alone p n b s -> dget k s = None) -> dget k st' = dget k (clear_dir dest st).
Proof.
  destruct extracted as (ws & -> & Ha & Hin & _). intros H. apply write_out. intros Hi. apply in_map_iff in Hi. destruct Hi as ([k' c] & E & Hi). cbn in E. subst k'. apply Hin in Hi. destruct Hi as (p & n & b & s & Hf & Hs & Hd). rewrite (@H _ _ _ _ Hf Hs) in Hd. discriminate.
Qed.
Lemma extracted_nodup : NoDup (map fst st').
Proof. destruct extracted as (ws & -> & _). apply write_nodup, clear_nodup, Hst. Qed.
Hypothesis Hout : forall p n b s k c g, found src p n b -> alone p n b s -> dget k s = Some c -> noslash g -> within D g -> k = written g -> g = D ++ p ++ [n].
Hypothesis Hout2 : forall p n b s k c g, found src p n b -> alone p n b s -> dget k s = Some c -> noslash g -> within D2 g -> k <> written g.
Let st2 := clear_dir dest2 st'.

Lemma from_files p n b s k c : found src p n b -> alone p n b s -> dget k s = Some c -> (exists g, k = written g /\ noslash g /\ g <> []) /\ dget k st2 = Some c.
Proof.
  intros Hf Hs Hk. destruct extracted as (ws & _ & _ & _ & Hl). destruct (Hl _ _ _ Hf) as (l & Hw & _). destruct (alone_facts Hf Hw) as (s0 & S1 & S2). unfold alone in S1, Hs. rewrite S1 in Hs. injection Hs as <-. pose proof (proj1 (S2 _ _) Hk) as Hi. destruct (file_facts Hf Hw) as (_ & F & _).
  destruct (F k) as (g & -> & G1 & G2); [apply in_map_iff; exists (k, c); split; [reflexivity|exact Hi]|]. split; [exists g; split; [reflexivity|split; assumption]|].
  unfold st2. rewrite clear_same; [apply extracted_get; exists p, n, b, s0; split; [exact Hf|split; [exact S1|exact Hk]]|exact extracted_nodup|].
  destruct (below dest2 (written g)) as [r|] eqn:E; [|reflexivity]. exfalso. apply (@Hout2 _ _ _ _ _ _ g Hf S1 Hk G1); [|reflexivity]. apply (below_in dest2 G1 G2). exists r. exact E.
Qed.
Lemma listed g : In g (listing dest st2) <-> exists p n b c, found src p n b /\ g = mkentry (join [47] p) n c /\ dget (written (D ++ p ++ [n])) st2 = Some c.
Proof.
  assert (N2 : NoDup (map fst st2)) by (apply clear_nodup, extracted_nodup). unfold listing. rewrite in_flat_map. split.
  - intros ([k c] & Hi & Hg). cbn [fst snd] in Hg. destruct (below dest k) as [comps|] eqn:Eb; [|destruct Hg]. destruct Hg as [<-|[]]. pose proof (in_dget k c st2 N2 Hi) as Hk.
    assert (Hk' : dget k st' = Some c). { apply clear_in in Hi. apply in_dget; [exact extracted_nodup|apply Hi]. }
    destruct extracted as (ws & E & Ha & Hin & _). destruct (in_dec (list_eq_dec N.eq_dec) k (map fst ws)) as [Hw|Hw].
    + apply in_map_iff in Hw. destruct Hw as ([k' c'] & E' & Hw). cbn in E'. subst k'. apply Hin in Hw. destruct Hw as (p & n & b & s & Hf & Hs & Hd). destruct (@from_files p n b s _ _ Hf Hs Hd) as ((g & Eg & G1 & G2) & _). subst k. destruct (found_fits Hf Hwn) as [Hp Hn].
      assert (g = D ++ p ++ [n]) as -> by (apply (@Hout _ _ _ _ _ _ g Hf Hs Hd G1); [apply (below_in dest G1 G2); exists comps; exact Eb|reflexivity]). unfold D in Eb. rewrite (below_own dest Hp Hn) in Eb. injection Eb as <-. rewrite last_snoc, removelast_snoc. exists p, n, b, c. split; [exact Hf|split; [reflexivity|exact Hk]].
    + exfalso. rewrite E in Hk'. rewrite write_out in Hk' by exact Hw. apply dget_in in Hk'. apply clear_in in Hk'. destruct Hk' as [_ Q]. congruence.
  - intros (p & n & b & c & Hf & -> & Hk). destruct (found_fits Hf Hwn) as [Hp Hn]. exists (written (D ++ p ++ [n]), c). split; [apply dget_in; exact Hk|]. cbn [fst snd]. unfold D. rewrite (below_own dest Hp Hn). rewrite last_snoc, removelast_snoc. left. reflexivity.
Qed.
Hypothesis Hmod : forall p n b, found src p n b -> module_name n -> exists m ns, good_module os table fuel dest p n b m ns /\
  (forall a k data, OrgCode.unpack (text_of m) = Ok a -> In (k, (data, Some Includr)) a ->
   exists bs, text_file os data bs /\ dget (written (include_file table false D (join [47] p) k)) st' = Some bs /\ ~ within D2 (include_file table false D (join [47] p) k)).
Hypothesis Hel : forall p n b, found src p n b -> elements_name n -> exists d tree treew data places, good_elements table dest p n b d tree treew data places /\
  (forall owner pl j, unpack_docs fuel (Jobj (dset fe_tree (Jlist treew) d)) = Ok owner -> In pl places -> p_written pl = false -> In (p_name pl, j) owner ->
   exists bs j', dget (written (include_with s_elem table D (join [47] p) (p_name pl))) st' = Some bs /\ json_file bs j' /\ same_document j j' /\ distinct_data j' /\ ~ within D2 (include_with s_elem table D (join [47] p) (p_name pl))).


Lemma kept g bs : noslash g -> g <> [] -> dget (written g) st' = Some bs -> ~ within D2 g -> dget (written g) st2 = Some bs.
Proof.
  intros G1 G2 Hg Hw. unfold st2. rewrite clear_same; [exact Hg|exact extracted_nodup|]. destruct (below dest2 (written g)) eqn:E; [|reflexivity]. exfalso. apply Hw. apply (below_in dest2 G1 G2). eexists. exact E.
Qed.
Lemma built_ok p n b c : found src p n b -> dget (written (D ++ p ++ [n])) st2 = Some c -> exists b', built os table fuel dest dest2 st2 (mkentry (join [47] p) n c) = Ok (written (D2 ++ p ++ [n]), b') /\ came fuel n b b'.
Proof.
  intros Hf Hc. destruct (found_fits Hf Hwn) as [Hp Hn]. destruct extracted as (ws & _ & _ & Hin & Hall). destruct (Hall _ _ _ Hf) as (l & Hw & Hlw). destruct (alone_facts Hf Hw) as (s & S1 & S2).
  assert (Hl2 : forall k x, In (k, x) l -> dget k st2 = Some x) by (intros k x Hi; apply S2 in Hi; exact (proj2 (@from_files p n b s _ _ Hf S1 Hi))).
  unfold built, build_bytes. cbn [e_name e_path e_bytes]. unfold D2. rewrite (own_key dest2 Hp Hn). pose proof Hw as Hw0. unfold writes_of in Hw. cbn [e_name] in Hw. destruct (kind_of n) eqn:Ek.
  - pose proof Ek as Hk. apply kind_code in Hk. destruct (Hmod Hf Hk) as (m & ns & Hm & Hro). pose proof (module_areas Hm) as Ha.
    assert (Hb : pack_file fuel (texts st2) dest (join [47] p) n table None = Ok (text_of m)).
    { apply (module_built Hp Hn Hm st2 Hw); [apply clear_nodup, extracted_nodup|exact Hl2|]. intros k data Hi. destruct (Hro _ k data Ha (or_intror Hi)) as (bs & B1 & B2 & B3). exists bs. split; [exact B1|].
      destruct Hm as (_ & _ & _ & _ & _ & _ & Hnm & _ & Ht & _). assert (In k ns) as Hkn by (rewrite <- (names_keys Hnm); apply in_map_iff; exists (k, (data, Some Includr)); split; [reflexivity|exact Hi]).
      destruct (@include_good s_bsl table dest (join [47] p) k ltac:(intros Q; cbn in Q; intuition discriminate) (Ht _ Hkn)) as [I1 I2]. rewrite include_bsl in I1, I2. exact (kept I1 I2 B2 B3). }
    rewrite Hb. cbn [bind]. destruct Hm as (H1 & H2 & _ & H4 & _). pose proof (no_mark H2 H4 H1) as Hu. apply text_bytes_file in H1. rewrite H1. cbn [bind]. exists (bare b). split; [reflexivity|]. unfold module_name in Hk. split; [split; [intros [Q _]; congruence|]; split; [intros _; split; [reflexivity|exact Hu]|]; intros [Q _]; congruence|]. intros [Q _]. congruence.
  - pose proof Ek as Hk. apply kind_elems in Hk. destruct (Hel Hf Hk) as (d & tree & treew & data & places & Hd & Hroe).
    destruct (@form_built os table fuel _ _ _ _ _ _ _ _ _ Hp Hn (proj2 Hk) Hd st2 _ Hw Hl2) with (g := mkentry (join [47] p) n c) as (kp & doc & bs & B1 & B2 & B3 & B4 & B5); [|reflexivity|reflexivity|exact Hc|].
    { intros owner pl j Ho Hpl Hwr Hi. destruct (Hroe _ _ _ Ho Hpl Hwr Hi) as (bs & j' & B1 & B2 & B3 & B4 & B5). exists bs, j'. split; [|split; [apply json_file_of; exact B2|split; assumption]].
      destruct Hd as (_ & _ & _ & _ & _ & _ & _ & _ & _ & _ & _ & Ht & _). destruct (@include_good s_elem table dest (join [47] p) (p_name pl) ltac:(intros Q; cbn in Q; intuition discriminate) (Ht _ Hpl)) as [I1 I2]. exact (kept I1 I2 B1 B5). }
    cbn [e_bytes] in B1. rewrite B1. cbn [bind]. rewrite B2. cbn [bind]. rewrite B3. cbn [bind]. exists bs. split; [reflexivity|]. destruct Hk as [Hk1 Hk2]. split.
    + split; [intros [_ Q]; congruence|]. split; [intros Q; unfold module_name in Q; congruence|]. intros _. exists (Jobj d), doc. split; [apply Hd|]. split; [apply json_file_of; exact B4|]. destruct B5 as (B5 & B6 & _). split; [exact B5|exact B6].
    + intros _ dd files J1 J2. exists doc. split; [apply json_file_of; exact B4|]. destruct B5 as (_ & _ & B7). apply B7. destruct Hd as (J3 & _). apply json_file_of in J1, J3. assert (dd = Jobj d) as <- by congruence. exact J2.
  - cbn [bind]. exists c. split; [reflexivity|]. assert (Ho : other_name n). { split; [destruct (ends s_bsl n) eqn:E; [|reflexivity]|]. - apply kind_code in E. congruence. - destruct (ends s_bsl n) eqn:E0; [apply kind_code in E0; congruence|]. destruct (ends s_elem n) eqn:E; [|reflexivity]. assert (kind_of n = Elems) by (apply kind_elems; split; assumption). congruence. }
    split; [|destruct Ho as [_ Q2]; intros [_ Q]; congruence]. split; [|destruct Ho as [Q1 Q2]; split; [intros Q; unfold module_name in Q; congruence|intros [_ Q]; congruence]]. intros _. destruct (file_facts Hf Hw0) as (_ & _ & c0 & C1 & C2). pose proof (Hl2 _ _ C1) as Q. rewrite Hc in Q. injection Q as ->. exact (C2 Ho).
Qed.
Lemma assembled_came ordl ordw : reorders ordl -> reorders ordw -> exists sf, assemble os table fuel ordl ordw dest dest2 st' = Ok sf /\
  (forall p n b, found src p n b -> exists b', dget (written (D2 ++ p ++ [n])) sf = Some b' /\ came fuel n b b') /\
  (forall g, within D2 g -> noslash g -> dget (written g) sf <> None -> exists p n b, found src p n b /\ g = D2 ++ p ++ [n]) /\
  (forall g, noslash g -> g <> [] -> ~ within D2 g -> dget (written g) sf = dget (written g) st').
Proof.
  intros Hol How. unfold assemble. fold st2.
  destruct (@all_ok_ok _ _ (built os table fuel dest dest2 st2) (ordl (listing dest st2))) as (ws & E).
  { intros g Hg. apply (Permutation_in _ (Permutation_sym (Hol _))) in Hg. apply listed in Hg. destruct Hg as (p & n & b & c & Hf & -> & Hc). destruct (built_ok Hf Hc) as (b' & B & _). eexists. exact B. }
  rewrite E. cbn [bind]. eexists. split; [reflexivity|]. destruct (all_ok_in _ _ E) as [W1 _].
  assert (W : forall k x, In (k, x) (ordw ws) <-> exists p n b c, found src p n b /\ dget (written (D ++ p ++ [n])) st2 = Some c /\ built os table fuel dest dest2 st2 (mkentry (join [47] p) n c) = Ok (k, x)).
  { intros k x. split.
    - intros Hi. apply (Permutation_in _ (Permutation_sym (How _))) in Hi. apply W1 in Hi. destruct Hi as (g & Hg & B). apply (Permutation_in _ (Permutation_sym (Hol _))) in Hg. apply listed in Hg. destruct Hg as (p & n & b & c & Hf & -> & Hc). exists p, n, b, c. split; [exact Hf|split; assumption].
    - intros (p & n & b & c & Hf & Hc & B). apply (Permutation_in _ (How _)). apply W1. eexists. split; [|exact B]. apply (Permutation_in _ (Hol _)). apply listed. exists p, n, b, c. split; [exact Hf|split; [reflexivity|exact Hc]]. }
  assert (G2 : forall p n b, found src p n b -> noslash (D2 ++ p ++ [n]) /\ D2 ++ p ++ [n] <> []) by (intros p n b Hf; destruct (found_fits Hf Hwn) as [Hp Hn]; exact (own_good dest2 Hp Hn)).
  assert (Ag : agree (ordw ws)).
  { intros k c1 c2 H1 H2. apply W in H1, H2. destruct H1 as (p & n & b & c & Hf & Hc & B). destruct H2 as (p' & n' & b' & c' & Hf' & Hc' & B').
    destruct (built_ok Hf Hc) as (x & X & _). destruct (built_ok Hf' Hc') as (x' & X' & _). rewrite X in B. apply ok_pair in B. destruct B as [<- <-]. rewrite X' in B'. apply ok_pair in B'. destruct B' as [Ek <-].
    destruct (G2 _ _ _ Hf) as [A1 A2]. destruct (G2 _ _ _ Hf') as [A3 A4]. apply written_inj in Ek; try assumption. apply app_inv_head in Ek. apply snoc_inj in Ek. destruct Ek as [-> ->]. rewrite Hc in Hc'. injection Hc' as <-. rewrite X in X'. injection X' as <-. reflexivity. }
  split; [|split].
  - intros p n b Hf. destruct extracted as (ws0 & _ & _ & _ & Hall). destruct (Hall _ _ _ Hf) as (l & Hw & _). destruct (file_facts Hf Hw) as (_ & _ & c & C1 & _). destruct (alone_facts Hf Hw) as (s & S1 & S2). apply S2 in C1. destruct (@from_files p n b s _ _ Hf S1 C1) as [_ Hc].
    destruct (built_ok Hf Hc) as (b' & B & Q). exists b'. split; [|exact Q]. apply write_in; [exact Ag|]. apply W. exists p, n, b, c. split; [exact Hf|split; assumption].
  - intros g Hg Hs Hd. destruct (in_dec (list_eq_dec N.eq_dec) (written g) (map fst (ordw ws))) as [Hi|Hi].
    + apply in_map_iff in Hi. destruct Hi as ([k x] & Ek & Hi). cbn in Ek. subst k. apply W in Hi. destruct Hi as (p & n & b & c & Hf & Hc & B). destruct (built_ok Hf Hc) as (b' & B' & _). rewrite B' in B. apply ok_pair in B. destruct B as [Ek <-]. exists p, n, b. split; [exact Hf|]. symmetry. destruct (G2 _ _ _ Hf) as [A1 A2]. apply written_inj; try assumption. destruct Hg as (r & Hr & ->). destruct D2; [exact Hr|discriminate].
    + exfalso. apply Hd. rewrite write_out by exact Hi. unfold st2. assert (Hne : g <> []) by (destruct Hg as (r & Hr & ->); destruct D2; [exact Hr|discriminate]). destruct (below_in dest2 Hs Hne) as [_ Q]. destruct (Q Hg) as (r & Er). destruct (dget (written g) (clear_dir dest2 st')) as [x|] eqn:Ed; [|reflexivity]. apply dget_in, clear_in in Ed. destruct Ed as [_ Ed]. congruence.
  - intros g Hs Hne Hg. rewrite write_out.
    + unfold st2. apply clear_same; [exact extracted_nodup|]. destruct (below dest2 (written g)) eqn:Eb; [|reflexivity]. exfalso. apply Hg. apply (below_in dest2 Hs Hne). eexists. exact Eb.
    + intros Hi. apply in_map_iff in Hi. destruct Hi as ([k x] & Ek & Hi). cbn in Ek. subst k. apply W in Hi. destruct Hi as (p & n & b & c & Hf & Hc & B). destruct (built_ok Hf Hc) as (b' & B' & _). rewrite B' in B. apply ok_pair in B. destruct B as [Ek <-]. destruct (G2 _ _ _ Hf) as [A1 A2]. apply written_inj in Ek; try assumption. apply Hg. exists (p ++ [n]). split; [destruct p; discriminate|symmetry; exact Ek].
Qed.
Lemma assembled ordl ordw : reorders ordl -> reorders ordw -> exists sf, assemble os table fuel ordl ordw dest dest2 st' = Ok sf /\
  (forall p n b, found src p n b -> exists b', dget (written (D2 ++ p ++ [n])) sf = Some b' /\ restored n b b') /\
  (forall g, within D2 g -> noslash g -> dget (written g) sf <> None -> exists p n b, found src p n b /\ g = D2 ++ p ++ [n]) /\
  (forall g, noslash g -> g <> [] -> ~ within D2 g -> dget (written g) sf = dget (written g) st').
Proof.
  intros Hol How. destruct (assembled_came Hol How) as (sf & E & A & B). exists sf. split; [exact E|]. split; [|exact B]. intros p n b F. destruct (A p n b F) as (b' & Q & R & _). exists b'. split; assumption.
Qed.
End Main.
Lemma same_writes ws1 ws2 (st : disk) : agree ws1 -> agree ws2 -> (forall w, In w ws1 <-> In w ws2) -> forall k, dget k (write_all ws1 st) = dget k (write_all ws2 st).
Proof.
  intros A1 A2 H k. destruct (in_dec (list_eq_dec N.eq_dec) k (map fst ws1)) as [Hi|Hi].
  - apply in_map_iff in Hi. destruct Hi as ([k' c] & E & Hi). cbn in E. subst k'. rewrite (@write_in ws1 st k c A1 Hi), (@write_in ws2 st k c A2 (proj1 (H _) Hi)). reflexivity.
  - rewrite !write_out; [reflexivity| |exact Hi]. intros Q. apply Hi. apply in_map_iff in Q. destruct Q as (w & E & Q). apply in_map_iff. exists w. split; [exact E|apply H; exact Q].
Qed.
Lemma organize_any ordc orde ordc' orde' dest src st st' : organize os table fuel ordc orde dest src st = Ok st' -> exists st1, organize os table fuel ordc' orde' dest src st = Ok st1.
Proof. unfold organize. destruct (all_ok (code_writes os table dest) _); [|discriminate]. cbn [bind]. destruct (all_ok (elem_writes os table fuel dest) _); [|discriminate]. intros _. eexists. reflexivity. Qed.
End Org.
