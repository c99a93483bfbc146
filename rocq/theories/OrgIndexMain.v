(** Extraction and build of a folder of sources with an index. *)
From Coq Require Import String Permutation Lia.
From Verif Require Import PyBase PyText Paths Json Index IndexLookup Utf Codecs BraceMore JsonText JsonTextProofs JsonObj MetaObjBase Pipeline UpdateDictProofs Spec_Code OrgCode OrgCodeProofs OrgCodePaths OrgCodePack OrgForm OrgFormProofs Spec_OrgForm OrgFormMain OrgFormAgain OrgFormDocs OrgFormGood FormJsonGood Spec_OrgTree OrgTree OrgTreePaths OrgTreeProofs OrgTreeElems OrgTreeMain Props_OrgForm OrgIndex Spec_OrgIndex OrgIndexPaths OrgIndexProofs.
Set Implicit Arguments.
Open Scope list_scope.
Open Scope N_scope.

Lemma no_moved_nil p n loc : ~ moved_to [] p n loc.
Proof. intros M. inversion M; subst; discriminate. Qed.
Lemma truthy_or_nil (d : list (list N * json)) : jtruthy (JDict d) = true \/ d = [].
Proof. destruct d; [right; reflexivity|left; reflexivity]. Qed.
Section Org.
Variable os : platform.
Variable d : list (list N * json).
Variable fuel : nat.
Let idx := JDict d.
Let table := table_of idx.
Definition iwrites_of (dest : list N) (f : entry) : res (list write) :=
  match kind_of (e_name f) with Plain => w <- iplain_write idx dest f ;; Ok [w] | Code => icode_writes os idx dest f | Elems => ielem_writes os idx fuel dest f end.
Lemma iorganize_inv ordc orde dest src st st' : reorders ordc -> reorders orde -> iorganize os idx fuel ordc orde dest src st = Ok st' ->
  exists ws, st' = write_all ws (clear_dir dest st) /\ (forall w, In w ws <-> exists f l, In f (walk_all src) /\ iwrites_of dest f = Ok l /\ In w l) /\ (forall f, In f (walk_all src) -> exists l, iwrites_of dest f = Ok l).
Proof.
  intros Hc He H. unfold iorganize in H. destruct (all_ok (iplain_write idx dest) _) as [pw|] eqn:Ep; [|discriminate]. cbn [bind] in H. destruct (all_ok (icode_writes os idx dest) _) as [cw|] eqn:Ec; [|discriminate]. cbn [bind] in H. destruct (all_ok (ielem_writes os idx fuel dest) _) as [ew|] eqn:Ee; [|discriminate]. cbn [bind] in H. injection H as <-.
  destruct (all_ok_in _ _ Ep) as [P1 P2]. destruct (all_ok_in _ _ Ec) as [C1 C2]. destruct (all_ok_in _ _ Ee) as [E1 E2].
  exists (pw ++ ordc (concat cw) ++ orde (concat ew)). split; [rewrite !write_all_app; reflexivity|]. split.
  - intros w. rewrite !in_app_iff. split.
    + intros [H|[H|H]].
      * apply P1 in H. destruct H as (f & Hf & El). apply filter_In in Hf. destruct Hf as [Hf Hk]. exists f, [w]. split; [exact Hf|]. split; [|left; reflexivity]. unfold iwrites_of, is_plain in *. destruct (kind_of (e_name f)); try discriminate. rewrite El. reflexivity.
      * apply (Permutation_in _ (Permutation_sym (Hc _))) in H. apply in_concat in H. destruct H as (l & Hl & Hw). apply C1 in Hl. destruct Hl as (f & Hf & El). apply filter_In in Hf. destruct Hf as [Hf Hk]. exists f, l. split; [exact Hf|]. split; [|exact Hw]. unfold iwrites_of, is_code in *. destruct (kind_of (e_name f)); try discriminate. exact El.
      * apply (Permutation_in _ (Permutation_sym (He _))) in H. apply in_concat in H. destruct H as (l & Hl & Hw). apply E1 in Hl. destruct Hl as (f & Hf & El). apply filter_In in Hf. destruct Hf as [Hf Hk]. exists f, l. split; [exact Hf|]. split; [|exact Hw]. unfold iwrites_of, is_elems in *. destruct (kind_of (e_name f)); try discriminate. exact El.
    + intros (f & l & Hf & Hl & Hw). unfold iwrites_of in Hl. destruct (kind_of (e_name f)) eqn:Ek.
      * right. left. apply (Permutation_in _ (Hc _)). apply in_concat. exists l. split; [|exact Hw]. apply C1. exists f. split; [|exact Hl]. apply filter_In. split; [exact Hf|]. unfold is_code. rewrite Ek. reflexivity.
      * right. right. apply (Permutation_in _ (He _)). apply in_concat. exists l. split; [|exact Hw]. apply E1. exists f. split; [|exact Hl]. apply filter_In. split; [exact Hf|]. unfold is_elems. rewrite Ek. reflexivity.
      * left. destruct (iplain_write idx dest f) as [w0|] eqn:Ew; [|discriminate]. injection Hl as <-. destruct Hw as [<-|[]]. apply P1. exists f. split; [|exact Ew]. apply filter_In. split; [exact Hf|]. unfold is_plain. rewrite Ek. reflexivity.
  - intros f Hf. unfold iwrites_of. destruct (kind_of (e_name f)) eqn:Ek.
    + apply C2. apply filter_In. split; [exact Hf|]. unfold is_code. rewrite Ek. reflexivity.
    + apply E2. apply filter_In. split; [exact Hf|]. unfold is_elems. rewrite Ek. reflexivity.
    + destruct (P2 f) as (w & ->); [apply filter_In; split; [exact Hf|]; unfold is_plain; rewrite Ek; reflexivity|]. eexists. reflexivity.
Qed.
Lemma iorganize_single dest p n b l : fits p -> fit_name n -> iwrites_of dest (mkentry (join [47] p) n b) = Ok l -> iorganize os idx fuel (fun x => x) (fun x => x) dest (single p n b) [] = Ok (write_all l []).
Proof.
  intros Hp Hn H. unfold iorganize, walk_all. change (@nil N) with (join [47] (@nil (list N))). rewrite (walk_single b (Forall_nil _) Hp Hn). cbn [app]. unfold iwrites_of, is_plain, is_code, is_elems in *. cbn [filter e_name] in *. destruct (kind_of n); cbn [all_ok bind].
  - rewrite H. cbn [bind concat app clear_dir filter write_all fold_left]. rewrite app_nil_r. reflexivity.
  - rewrite H. cbn [bind concat app clear_dir filter write_all fold_left]. rewrite app_nil_r. reflexivity.
  - destruct (iplain_write idx dest _) as [w|]; [|discriminate]. cbn [bind] in H |- *. injection H as <-. reflexivity.
Qed.
Section Main.
Variables (dest dest2 : list N) (src : list (list N * tree)).
Let D := enter [] dest.
Let D2 := enter [] dest2.
Hypothesis Hwn : well_named src.
Hypothesis Hidx : proper_index d.
Hypothesis Hno : forall p n b, found src p n b -> ~ In areas_name p /\ n <> areas_name.
Hypothesis Hmv : forall p n loc, moved_to d p n loc -> (exists b, found src p n b) /\ file_path loc /\ (elements_name n -> ends s_elem loc = true).
(** where a file lies and how the build reads it *)
Definition address (p : list (list N)) (n : list N) (g : list (list N)) (q qn : list N) : Prop :=
  noslash g /\ g <> [] /\ file_key dest q qn = written g /\ is_abs q = false /\
  ((q = join [47] p /\ qn = n /\ (forall loc, ~ moved_to d p n loc) /\ g = D ++ p ++ [n]) \/ exists loc, moved_to d p n loc /\ q = source_path loc /\ qn = basename loc /\ g = place_in D loc).
Lemma address_fun p n g q qn g' q' qn' : address p n g q qn -> address p n g' q' qn' -> g = g' /\ q = q' /\ qn = qn'.
Proof.
  intros (_ & _ & _ & _ & [(-> & -> & A & ->)|(l & A & -> & -> & ->)]) (_ & _ & _ & _ & [(-> & -> & B & ->)|(l' & B & -> & -> & ->)]).
  - repeat split.
  - destruct (A _ B).
  - destruct (B _ A).
  - rewrite (moved_fun A B). repeat split.
Qed.
Lemma address_lies p n g q qn : address p n g q qn -> lies d D p n g.
Proof. intros (_ & _ & _ & _ & [(_ & _ & A & ->)|(l & A & _ & _ & ->)]); [right; split; [exact A|reflexivity]|left; exists l; split; [exact A|reflexivity]]. Qed.
Lemma moved_address p n loc : moved_to d p n loc -> address p n (place_in D loc) (source_path loc) (basename loc).
Proof. intros M. destruct (Hmv M) as (_ & Hl & _). destruct (@moved_key dest loc Hl) as (K1 & K2 & _ & K3 & K4). repeat (split; [assumption|]). right. exists loc. repeat split. exact M. Qed.
Lemma own_address p n b k : found src p n b -> own_place idx dest (mkentry (join [47] p) n b) = Ok k -> exists g q qn, address p n g q qn /\ k = written g.
Proof.
  intros Hf H. destruct (found_fits Hf Hwn) as [Hp Hn]. destruct (Hno Hf) as [N1 N2]. unfold own_place in H. cbn [e_path e_name] in H. destruct (get_dest_path (fun _ => Ok tt) dest (join [47] p) n idx None) as [[q qn]|] eqn:E; [|discriminate]. cbn [bind] in H. injection H as <-.
  destruct (@place_found d p n Hp N1 N2 Hidx _ E) as [(loc & M & Er)|[M Er]]; injection Er as -> ->.
  - exists (place_in D loc), (source_path loc), (basename loc). split; [exact (moved_address M)|]. exact (proj1 (@moved_key dest loc (proj1 (proj2 (Hmv M))))).
  - exists (D ++ p ++ [n]), (join [47] p), n. destruct (own_good dest Hp Hn) as [O1 O2]. split; [|exact (own_key dest Hp Hn)]. split; [exact O1|split; [exact O2|]]. split; [exact (own_key dest Hp Hn)|]. split; [exact (join_rel Hp)|]. left. repeat split. exact M.
Qed.
(** what one file gives *)
Definition ialone (p : list (list N)) (n b : list N) (s : disk) : Prop := iorganize os idx fuel (fun x => x) (fun x => x) dest (single p n b) [] = Ok s.
Variables (ordc orde : list write -> list write) (st st' : disk).
Definition module_ok (p : list (list N)) (n b : list N) (m : code) (ns : list (list N)) : Prop := good_module os table fuel dest p n b m ns /\
  forall loc, moved_to d p n loc -> (forall k, In k ns -> In 95 (target table k)) /\ ~ In (place_in D loc) (map (include_file table false D (join [47] p)) ns).
Definition elements_ok (p : list (list N)) (n b : list N) d0 tree treew data places : Prop := good_elements table dest p n b d0 tree treew data places /\
  forall loc, moved_to d p n loc -> (forall pl, In pl places -> In 95 (target table (p_name pl))) /\ ~ In (place_in D loc) (map (fun pl => include_with s_elem table D (join [47] p) (p_name pl)) (filter p_written places)).
Hypothesis Hmod0 : forall p n b, found src p n b -> module_name n -> exists m ns, module_ok p n b m ns.
Hypothesis Hel0 : forall p n b, found src p n b -> elements_name n -> exists d0 tree treew data places, elements_ok p n b d0 tree treew data places.
(** the conditions of the lemmas about one file *)
Lemma module_addr p n b m ns g q qn : module_ok p n b m ns -> address p n g q qn -> ~ In g (map (include_file table false D (join [47] p)) ns) /\ forall k, In k ns -> include_file table false D q k = include_file table false D (join [47] p) k.
Proof.
  intros [Hm Hl] (_ & _ & _ & _ & [(-> & -> & _ & ->)|(loc & M & -> & -> & ->)]).
  - split; [|reflexivity]. destruct Hm as (_ & _ & _ & _ & _ & _ & _ & _ & _ & Hnd & _). apply NoDup_cons_iff in Hnd. apply Hnd.
  - destruct (Hl _ M) as [L1 L2]. split; [exact L2|]. intros k Hk. rewrite <- !include_bsl. apply include_any. exact (L1 k Hk).
Qed.
Lemma elements_addr p n b d0 tree treew data places g q qn : elements_name n -> elements_ok p n b d0 tree treew data places -> address p n g q qn ->
  ~ In g (map (fun pl => include_with s_elem table D (join [47] p) (p_name pl)) (filter p_written places)) /\ ends x_elem qn = true /\ forall pl, In pl places -> include_with s_elem table D q (p_name pl) = include_with s_elem table D (join [47] p) (p_name pl).
Proof.
  intros Hn [He Hl] (_ & _ & _ & _ & [(-> & -> & _ & ->)|(loc & M & -> & -> & ->)]).
  - split; [|split; [apply Hn|reflexivity]]. destruct He as (_ & _ & _ & _ & _ & _ & _ & _ & _ & _ & _ & _ & Hnd). apply NoDup_cons_iff in Hnd. apply Hnd.
  - destruct (Hl _ M) as [L1 L2]. split; [exact L2|]. split; [|intros pl Hpl; apply include_any; exact (L1 pl Hpl)]. destruct (Hmv M) as (_ & [Hr Hb] & Q). specialize (Q Hn). apply ends_spec in Q. destruct Q as [t ->]. rewrite basename_last in *. 
    destruct (in_dec N.eq_dec 47 t) as [Hi|Hi].
    + destruct (last_part _ Hi) as (h & e & -> & He'). assert (Hq : ~ In 47 (e ++ s_elem)) by (intros Z; apply in_app_or in Z; destruct Z as [Z|Z]; [exact (He' Z)|cbn in Z; intuition discriminate]).
      replace ((h ++ slash :: e) ++ s_elem) with (h ++ 47 :: (e ++ s_elem)) by (rewrite <- app_assoc; reflexivity). rewrite split_ch_app, (split_ch_nosep _ _ Hq), last_last. apply ends_spec. exists e. reflexivity.
    + assert (Hq : ~ In 47 (t ++ s_elem)) by (intros Z; apply in_app_or in Z; destruct Z as [Z|Z]; [exact (Hi Z)|cbn in Z; intuition discriminate]). rewrite (split_ch_nosep _ _ Hq). apply ends_spec. exists t. reflexivity.
Qed.

Lemma own_ok p n b l : iwrites_of dest (mkentry (join [47] p) n b) = Ok l -> exists k, own_place idx dest (mkentry (join [47] p) n b) = Ok k.
Proof.
  unfold iwrites_of, iplain_write, icode_writes, ielem_writes. cbn [e_name e_bytes]. destruct (kind_of n).
  - destruct (utf8sig_decode b); [|discriminate]. destruct (OrgCode.unpack _); [|discriminate]. destruct (own_place idx dest _) as [k|]; [intros _; exists k; reflexivity|discriminate].
  - destruct (json_of b); [|discriminate]. cbn [bind]. destruct (unpack_docs fuel _); [|discriminate]. cbn [bind]. destruct (own_place idx dest _) as [k|]; [intros _; exists k; reflexivity|discriminate].
  - destruct (own_place idx dest _) as [k|]; [intros _; exists k; reflexivity|discriminate].
Qed.
Lemma file_facts p n b l : found src p n b -> iwrites_of dest (mkentry (join [47] p) n b) = Ok l ->
  exists g q qn, address p n g q qn /\ own_place idx dest (mkentry (join [47] p) n b) = Ok (written g) /\
  NoDup (map fst l) /\ (forall x, In x (map fst l) -> exists g, x = written g /\ noslash g /\ g <> []) /\ (exists c, In (written g, c) l /\ (other_name n -> c = b)).
Proof.
  intros Hf Hw. destruct (found_fits Hf Hwn) as [Hp Hn]. destruct (own_ok _ _ _ Hw) as (k & Ho). destruct (own_address Hf Ho) as (g & q & qn & Ha & ->). exists g, q, qn. split; [exact Ha|]. split; [exact Ho|].
  pose proof Ha as (G1 & G2 & _ & _ & _). unfold iwrites_of in Hw. cbn [e_name] in Hw. destruct (kind_of n) eqn:Ek.
  - apply kind_code in Ek. destruct (Hmod0 Hf Ek) as (m & ns & Hm). destruct (module_addr Hm Ha) as [A1 A2]. destruct (@module_writes os idx fuel dest p n b g q Hp Ho G1 G2 m ns (proj1 Hm) A1 A2 l Hw) as ((bs & _ & B) & _ & W1 & W2). split; [exact W1|]. split; [exact W2|]. exists bs. split; [exact B|]. intros [Q _]. unfold module_name in Ek. congruence.
  - apply kind_elems in Ek. destruct (Hel0 Hf Ek) as (d0 & tree & treew & data & places & Hd). destruct (elements_addr Ek Hd Ha) as [A1 _].
    destruct (@form_writes os idx fuel dest p n b g Hp Ho G1 G2 d0 tree treew data places (proj2 Ek) (proj1 Hd) A1 l Hw) as (files & owner & _ & _ & _ & _ & (kept & bs & _ & _ & B) & _ & W1 & W2). split; [exact W1|]. split; [exact W2|]. exists bs. split; [exact B|]. intros [_ Q]. destruct Ek as [_ Ek]. change s_elem with x_elem in *. congruence.
  - unfold iplain_write in Hw. rewrite Ho in Hw. cbn [bind] in Hw. injection Hw as <-. cbn [e_bytes map fst]. split; [constructor; [intros []|constructor]|]. split; [intros x [<-|[]]; exists g; split; [reflexivity|split; [exact G1|exact G2]]|]. exists b. split; [left; reflexivity|reflexivity].
Qed.
Lemma alone_facts p n b l : found src p n b -> iwrites_of dest (mkentry (join [47] p) n b) = Ok l -> exists s, ialone p n b s /\ forall k c, dget k s = Some c <-> In (k, c) l.
Proof.
  intros Hf Hw. destruct (found_fits Hf Hwn) as [Hp Hn]. destruct (file_facts Hf Hw) as (g & q & qn & _ & _ & N1 & _). exists (write_all l []). split; [exact (@iorganize_single dest p n b l Hp Hn Hw)|]. intros k c. split.
  - intros H. destruct (in_dec (list_eq_dec N.eq_dec) k (map fst l)) as [Hi|Hi]; [|rewrite write_out in H by exact Hi; discriminate]. apply in_map_iff in Hi. destruct Hi as ([k' c'] & E & Hi). cbn in E. subst k'. rewrite (@write_in l [] _ _ (@nodup_agree l N1) Hi) in H. injection H as <-. exact Hi.
  - intros Hi. exact (@write_in l [] _ _ (@nodup_agree l N1) Hi).
Qed.
Hypothesis Hagree : forall p n b s p' n' b' s' k c c', found src p n b -> found src p' n' b' -> ialone p n b s -> ialone p' n' b' s' -> dget k s = Some c -> dget k s' = Some c' -> c = c'.
Hypothesis Hoc : reorders ordc.
Hypothesis Hoe : reorders orde.
Hypothesis Hst : NoDup (map fst st).
Hypothesis Horg : iorganize os idx fuel ordc orde dest src st = Ok st'.

Lemma entries_found f : In f (walk_all src) <-> exists p n b, found src p n b /\ f = mkentry (join [47] p) n b.
Proof. exact (walk_all_found f Hwn). Qed.
(** what the extraction leaves on the disk *)
Lemma extracted : exists ws, st' = write_all ws (clear_dir dest st) /\ agree ws /\
  (forall k c, In (k, c) ws <-> exists p n b s, found src p n b /\ ialone p n b s /\ dget k s = Some c) /\
  (forall p n b, found src p n b -> exists l, iwrites_of dest (mkentry (join [47] p) n b) = Ok l /\ forall k c, In (k, c) l -> In (k, c) ws).
Proof.
  destruct (@iorganize_inv ordc orde dest src st st' Hoc Hoe Horg) as (ws & E & Hin & Hall). exists ws. split; [exact E|].
  assert (Q : forall k c, In (k, c) ws <-> exists p n b s, found src p n b /\ ialone p n b s /\ dget k s = Some c).
  { intros k c. rewrite Hin. split.
    - intros (f & l & Hf & Hl & Hi). apply entries_found in Hf. destruct Hf as (p & n & b & Hf & ->). destruct (alone_facts Hf Hl) as (s & S1 & S2). exists p, n, b, s. split; [exact Hf|]. split; [exact S1|]. apply S2. exact Hi.
    - intros (p & n & b & s & Hf & Hs & Hd). assert (Hi : In (mkentry (join [47] p) n b) (walk_all src)) by (apply entries_found; exists p, n, b; split; [exact Hf|reflexivity]). destruct (Hall _ Hi) as (l & Hl). exists (mkentry (join [47] p) n b), l. split; [exact Hi|]. split; [exact Hl|].
      destruct (alone_facts Hf Hl) as (s0 & S1 & S2). unfold ialone in *. rewrite S1 in Hs. injection Hs as <-. apply S2. exact Hd. }
  split; [|split; [exact Q|]].
  - intros k c c' H1 H2. apply Q in H1, H2. destruct H1 as (p & n & b & s & A1 & A2 & A3). destruct H2 as (p' & n' & b' & s' & B1 & B2 & B3). exact (@Hagree _ _ _ _ _ _ _ _ _ _ _ A1 B1 A2 B2 A3 B3).
  - intros p n b Hf. assert (Hi : In (mkentry (join [47] p) n b) (walk_all src)) by (apply entries_found; exists p, n, b; split; [exact Hf|reflexivity]). destruct (Hall _ Hi) as (l & Hl). exists l. split; [exact Hl|]. intros k c Hk. apply Hin. eexists. exists l. split; [exact Hi|]. split; assumption.
Qed.
Lemma extracted_get k c : (exists p n b s, found src p n b /\ ialone p n b s /\ dget k s = Some c) -> dget k st' = Some c.
Proof. destruct extracted as (ws & -> & Ha & Hin & _). intros H. apply Hin in H. exact (@write_in ws _ _ _ Ha H). Qed.
Lemma extracted_other k : (forall p n b s, found src p n b -> ialone p n b s -> dget k s = None) -> dget k st' = dget k (clear_dir dest st).
Proof.
  destruct extracted as (ws & -> & Ha & Hin & _). intros H. apply write_out. intros Hi. apply in_map_iff in Hi. destruct Hi as ([k' c] & E & Hi). cbn in E. subst k'. apply Hin in Hi. destruct Hi as (p & n & b & s & Hf & Hs & Hd). rewrite (@H _ _ _ _ Hf Hs) in Hd. discriminate.
Qed.
Lemma extracted_nodup : NoDup (map fst st').
Proof. destruct extracted as (ws & -> & _). apply write_nodup, clear_nodup, Hst. Qed.
(** where each file lies after the extraction *)
Lemma placed p n b : found src p n b -> exists g q qn c, address p n g q qn /\ (exists s, ialone p n b s /\ dget (written g) s = Some c) /\ dget (written g) st' = Some c /\ (other_name n -> c = b).
Proof.
  intros Hf. destruct extracted as (ws & _ & _ & _ & Hall). destruct (Hall _ _ _ Hf) as (l & Hl & _). destruct (file_facts Hf Hl) as (g & q & qn & Ha & _ & _ & _ & (c & C1 & C2)). destruct (alone_facts Hf Hl) as (s & S1 & S2). apply S2 in C1.
  exists g, q, qn, c. split; [exact Ha|]. split; [exists s; split; assumption|]. split; [|exact C2]. apply extracted_get. exists p, n, b, s. split; [exact Hf|split; assumption].
Qed.
Hypothesis Hdisj : forall g, within D g -> ~ within D2 g.
Hypothesis Hout : forall p n b s k c g, found src p n b -> ialone p n b s -> dget k s = Some c -> noslash g -> within D g -> k = written g -> (forall loc, ~ moved_to d p n loc) /\ g = D ++ p ++ [n].
Hypothesis Hout2 : forall p n b s k c g, found src p n b -> ialone p n b s -> dget k s = Some c -> noslash g -> within D2 g -> k <> written g.
Let st2 := clear_dir dest2 st'.

Lemma from_files p n b s k c : found src p n b -> ialone p n b s -> dget k s = Some c -> (exists g, k = written g /\ noslash g /\ g <> [] /\ ~ within D2 g) /\ dget k st2 = Some c.
Proof.
  intros Hf Hs Hk. destruct extracted as (ws & _ & _ & _ & Hl). destruct (Hl _ _ _ Hf) as (l & Hw & _). destruct (alone_facts Hf Hw) as (s0 & S1 & S2). unfold ialone in S1, Hs. rewrite S1 in Hs. injection Hs as <-. pose proof (proj1 (S2 _ _) Hk) as Hi. destruct (file_facts Hf Hw) as (_ & _ & _ & _ & _ & _ & F & _).
  destruct (F k) as (g & -> & G1 & G2); [apply in_map_iff; exists (k, c); split; [reflexivity|exact Hi]|]. assert (G3 : ~ within D2 g) by (intros Q; exact (@Hout2 _ _ _ _ _ _ g Hf S1 Hk G1 Q eq_refl)). split; [exists g; split; [reflexivity|split; [exact G1|split; assumption]]|].
  unfold st2. rewrite clear_same; [apply extracted_get; exists p, n, b, s0; split; [exact Hf|split; [exact S1|exact Hk]]|exact extracted_nodup|].
  destruct (below dest2 (written g)) as [r|] eqn:E; [|reflexivity]. exfalso. apply G3. apply (below_in dest2 G1 G2). exists r. exact E.
Qed.
Hypothesis Hmod : forall p n b, found src p n b -> module_name n -> exists m ns, module_ok p n b m ns /\
  (forall a k data, OrgCode.unpack (text_of m) = Ok a -> In (k, (data, Some Includr)) a ->
   exists bs, text_file os data bs /\ dget (written (include_file table false D (join [47] p) k)) st' = Some bs /\ ~ within D2 (include_file table false D (join [47] p) k)).
Hypothesis Hel : forall p n b, found src p n b -> elements_name n -> exists d0 tree treew data places, elements_ok p n b d0 tree treew data places /\
  (forall owner pl j, unpack_docs fuel (Jobj (dset fe_tree (Jlist treew) d0)) = Ok owner -> In pl places -> p_written pl = false -> In (p_name pl, j) owner ->
   exists bs j', dget (written (include_with s_elem table D (join [47] p) (p_name pl))) st' = Some bs /\ json_file bs j' /\ same_document j j' /\ distinct_data j' /\ ~ within D2 (include_with s_elem table D (join [47] p) (p_name pl))).

Lemma kept g bs : noslash g -> g <> [] -> dget (written g) st' = Some bs -> ~ within D2 g -> dget (written g) st2 = Some bs.
Proof.
  intros G1 G2 Hg Hw. unfold st2. rewrite clear_same; [exact Hg|exact extracted_nodup|]. destruct (below dest2 (written g)) eqn:E; [|reflexivity]. exfalso. apply Hw. apply (below_in dest2 G1 G2). eexists. exact E.
Qed.
(** the disk while the build works: what lies outside the folder it fills is as it was *)
Definition at_work (sx : disk) : Prop := NoDup (map fst sx) /\ forall g, noslash g -> g <> [] -> ~ within D2 g -> dget (written g) sx = dget (written g) st2.
Lemma built_ok sx p n b g q qn c : at_work sx -> found src p n b -> address p n g q qn -> dget (written g) st2 = Some c -> exists b', build_as os idx fuel (kind_of n) dest sx q qn c = Ok b' /\ came fuel n b b'.
Proof.
  intros [Hnx Hx] Hf Ha Hc. destruct (found_fits Hf Hwn) as [Hp Hn]. pose proof Ha as (G1 & G2 & Gk & Gr & _). destruct extracted as (ws & _ & _ & Hin & Hall). destruct (Hall _ _ _ Hf) as (l & Hw & Hlw). destruct (alone_facts Hf Hw) as (s & S1 & S2).
  assert (Hl2 : forall k x, In (k, x) l -> dget k sx = Some x). { intros k x Hi. apply S2 in Hi. destruct (@from_files p n b s _ _ Hf S1 Hi) as [(g0 & -> & Q1 & Q2 & Q3) Q]. rewrite Hx by assumption. exact Q. }
  assert (Hlc : forall x, In (written g, x) l -> x = c). { intros x Hi. apply S2 in Hi. destruct (@from_files p n b s _ _ Hf S1 Hi) as [_ Q]. rewrite Hc in Q. injection Q as <-. reflexivity. }
  destruct (file_facts Hf Hw) as (g' & q' & qn' & Ha' & Hown & _ & _ & (c0 & C1 & C2)). destruct (address_fun Ha Ha') as (<- & <- & <-). pose proof (Hlc _ C1) as ->.
  assert (Hcx : dget (written g) sx = Some c) by (apply Hl2; exact C1).
  pose proof Hw as Hw0. unfold iwrites_of in Hw. cbn [e_name] in Hw. unfold build_as. destruct (kind_of n) eqn:Ek.
  - pose proof Ek as Hk. apply kind_code in Hk. destruct (Hmod Hf Hk) as (m & ns & Hmo & Hro). destruct (module_addr Hmo Ha) as [A1 A2]. destruct Hmo as [Hm _]. pose proof (module_areas Hm) as Har.
    assert (Hb : pack_file fuel (texts sx) dest q qn (table_of idx) None = Ok (text_of m)).
    { eapply OrgIndexProofs.module_built; [exact Hp|exact Hown|exact G1|exact G2|exact Gk|exact Gr|exact Hm|exact A1|exact A2|exact Hw|exact Hnx|exact Hl2|].
      intros k data Hi. destruct (Hro _ k data Har (or_intror Hi)) as (bs & B1 & B2 & B3). exists bs. split; [exact B1|].
      destruct Hm as (_ & _ & _ & _ & _ & _ & Hnm & _ & Ht & _). assert (In k ns) as Hkn by (rewrite <- (names_keys Hnm); apply in_map_iff; exists (k, (data, Some Includr)); split; [reflexivity|exact Hi]).
      destruct (@include_good s_bsl table dest (join [47] p) k ltac:(intros Q; cbn in Q; intuition discriminate) (Ht _ Hkn)) as [I1 I2]. rewrite include_bsl in I1, I2. change (table_of (JDict d)) with table. rewrite Hx by assumption. exact (kept I1 I2 B2 B3). }
    rewrite Hb. cbn [bind]. destruct Hm as (H1 & H2 & _ & H4 & _). pose proof (no_mark H2 H4 H1) as Hu. apply text_bytes_file in H1. rewrite H1. exists (bare b). split; [reflexivity|]. unfold module_name in Hk. split; [split; [intros [Q _]; congruence|]; split; [intros _; split; [reflexivity|exact Hu]|]; intros [Q _]; congruence|]. intros [Q _]. congruence.
  - pose proof Ek as Hk. apply kind_elems in Hk. destruct (Hel Hf Hk) as (d0 & tree & treew & data & places & Hd & Hroe). destruct (elements_addr Hk Hd Ha) as (A1 & A3 & A2). destruct Hd as [Hd _].
    edestruct (@OrgIndexProofs.form_built os idx fuel) as (kp & doc & bs & B1 & B2 & B3 & B4 & B5); [exact Hp|exact Hown|exact G1|exact G2|exact Gr|exact (proj2 Hk)|exact Hd|exact A1|exact A3|exact A2|exact Hw|exact Hl2| |instantiate (1 := mkentry q qn c); reflexivity|reflexivity|exact Hcx|].
    { intros owner pl j Ho Hpl Hwr Hi. destruct (Hroe _ _ _ Ho Hpl Hwr Hi) as (bs & j' & B1 & B2 & B3 & B4 & B5). exists bs, j'. split; [|split; [apply json_file_of; exact B2|split; assumption]].
      destruct Hd as (_ & _ & _ & _ & _ & _ & _ & _ & _ & _ & _ & Ht & _). destruct (@include_good s_elem table dest (join [47] p) (p_name pl) ltac:(intros Q; cbn in Q; intuition discriminate) (Ht _ Hpl)) as [I1 I2]. change (table_of (JDict d)) with table. rewrite Hx by assumption. exact (kept I1 I2 B1 B5). }
    cbn [e_bytes] in B1. rewrite B1. cbn [bind]. change (table_of (JDict d)) with (table_of idx) in *. rewrite B2. cbn [bind]. rewrite B3. exists bs. split; [reflexivity|]. destruct Hk as [Hk1 Hk2]. split.
    + split; [intros [_ Q]; congruence|]. split; [intros Q; unfold module_name in Q; congruence|]. intros _. exists (Jobj d0), doc. split; [apply Hd|]. split; [apply json_file_of; exact B4|]. destruct B5 as (B5 & B6 & _). split; [exact B5|exact B6].
    + intros _ dd files J1 J2. exists doc. split; [apply json_file_of; exact B4|]. destruct B5 as (_ & _ & B7). apply B7. destruct Hd as (J3 & _). apply json_file_of in J1, J3. assert (dd = Jobj d0) as <- by congruence. exact J2.
  - exists c. split; [reflexivity|]. assert (Ho : other_name n). { split; [destruct (ends s_bsl n) eqn:E; [|reflexivity]|]. - apply kind_code in E. congruence. - destruct (ends s_bsl n) eqn:E0; [apply kind_code in E0; congruence|]. destruct (ends s_elem n) eqn:E; [|reflexivity]. assert (kind_of n = Elems) by (apply kind_elems; split; assumption). congruence. }
    split; [|destruct Ho as [_ Q2]; intros [_ Q]; congruence]. split; [|destruct Ho as [Q1 Q2]; split; [intros Q; unfold module_name in Q; congruence|intros [_ Q]; congruence]]. intros _. exact (C2 Ho).
Qed.
Lemma st2_work : at_work st2.
Proof. split; [apply clear_nodup, extracted_nodup|reflexivity]. Qed.
(** the bytes of a file after the extraction, on the cleared disk *)
Lemma placed2 p n b g q qn : found src p n b -> address p n g q qn -> exists c, dget (written g) st2 = Some c /\ ~ within D2 g.
Proof.
  intros Hf Ha. destruct (placed Hf) as (g' & q' & qn' & c & Ha' & (s & S1 & S2) & _). destruct (address_fun Ha Ha') as (<- & _). destruct (@from_files p n b s _ _ Hf S1 S2) as [(g0 & E & Q1 & Q2 & Q3) Q]. exists c. split; [exact Q|]. destruct Ha as (G1 & G2 & _). apply written_inj in E; try assumption. subst g0. exact Q3.
Qed.
Lemma moved_found m : moved_to d (m_path m) (m_name m) (m_loc m) -> exists b, found src (m_path m) (m_name m) b.
Proof. intros M. exact (proj1 (Hmv M)). Qed.
Lemma moved_built sx m : at_work sx -> moved_to d (m_path m) (m_name m) (m_loc m) ->
  exists b c b', found src (m_path m) (m_name m) b /\ dget (written (place_in D (m_loc m))) st2 = Some c /\
    build_as os idx fuel (kind_of (m_name m)) dest sx (source_path (m_loc m)) (basename (m_loc m)) c = Ok b' /\
    built_moved os idx fuel dest dest2 sx m = Ok (written (D2 ++ m_path m ++ [m_name m]), b').
Proof.
  intros Hsx M. destruct (moved_found _ M) as (b & Hf). pose proof (moved_address M) as Ha. destruct (placed2 Hf Ha) as (c & Hc & Ho). destruct (@built_ok sx _ _ _ _ _ _ c Hsx Hf Ha Hc) as (b' & B & _). exists b, c, b'. split; [exact Hf|]. split; [exact Hc|]. split; [exact B|].
  destruct (found_fits Hf Hwn) as [Hp Hn]. destruct Ha as (G1 & G2 & Gk & _). unfold built_moved. rewrite Gk. destruct Hsx as [_ Hx]. rewrite Hx by assumption. rewrite Hc. rewrite B. cbn [bind]. rewrite (joins_fit Hp). unfold D2. rewrite (own_key dest2 Hp Hn). reflexivity.
Qed.
Lemma entries_all : exists ms, (if jtruthy idx then index_entries [] idx else Ok []) = Ok ms /\ forall m, In m ms <-> moved_to d (m_path m) (m_name m) (m_loc m).
Proof.
  destruct (entries_found_in eq_refl Hidx []) as (ms & E & Q). destruct (truthy_or_nil d) as [T | T].
  - unfold idx. rewrite T. exists ms. split; [exact E|]. intros m. rewrite Q. cbn [app]. split; [intros (p & -> & M); exact M|]. intros M. exists (m_path m). split; [reflexivity|exact M].
  - exists []. split; [unfold idx; rewrite T; reflexivity|]. intros m. split; [intros []|]. intros M. rewrite T in M. exact (no_moved_nil M).
Qed.
Lemma dest2_good p n b : found src p n b -> noslash (D2 ++ p ++ [n]) /\ D2 ++ p ++ [n] <> [] /\ within D2 (D2 ++ p ++ [n]).
Proof. intros Hf. destruct (found_fits Hf Hwn) as [Hp Hn]. destruct (own_good dest2 Hp Hn) as [A B]. split; [exact A|]. split; [exact B|]. exists (p ++ [n]). split; [destruct p; discriminate|reflexivity]. Qed.
(** the disk after the plain files of the index *)
Section Walk.
Variables (ms : list moved) (pw : list write).
Hypothesis Hms : forall m, In m ms <-> moved_to d (m_path m) (m_name m) (m_loc m).
Hypothesis Hpw : all_ok (built_moved os idx fuel dest dest2 st2) (filter moved_plain ms) = Ok pw.
Let st1 := write_all pw st2.
Lemma pw_in k x : In (k, x) pw -> exists m, moved_to d (m_path m) (m_name m) (m_loc m) /\ moved_plain m = true /\ k = written (D2 ++ m_path m ++ [m_name m]) /\ built_moved os idx fuel dest dest2 st2 m = Ok (k, x).
Proof.
  intros Hi. destruct (all_ok_in _ _ Hpw) as [W _]. apply W in Hi. destruct Hi as (m & Hm & B). apply filter_In in Hm. destruct Hm as [Hm Hk]. apply Hms in Hm. destruct (@moved_built _ _ st2_work Hm) as (b & c & b' & _ & _ & _ & B'). exists m. split; [exact Hm|]. split; [exact Hk|]. split; [|exact B]. rewrite B' in B. apply ok_pair in B. symmetry. apply B.
Qed.
Lemma pw_keys k : In k (map fst pw) -> exists m, moved_to d (m_path m) (m_name m) (m_loc m) /\ k = written (D2 ++ m_path m ++ [m_name m]).
Proof. intros Hi. apply in_map_iff in Hi. destruct Hi as ([k' x] & E & Hi). cbn in E. subst k'. destruct (pw_in _ _ Hi) as (m & M & _ & E & _). exists m. split; assumption. Qed.
Lemma st1_work : at_work st1.
Proof.
  split; [apply write_nodup, clear_nodup, extracted_nodup|]. intros g G1 G2 G3. apply write_out. intros Hi. apply pw_keys in Hi. destruct Hi as (m & M & E). destruct (moved_found _ M) as (b & Hf). destruct (dest2_good Hf) as (A1 & A2 & A3). apply written_inj in E; try assumption. subst g. exact (G3 A3).
Qed.
Definition left_out (f : entry) : bool := match dget (file_key dest2 (e_path f) (e_name f)) st1 with Some _ => false | None => true end.
Lemma walked f : In f (filter left_out (listing dest st1)) <-> exists p n b c, found src p n b /\ (forall loc, ~ moved_to d p n loc) /\ f = mkentry (join [47] p) n c /\ dget (written (D ++ p ++ [n])) st2 = Some c.
Proof.
  destruct st1_work as [N1 X1]. assert (N2 : NoDup (map fst st2)) by (apply clear_nodup, extracted_nodup). rewrite filter_In. unfold listing. rewrite in_flat_map. split.
  - intros [([k c] & Hi & Hg) Hlo]. cbn [fst snd] in Hg. destruct (below dest k) as [comps|] eqn:Eb; [|destruct Hg]. destruct Hg as [<-|[]]. pose proof (in_dget k c st1 N1 Hi) as Hk1.
    assert (Hk : dget k st2 = Some c).
    { destruct (in_dec (list_eq_dec N.eq_dec) k (map fst pw)) as [Hw|Hw].
      - exfalso. apply pw_keys in Hw. destruct Hw as (m & M & ->). destruct (moved_found _ M) as (b & Hf). destruct (dest2_good Hf) as (A1 & A2 & A3). apply (@Hdisj (D2 ++ m_path m ++ [m_name m])); [|exact A3]. apply (below_in dest A1 A2). exists comps. exact Eb.
      - rewrite <- Hk1. symmetry. apply write_out. exact Hw. }
    assert (Hk' : dget k st' = Some c). { apply dget_in in Hk. apply clear_in in Hk. apply in_dget; [exact extracted_nodup|apply Hk]. }
    destruct extracted as (ws & E & Ha & Hin & _). destruct (in_dec (list_eq_dec N.eq_dec) k (map fst ws)) as [Hw|Hw].
    + apply in_map_iff in Hw. destruct Hw as ([k' c'] & E' & Hw). cbn in E'. subst k'. apply Hin in Hw. destruct Hw as (p & n & b & s & Hf & Hs & Hd). destruct (@from_files p n b s _ _ Hf Hs Hd) as ((g & Eg & G1 & G2 & _) & _). subst k. destruct (found_fits Hf Hwn) as [Hp Hn].
      destruct (@Hout _ _ _ _ _ _ g Hf Hs Hd G1 ltac:(apply (below_in dest G1 G2); exists comps; exact Eb) eq_refl) as [Hu ->]. unfold D in Eb. rewrite (below_own dest Hp Hn) in Eb. injection Eb as <-. rewrite last_snoc, removelast_snoc. exists p, n, b, c. split; [exact Hf|]. split; [exact Hu|]. split; [reflexivity|exact Hk].
    + exfalso. rewrite E in Hk'. rewrite write_out in Hk' by exact Hw. apply dget_in in Hk'. apply clear_in in Hk'. destruct Hk' as [_ Q]. congruence.
  - intros (p & n & b & c & Hf & Hu & -> & Hk). destruct (found_fits Hf Hwn) as [Hp Hn]. destruct (own_good dest Hp Hn) as [O1 O2]. split.
    + exists (written (D ++ p ++ [n]), c). split; [|cbn [fst snd]; unfold D; rewrite (below_own dest Hp Hn); rewrite last_snoc, removelast_snoc; left; reflexivity].
      apply dget_in. rewrite <- Hk. apply X1; [exact O1|exact O2|]. apply Hdisj. exists (p ++ [n]). split; [destruct p; discriminate|reflexivity].
    + unfold left_out. cbn [e_path e_name]. rewrite (own_key dest2 Hp Hn). fold D2. destruct (dest2_good Hf) as (A1 & A2 & A3). unfold st1. rewrite write_out.
      * destruct (dget (written (D2 ++ p ++ [n])) st2) as [x|] eqn:Ed; [|reflexivity]. apply dget_in, clear_in in Ed. destruct Ed as [_ Ed]. destruct (below_in dest2 A1 A2) as [_ Q]. destruct (Q A3) as (r & Er). congruence.
      * intros Hi. apply pw_keys in Hi. destruct Hi as (m & M & E). destruct (moved_found _ M) as (b0 & Hf0). destruct (dest2_good Hf0) as (A4 & A5 & _). apply written_inj in E; try assumption. apply app_inv_head in E. apply snoc_inj in E. destruct E as [-> ->]. exact (Hu _ M).
Qed.
(** all that the build writes *)
Definition product (k x : list N) : Prop := exists p n b g q qn c, found src p n b /\ address p n g q qn /\ dget (written g) st2 = Some c /\ build_as os idx fuel (kind_of n) dest st1 q qn c = Ok x /\ k = written (D2 ++ p ++ [n]).
Definition walk_one (f : entry) : res write := bs <- build_as os idx fuel (kind_of (e_name f)) dest st1 (e_path f) (e_name f) (e_bytes f) ;; Ok (file_key dest2 (e_path f) (e_name f), bs).
Lemma unmoved_address p n b : found src p n b -> (forall loc, ~ moved_to d p n loc) -> address p n (D ++ p ++ [n]) (join [47] p) n.
Proof. intros Hf Hu. destruct (found_fits Hf Hwn) as [Hp Hn]. destruct (own_good dest Hp Hn) as [O1 O2]. split; [exact O1|]. split; [exact O2|]. split; [exact (own_key dest Hp Hn)|]. split; [exact (join_rel Hp)|]. left. repeat split. exact Hu. Qed.
Lemma walk_one_ok f : In f (filter left_out (listing dest st1)) -> exists w, walk_one f = Ok w.
Proof.
  intros Hf. apply walked in Hf. destruct Hf as (p & n & b & c & Hf & Hu & -> & Hk). destruct (built_ok st1_work Hf (unmoved_address Hf Hu) Hk) as (b' & B & _). unfold walk_one. cbn [e_name e_path e_bytes]. rewrite B. eexists. reflexivity.
Qed.
Lemma all_products mw ws ordl ordw : reorders ordl -> reorders ordw ->
  all_ok (built_moved os idx fuel dest dest2 st1) (filter (fun m => negb (moved_plain m)) ms) = Ok mw -> all_ok walk_one (ordl (filter left_out (listing dest st1))) = Ok ws ->
  forall k x, In (k, x) (pw ++ ordw (mw ++ ws)) <-> product k x.
Proof.
  intros Hol How Em Ew k x. destruct (all_ok_in _ _ Em) as [M1 _]. destruct (all_ok_in _ _ Ew) as [W1 _]. rewrite in_app_iff.
  assert (Pl : forall m, moved_plain m = true -> kind_of (m_name m) = Plain) by (intros m; unfold moved_plain; destruct (kind_of (m_name m)); congruence).
  assert (Mp : forall sx m, at_work sx -> moved_to d (m_path m) (m_name m) (m_loc m) -> (forall q qn c, build_as os idx fuel (kind_of (m_name m)) dest sx q qn c = build_as os idx fuel (kind_of (m_name m)) dest st1 q qn c) -> built_moved os idx fuel dest dest2 sx m = Ok (k, x) -> product k x).
  { intros sx m Hsx M Hb B. destruct (@moved_built _ _ Hsx M) as (b & c & b' & F & C & B1 & B2). rewrite B2 in B. apply ok_pair in B. destruct B as [<- <-]. exists (m_path m), (m_name m), b, (place_in D (m_loc m)), (source_path (m_loc m)), (basename (m_loc m)), c. split; [exact F|]. split; [exact (moved_address M)|]. split; [exact C|]. split; [rewrite <- Hb; exact B1|reflexivity]. }
  split.
  - intros [Hi|Hi].
    + destruct (pw_in _ _ Hi) as (m & M & Hk & _ & B). apply (@Mp st2 m st2_work M); [|exact B]. intros q qn c. rewrite (Pl m Hk). reflexivity.
    + apply (Permutation_in _ (Permutation_sym (How _))) in Hi. apply in_app_or in Hi. destruct Hi as [Hi|Hi].
      * apply M1 in Hi. destruct Hi as (m & Hm & B). apply filter_In in Hm. destruct Hm as [Hm _]. apply Hms in Hm. exact (@Mp st1 m st1_work Hm (fun _ _ _ => eq_refl) B).
      * apply W1 in Hi. destruct Hi as (f & Hf & B). apply (Permutation_in _ (Permutation_sym (Hol _))) in Hf. apply walked in Hf. destruct Hf as (p & n & b & c & F & Hu & -> & C). destruct (found_fits F Hwn) as [Hp Hn]. unfold walk_one in B. cbn [e_name e_path e_bytes] in B. destruct (build_as os idx fuel (kind_of n) dest st1 (join [47] p) n c) as [y|] eqn:Ey; [|discriminate]. cbn [bind] in B. rewrite (own_key dest2 Hp Hn) in B. apply ok_pair in B. destruct B as [<- <-].
        exists p, n, b, (D ++ p ++ [n]), (join [47] p), n, c. split; [exact F|]. split; [exact (unmoved_address F Hu)|]. split; [exact C|]. split; [exact Ey|reflexivity].
  - intros (p & n & b & g & q & qn & c & F & Ha & C & B & ->). destruct (found_fits F Hwn) as [Hp Hn]. pose proof Ha as (G1 & G2 & Gk & Gr & [(-> & -> & Hu & ->)|(loc & M & -> & -> & ->)]).
    + right. apply (Permutation_in _ (How _)), in_or_app. right. apply W1. exists (mkentry (join [47] p) n c). split; [apply (Permutation_in _ (Hol _)), walked; exists p, n, b, c; repeat (split; [assumption|]); split; [reflexivity|exact C]|]. unfold walk_one. cbn [e_name e_path e_bytes]. rewrite B. cbn [bind]. rewrite (own_key dest2 Hp Hn). reflexivity.
    + assert (Hm : In (mkmoved p n loc) ms) by (apply Hms; exact M). destruct (moved_plain (mkmoved p n loc)) eqn:Ep.
      * left. destruct (all_ok_in _ _ Hpw) as [P1 _]. apply P1. exists (mkmoved p n loc). split; [apply filter_In; split; assumption|]. destruct (@moved_built st2 (mkmoved p n loc) st2_work M) as (b0 & c0 & b' & _ & C0 & B0 & B1). cbn [m_path m_name m_loc] in *. rewrite C in C0. injection C0 as <-. rewrite (Pl _ Ep : kind_of n = Plain) in B, B0. rewrite B1. cbn [build_as] in B, B0. injection B as ->. injection B0 as ->. reflexivity.
      * right. apply (Permutation_in _ (How _)), in_or_app. left. apply M1. exists (mkmoved p n loc). split; [apply filter_In; split; [exact Hm|rewrite Ep; reflexivity]|]. destruct (@moved_built st1 (mkmoved p n loc) st1_work M) as (b0 & c0 & b' & _ & C0 & B0 & B1). cbn [m_path m_name m_loc] in *. rewrite C in C0. injection C0 as <-. rewrite B in B0. injection B0 as <-. exact B1.
Qed.
Lemma products_agree k c1 c2 : product k c1 -> product k c2 -> c1 = c2.
Proof.
  intros (p & n & b & g & q & qn & c & F & Ha & C & B & E) (p' & n' & b' & g' & q' & qn' & c' & F' & Ha' & C' & B' & E'). rewrite E in E'. destruct (dest2_good F) as (A1 & A2 & _). destruct (dest2_good F') as (A3 & A4 & _). apply written_inj in E'; try assumption. apply app_inv_head in E'. apply snoc_inj in E'. destruct E' as [<- <-]. destruct (address_fun Ha Ha') as (<- & <- & <-). rewrite C in C'. injection C' as <-. rewrite B in B'. injection B' as <-. reflexivity.
Qed.
End Walk.
Lemma iassembled_came ordl ordw : reorders ordl -> reorders ordw -> exists sf, iassemble os idx fuel ordl ordw dest dest2 st' = Ok sf /\
  (forall p n b, found src p n b -> exists b', dget (written (D2 ++ p ++ [n])) sf = Some b' /\ came fuel n b b') /\
  (forall g, within D2 g -> noslash g -> dget (written g) sf <> None -> exists p n b, found src p n b /\ g = D2 ++ p ++ [n]) /\
  (forall g, noslash g -> g <> [] -> ~ within D2 g -> dget (written g) sf = dget (written g) st').
Proof.
  intros Hol How. destruct entries_all as (ms & Ems & Hms). unfold iassemble. rewrite Ems. cbn [bind]. fold st2.
  destruct (@all_ok_ok _ _ (built_moved os idx fuel dest dest2 st2) (filter moved_plain ms)) as (pw & Ep). { intros m Hm. apply filter_In in Hm. destruct Hm as [Hm _]. apply Hms in Hm. destruct (@moved_built _ _ st2_work Hm) as (b & c & b' & _ & _ & _ & B). eexists. exact B. }
  rewrite Ep. cbn [bind].
  destruct (@all_ok_ok _ _ (built_moved os idx fuel dest dest2 (write_all pw st2)) (filter (fun m => negb (moved_plain m)) ms)) as (mw & Em). { intros m Hm. apply filter_In in Hm. destruct Hm as [Hm _]. apply Hms in Hm. destruct (@moved_built _ _ (@st1_work ms pw Hms Ep) Hm) as (b & c & b' & _ & _ & _ & B). eexists. exact B. }
  rewrite Em. cbn [bind].
  destruct (@all_ok_ok _ _ (walk_one pw) (ordl (filter (left_out pw) (listing dest (write_all pw st2))))) as (ws & Ew). { intros f Hf. apply (Permutation_in _ (Permutation_sym (Hol _))) in Hf. exact (@walk_one_ok ms pw Hms Ep _ Hf). }
  match goal with |- context [all_ok ?F (ordl ?L)] => change (all_ok F (ordl L)) with (all_ok (walk_one pw) (ordl (filter (left_out pw) (listing dest (write_all pw st2))))) end. rewrite Ew. cbn [bind].
  eexists. split; [reflexivity|]. rewrite <- write_all_app. pose proof (@all_products ms pw Hms Ep mw ws ordl ordw Hol How Em Ew) as W. set (all := pw ++ ordw (mw ++ ws)) in *.
  assert (Ag : agree all) by (intros k c1 c2 H1 H2; apply W in H1, H2; exact (@products_agree pw _ _ _ H1 H2)).
  split; [|split].
  - intros p n b Hf. destruct (placed Hf) as (g & q & qn & c0 & Ha & _). destruct (placed2 Hf Ha) as (c & C & _). destruct (built_ok (@st1_work ms pw Hms Ep) Hf Ha C) as (b' & B & R). exists b'. split; [|exact R]. apply write_in; [exact Ag|]. apply W. exists p, n, b, g, q, qn, c. repeat (split; [assumption|]). reflexivity.
  - intros g Hg Hs Hd. destruct (in_dec (list_eq_dec N.eq_dec) (written g) (map fst all)) as [Hi|Hi].
    + apply in_map_iff in Hi. destruct Hi as ([k x] & Ek & Hi). cbn in Ek. subst k. apply W in Hi. destruct Hi as (p & n & b & g0 & q & qn & c & F & _ & _ & _ & E). exists p, n, b. split; [exact F|]. destruct (dest2_good F) as (A1 & A2 & _). apply written_inj in E; try assumption. destruct Hg as (r & Hr & ->). destruct D2; [exact Hr|discriminate].
    + exfalso. apply Hd. rewrite write_out by exact Hi. unfold st2. assert (Hne : g <> []) by (destruct Hg as (r & Hr & ->); destruct D2; [exact Hr|discriminate]). destruct (below_in dest2 Hs Hne) as [_ Q]. destruct (Q Hg) as (r & Er). destruct (dget (written g) (clear_dir dest2 st')) as [x|] eqn:Ed; [|reflexivity]. apply dget_in, clear_in in Ed. destruct Ed as [_ Ed]. congruence.
  - intros g Hs Hne Hg. rewrite write_out.
    + unfold st2. apply clear_same; [exact extracted_nodup|]. destruct (below dest2 (written g)) eqn:Eb; [|reflexivity]. exfalso. apply Hg. apply (below_in dest2 Hs Hne). eexists. exact Eb.
    + intros Hi. apply in_map_iff in Hi. destruct Hi as ([k x] & Ek & Hi). cbn in Ek. subst k. apply W in Hi. destruct Hi as (p & n & b & g0 & q & qn & c & F & _ & _ & _ & E). destruct (dest2_good F) as (A1 & A2 & A3). apply written_inj in E; try assumption. subst g. exact (Hg A3).
Qed.
Lemma iassembled ordl ordw : reorders ordl -> reorders ordw -> exists sf, iassemble os idx fuel ordl ordw dest dest2 st' = Ok sf /\
  (forall p n b, found src p n b -> exists b', dget (written (D2 ++ p ++ [n])) sf = Some b' /\ restored n b b') /\
  (forall g, within D2 g -> noslash g -> dget (written g) sf <> None -> exists p n b, found src p n b /\ g = D2 ++ p ++ [n]) /\
  (forall g, noslash g -> g <> [] -> ~ within D2 g -> dget (written g) sf = dget (written g) st').
Proof.
  intros Hol How. destruct (iassembled_came Hol How) as (sf & E & A & B). exists sf. split; [exact E|]. split; [|exact B]. intros p n b F. destruct (A p n b F) as (b' & Q & R & _). exists b'. split; assumption.
Qed.
End Main.
Lemma iorganize_any ordc orde ordc' orde' dest src st st' : iorganize os idx fuel ordc orde dest src st = Ok st' -> exists st1, iorganize os idx fuel ordc' orde' dest src st = Ok st1.
Proof. unfold iorganize. destruct (all_ok (iplain_write idx dest) _); [|discriminate]. cbn [bind]. destruct (all_ok (icode_writes os idx dest) _); [|discriminate]. cbn [bind]. destruct (all_ok (ielem_writes os idx fuel dest) _); [|discriminate]. intros _. eexists. reflexivity. Qed.
End Org.
