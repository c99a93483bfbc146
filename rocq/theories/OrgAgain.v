(** Extraction of the folder that a build gave. *)
From Coq Require Import String Permutation Lia.
From Verif Require Import PyBase PyText Paths Json Index Utf Pipeline UpdateDictProofs Spec_Code OrgCode OrgCodeProofs OrgCodePaths OrgForm OrgFormProofs Spec_OrgForm Spec_OrgTree OrgTree OrgTreePaths OrgTreeProofs OrgTreeElems OrgTreeMain OrgIndex Spec_OrgIndex OrgIndexPaths OrgIndexProofs OrgIndexMain Spec_OrgAgain.
Set Implicit Arguments.
Open Scope list_scope.
Open Scope N_scope.

Lemma sig_bare b : utf8sig_decode b = utf8_decode (bare b).
Proof. reflexivity. Qed.
Lemma back_kind fuel n b b' : back fuel n b b' -> (kind_of n = Code -> b' = bare b /\ bare b' = b') /\ (kind_of n = Elems -> splits_alike fuel b b') /\ (kind_of n = Plain -> b' = b).
Proof.
  intros [(R1 & R2 & _) R3]. split; [|split].
  - intros Hk. apply R2. apply kind_code. exact Hk.
  - intros Ek. apply R3. apply kind_elems. exact Ek.
  - intros Hk. apply R1. split; [destruct (ends s_bsl n) eqn:E; [apply kind_code in E; congruence|reflexivity]|]. destruct (ends s_bsl n) eqn:E0; [apply kind_code in E0; congruence|]. destruct (ends s_elem n) eqn:E; [|reflexivity]. assert (kind_of n = Elems) by (apply kind_elems; split; assumption). congruence.
Qed.
Section Plain.
Variables (os : platform) (table : list (list N * list N)) (fuel : nat).
Lemma area_writes_name dest q n b b' a : area_writes os table dest (mkentry q n b) a = area_writes os table dest (mkentry q n b') a.
Proof. induction a as [|[e [data kd]] a IH]; [reflexivity|]. cbn [area_writes]. rewrite IH. reflexivity. Qed.
Lemma same_writes_of dest q n b b' l : back fuel n b b' -> writes_of os table fuel dest (mkentry q n b) = Ok l -> writes_of os table fuel dest (mkentry q n b') = Ok l.
Proof.
  intros H. apply back_kind in H. destruct H as (H1 & H2 & H3). unfold writes_of. cbn [e_name]. destruct (kind_of n) eqn:Ek.
  - destruct (H1 eq_refl) as [E1 E2]. unfold code_writes. cbn [e_bytes]. rewrite !sig_bare. rewrite E2. rewrite <- E1. destruct (utf8_decode b') as [t|]; [|discriminate]. destruct (OrgCode.unpack (univ_nl t)) as [a|]; [|discriminate]. rewrite (area_writes_name dest q n b' b). exact (fun h => h).
  - unfold elem_writes. cbn [e_bytes]. destruct (json_of b) as [dd|] eqn:Ej; [|discriminate]. cbn [bind]. destruct (unpack_docs fuel dd) as [files|] eqn:Eu; [|discriminate]. apply json_file_of in Ej. destruct (H2 eq_refl dd files Ej Eu) as (doc & J1 & J2). apply json_file_of in J1. rewrite J1. cbn [bind]. rewrite J2. exact (fun h => h).
  - rewrite (H3 eq_refl). exact (fun h => h).
Qed.
Lemma organize_ok ordc orde dest src st : (forall f, In f (walk_all src) -> exists l, writes_of os table fuel dest f = Ok l) -> exists st', organize os table fuel ordc orde dest src st = Ok st'.
Proof.
  intros H. unfold organize. destruct (@all_ok_ok _ _ (code_writes os table dest) (filter is_code (walk_all src))) as (cw & ->).
  { intros f Hf. apply filter_In in Hf. destruct Hf as [Hf Hk]. destruct (H f Hf) as (l & Hl). unfold writes_of, is_code in *. destruct (kind_of (e_name f)); try discriminate. exists l. exact Hl. }
  cbn [bind]. destruct (@all_ok_ok _ _ (elem_writes os table fuel dest) (filter is_elems (walk_all src))) as (ew & ->).
  { intros f Hf. apply filter_In in Hf. destruct Hf as [Hf Hk]. destruct (H f Hf) as (l & Hl). unfold writes_of, is_elems in *. destruct (kind_of (e_name f)); try discriminate. exists l. exact Hl. }
  eexists. reflexivity.
Qed.
End Plain.
Section Indexed.
Variables (os : platform) (d : list (list N * json)) (fuel : nat).
Lemma iarea_writes_name own dest q n b b' a : iarea_writes os (JDict d) own dest (mkentry q n b) a = iarea_writes os (JDict d) own dest (mkentry q n b') a.
Proof. induction a as [|[e [data kd]] a IH]; [reflexivity|]. cbn [iarea_writes]. rewrite IH. reflexivity. Qed.
Lemma same_iwrites_of dest q n b b' l : back fuel n b b' -> iwrites_of os d fuel dest (mkentry q n b) = Ok l -> iwrites_of os d fuel dest (mkentry q n b') = Ok l.
Proof.
  intros H. apply back_kind in H. destruct H as (H1 & H2 & H3). unfold iwrites_of. cbn [e_name]. destruct (kind_of n) eqn:Ek.
  - destruct (H1 eq_refl) as [E1 E2]. unfold icode_writes. cbn [e_bytes]. rewrite !sig_bare. rewrite E2. rewrite <- E1. destruct (utf8_decode b') as [t|]; [|discriminate]. destruct (OrgCode.unpack (univ_nl t)) as [a|]; [|discriminate]. change (own_place (JDict d) dest (mkentry q n b')) with (own_place (JDict d) dest (mkentry q n b)). destruct (own_place (JDict d) dest (mkentry q n b)) as [k|]; [|discriminate]. cbn [bind]. rewrite (iarea_writes_name k dest q n b b'). exact (fun h => h).
  - unfold ielem_writes. cbn [e_bytes]. destruct (json_of b) as [dd|] eqn:Ej; [|discriminate]. cbn [bind]. destruct (unpack_docs fuel dd) as [files|] eqn:Eu; [|discriminate]. apply json_file_of in Ej. destruct (H2 eq_refl dd files Ej Eu) as (doc & J1 & J2). apply json_file_of in J1. rewrite J1. cbn [bind]. rewrite J2. exact (fun h => h).
  - rewrite (H3 eq_refl). exact (fun h => h).
Qed.
Lemma iorganize_ok ordc orde dest src st : (forall f, In f (walk_all src) -> exists l, iwrites_of os d fuel dest f = Ok l) -> exists st', iorganize os (JDict d) fuel ordc orde dest src st = Ok st'.
Proof.
  intros H. unfold iorganize. destruct (@all_ok_ok _ _ (iplain_write (JDict d) dest) (filter is_plain (walk_all src))) as (pw & ->).
  { intros f Hf. apply filter_In in Hf. destruct Hf as [Hf Hk]. destruct (H f Hf) as (l & Hl). unfold iwrites_of, is_plain in *. destruct (kind_of (e_name f)); try discriminate. destruct (iplain_write (JDict d) dest f) as [w|]; [|discriminate]. exists w. reflexivity. }
  cbn [bind]. destruct (@all_ok_ok _ _ (icode_writes os (JDict d) dest) (filter is_code (walk_all src))) as (cw & ->).
  { intros f Hf. apply filter_In in Hf. destruct Hf as [Hf Hk]. destruct (H f Hf) as (l & Hl). unfold iwrites_of, is_code in *. destruct (kind_of (e_name f)); try discriminate. exists l. exact Hl. }
  cbn [bind]. destruct (@all_ok_ok _ _ (ielem_writes os (JDict d) fuel dest) (filter is_elems (walk_all src))) as (ew & ->).
  { intros f Hf. apply filter_In in Hf. destruct Hf as [Hf Hk]. destruct (H f Hf) as (l & Hl). unfold iwrites_of, is_elems in *. destruct (kind_of (e_name f)); try discriminate. exists l. exact Hl. }
  eexists. reflexivity.
Qed.
End Indexed.
(** two extractions whose files are written alike *)
Lemma walk_back fuel src src' (w : entry -> res (list write)) : well_named src -> well_named src' -> comes_back fuel src src' ->
  (forall q n b b' l, back fuel n b b' -> w (mkentry q n b) = Ok l -> w (mkentry q n b') = Ok l) -> (forall f, In f (walk_all src) -> exists l, w f = Ok l) ->
  forall l : list write, (exists f, In f (walk_all src) /\ w f = Ok l) <-> exists f, In f (walk_all src') /\ w f = Ok l.
Proof.
  intros Hw Hw' [H1 H2] Hs Ha l. split; intros (f & Hf & E).
  - apply (walk_all_found f Hw) in Hf. destruct Hf as (p & n & b & Hf & ->). destruct (H1 _ _ _ Hf) as (b' & Hf' & Hb). exists (mkentry (join [47] p) n b'). split; [apply (walk_all_found _ Hw'); exists p, n, b'; split; [exact Hf'|reflexivity]|]. exact (Hs _ _ _ _ _ Hb E).
  - apply (walk_all_found f Hw') in Hf. destruct Hf as (p & n & b' & Hf & ->). destruct (H2 _ _ _ Hf) as (b & Hf' & Hb). assert (Hi : In (mkentry (join [47] p) n b) (walk_all src)) by (apply (walk_all_found _ Hw); exists p, n, b; split; [exact Hf'|reflexivity]). exists (mkentry (join [47] p) n b). split; [exact Hi|].
    destruct (Ha _ Hi) as (l2 & El). pose proof (Hs _ _ _ _ _ Hb El) as Q. congruence.
Qed.
Lemma walk_back_ok fuel src src' (w : entry -> res (list write)) : well_named src -> well_named src' -> comes_back fuel src src' ->
  (forall q n b b' l, back fuel n b b' -> w (mkentry q n b) = Ok l -> w (mkentry q n b') = Ok l) -> (forall f, In f (walk_all src) -> exists l, w f = Ok l) -> forall f, In f (walk_all src') -> exists l, w f = Ok l.
Proof.
  intros Hw Hw' [H1 H2] Hs Ha f Hf. apply (walk_all_found f Hw') in Hf. destruct Hf as (p & n & b' & Hf & ->). destruct (H2 _ _ _ Hf) as (b & Hf' & Hb). assert (Hi : In (mkentry (join [47] p) n b) (walk_all src)) by (apply (walk_all_found _ Hw); exists p, n, b; split; [exact Hf'|reflexivity]).
  destruct (Ha _ Hi) as (l2 & El). exists l2. exact (Hs _ _ _ _ _ Hb El).
Qed.
(** the writes [ws] on the cleared folder, and the same writes over another disk *)
Lemma written_again dest ws ws2 (st st0 : disk) : agree ws -> (forall w, In w ws2 <-> In w ws) -> NoDup (map fst st0) -> NoDup (map fst st) ->
  let s1 := write_all ws (clear_dir dest st) in let s2 := write_all ws2 (clear_dir dest st0) in
  (forall k, (below dest k <> None \/ In k (map fst ws)) -> dget k s2 = dget k s1) /\ (forall k, below dest k = None -> ~ In k (map fst ws) -> dget k s2 = dget k st0).
Proof.
  intros Ha Hin Hn Hn2 s1 s2. assert (Ha2 : agree ws2) by (intros k c c' H1 H2; apply Hin in H1, H2; exact (Ha k c c' H1 H2)).
  assert (Hk : forall k, In k (map fst ws2) <-> In k (map fst ws)) by (intros k; rewrite !in_map_iff; split; intros (w & E & Hi); exists w; (split; [exact E|apply Hin; exact Hi])).
  assert (Hc : forall s k, below dest k <> None -> dget k (clear_dir dest s) = None).
  { intros s k Hb. destruct (dget k (clear_dir dest s)) as [x|] eqn:Ed; [|reflexivity]. apply dget_in, clear_in in Ed. destruct Ed as [_ Ed]. congruence. }
  split.
  - intros k H. destruct (in_dec (list_eq_dec N.eq_dec) k (map fst ws)) as [Hi|Hi].
    + apply in_map_iff in Hi. destruct Hi as ([k' c] & E & Hi). cbn in E. subst k'. unfold s1, s2. rewrite (@write_in ws _ _ _ Ha Hi), (@write_in ws2 _ _ _ Ha2 (proj2 (Hin _) Hi)). reflexivity.
    + destruct H as [H|H]; [|contradiction]. unfold s1, s2. rewrite !write_out; [|exact Hi|rewrite Hk; exact Hi]. rewrite !Hc by exact H. reflexivity.
  - intros k Hb Hi. unfold s2. rewrite write_out by (rewrite Hk; exact Hi). apply clear_same; assumption.
Qed.
Lemma assemble_nodup os table fuel ordl ordw src dest (st sf : disk) : NoDup (map fst st) -> assemble os table fuel ordl ordw src dest st = Ok sf -> NoDup (map fst sf).
Proof.
  intros H E. unfold assemble in E. destruct (all_ok _ _) as [ws|]; [|discriminate]. cbn [bind] in E. injection E as <-. apply write_nodup, clear_nodup, H.
Qed.

Lemma iassemble_nodup os idx fuel ordl ordw src dest (st sf : disk) : NoDup (map fst st) -> iassemble os idx fuel ordl ordw src dest st = Ok sf -> NoDup (map fst sf).
Proof.
  intros H E. unfold iassemble in E. destruct (if jtruthy idx then _ else _) as [ms|]; [|discriminate]. cbn [bind] in E. destruct (all_ok _ (filter moved_plain ms)) as [pw|]; [|discriminate]. cbn [bind] in E. destruct (all_ok _ (filter _ ms)) as [mw|]; [|discriminate]. cbn [bind] in E. destruct (all_ok _ (ordl _)) as [ws|]; [|discriminate]. cbn [bind] in E. injection E as <-. apply write_nodup, write_nodup, clear_nodup, H.
Qed.
