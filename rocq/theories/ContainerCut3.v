(** Proofs: what extraction of a damaged container gives. *)
From Verif Require Import PyBase PyInt Utf PyFile Container Spec_Container ContainerHex ContainerToc ContainerProofs ContainerMore ContainerBounds ContainerCut ContainerCut2.
Open Scope Z_scope.

Definition contents_of (es : list entry) : list (list N * list N) := map (fun e => (e_name e, e_data e)) es.

(** ** The format of a cut file *)
Lemma detect_cases file off fm : detect_format file off = Ok fm -> fm = fmt32 \/ fm = fmt64.
Proof.
  unfold detect_format. destruct (check_seek off); cbn [bind]; [|discriminate]. cbv zeta.
  destruct (str_eqb _ _); [intros E; injection E as <-; auto|].
  destruct (slice off 8 file); [discriminate|intros E; injection E as <-; auto].
Qed.
Lemma read_header_long fm file x : read_header fm 0 file = Ok x -> Z.of_nat (f_first_w fm) + 12 <= zlen file.
Proof.
  unfold read_header. change (check_seek 0) with (Ok tt). cbn [bind]. cbv zeta.
  destruct (Z.eqb_spec (zlen (slice 0 (Z.of_nat (f_first_w fm) + 12) file)) (Z.of_nat (f_first_w fm) + 12)) as [E|E]; [|discriminate].
  intros _. unfold slice in E. rewrite zdrop_0, zlen_ztake in E by lia. lia.
Qed.
Lemma hdr64_first c : 0 <= c < 2 ^ 31 -> exists R, hdr fmt64 c = repeat 255%N 8 ++ R.
Proof.
  intros Hc. unfold hdr.
  assert (Hcp : exists x, pack_int true 4 c = Ok x).
  { unfold pack_int. change (256 ^ Z.of_nat 4) with 4294967296. change (4294967296 / 2) with 2147483648.
    change (2 ^ 31) with 2147483648 in Hc.
    replace ((_ <=? c) && (c <? _)) with true by lia. eexists; reflexivity. }
  destruct Hcp as (x & ->).
  replace (pack_int (f_isgn fmt64) (f_first_w fmt64) (f_end fmt64)) with (Ok (repeat 255%N 8)) by reflexivity.
  eexists. reflexivity.
Qed.
Lemma detect_cut fm fm' c X n x : good_fmt fm -> 0 <= c < 2 ^ 31 -> 0 <= n -> zlen (hdr fm c) = f_hsize fm ->
  let file := ztake n (hdr fm c ++ X) in
  detect_format file 0 = Ok fm' -> read_header fm' 0 file = Ok x -> fm' = fm /\ f_hsize fm <= n.
Proof.
  intros Hg Hc Hn Lh file D R.
  destruct (Z.lt_ge_cases n (f_hsize fm)) as [H|H].
  - exfalso. pose proof (read_header_long _ _ _ R) as HL.
    assert (LF : zlen file <= n) by (unfold file; rewrite zlen_ztake; lia).
    destruct Hg as [-> | ->].
    + change (f_hsize fmt32) with 16 in H. destruct (detect_cases _ _ _ D) as [-> | ->]; cbn in HL; lia.
    + change (f_hsize fmt64) with 20 in H. destruct (detect_cases _ _ _ D) as [E|E]; [|rewrite E in HL; cbn in HL; lia].
      destruct (hdr64_first c Hc) as (T & HT). unfold file in D. rewrite HT in D. revert D. rewrite E. unfold detect_format.
      change (check_seek 0) with (Ok tt). cbn [bind]. cbv zeta. unfold slice, ztake, zdrop. cbn [Z.to_nat skipn].
      destruct (Z.to_nat n) as [|[|[|[|m]]]]; discriminate.
  - split; [|exact H]. unfold file in D. rewrite ztake_app_ge in D by lia. rewrite detect_hdr in D by assumption.
    injection D as <-. reflexivity.
Qed.

(** ** The documents *)
Lemma toc_of_firstn fm : forall k off es, firstn k (toc_of fm off es) = toc_of fm off (firstn k es).
Proof. induction k as [|k IH]; intros off [|e es]; cbn [firstn toc_of]; try reflexivity. rewrite IH. reflexivity. Qed.
Lemma body_firstn fm k es : body fm es = body fm (firstn k es) ++ body fm (skipn k es).
Proof. unfold body. rewrite <- concat_app, <- map_app, firstn_skipn. reflexivity. Qed.
Lemma NoDup_firstn {A} k (l : list A) : NoDup l -> NoDup (firstn k l).
Proof.
  revert l; induction k as [|k IH]; intros [|x l] H; cbn [firstn]; try apply NoDup_nil.
  inversion H; subst. apply NoDup_cons; [|apply IH; assumption]. intros Hi. apply H2. 
  rewrite <- (firstn_skipn k l). apply in_or_app. left. exact Hi.
Qed.
Lemma map_firstn {A B} (f : A -> B) k l : map f (firstn k l) = firstn k (map f l).
Proof. symmetry. apply firstn_map. Qed.
Lemma Forall_firstn' {A} (P : A -> Prop) k l : Forall P l -> Forall P (firstn k l).
Proof. revert l; induction k as [|k IH]; intros [|x l] H; cbn; constructor; inversion H; subst; auto. Qed.

Lemma doc_read_broken fuel fm file off m x : fmt_ok fm -> 0 <= off -> zlen file < off + f_bhsize fm -> doc_read fuel fm 0 file off m <> Ok x.
Proof.
  intros Hf Ho H E. unfold doc_read in E.
  destruct (gen_start fm 0 file off m) as [g|e] eqn:G; cbn [bind] in E; [|discriminate].
  revert G. apply gen_start_broken. intros b. apply read_block_broken; [exact Hf|exact Ho|left; exact H].
Qed.
Lemma ztake_min (a b : Z) (l : list N) : 0 <= a -> 0 <= b -> ztake a (ztake b l) = ztake (Z.min a b) l.
Proof. intros A1 A2. unfold ztake. rewrite firstn_firstn. f_equal. lia. Qed.

(** reading the header of a one-block document whose data may be cut *)
Lemma single_cut fm P data minb n : good_fmt fm -> zlen data < 16 ^ Z.of_nat (f_hexw fm) -> 0 <= minb < 16 ^ Z.of_nat (f_hexw fm) ->
  zlen P < 2 ^ 63 -> f_bhsize fm <= n ->
  let file := P ++ ztake n (blk fm data (zlen data) minb None) in
  forall minr g, gen_start fm 0 file (zlen P) minr = Ok g ->
  g_doc g = zlen data /\ g_next g = f_end fm /\ g_first g = ztake (Z.min (n - f_bhsize fm) (zlen data)) data.
Proof.
  intros Hg HdM HmM HP Hn file minr g G. pose proof (good_ok _ Hg) as Hf.
  pose proof (fo_bh _ Hf) as Hbh. pose proof (fo_end _ Hf) as Hend. pose proof (zlen_nonneg data) as Hd. pose proof (zlen_nonneg P) as HPn.
  set (mx := Z.max minb (zlen data)).
  assert (FB : ztake n (blk fm data (zlen data) minb None) = block_header fm (zlen data) mx (f_end fm) ++ ztake (n - f_bhsize fm) (data ++ zeros (mx - zlen data))).
  { unfold blk, next_val. fold mx. rewrite ztake_app_ge by (rewrite block_header_len by exact Hf; lia). rewrite block_header_len by exact Hf. reflexivity. }
  assert (LF : zlen P + f_bhsize fm <= zlen file).
  { unfold file. rewrite FB, !zlen_app, block_header_len by exact Hf. pose proof (zlen_nonneg (ztake (n - f_bhsize fm) (data ++ zeros (mx - zlen data)))). lia. }
  assert (RB : read_block fm 0 file (zlen P) None = Ok (Some (mkblock (zlen data) mx (f_end fm) (slice (zlen P + f_bhsize fm) (Z.min mx (Z.min mx (zlen data))) file)))).
  { apply read_block_core; try exact Hf; try lia. unfold file. rewrite FB. eexists P, _. split; [|reflexivity]. f_equal.
    rewrite <- (ztake_drop (f_bhsize fm - 3) (block_header fm (zlen data) mx (f_end fm))) at 1. rewrite <- app_assoc. reflexivity. }
  destruct (gen_start_inv _ _ _ _ _ _ RB G) as (G1 & G2 & G3). cbn [b_data b_next b_doc] in *.
  split; [exact G3|]. split; [exact G2|]. rewrite G1. replace (Z.min mx (Z.min mx (zlen data))) with (zlen data) by lia.
  unfold file. rewrite FB. unfold slice. rewrite app_assoc. rewrite zdrop_app_exact by (rewrite zlen_app, block_header_len; [lia|exact Hf]).
  rewrite ztake_min by lia. rewrite ztake_app_le by lia. f_equal. lia.
Qed.

Lemma read_entries_cut fm : good_fmt fm -> forall fuel es pre m size acc fs sz,
  Forall valid_entry es -> NoDup (map e_name es) ->
  (forall e, In e es -> ~ In (e_name e) (map fst acc)) ->
  0 <= m < zlen (body fm es) ->
  zlen pre + zlen (body fm es) < f_end fm -> zlen pre + zlen (body fm es) < 2 ^ 63 ->
  read_entries fuel fm default_block_size 0 (pre ++ ztake m (body fm es)) (toc_of fm (zlen pre) es) size acc = Ok (fs, sz) ->
  exists es0 e i c, es = es0 ++ [e] /\ fs = acc ++ map (cfile_of fm) es0 ++ [(e_name e, c)]
    /\ g_next (c_gen c) = f_end fm /\ g_first (c_gen c) = ztake i (e_data e).
Proof.
  intros Hg fuel. pose proof (good_ok _ Hg) as Hf.
  assert (HM : 65536 < 16 ^ Z.of_nat (f_hexw fm)) by (clear - Hg; destruct Hg as [-> | ->]; reflexivity).
  pose proof (fo_bh _ Hf) as Hbh. pose proof (fo_end _ Hf) as Hend.
  induction es as [|e es IH]; intros pre m size acc fs sz Hv Hnd Hacc Hm Hfe H63 HR.
  { exfalso. cbn in Hm. lia. }
  inversion Hv as [|? ? He Hes]; subst x l. cbn [map] in Hnd. inversion Hnd as [|? ? Hn1 Hn2]; subst x l.
  destruct (desc_ok e He) as (Hd & Hdl & Hpd).
  assert (EB : body fm (e :: es) = ent_bytes fm e ++ body fm es) by reflexivity.
  rewrite EB in Hm, Hfe, H63, HR. rewrite zlen_app in Hm, Hfe, H63.
  set (B1 := blk fm (desc e) (zlen (desc e)) 0 None) in *.
  set (B2 := blk fm (e_data e) (zlen (e_data e)) default_block_size None) in *.
  assert (EE : ent_bytes fm e = B1 ++ B2) by reflexivity.
  assert (L1 : zlen B1 = f_bhsize fm + Z.max 0 (zlen (desc e))) by (apply blk_len; exact Hf).
  assert (L2 : zlen B2 = f_bhsize fm + Z.max default_block_size (zlen (e_data e))) by (apply blk_len; exact Hf).
  assert (L3 : zlen (ent_bytes fm e) = zlen B1 + zlen B2) by (rewrite EE, zlen_app; reflexivity).
  unfold default_block_size in L2.
  pose proof (zlen_nonneg (desc e)) as Hn3. pose proof (zlen_nonneg (e_data e)) as Hn4. pose proof (zlen_nonneg pre) as Hnp.
  pose proof (zlen_nonneg (body fm es)) as Hnb.
  cbn [toc_of] in HR. fold B1 in HR.
  destruct (Z.lt_ge_cases m (zlen (ent_bytes fm e))) as [Hcut|Hwhole].
  - (* the cut lies in this file *)
    assert (FE : ztake m (ent_bytes fm e ++ body fm es) = ztake m (B1 ++ B2)) by (rewrite ztake_app_le by lia; rewrite EE; reflexivity).
    rewrite FE in HR. set (file := pre ++ ztake m (B1 ++ B2)) in *.
    assert (LF : zlen file = zlen pre + m) by (unfold file; rewrite zlen_app, zlen_ztake, zlen_app; lia).
    cbn [read_entries] in HR.
    destruct (doc_read fuel fm 0 file (zlen pre) 0) as [[[d ds] full]|x] eqn:DR; cbn [bind] in HR; [|discriminate].
    assert (Hb1 : f_bhsize fm <= m).
    { destruct (Z.lt_ge_cases m (f_bhsize fm)) as [Hl|Hl]; [|exact Hl]. exfalso. revert DR. apply doc_read_broken; [exact Hf|lia|lia]. }
    destruct (parse_description d ds) as [[[nm ct] mt]|x] eqn:PD; cbn [bind] in HR; [|discriminate].
    assert (Hm1 : zlen B1 <= m).
    { destruct (Z.lt_ge_cases m (zlen B1)) as [Hl|Hl]; [|exact Hl]. exfalso.
      unfold doc_read in DR.
      destruct (gen_start fm 0 file (zlen pre) 0) as [g|x] eqn:G; cbn [bind] in DR; [|discriminate].
      unfold file in G. rewrite ztake_app_le in G by lia.
      destruct (@single_cut fm pre (desc e) 0 m Hg ltac:(lia) ltac:(lia) ltac:(lia) Hb1 0 g G) as (G1 & G2 & G3).
      rewrite (drain_end fuel fm file g G2) in DR. cbn [bind] in DR. injection DR as <- <- <-.
      unfold parse_description in PD. rewrite G1, G3 in PD. rewrite zlen_ztake in PD.
      replace (Z.max 0 (Z.min (Z.min (m - f_bhsize fm) (zlen (desc e))) (zlen (desc e))) =? zlen (desc e)) with false in PD by lia.
      cbn [negb] in PD. rewrite orb_true_r in PD. discriminate. }
    assert (FF : file = pre ++ B1 ++ ztake (m - zlen B1) B2) by (unfold file; rewrite ztake_app_ge by lia; reflexivity).
    assert (A1 : at_ (zlen pre) B1 file) by (rewrite FF; apply at_here).
    unfold doc_read in DR. rewrite (gen_start_doc fm file (zlen pre) (desc e) 0 0 Hf) in DR by (try exact A1; lia).
    cbn [bind] in DR. rewrite gen_drain_single in DR. cbn [bind g_doc g_full] in DR. injection DR as <- <- <-.
    rewrite Hpd in PD. injection PD as <- <- <-.
    destruct (gen_start fm 0 file (zlen pre + zlen B1) default_block_size) as [g|x] eqn:G; cbn [bind] in HR; [|discriminate].
    rewrite dset_new in HR by (apply Hacc; left; reflexivity).
    assert (Hb2 : f_bhsize fm <= m - zlen B1).
    { destruct (Z.lt_ge_cases (m - zlen B1) (f_bhsize fm)) as [Hl|Hl]; [|exact Hl]. exfalso. revert G. apply gen_start_broken.
      intros b. apply read_block_broken; [exact Hf|lia|left; lia]. }
    rewrite FF, app_assoc in G. rewrite <- zlen_app in G.
    destruct (@single_cut fm (pre ++ B1) (e_data e) default_block_size (m - zlen B1) Hg ltac:(lia) ltac:(unfold default_block_size; lia) ltac:(rewrite zlen_app; lia) Hb2 default_block_size g G) as (G1 & G2 & G3).
    destruct es as [|e2 es].
    + cbn [toc_of read_entries] in HR. injection HR as <- _.
      eexists [], e, _, _. split; [reflexivity|]. split; [reflexivity|]. cbn [c_gen]. split; [exact G2|exact G3].
    + exfalso. cbn [toc_of read_entries] in HR.
      destruct (doc_read fuel fm 0 file (zlen pre + zlen (ent_bytes fm e)) 0) as [x|x] eqn:DR2; cbn [bind] in HR; [|discriminate].
      revert DR2. apply doc_read_broken; [exact Hf|lia|lia].
  - (* this file is whole *)
    rewrite ztake_app_ge in HR by lia.
    set (m' := m - zlen (ent_bytes fm e)) in *.
    set (file := pre ++ ent_bytes fm e ++ ztake m' (body fm es)) in *.
    assert (A1 : at_ (zlen pre) B1 file).
    { unfold file. rewrite EE, <- !app_assoc. apply at_here. }
    assert (A2 : at_ (zlen pre + zlen B1) B2 file).
    { unfold file. rewrite EE, <- !app_assoc, (app_assoc pre B1), <- zlen_app. apply at_here. }
    cbn [read_entries] in HR. unfold doc_read at 1 in HR.
    rewrite (gen_start_doc fm file (zlen pre) (desc e) 0 0 Hf) in HR by (try exact A1; lia).
    cbn [bind] in HR. rewrite gen_drain_single in HR. cbn [bind g_doc g_full] in HR. rewrite Hpd in HR. cbn [bind] in HR.
    rewrite (gen_start_doc fm file (zlen pre + zlen B1) (e_data e) default_block_size default_block_size Hf) in HR
      by (try exact A2; unfold default_block_size; lia).
    cbn [bind g_doc g_full] in HR.
    rewrite dset_new in HR by (apply Hacc; left; reflexivity).
    replace (zlen pre + zlen (ent_bytes fm e)) with (zlen (pre ++ ent_bytes fm e)) in HR by apply zlen_app.
    unfold file in HR. rewrite app_assoc in HR.
    edestruct (fun a b c d => IH (pre ++ ent_bytes fm e) m' _ _ _ _ Hes Hn2 a b c d HR) as (es0 & e' & i & c & E1 & E2 & E3 & E4).
    + intros e' Hin. rewrite map_app, in_app_iff. intros [Hin2|[Heq|[]]].
      * apply (Hacc e'); [right; exact Hin|exact Hin2].
      * cbn in Heq. apply Hn1. rewrite Heq. apply in_map. exact Hin.
    + unfold m'. lia.
    + rewrite zlen_app. lia.
    + rewrite zlen_app. lia.
    + exists (e :: es0), e', i, c. split; [rewrite E1; reflexivity|]. split; [|split; assumption].
      rewrite E2. rewrite <- app_assoc. reflexivity.
Qed.
