(** A build that is stopped, and a container that is cut. *)
From Verif Require Import PyBase PyInt Utf PyFile Container Spec_Container ContainerHex ContainerToc ContainerProofs ContainerMore ContainerBounds ContainerCut ContainerCut2 ContainerCut3.
Open Scope Z_scope.

(** ** What is on the disk when the program is stopped inside Container.build
    (container.py:197-212).  The program writes bytes one after another; a stop leaves some of
    them written.  Simplification: bytes reach the disk in the order of the calls of write. *)
(** the bytes of one block (container_doc.py:136-163), as written to an empty file *)
Definition block_bytes (fm : cfmt) (data : list N) (doc_size min_block_size : Z) (next : option Z) : list N :=
  fdata (fst (write_block fm fempty data doc_size min_block_size None next)).
(** the first block of the contents table (container.py:233-246); [size] is the size of the file *)
Definition first_table_block (fm : cfmt) (t : list N) (size : Z) : list N :=
  if (zlen t + f_ibs fm - 1) / f_ibs fm =? 1 then block_bytes fm t (zlen t) 0 None
  else block_bytes fm (ztake (f_ibs fm) t) (zlen t) (f_ibs fm) (Some size).
(** the sorted files of the folder, as build goes through them (container.py:200-203) *)
Definition in_order (deflate : list N -> list N) (ents : list (list N * node)) : list (list N * prep) :=
  sort_names (map (fun e => (fst e, prep_of deflate (snd e))) ents).
(** [stopped deflate fm ents left]: the program may leave the bytes [left] when it is stopped
    while it builds a container (format [fm]) from the files [ents] *)
Inductive stopped (deflate : list N -> list N) (fm : cfmt) (ents : list (list N * node)) : list N -> Prop :=
  (** in write_header (container.py:214-224), in add_file (258-278) or between them *)
| stop_docs f0 k st n : write_header fm fempty 0 (zlen (in_order deflate ents)) = Ok f0 ->
    add_files deflate fm false (mkw f0 []) (firstn k (in_order deflate ents)) = Ok st ->
    0 <= n -> stopped deflate fm ents (ztake n (fdata (w_file st)))
  (** all the files are there, the first block of the contents table is being written (233-246) *)
| stop_table f0 st t j : write_header fm fempty 0 (zlen (in_order deflate ents)) = Ok f0 ->
    add_files deflate fm false (mkw f0 []) (in_order deflate ents) = Ok st ->
    toc_bytes fm (w_toc st) = Ok t ->
    0 <= j -> stopped deflate fm ents (fdata (fwrite (ztake j (first_table_block fm t (fsize (w_file st)))) (fseek (f_hsize fm) (w_file st))))
  (** the other blocks of a long table are being written behind the files (247-256) *)
| stop_tail f0 st f2 n : write_header fm fempty 0 (zlen (in_order deflate ents)) = Ok f0 ->
    add_files deflate fm false (mkw f0 []) (in_order deflate ents) = Ok st ->
    write_toc fm st = Ok f2 ->
    fsize (w_file st) <= n -> stopped deflate fm ents (ztake n (fdata f2)).

Lemma block_bytes_eq fm data d m nx : fmt_ok fm -> block_bytes fm data d m nx = blk fm data d m nx.
Proof.
  intros Hf. unfold block_bytes. destruct (write_block_append fm fempty data d m nx Hf eq_refl) as (f' & W & D & _).
  rewrite W. cbn [fst]. rewrite D. reflexivity.
Qed.

(** ** The layout of a built container *)
Record built (deflate : list N -> list N) (fm : cfmt) (es es' : list entry) (h t : list N) : Prop := {
  bt_sorted : sorted_of es es';
  bt_order : in_order deflate (map node_of es) = map prep_ent es';
  bt_valid : Forall valid_entry es';
  bt_nodup : NoDup (map e_name es');
  bt_hdr : h = hdr fm (zlen es');
  bt_hlen : zlen h = f_hsize fm;
  bt_count : 0 <= zlen es' < 2 ^ 31;
  bt_head : forall tl, read_header fm 0 (h ++ tl) = Ok (default_block_size, zlen es');
  bt_write : exists f0, write_header fm fempty 0 (zlen es') = Ok f0 /\ fdata f0 = h ++ zeros (f_ibs fm + f_bhsize fm) /\ fpos f0 = fsize f0;
  bt_toc : parse_toc fm t = Ok (toc_of fm (f_hsize fm + (f_ibs fm + f_bhsize fm)) es');
  bt_tb : toc_bytes fm (toc_some (toc_of fm (f_hsize fm + (f_ibs fm + f_bhsize fm)) es')) = Ok t;
  bt_tpos : 0 < zlen t;
  bt_tM : zlen t < 16 ^ Z.of_nat (f_hexw fm);
  bt_size : f_hsize fm + (f_ibs fm + f_bhsize fm) + zlen (body fm es') + zlen (tail fm t (f_hsize fm + (f_ibs fm + f_bhsize fm) + zlen (body fm es'))) < Z.min (f_end fm) (2 ^ 62);
  bt_build : exists f2, build deflate fm fempty (map node_of es) true 0 = Ok f2
    /\ fdata f2 = h ++ zone fm t (f_hsize fm + (f_ibs fm + f_bhsize fm) + zlen (body fm es')) ++ body fm es' ++ tail fm t (f_hsize fm + (f_ibs fm + f_bhsize fm) + zlen (body fm es'))
}.
Lemma build_layout deflate fm es :
  good_fmt fm -> valid_listing es -> zlen es < 2 ^ 31 ->
  container_size (layout_of fm) es < f_end fm -> container_size (layout_of fm) es < 2 ^ 62 ->
  exists es' h t, built deflate fm es es' h t.
Proof.
  intros Hg Hvl Hcount Hsz Hsz62. pose proof (good_ok _ Hg) as Hf.
  destruct (container_roundtrip deflate fm es Hg Hvl Hcount Hsz Hsz62) as (fB & _ & _ & _ & HB & HBl & _).
  destruct Hvl as (Hne0 & Hv0 & Hnd0).
  destruct (sort_names_map_ent prep_ent es (fun _ => eq_refl) Hnd0) as (es' & Hsort & Hso).
  pose proof (sorted_valid es es' Hso (conj Hne0 (conj Hv0 Hnd0))) as (Hne & Hv & Hnd).
  pose proof (zlen_perm _ _ (proj1 Hso)) as Hz. pose proof (zlen_nonneg es) as Hz0.
  assert (Hpos : 0 < zlen es) by (destruct es; [congruence|rewrite zlen_cons; pose proof (zlen_nonneg es); lia]).
  pose proof HB as HB0. unfold build, build_prepared in HB. rewrite prep_nodes, Hsort in HB. rewrite zlen_map in HB.
  destruct (write_header_ok fm (zlen es') Hg ltac:(lia)) as (f0 & W0 & D0 & P0 & Lh & RH).
  rewrite W0 in HB. cbn [bind negb] in HB.
  destruct (add_files_body deflate fm Hf es' f0 [] Hv P0) as (f1 & W1 & D1 & P1).
  rewrite W1 in HB. cbn [bind app] in HB.
  pose proof (fo_ibs _ Hf) as Hibs. pose proof (fo_bh _ Hf) as Hbh.
  set (R := f_ibs fm + f_bhsize fm) in *.
  assert (Hpre : fsize f0 = f_hsize fm + R).
  { unfold fsize. rewrite D0, zlen_app, Lh, zlen_zeros. unfold R. lia. }
  assert (Hf1 : fsize f1 = f_hsize fm + R + zlen (body fm es')) by (unfold fsize; rewrite D1, zlen_app; fold (fsize f0); lia).
  rewrite Hpre in HB.
  destruct (toc_bytes fm (toc_some (toc_of fm (f_hsize fm + R) es'))) as [t|x] eqn:TB.
  2:{ exfalso. unfold write_toc in HB. cbn [w_toc] in HB. destruct (toc_some (toc_of fm (f_hsize fm + R) es')); [discriminate|].
      rewrite TB in HB. discriminate. }
  assert (Hbl : zlen (body fm es') = sumz (map (entry_size (layout_of fm)) es)).
  { rewrite body_len by assumption. apply sumz_perm, Permutation_map, Permutation_sym, (proj1 Hso). }
  set (cs := container_size (layout_of fm) es) in *.
  assert (Hiw : 4 <= Z.of_nat (f_iw fm) <= 8) by (destruct Hg as [-> | ->]; split; discriminate).
  assert (Hcs1 : fsize f1 <= cs).
  { rewrite Hf1. unfold cs, container_size, toc_size. cbn [layout_of l_header l_block_header l_index_block l_toc_entry]. rewrite <- Hbl.
    set (tn := 3 * Z.of_nat (f_iw fm) * zlen es). unfold R.
    destruct (tn <=? f_ibs fm) eqn:El; [lia|].
    assert (0 <= (tn + f_ibs fm - 1) / f_ibs fm) by (apply Z.div_pos; unfold tn; nia).
    assert (0 <= (tn + f_ibs fm - 1) / f_ibs fm * (f_bhsize fm + f_ibs fm)) by (apply Z.mul_nonneg_nonneg; lia). lia. }
  assert (Hofs : Forall (fun p => off_ok fm (fst p) /\ off_ok fm (snd p)) (toc_of fm (f_hsize fm + R) es')).
  { rewrite <- Hpre. unfold fsize. rewrite D0.
    apply (toc_of_off_ok fm Hg es' (hdr fm (zlen es') ++ zeros R) []); [exact Hv| |];
    rewrite app_nil_r; rewrite <- D0, <- D1; fold (fsize f1); [lia|]. change (2 ^ 63) with (2 * 2 ^ 62). lia. }
  destruct (parse_toc_bytes fm Hg _ Hofs) as (t' & T1 & T2 & T3).
  assert (t' = t) by (unfold toc_some in TB; congruence). subst t'.
  rewrite zlen_toc_of, <- Hz in T2.
  assert (Htp : 0 < zlen t) by (rewrite T2; nia).
  destruct (write_toc_layout fm Hg f1 (toc_some (toc_of fm (f_hsize fm + R) es')) t (hdr fm (zlen es')) (body fm es')) as (f2 & W2 & D2).
  { destruct es'; [congruence|discriminate]. }
  { exact TB. }
  { exact Htp. }
  { rewrite D1, D0, <- app_assoc. reflexivity. }
  { exact Lh. }
  rewrite W2 in HB. injection HB as <-. rewrite Hf1 in D2.
  exists es', (hdr fm (zlen es')), t. constructor; fold R; try assumption; try reflexivity.
  - unfold in_order. rewrite prep_nodes. exact Hsort.
  - lia.
  - exists f0. repeat split; assumption.
  - assert (zlen t <= 24 * 2 ^ 31) by (rewrite T2; nia). 
    destruct (Z.le_gt_cases (zlen t) (f_ibs fm)) as [Hl|Hl].
    + assert (65536 < 16 ^ Z.of_nat (f_hexw fm)) by (clear - Hg; destruct Hg as [-> | ->]; reflexivity). lia.
    + pose proof (fo_end _ Hf) as He.
      assert (Htl : zlen t <= f_ibs fm * ((zlen t + f_ibs fm - 1) / f_ibs fm)).
      { pose proof (Z.div_mod (zlen t + f_ibs fm - 1) (f_ibs fm) ltac:(lia)) as Hdm.
        pose proof (Z.mod_pos_bound (zlen t + f_ibs fm - 1) (f_ibs fm) ltac:(lia)) as Hmb. lia. }
      assert (zlen t <= cs); [|lia].
      unfold cs, container_size, toc_size. cbn [layout_of l_header l_block_header l_index_block l_toc_entry]. rewrite <- Hbl, <- T2.
      replace (zlen t <=? f_ibs fm) with false by lia.
      pose proof (zlen_nonneg (body fm es')). pose proof (fo_hs _ Hf).
      rewrite Z.mul_comm in Htl. rewrite Z.mul_add_distr_l.
      assert (0 <= (zlen t + f_ibs fm - 1) / f_ibs fm * f_bhsize fm) by (apply Z.mul_nonneg_nonneg; [apply Z.div_pos; lia|lia]). lia.
  - rewrite D2 in HBl. rewrite !zlen_app, zone_len, Lh in HBl by assumption. fold R in HBl.
    pose proof (zlen_nonneg (body fm es')). lia.
  - exists f2. split; [exact HB0|exact D2].
Qed.

Lemma read_from_toc (fm : cfmt) es es' deflate h t w fuel fs size : good_fmt fm -> built deflate fm es es' h t ->
  let file := h ++ w in
  (forall d ds full, doc_read fuel fm 0 file (f_hsize fm) (f_ibs fm) = Ok (d, ds, full) -> exists i m, d = ztake i t ++ zeros m) ->
  read_container fuel fm file 0 = Ok (fs, size) ->
  exists k sz0, read_entries fuel fm default_block_size 0 file (toc_of fm (f_hsize fm + (f_ibs fm + f_bhsize fm)) (firstn k es')) sz0 [] = Ok (fs, size).
Proof.
  intros Hg B file HD HR. unfold read_container in HR. unfold file in HR at 1. rewrite (bt_head _ _ _ _ _ _ B) in HR. cbn [bind] in HR.
  change (default_block_size =? 0) with false in HR. cbv iota in HR.
  destruct (doc_read fuel fm 0 file (f_hsize fm) (f_ibs fm)) as [[[d ds] full]|x] eqn:DR; cbn [bind] in HR; [|discriminate].
  destruct (HD _ _ _ eq_refl) as (i & m & ->).
  destruct (parse_toc_cut fm t _ i m Hg (bt_toc _ _ _ _ _ _ B)) as (k & PK). rewrite PK in HR. cbn [bind] in HR.
  rewrite toc_of_firstn in HR. exists k, (f_hsize fm + full). exact HR.
Qed.
Lemma entries_whole fm es es' deflate h t k pre post fuel sz0 fs size : good_fmt fm -> built deflate fm es es' h t ->
  let file := pre ++ body fm es' ++ post in
  zlen pre = f_hsize fm + (f_ibs fm + f_bhsize fm) -> zlen file < f_end fm -> zlen file < 2 ^ 63 ->
  read_entries fuel fm default_block_size 0 file (toc_of fm (f_hsize fm + (f_ibs fm + f_bhsize fm)) (firstn k es')) sz0 [] = Ok (fs, size) ->
  forall out, extract_files fuel fm 0 file fs = Ok out -> out = contents_of (firstn k es').
Proof.
  intros Hg B file Hp H1 H2 HR out HX. rewrite <- Hp in HR.
  rewrite (read_entries_body fm Hg fuel file (firstn k es') pre (body fm (skipn k es') ++ post) sz0 []) in HR; try assumption.
  - injection HR as <- _. cbn [app] in HX. rewrite extract_files_body in HX. injection HX as <-. reflexivity.
  - apply Forall_firstn', (bt_valid _ _ _ _ _ _ B).
  - rewrite map_firstn. apply NoDup_firstn, (bt_nodup _ _ _ _ _ _ B).
  - intros e _ [].
  - unfold file. rewrite (body_firstn fm k es'), <- app_assoc. reflexivity.
Qed.

Lemma at_ztake_hdr (P w : list N) n : ztake n (P ++ w) = if Z.leb (zlen P) n then P ++ ztake (n - zlen P) w else ztake n P.
Proof. destruct (Z.leb_spec (zlen P) n); [apply ztake_app_ge; assumption|apply ztake_app_le; lia]. Qed.

(** ** A stop before the contents table *)
Lemma stopped_early deflate fm es es' h t X n nn fuel outs : good_fmt fm -> built deflate fm es es' h t -> 0 <= n ->
  let left := ztake n (h ++ zeros (f_ibs fm + f_bhsize fm) ++ X) in
  left <> [] -> extract_all nn fuel left = Ok outs -> False.
Proof.
  intros Hg B Hn left Hne HX. pose proof (good_ok _ Hg) as Hf. pose proof (fo_bh _ Hf) as Hbh. pose proof (fo_ibs _ Hf) as Hibs.
  destruct (extract_all_ok nn fuel left outs Hne HX) as (fm' & fs & size & out & rest & D & R & _ & _).
  pose proof (bt_hlen _ _ _ _ _ _ B) as Lh.
  assert (Hhs : 0 <= f_hsize fm) by (rewrite <- Lh; apply zlen_nonneg).
  pose proof R as R0. unfold read_container in R0. destruct (read_header fm' 0 left) as [x|x] eqn:RH; cbn [bind] in R0; [|discriminate].
  pose proof (bt_hdr _ _ _ _ _ _ B) as Eh. pose proof Lh as Lh2. rewrite Eh in Lh2.
  destruct (detect_cut fm fm' (zlen es') (zeros (f_ibs fm + f_bhsize fm) ++ X) n x Hg (bt_count _ _ _ _ _ _ B) Hn Lh2) as (-> & Hn2).
  { rewrite <- Eh. exact D. }
  { rewrite <- Eh. exact RH. }
  destruct x as [dbs cnt]. destruct (dbs =? 0); [discriminate|].
  destruct (doc_read fuel fm 0 left (f_hsize fm) (f_ibs fm)) as [[[d ds] full]|x] eqn:DR; cbn [bind] in R0; [|discriminate].
  unfold doc_read in DR. destruct (gen_start fm 0 left (f_hsize fm) (f_ibs fm)) as [g|x] eqn:G; cbn [bind] in DR; [|discriminate].
  revert G. apply gen_start_broken. intros b. apply read_block_broken; [exact Hf|exact Hhs|].
  destruct (Z.lt_ge_cases n (f_hsize fm + f_bhsize fm)) as [Hl|Hl].
  - left. unfold left. rewrite zlen_ztake. lia.
  - right. unfold left. rewrite ztake_app_ge by lia. rewrite Lh.
    replace (f_ibs fm + f_bhsize fm) with ((f_bhsize fm - 4) + (1 + (f_ibs fm + 3))) by lia.
    rewrite zeros_add by lia. rewrite (@zeros_add 1 (f_ibs fm + 3)) by lia. rewrite <- !app_assoc.
    rewrite ztake_app_ge by (rewrite zlen_zeros; lia). rewrite ztake_app_ge by (rewrite !zlen_zeros; lia).
    rewrite app_assoc. apply slice_app_mid; [rewrite zlen_app, Lh, zlen_zeros; lia|reflexivity].
Qed.

(** ** A stop inside the contents table; a cut container *)
Lemma slice_app_l (X Y : list N) a n : 0 <= a -> a + n <= zlen X -> slice a n (X ++ Y) = slice a n X.
Proof.
  intros Ha H. unfold slice. destruct (Z.le_gt_cases n 0) as [Hn|Hn]; [rewrite !ztake_0 by lia; reflexivity|].
  rewrite zdrop_app_le by lia. apply ztake_app_le. rewrite zlen_zdrop. lia.
Qed.
Lemma zone_single fm t nx : fmt_ok fm -> 0 < zlen t -> zlen t <= f_ibs fm -> zdrop (f_bhsize fm) (zone fm t nx) = t ++ zeros (f_ibs fm - zlen t).
Proof.
  intros Hf Ht Hl. unfold zone. rewrite (proj2 (ceil1 fm (zlen t) Hf Ht) Hl). change (1 =? 1) with true. cbv iota.
  unfold blk. replace (Z.max 0 (zlen t)) with (zlen t) by lia. rewrite (@zeros_nil (zlen t - zlen t)) by lia. rewrite app_nil_r, <- app_assoc.
  apply zdrop_app_exact. apply block_header_len. exact Hf.
Qed.
Lemma zone_multi fm t nx : fmt_ok fm -> 0 < zlen t -> f_ibs fm < zlen t -> zdrop (f_bhsize fm) (zone fm t nx) = ztake (f_ibs fm) t.
Proof.
  intros Hf Ht Hl. pose proof (fo_ibs _ Hf). unfold zone.
  destruct (Z.eqb_spec ((zlen t + f_ibs fm - 1) / f_ibs fm) 1) as [E|E]; [apply (proj1 (ceil1 fm (zlen t) Hf Ht)) in E; lia|].
  unfold blk. replace (Z.max (f_ibs fm) (zlen (ztake (f_ibs fm) t))) with (zlen (ztake (f_ibs fm) t)) by (rewrite zlen_ztake; lia).
  rewrite (@zeros_nil (zlen (ztake (f_ibs fm) t) - zlen (ztake (f_ibs fm) t))) by lia. rewrite app_nil_r.
  apply zdrop_app_exact. apply block_header_len. exact Hf.
Qed.
Lemma zone_first fm t nx : fmt_ok fm -> 0 < zlen t -> zone fm t nx = first_table_block fm t nx ++ zeros (f_ibs fm + f_bhsize fm - zlen (first_table_block fm t nx)).
Proof.
  intros Hf Ht. pose proof (fo_ibs _ Hf). unfold zone, first_table_block.
  destruct (Z.eqb_spec ((zlen t + f_ibs fm - 1) / f_ibs fm) 1) as [E|E]; rewrite block_bytes_eq by exact Hf; rewrite blk_len by exact Hf.
  - f_equal. f_equal. lia.
  - assert (f_ibs fm < zlen t) by (destruct (Z.le_gt_cases (zlen t) (f_ibs fm)) as [Hl|Hl]; [apply (proj2 (ceil1 fm (zlen t) Hf Ht)) in Hl; lia|lia]).
    rewrite (@zeros_nil (f_ibs fm + f_bhsize fm - _)) by (rewrite zlen_ztake; lia). rewrite app_nil_r. reflexivity.
Qed.
Lemma first_len fm t nx : fmt_ok fm -> 0 < zlen t -> zlen (first_table_block fm t nx) <= f_ibs fm + f_bhsize fm.
Proof.
  intros Hf Ht. pose proof (zone_len fm t nx Hf Ht) as L. rewrite (zone_first fm t nx Hf Ht), zlen_app, zlen_zeros in L. lia.
Qed.

Section Damaged.
  Variables (deflate : list N -> list N) (fm : cfmt) (es es' : list entry) (h t : list N).
  Hypothesis Hg : good_fmt fm.
  Hypothesis B : built deflate fm es es' h t.
  Let R := f_ibs fm + f_bhsize fm.
  Let b := body fm es'.
  Let nx := f_hsize fm + R + zlen b.
  Let z := zone fm t nx.
  Let tl := tail fm t nx.

  Lemma numbers : 512 <= f_ibs fm /\ 13 <= f_bhsize fm /\ 0 <= f_hsize fm /\ zlen h = f_hsize fm /\ zlen z = R /\ 0 < zlen t
    /\ 0 <= zlen b /\ 0 <= zlen tl /\ nx + zlen tl < f_end fm /\ nx + zlen tl < 2 ^ 62 /\ 0 < nx < f_end fm /\ fmt_ok fm.
  Proof.
    pose proof (good_ok _ Hg) as Hf. pose proof (fo_ibs _ Hf). pose proof (fo_bh _ Hf). pose proof (fo_hexw _ Hf). pose proof (bt_hlen _ _ _ _ _ _ B) as L.
    pose proof (zlen_nonneg h). pose proof (bt_tpos _ _ _ _ _ _ B) as Ht. pose proof (zone_len fm t nx Hf Ht) as LZ.
    pose proof (zlen_nonneg b). pose proof (zlen_nonneg tl). pose proof (bt_size _ _ _ _ _ _ B) as S. fold R b in S. fold nx in S. fold tl in S.
    unfold R, z. repeat match goal with |- _ /\ _ => split end; first [exact Hf|lia|unfold nx, R; lia].
  Qed.

  Lemma starts_with_h nn fuel w outs : extract_all nn fuel (h ++ w) = Ok outs ->
    exists fs size out rest, read_container fuel fm (h ++ w) 0 = Ok (fs, size) /\ extract_files fuel fm 0 (h ++ w) fs = Ok out /\ outs = out :: rest.
  Proof.
    destruct numbers as (N1 & N2 & N3 & N4 & _ & _ & _ & _ & _ & _ & _ & Hf).
    intros HX. destruct (extract_all_ok nn fuel (h ++ w) outs) as (fm' & fs & size & out & rest & D & RC & X & E); [|exact HX|].
    - intros E. assert (L : zlen (h ++ w) = 0) by (rewrite E; reflexivity). rewrite zlen_app in L. pose proof (zlen_nonneg w).
      destruct (fo_fw _ Hf). pose proof (fo_hs _ Hf). lia.
    - rewrite (bt_hdr _ _ _ _ _ _ B) in D at 1. rewrite detect_hdr in D by (try exact Hg; apply (bt_count _ _ _ _ _ _ B)). injection D as <-.
      exists fs, size, out, rest. repeat split; assumption.
  Qed.

  Lemma damaged_table nn fuel outs j : (j <= Z.to_nat R)%nat -> extract_all nn fuel (h ++ over0 j z ++ b) = Ok outs ->
    exists k rest, outs = contents_of (firstn k es') :: rest.
  Proof.
    destruct numbers as (N1 & N2 & N3 & N4 & N5 & N6 & N7 & N8 & N9 & N10 & NXP & Hf). intros Hj HX.
    destruct (starts_with_h _ _ _ _ HX) as (fs & size & out & rest & RC & X & ->).
    assert (LO : zlen (over0 j z) = R) by (rewrite over0_len; exact N5).
    assert (LF : zlen (h ++ over0 j z ++ b) = nx) by (rewrite !zlen_app, LO, N4; unfold nx; lia).
    destruct (@read_from_toc fm es es' deflate h t (over0 j z ++ b) fuel fs size Hg B) as (k & sz0 & RE); [|exact RC|].
    - intros d ds full DR.
      destruct (Z.lt_ge_cases (Z.of_nat j) (f_bhsize fm - 3)) as [Hs|Hs].
      + exfalso. unfold doc_read in DR. destruct (gen_start fm 0 (h ++ over0 j z ++ b) (f_hsize fm) (f_ibs fm)) as [g|x] eqn:G; cbn [bind] in DR; [|discriminate].
        revert G. apply gen_start_broken. intros bb. apply read_block_broken; [exact Hf|exact N3|right].
        unfold slice. rewrite zdrop_app_ge by lia. fold (slice (f_hsize fm + f_bhsize fm - 4 - zlen h) 1 (over0 j z ++ b)).
        rewrite slice_app_l by (unfold R in LO; lia). rewrite slice_over0.
        replace (j - _)%nat with 0%nat by lia. rewrite over0_0.
        assert (L1 : length (slice (f_hsize fm + f_bhsize fm - 4 - zlen h) 1 z) = 1%nat).
        { assert (L : zlen (slice (f_hsize fm + f_bhsize fm - 4 - zlen h) 1 z) = 1) by (unfold slice; rewrite zlen_ztake, zlen_zdrop, N5; unfold R; lia).
          apply Nat2Z.inj. exact L. }
        rewrite L1. reflexivity.
      + eapply (@toc_read_gen fm t h (over0 j z ++ b) nx fuel d ds full Hg N6 N4); [apply (bt_tM _ _ _ _ _ _ B)|exact NXP| | | |exact DR].
        * rewrite ztake_app_le by (unfold R in LO; lia). fold z. unfold ztake at 1. rewrite over0_first. apply over0_all.
          unfold ztake; rewrite firstn_length. lia.
        * rewrite zlen_app, LO. unfold R. lia.
        * destruct (Z.leb_spec (zlen t) (f_ibs fm)) as [Hl|Hl].
          -- rewrite slice_app_l by (unfold R in LO; lia). rewrite slice_over0.
             assert (S : slice (f_bhsize fm) (zlen t) z = t).
             { unfold slice, z. rewrite zone_single by assumption. apply ztake_app_exact. reflexivity. }
             rewrite S. apply over0_cut.
          -- left. rewrite LF. lia.
    - exists k, rest. f_equal.
      assert (FF : h ++ over0 j z ++ b = (h ++ over0 j z) ++ body fm es' ++ []) by (rewrite app_nil_r, <- app_assoc; reflexivity).
      rewrite FF in RE, X, LF.
      eapply (@entries_whole fm es es' deflate h t k (h ++ over0 j z) [] fuel sz0 fs size Hg B); [| | |exact RE|exact X].
      + rewrite zlen_app, LO, N4. reflexivity.
      + rewrite LF. lia.
      + rewrite LF. change (2 ^ 63) with (2 * 2 ^ 62). lia.
  Qed.

  Lemma damaged_tail nn fuel outs j : 0 <= j -> extract_all nn fuel (h ++ z ++ b ++ ztake j tl) = Ok outs ->
    exists k rest, outs = contents_of (firstn k es') :: rest.
  Proof.
    destruct numbers as (N1 & N2 & N3 & N4 & N5 & N6 & N7 & N8 & N9 & N10 & NXP & Hf). intros Hj HX.
    destruct (starts_with_h _ _ _ _ HX) as (fs & size & out & rest & RC & X & ->).
    assert (LP : zlen (h ++ z ++ b) = nx) by (rewrite !zlen_app, N5, N4; unfold nx; lia).
    assert (LF : zlen (h ++ z ++ b ++ ztake j tl) <= nx + zlen tl).
    { replace (h ++ z ++ b ++ ztake j tl) with ((h ++ z ++ b) ++ ztake j tl) by (rewrite <- !app_assoc; reflexivity). rewrite zlen_app, LP, zlen_ztake. lia. }
    destruct (@read_from_toc fm es es' deflate h t (z ++ b ++ ztake j tl) fuel fs size Hg B) as (k & sz0 & RE); [|exact RC|].
    - intros d ds full DR.
      eapply (@toc_read_gen fm t h (z ++ b ++ ztake j tl) nx fuel d ds full Hg N6 N4); [apply (bt_tM _ _ _ _ _ _ B)|exact NXP| | | |exact DR].
      + rewrite ztake_app_le by (unfold R in N5; lia). reflexivity.
      + rewrite zlen_app, N5. pose proof (zlen_nonneg (b ++ ztake j tl)). unfold R. lia.
      + destruct (Z.leb_spec (zlen t) (f_ibs fm)) as [Hl|Hl].
        * exists (zlen t), 0. rewrite (@zeros_nil 0) by lia. rewrite app_nil_r, (@ztake_all N (zlen t) t) by lia.
          rewrite slice_app_l by (unfold R in N5; lia). unfold slice, z. rewrite zone_single by assumption. apply ztake_app_exact. reflexivity.
        * right. split.
          -- rewrite slice_app_l by (unfold R in N5; lia). unfold slice, z. rewrite zone_multi by assumption. rewrite ztake_min by lia. f_equal. lia.
          -- exists (h ++ z ++ b), j. split; [exact Hj|]. split; [exact LP|]. split; [rewrite <- !app_assoc; reflexivity|]. rewrite LP. fold tl.
             change (2 ^ 63) with (2 * 2 ^ 62). lia.
    - exists k, rest. f_equal.
      assert (FF : h ++ z ++ b ++ ztake j tl = (h ++ z) ++ body fm es' ++ ztake j tl) by (rewrite <- app_assoc; reflexivity).
      rewrite FF in RE, X, LF.
      eapply (@entries_whole fm es es' deflate h t k (h ++ z) (ztake j tl) fuel sz0 fs size Hg B); [| | |exact RE|exact X].
      + rewrite zlen_app, N5, N4. reflexivity.
      + lia.
      + change (2 ^ 63) with (2 * 2 ^ 62). lia.
  Qed.

  Lemma extract_last fuel file e c : g_next (c_gen c) = f_end fm -> forall es0,
    extract_files fuel fm 0 file (map (cfile_of fm) es0 ++ [(e_name e, c)]) = Ok (contents_of es0 ++ [(e_name e, g_first (c_gen c))]).
  Proof.
    intros Hn. induction es0 as [|e0 es0 IH]; cbn [map app extract_files].
    - rewrite drain_end by exact Hn. reflexivity.
    - unfold cfile_of at 1. cbn [c_gen]. unfold file_gen at 1. rewrite gen_drain_single. cbn [bind]. rewrite IH. reflexivity.
  Qed.

  Lemma cut_container nn fuel outs n : 0 <= n -> extract_all nn fuel (ztake n (h ++ z ++ b ++ tl)) = Ok outs ->
    ztake n (h ++ z ++ b ++ tl) = [] \/ (n < f_hsize fm + R /\ exists rest, outs = [] :: rest)
    \/ (f_hsize fm + R <= n < nx /\ exists es0 e i rest, es' = es0 ++ [e] /\ outs = (contents_of es0 ++ [(e_name e, ztake i (e_data e))]) :: rest)
    \/ (nx <= n /\ exists k rest, outs = contents_of (firstn k es') :: rest).
  Proof.
    destruct numbers as (N1 & N2 & N3 & N4 & N5 & N6 & N7 & N8 & N9 & N10 & NXP & Hf). intros Hn HX.
    destruct (ztake n (h ++ z ++ b ++ tl)) as [|c0 l0] eqn:E0; [left; reflexivity|right]. rewrite <- E0 in HX.
    assert (Hne : ztake n (h ++ z ++ b ++ tl) <> []) by (rewrite E0; discriminate). clear c0 l0 E0.
    assert (Hnh : f_hsize fm <= n).
    { destruct (extract_all_ok nn fuel _ outs Hne HX) as (fm' & fs & size & out & rest & D & RC & _ & _).
      unfold read_container in RC. destruct (read_header fm' 0 (ztake n (h ++ z ++ b ++ tl))) as [x|x] eqn:RH; cbn [bind] in RC; [|discriminate].
      pose proof N4 as Lh. pose proof (bt_hdr _ _ _ _ _ _ B) as Eh. rewrite Eh in D, RH, Lh.
      destruct (detect_cut fm fm' (zlen es') (z ++ b ++ tl) n x Hg (bt_count _ _ _ _ _ _ B) Hn Lh D RH) as (_ & Hn2). exact Hn2. }
    clear Hne. rewrite ztake_app_ge in HX by lia. rewrite N4 in HX.
    destruct (Z.lt_ge_cases (n - f_hsize fm) R) as [HR|HR].
    - (* in the first block of the table *)
      left. set (m := n - f_hsize fm) in *. rewrite ztake_app_le in HX by lia.
      destruct (starts_with_h _ _ _ _ HX) as (fs & size & out & rest & RC & X & ->).
      assert (LF : zlen (h ++ ztake m z) = f_hsize fm + m) by (rewrite zlen_app, zlen_ztake, N4; lia).
      split; [unfold m in *; lia|]. exists rest. f_equal.
      destruct (@read_from_toc fm es es' deflate h t (ztake m z) fuel fs size Hg B) as (k & sz0 & RE); [|exact RC|].
      + intros d ds full DR.
        destruct (Z.lt_ge_cases m (f_bhsize fm)) as [Hm|Hm].
        { exfalso. revert DR. apply doc_read_broken; [exact Hf|exact N3|lia]. }
        eapply (@toc_read_gen fm t h (ztake m z) nx fuel d ds full Hg N6 N4); [apply (bt_tM _ _ _ _ _ _ B)|exact NXP| | | |exact DR].
        * rewrite ztake_min by lia. f_equal. lia.
        * rewrite zlen_ztake. unfold R in N5. lia.
        * destruct (Z.leb_spec (zlen t) (f_ibs fm)) as [Hl|Hl]; [|left; lia].
          exists (Z.min (zlen t) (m - f_bhsize fm)), 0. rewrite (@zeros_nil 0) by lia. rewrite app_nil_r.
          assert (ZD : zdrop (f_bhsize fm) (ztake m z) = ztake (m - f_bhsize fm) (zdrop (f_bhsize fm) z)).
          { unfold ztake, zdrop. rewrite skipn_firstn_comm. f_equal. lia. }
          unfold slice. rewrite ZD, ztake_min by lia. unfold z. rewrite zone_single by assumption. apply ztake_app_le. lia.
      + destruct (firstn k es') as [|e1 r1].
        * cbn [toc_of read_entries] in RE. injection RE as <- _. cbn [extract_files] in X. injection X as <-. reflexivity.
        * exfalso. cbn [toc_of read_entries] in RE. fold R in RE.
          destruct (doc_read fuel fm 0 (h ++ ztake m z) (f_hsize fm + R) 0) as [x|x] eqn:DR; cbn [bind] in RE; [|discriminate].
          revert DR. apply doc_read_broken; [exact Hf|unfold R; lia|lia].
    - rewrite ztake_app_ge in HX by lia. rewrite N5 in HX.
      destruct (Z.lt_ge_cases (n - f_hsize fm - R) (zlen b)) as [HB|HB].
      + (* in the files *)
        right. left. set (m := n - f_hsize fm - R) in *. rewrite ztake_app_le in HX by lia.
        destruct (starts_with_h _ _ _ _ HX) as (fs & size & out & rest & RC & X & ->).
        assert (LF : zlen (h ++ z ++ ztake m b) = f_hsize fm + R + m) by (rewrite !zlen_app, zlen_ztake, N4, N5; lia).
        assert (TOC : forall d ds full, doc_read fuel fm 0 (h ++ z ++ ztake m b) (f_hsize fm) (f_ibs fm) = Ok (d, ds, full) -> d = t).
        { intros d ds full DR.
          destruct (@toc_read_gen fm t h (z ++ ztake m b) nx fuel d ds full Hg N6 N4 (bt_tM _ _ _ _ _ _ B) NXP) as (_ & T2 & T3); [| | |exact DR|].
          - rewrite ztake_app_le by (unfold R in N5; lia). reflexivity.
          - rewrite zlen_app, N5. pose proof (zlen_nonneg (ztake m b)). unfold R. lia.
          - destruct (Z.leb_spec (zlen t) (f_ibs fm)) as [Hl|Hl]; [|left; unfold nx; lia].
            exists (zlen t), 0. rewrite (@zeros_nil 0) by lia. rewrite app_nil_r, (@ztake_all N (zlen t) t) by lia.
            rewrite slice_app_l by (unfold R in N5; lia). unfold slice, z. rewrite zone_single by assumption. apply ztake_app_exact. reflexivity.
          - destruct (Z.le_gt_cases (zlen t) (f_ibs fm)) as [Hl|Hl]; [|exfalso; specialize (T2 Hl); unfold nx in T2; lia].
            rewrite (T3 Hl). rewrite slice_app_l by (unfold R in N5; lia). unfold slice, z. rewrite zone_single by assumption. apply ztake_app_exact. reflexivity. }
        unfold read_container in RC. rewrite (bt_head _ _ _ _ _ _ B) in RC. cbn [bind] in RC.
        change (default_block_size =? 0) with false in RC. cbv iota in RC.
        destruct (doc_read fuel fm 0 (h ++ z ++ ztake m b) (f_hsize fm) (f_ibs fm)) as [[[d ds] full]|x] eqn:DR; cbn [bind] in RC; [|discriminate].
        rewrite (TOC _ _ _ eq_refl) in RC. rewrite (bt_toc _ _ _ _ _ _ B) in RC. cbn [bind] in RC. fold R in RC.
        replace (h ++ z ++ ztake m b) with ((h ++ z) ++ ztake m b) in RC, X by (rewrite <- app_assoc; reflexivity).
        replace (f_hsize fm + R) with (zlen (h ++ z)) in RC by (rewrite zlen_app, N4, N5; reflexivity).
        assert (LZ : zlen (h ++ z) = f_hsize fm + R) by (rewrite zlen_app, N4, N5; reflexivity).
        edestruct (fun a c1 c2 c3 => @read_entries_cut fm Hg fuel es' (h ++ z) m (f_hsize fm + full) [] fs size (bt_valid _ _ _ _ _ _ B) (bt_nodup _ _ _ _ _ _ B) a c1 c2 c3 RC) as (es0 & e & i & c & E1 & E2 & E3 & E4).
        * intros e _ [].
        * fold b. lia.
        * fold b. rewrite LZ. unfold nx in N9. lia.
        * fold b. rewrite LZ. unfold nx in N10. change (2 ^ 63) with (2 * 2 ^ 62). lia.
        * split; [unfold m, nx in *; fold b in HB; lia|]. exists es0, e, i, rest. split; [exact E1|]. f_equal. rewrite E2 in X. cbn [app] in X.
          rewrite extract_last in X by exact E3. injection X as <-. rewrite E4. reflexivity.
      + (* in the other blocks of the table *)
        right. right. split; [unfold nx; lia|]. rewrite ztake_app_ge in HX by lia. eapply damaged_tail; [|exact HX]. lia.
  Qed.
End Damaged.

Lemma stopped_build deflate fm es left : good_fmt fm -> valid_listing es -> zlen es < 2 ^ 31 ->
  container_size (layout_of fm) es < f_end fm -> container_size (layout_of fm) es < 2 ^ 62 ->
  stopped deflate fm (map node_of es) left ->
  forall nn fuel outs, extract_all nn fuel left = Ok outs ->
  left = [] \/ exists es' k rest, sorted_of es es' /\ outs = contents_of (firstn k es') :: rest.
Proof.
  intros Hg Hv Hc H1 H2 HS nn fuel outs HX. pose proof (good_ok _ Hg) as Hf.
  destruct (build_layout deflate fm es Hg Hv Hc H1 H2) as (es' & h & t & B).
  destruct (@numbers _ _ _ _ _ _ Hg B) as (N1 & N2 & N3 & N4 & N5 & N6 & N7 & N8 & N9 & N10 & _ & _).
  set (R := f_ibs fm + f_bhsize fm) in *.
  pose proof (bt_order _ _ _ _ _ _ B) as Ord. destruct (bt_write _ _ _ _ _ _ B) as (f0' & W0 & D0 & P0). fold R in D0.
  pose proof (bt_valid _ _ _ _ _ _ B) as Vd. pose proof (bt_sorted _ _ _ _ _ _ B) as So.
  assert (ALL : forall f0 st, write_header fm fempty 0 (zlen (in_order deflate (map node_of es))) = Ok f0 ->
    add_files deflate fm false (mkw f0 []) (in_order deflate (map node_of es)) = Ok st ->
    fdata (w_file st) = h ++ zeros R ++ body fm es' /\ w_toc st = toc_some (toc_of fm (f_hsize fm + R) es') /\ fpos (w_file st) = fsize (w_file st)).
  { intros f0 st W A. rewrite Ord in W, A. rewrite zlen_map in W. rewrite W0 in W. injection W as <-.
    destruct (add_files_body deflate fm Hf es' f0' [] Vd P0) as (f1 & W1 & D1 & P1). rewrite W1 in A. injection A as <-. cbn [w_file w_toc app].
    split; [rewrite D1, D0, <- app_assoc; reflexivity|]. split; [|exact P1].
    unfold fsize. rewrite D0, zlen_app, zlen_zeros, N4. do 2 f_equal. unfold R. lia. }
  destruct HS as [f0 k st n W A Hn|f0 st t' j W A TB Hj|f0 st f2 n W A WT Hn].
  - left. rewrite Ord in W, A. rewrite zlen_map in W. rewrite W0 in W. injection W as <-.
    rewrite firstn_map in A. 
    destruct (add_files_body deflate fm Hf (firstn k es') f0' [] (Forall_firstn' _ k _ Vd) P0) as (f1 & W1 & D1 & P1).
    rewrite W1 in A. injection A as <-. cbn [w_file] in *. rewrite D1, D0, <- app_assoc in *.
    destruct (ztake n (h ++ zeros R ++ body fm (firstn k es'))) as [|c0 l0] eqn:E0; [reflexivity|]. exfalso.
    rewrite <- E0 in HX. eapply (fun a => @stopped_early deflate fm es es' h t (body fm (firstn k es')) n nn fuel outs Hg B Hn a); [|exact HX]. fold R. rewrite E0. discriminate.
  - right. destruct (ALL _ _ W A) as (D1 & T1 & P1). rewrite T1 in TB.
    pose proof (bt_tb _ _ _ _ _ _ B) as TB2. fold R in TB2. rewrite TB2 in TB. injection TB as <-.
    assert (FS : fsize (w_file st) = f_hsize fm + R + zlen (body fm es')) by (unfold fsize; rewrite D1, !zlen_app, zlen_zeros, N4; unfold R; lia).
    rewrite FS in HX. set (nx := f_hsize fm + R + zlen (body fm es')) in *.
    set (Bk := first_table_block fm t nx) in *.
    pose proof (first_len fm t nx Hf N6) as LB. fold Bk R in LB. pose proof (zlen_nonneg Bk) as LB0.
    assert (LT : zlen (ztake j Bk) = Z.min j (zlen Bk)) by (rewrite zlen_ztake; lia).
    destruct (@fwrite_over (ztake j Bk) (fseek (f_hsize fm) (w_file st)) h (zeros (zlen (ztake j Bk))) (zeros (R - zlen (ztake j Bk)) ++ body fm es')) as (FD & _).
    { cbn [fseek fdata]. rewrite D1. f_equal. rewrite app_assoc, <- zeros_add by lia. f_equal. f_equal. lia. }
    { cbn [fseek fpos]. lia. }
    { rewrite zlen_zeros. lia. }
    rewrite FD in HX.
    assert (OV : ztake j Bk ++ zeros (R - zlen (ztake j Bk)) = over0 (Z.to_nat (zlen (ztake j Bk))) (zone fm t nx)).
    { rewrite over0_eq. f_equal.
      - rewrite (zone_first fm t nx Hf N6). fold Bk. change (firstn (Z.to_nat (zlen (ztake j Bk)))) with (@ztake N (zlen (ztake j Bk))).
        rewrite ztake_app_le by lia. rewrite LT. unfold ztake. destruct (Z.le_ge_cases j (zlen Bk)); [f_equal; lia|].
        unfold zlen in *. rewrite !firstn_all2 by lia. reflexivity.
      - unfold zeros. f_equal. unfold zlen in N5 at 1. fold nx in N5. unfold zlen. lia. }
    rewrite app_assoc, app_assoc in HX. rewrite <- (app_assoc h) in HX. rewrite OV, <- app_assoc in HX.
    destruct (@damaged_table _ _ _ _ _ _ Hg B nn fuel outs (Z.to_nat (zlen (ztake j Bk))) ltac:(fold R; lia) HX) as (k & rest & ->).
    exists es', k, rest. split; [exact So|reflexivity].
  - right. destruct (ALL _ _ W A) as (D1 & T1 & P1).
    assert (FS : fsize (w_file st) = f_hsize fm + R + zlen (body fm es')) by (unfold fsize; rewrite D1, !zlen_app, zlen_zeros, N4; unfold R; lia).
    destruct st as [sf stoc]. cbn [w_file w_toc] in *. subst stoc.
    destruct (write_toc_layout fm Hg sf (toc_some (toc_of fm (f_hsize fm + R) es')) t h (body fm es')) as (f2' & W2 & D2).
    { destruct es' as [|e1 r1]; [|discriminate]. exfalso. destruct So as [Pm _]. apply Permutation_sym, Permutation_nil in Pm. apply (proj1 Hv Pm). }
    { apply (bt_tb _ _ _ _ _ _ B). }
    { exact N6. }
    { exact D1. }
    { exact N4. }
    rewrite W2 in WT. injection WT as <-. rewrite D2, FS in HX. set (nx := f_hsize fm + R + zlen (body fm es')) in *.
    rewrite ztake_app_ge in HX by lia. rewrite ztake_app_ge in HX by (fold R nx in N5; lia).
    rewrite ztake_app_ge in HX by (fold R nx in N5; lia).
    edestruct (@damaged_tail _ _ _ _ _ _ Hg B nn fuel) as (k & rest & ->); [|exact HX|]; [fold R nx in N5; lia|].
    exists es', k, rest. split; [exact So|reflexivity].
Qed.

Lemma cut_file deflate fm es f n : good_fmt fm -> valid_listing es -> zlen es < 2 ^ 31 ->
  container_size (layout_of fm) es < f_end fm -> container_size (layout_of fm) es < 2 ^ 62 ->
  build deflate fm fempty (map node_of es) true 0 = Ok f -> 0 <= n ->
  forall nn fuel outs, extract_all nn fuel (ztake n (fdata f)) = Ok outs ->
  n = 0 \/ exists es', sorted_of es es' /\ ((exists k rest, outs = contents_of (firstn k es') :: rest)
    \/ exists es0 e i rest, es' = es0 ++ [e] /\ outs = (contents_of es0 ++ [(e_name e, ztake i (e_data e))]) :: rest).
Proof.
  intros Hg Hv Hc H1 H2 HB Hn nn fuel outs HX.
  destruct (build_layout deflate fm es Hg Hv Hc H1 H2) as (es' & h & t & B).
  destruct (bt_build _ _ _ _ _ _ B) as (f2 & B2 & D2). rewrite B2 in HB. injection HB as <-. rewrite D2 in HX.
  destruct (@cut_container _ _ _ _ _ _ Hg B nn fuel outs n Hn HX) as [E|[[_ (rest & E)]|[[_ E]|[_ E]]]].
  - left. destruct (@numbers _ _ _ _ _ _ Hg B) as (_ & _ & _ & N4 & _ & _ & _ & _ & _ & _ & _ & Hf).
    assert (L : zlen (ztake n (h ++ zone fm t (f_hsize fm + (f_ibs fm + f_bhsize fm) + zlen (body fm es')) ++ body fm es' ++ tail fm t (f_hsize fm + (f_ibs fm + f_bhsize fm) + zlen (body fm es')))) = 0) by (rewrite E; reflexivity).
    rewrite zlen_ztake, zlen_app in L. pose proof (fo_hs _ Hf). pose proof (fo_fw _ Hf).
    match type of L with context [zlen h + zlen ?x] => pose proof (zlen_nonneg x) end. lia.
  - right. exists es'. split; [apply (bt_sorted _ _ _ _ _ _ B)|left; exists 0%nat, rest; exact E].
  - right. exists es'. split; [apply (bt_sorted _ _ _ _ _ _ B)|right; exact E].
  - right. exists es'. split; [apply (bt_sorted _ _ _ _ _ _ B)|left; exact E].
Qed.

(** The points at which a build may stop lead up to the build: the finished container is one of them, and the first block of the table, once whole, is what the built file has there. *)
Lemma finished deflate fm es f : good_fmt fm -> valid_listing es -> zlen es < 2 ^ 31 ->
  container_size (layout_of fm) es < f_end fm -> container_size (layout_of fm) es < 2 ^ 62 ->
  build deflate fm fempty (map node_of es) true 0 = Ok f ->
  stopped deflate fm (map node_of es) (fdata f)
  /\ forall f0 st t j, write_header fm fempty 0 (zlen (in_order deflate (map node_of es))) = Ok f0 ->
    add_files deflate fm false (mkw f0 []) (in_order deflate (map node_of es)) = Ok st ->
    toc_bytes fm (w_toc st) = Ok t -> zlen (first_table_block fm t (fsize (w_file st))) <= j ->
    fdata (fwrite (ztake j (first_table_block fm t (fsize (w_file st)))) (fseek (f_hsize fm) (w_file st)))
    = ztake (fsize (w_file st)) (fdata f).
Proof.
  intros Hg Hv Hc H1 H2 HB. pose proof (good_ok _ Hg) as Hf.
  destruct (build_layout deflate fm es Hg Hv Hc H1 H2) as (es' & h & t & B).
  destruct (bt_build _ _ _ _ _ _ B) as (f2 & B2 & D2). rewrite B2 in HB. injection HB as <-.
  destruct (@numbers _ _ _ _ _ _ Hg B) as (N1 & N2 & N3 & N4 & N5 & N6 & N7 & N8 & N9 & N10 & _ & _).
  set (R := f_ibs fm + f_bhsize fm) in *.
  pose proof (bt_order _ _ _ _ _ _ B) as Ord. destruct (bt_write _ _ _ _ _ _ B) as (f0' & W0 & D0 & P0). fold R in D0.
  pose proof (bt_valid _ _ _ _ _ _ B) as Vd. pose proof (bt_sorted _ _ _ _ _ _ B) as So.
  assert (ALL : forall f0 st, write_header fm fempty 0 (zlen (in_order deflate (map node_of es))) = Ok f0 ->
    add_files deflate fm false (mkw f0 []) (in_order deflate (map node_of es)) = Ok st ->
    fdata (w_file st) = h ++ zeros R ++ body fm es' /\ w_toc st = toc_some (toc_of fm (f_hsize fm + R) es') /\ fpos (w_file st) = fsize (w_file st)).
  { intros f0 st W A. rewrite Ord in W, A. rewrite zlen_map in W. rewrite W0 in W. injection W as <-.
    destruct (add_files_body deflate fm Hf es' f0' [] Vd P0) as (f1 & W1 & D1 & P1). rewrite W1 in A. injection A as <-. cbn [w_file w_toc app].
    split; [rewrite D1, D0, <- app_assoc; reflexivity|]. split; [|exact P1].
    unfold fsize. rewrite D0, zlen_app, zlen_zeros, N4. do 2 f_equal. unfold R. lia. }
  split.
  - pose proof B2 as B3. unfold build, build_prepared in B3. fold (in_order deflate (map node_of es)) in B3.
    cbn [negb] in B3.
    destruct (write_header fm fempty 0 (zlen (in_order deflate (map node_of es)))) as [f0|x] eqn:W; cbn [bind] in B3; [|discriminate].
    destruct (add_files deflate fm false (mkw f0 []) (in_order deflate (map node_of es))) as [st|x] eqn:A; cbn [bind] in B3; [|discriminate].
    destruct (ALL _ _ eq_refl A) as (D1 & T1 & P1).
    replace (fdata f2) with (ztake (zlen (fdata f2)) (fdata f2)) by (apply (@ztake_all N); lia).
    eapply stop_tail; [exact W|exact A|exact B3|].
    unfold fsize. rewrite D1, D2, !zlen_app, zlen_zeros, N5.
    match goal with |- context [zlen (tail ?a ?b ?c)] => pose proof (zlen_nonneg (tail a b c)) end. lia.
  - intros f0 st t' j W A TB Hj. destruct (ALL _ _ W A) as (D1 & T1 & P1). rewrite T1 in TB.
    pose proof (bt_tb _ _ _ _ _ _ B) as TB2. fold R in TB2. rewrite TB2 in TB. injection TB as <-.
    assert (FS : fsize (w_file st) = f_hsize fm + R + zlen (body fm es')) by (unfold fsize; rewrite D1, !zlen_app, zlen_zeros, N4; unfold R; lia).
    rewrite FS in *. set (nx := f_hsize fm + R + zlen (body fm es')) in *.
    set (Bk := first_table_block fm t nx) in *.
    pose proof (first_len fm t nx Hf N6) as LB. fold Bk R in LB. pose proof (zlen_nonneg Bk) as LB0.
    rewrite (@ztake_all N j Bk) by lia.
    destruct (@fwrite_over Bk (fseek (f_hsize fm) (w_file st)) h (zeros (zlen Bk)) (zeros (R - zlen Bk) ++ body fm es')) as (FD & _).
    { cbn [fseek fdata]. rewrite D1. f_equal. rewrite app_assoc, <- zeros_add by lia. f_equal. f_equal. lia. }
    { cbn [fseek fpos]. lia. }
    { rewrite zlen_zeros. lia. }
    rewrite FD, D2. fold nx. rewrite (zone_first fm t nx Hf N6). fold Bk R.
    match goal with |- _ = ztake nx ?x => replace x with ((h ++ Bk ++ zeros (R - zlen Bk) ++ body fm es') ++ tail fm t nx) by (rewrite <- !app_assoc; reflexivity) end.
    symmetry. apply ztake_app_exact. rewrite !zlen_app, zlen_zeros, N4. unfold nx. lia.
Qed.

(** A container whose contents table fits into one block *)
Lemma toc_bytes_zlen fm : fmt_ok fm -> forall toc t, toc_bytes fm toc = Ok t -> zlen t = 3 * Z.of_nat (f_iw fm) * zlen toc.
Proof.
  intros Hf. induction toc as [|[a od] toc IH]; intros t H; cbn [toc_bytes] in H.
  - injection H as <-. change (@zlen N []) with 0. change (@zlen (Z * option Z) []) with 0. lia.
  - destruct (pack_int (f_isgn fm) (f_iw fm) a) as [pa|] eqn:Ea; cbn [bind] in H; [|discriminate].
    destruct od as [d|]; cbn [bind] in H; [|discriminate].
    destruct (pack_int (f_isgn fm) (f_iw fm) d) as [pd|] eqn:Ed; cbn [bind] in H; [|discriminate].
    destruct (pack_int (f_isgn fm) (f_iw fm) (f_end fm)) as [pe|] eqn:Ee; cbn [bind] in H; [|discriminate].
    destruct (toc_bytes fm toc) as [r|] eqn:Er; cbn [bind] in H; [|discriminate]. injection H as <-.
    assert (P : forall x p, pack_int (f_isgn fm) (f_iw fm) x = Ok p -> zlen p = Z.of_nat (f_iw fm)).
    { intros x p Hp. eapply pack_int_len. exact Hp. }
    rewrite !zlen_app, zlen_cons, (P _ _ Ea), (P _ _ Ed), (P _ _ Ee), (IH _ eq_refl). lia.
Qed.
Lemma cut_small deflate fm es f n : good_fmt fm -> valid_listing es -> zlen es < 2 ^ 31 ->
  container_size (layout_of fm) es < f_end fm -> container_size (layout_of fm) es < 2 ^ 62 ->
  3 * Z.of_nat (f_iw fm) * zlen es <= f_ibs fm ->
  build deflate fm fempty (map node_of es) true 0 = Ok f -> 0 <= n < zlen (fdata f) ->
  forall nn fuel outs, extract_all nn fuel (ztake n (fdata f)) = Ok outs ->
  n = 0 \/ (n < f_hsize fm + f_bhsize fm + f_ibs fm /\ exists rest, outs = [] :: rest)
  \/ exists es', sorted_of es es' /\ exists es0 e i rest, es' = es0 ++ [e] /\ outs = (contents_of es0 ++ [(e_name e, ztake i (e_data e))]) :: rest.
Proof.
  intros Hg Hv Hc H1 H2 Hsm HB Hn nn fuel outs HX.
  destruct (build_layout deflate fm es Hg Hv Hc H1 H2) as (es' & h & t & B).
  destruct (bt_build _ _ _ _ _ _ B) as (f2 & B2 & D2). rewrite B2 in HB. injection HB as <-. rewrite D2 in HX, Hn.
  destruct (@numbers _ _ _ _ _ _ Hg B) as (N1 & N2 & N3 & N4 & N5 & N6 & N7 & _ & _ & _ & _ & Hf).
  assert (LT : zlen t <= f_ibs fm).
  { rewrite (toc_bytes_zlen fm Hf _ _ (bt_tb _ _ _ _ _ _ B)). unfold toc_some. rewrite zlen_map, zlen_toc_of.
    rewrite <- (zlen_perm _ _ (proj1 (bt_sorted _ _ _ _ _ _ B))). exact Hsm. }
  assert (TN : forall x, tail fm t x = []).
  { intros x. unfold tail. destruct (Z.eqb_spec ((zlen t + f_ibs fm - 1) / f_ibs fm) 1) as [E|E]; [reflexivity|]. exfalso. apply E. apply ceil1; assumption. }
  destruct (@cut_container _ _ _ _ _ _ Hg B nn fuel outs n (proj1 Hn) HX) as [E|[[L (rest & E)]|[[_ E]|[L _]]]].
  - left. assert (L : zlen (ztake n (h ++ zone fm t (f_hsize fm + (f_ibs fm + f_bhsize fm) + zlen (body fm es')) ++ body fm es' ++ tail fm t (f_hsize fm + (f_ibs fm + f_bhsize fm) + zlen (body fm es')))) = 0) by (rewrite E; reflexivity).
    rewrite zlen_ztake in L. lia.
  - right. left. split; [lia|]. exists rest. exact E.
  - right. right. exists es'. split; [apply (bt_sorted _ _ _ _ _ _ B)|exact E].
  - exfalso. rewrite TN, app_nil_r in Hn. rewrite zlen_app, zlen_app in Hn. rewrite N4, N5 in Hn. lia.
Qed.
