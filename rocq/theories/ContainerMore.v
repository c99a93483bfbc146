(** Proofs: extraction of a built file, frame property, defects of the writer, reader bounds. *)
From Verif Require Import PyBase PyInt Utf PyFile Container ContainerHex ContainerToc Spec_Container ContainerProofs.
Open Scope Z_scope.

Lemma Ok_inj {A} (a b : A) : Ok a = Ok b -> a = b.
Proof. congruence. Qed.

(** ** C04: the scan finds exactly one container *)
Lemma detect_hdr fm count tl : good_fmt fm -> 0 <= count < 2 ^ 31 -> detect_format (hdr fm count ++ tl) 0 = Ok fm.
Proof.
  intros Hg Hc. unfold hdr.
  assert (Hcp : exists c, pack_int true 4 count = Ok c).
  { unfold pack_int. change (256 ^ Z.of_nat 4) with 4294967296. change (4294967296 / 2) with 2147483648.
    change (2 ^ 31) with 2147483648 in Hc.
    replace ((_ <=? count) && (count <? _)) with true by lia. eexists; reflexivity. }
  destruct Hcp as [c ->]. destruct Hg as [-> | ->]; reflexivity.
Qed.
Lemma detect_eof file off : zlen file <= off < 2 ^ 63 -> detect_format file off = Err EOFError.
Proof.
  intros H. unfold detect_format, check_seek. pose proof (zlen_nonneg file).
  replace (off <? 0) with false by lia. replace (2 ^ 63 <=? off) with false by lia. cbn [bind].
  unfold slice. rewrite zdrop_all by lia. reflexivity.
Qed.

Lemma sumz_entry_nonneg l es : 0 <= l_block_header l -> 0 <= sumz (map (entry_size l) es).
Proof.
  intros Hb. induction es as [|e es IH]; [cbn; lia|]. cbn [map sumz fold_right].
  fold (sumz (map (entry_size l) es)). unfold entry_size at 1. pose proof (utf16_size_nonneg (e_name e)). unfold sumz in *. lia.
Qed.
Lemma container_size_pos fm es : good_fmt fm -> 0 < container_size (layout_of fm) es.
Proof.
  intros Hg. unfold container_size.
  assert (H0 : 0 <= l_block_header (layout_of fm)) by (destruct Hg as [-> | ->]; discriminate).
  pose proof (sumz_entry_nonneg (layout_of fm) es H0).
  assert (H1 : 0 < l_header (layout_of fm)) by (destruct Hg as [-> | ->]; reflexivity).
  assert (H2 : 0 < l_index_block (layout_of fm)) by (destruct Hg as [-> | ->]; reflexivity).
  assert (H3 : 0 <= toc_size (layout_of fm) es).
  { unfold toc_size. apply Z.mul_nonneg_nonneg; [destruct Hg as [-> | ->]; discriminate|apply zlen_nonneg]. }
  destruct (_ <=? _); [lia|].
  assert (0 <= (toc_size (layout_of fm) es + l_index_block (layout_of fm) - 1) / l_index_block (layout_of fm)) by (apply Z.div_pos; lia).
  set (q := _ / _) in *. assert (0 <= q * (l_block_header (layout_of fm) + l_index_block (layout_of fm))) by (apply Z.mul_nonneg_nonneg; lia).
  lia.
Qed.
Theorem build_extract deflate fm es :
  good_fmt fm -> valid_listing es -> zlen es < 2 ^ 31 ->
  container_size (layout_of fm) es < f_end fm -> container_size (layout_of fm) es < 2 ^ 62 ->
  exists f es' N,
    build deflate fm fempty (map node_of es) true 0 = Ok f
    /\ sorted_of es es'
    /\ forall n fuel, (2 <= n)%nat -> (N <= fuel)%nat ->
       extract_all n fuel (fdata f) = Ok [map (fun e => (e_name e, e_data e)) es'].
Proof.
  intros Hg Hv Hc H1 H2.
  destruct (container_roundtrip deflate fm es Hg Hv Hc H1 H2) as (f & es' & N & size & B & L & S & Hs & (tl & Htl) & R).
  exists f, es', N. split; [exact B|]. split; [exact S|]. intros n fuel Hn Hfuel.
  destruct n as [|[|n]]; [lia|lia|]. unfold extract_all.
  cbn [extract_scan]. rewrite Htl at 1. rewrite detect_hdr by (try exact Hg; pose proof (zlen_nonneg es); lia).
  cbn [bind]. rewrite R by exact Hfuel. cbn [bind]. rewrite extract_files_body. cbn [bind].
  pose proof (container_size_pos fm es Hg).
  replace (0 + size =? 0) with false by lia.
  rewrite (detect_eof (fdata f) (0 + size)) by lia. reflexivity.
Qed.

(** ** C06 *)
Lemma build_perm deflate fm f ents ents' nested offset :
  NoDup (map fst ents) -> Permutation ents ents' ->
  build deflate fm f ents nested offset = build deflate fm f ents' nested offset.
Proof.
  intros Hn P. unfold build, build_prepared.
  set (g := fun e : list N * node => (fst e, prep_of deflate (snd e))).
  assert (E : sort_names (map g ents) = sort_names (map g ents')).
  { apply sort_names_perm; [|apply Permutation_map; exact P]. rewrite map_map. exact Hn. }
  rewrite E. reflexivity.
Qed.

(** ** C05: frame *)
Lemma fwrite_frame off x w f : at_ off x (fdata f) -> 0 <= fpos f ->
  (off + zlen x <= fpos f \/ fpos f + zlen w <= off) -> at_ off x (fdata (fwrite w f)).
Proof.
  intros Hat Hp Hd. destruct w as [|c w]; [exact Hat|]. set (w' := c :: w) in *.
  assert (E : fdata (fwrite w' f) = ztake (fpos f) (fdata f) ++ zeros (fpos f - fsize f) ++ w' ++ zdrop (fpos f + zlen w') (fdata f)) by reflexivity.
  rewrite E. unfold fsize. destruct Hat as (pre & post & Hf & Hpre). rewrite Hf.
  pose proof (zlen_nonneg w'). pose proof (zlen_nonneg x). pose proof (zlen_nonneg post).
  destruct Hd as [Hd|Hd].
  - rewrite ztake_app_ge by lia. rewrite ztake_app_ge by lia. rewrite <- !app_assoc.
    eexists pre, _. split; [reflexivity|exact Hpre].
  - rewrite (@zdrop_app_le N (fpos f + zlen w') pre (x ++ post)) by lia.
    exists (ztake (fpos f) (pre ++ x ++ post) ++ zeros (fpos f - zlen (pre ++ x ++ post)) ++ w' ++ zdrop (fpos f + zlen w') pre), post.
    split; [rewrite <- !app_assoc; reflexivity|].
    rewrite !zlen_app, zlen_ztake, zlen_zeros, zlen_zdrop, !zlen_app. lia.
Qed.
Lemma fwrite_size w f : 0 <= fpos f -> zlen w <> 0 -> fsize (fwrite w f) = Z.max (fsize f) (fpos f + zlen w).
Proof.
  intros Hp Hw. destruct w as [|c w]; [unfold zlen in Hw; cbn in Hw; lia|]. set (w' := c :: w) in *.
  unfold fsize at 1.
  assert (E : fdata (fwrite w' f) = ztake (fpos f) (fdata f) ++ zeros (fpos f - fsize f) ++ w' ++ zdrop (fpos f + zlen w') (fdata f)) by reflexivity.
  rewrite E, !zlen_app, zlen_ztake, zlen_zeros, zlen_zdrop. unfold fsize.
  pose proof (zlen_nonneg w'). pose proof (zlen_nonneg (fdata f)). lia.
Qed.
Lemma fwrite_size_ge w f : 0 <= fpos f -> fsize f <= fsize (fwrite w f).
Proof.
  intros. destruct w; [cbn; lia|]. rewrite fwrite_size; [lia|assumption|]. rewrite zlen_cons. pose proof (zlen_nonneg w). lia.
Qed.
Lemma fwrite_at w f : 0 <= fpos f <= fsize f -> at_ (fpos f) w (fdata (fwrite w f)).
Proof.
  intros Hp. destruct w as [|c w].
  - exists (ztake (fpos f) (fdata f)), (zdrop (fpos f) (fdata f)). cbn [app fwrite].
    rewrite ztake_drop. split; [reflexivity|]. rewrite zlen_ztake. unfold fsize in Hp. lia.
  - exists (ztake (fpos f) (fdata f)). eexists. cbn [fwrite fdata]. rewrite zeros_nil by lia. cbn [app].
    split; [reflexivity|]. rewrite zlen_ztake. unfold fsize in Hp. lia.
Qed.

Lemma write_block_frame_end fm f data doc minb next off x f' o : fmt_ok fm ->
  at_ off x (fdata f) -> fpos f = fsize f -> write_block fm f data doc minb None next = (f', o) ->
  at_ off x (fdata f') /\ fpos f' = fsize f' /\ o = fsize f.
Proof.
  intros Hf Hat Hp E. destruct (write_block_append fm f data doc minb next Hf Hp) as (g & W & D & P).
  rewrite W in E. injection E as <- <-. rewrite D. split; [apply at_shift_app; exact Hat|auto].
Qed.
Lemma toc_loop_frame fm : fmt_ok fm -> forall n f rest next f' r off x,
  at_ off x (fdata f) -> fpos f = fsize f -> toc_loop fm n f rest next = (f', r) ->
  at_ off x (fdata f') /\ fpos f' = fsize f'.
Proof.
  intros Hf. induction n as [|n IH]; intros f rest next f' r off x Hat Hp E; cbn [toc_loop] in E.
  - injection E as <- <-. auto.
  - destruct (write_block fm f _ 0 _ None _) as [g o] eqn:W.
    destruct (write_block_frame_end _ _ _ _ _ _ off x _ _ Hf Hat Hp W) as (A & B & _).
    eapply IH; eassumption.
Qed.
(** the table of contents block is written at the fixed place; it keeps what lies
    before it and what lies after the first index block *)
Lemma write_toc_frame fm st f' off x : fmt_ok fm -> 0 <= f_hsize fm ->
  write_toc fm st = Ok f' -> at_ off x (fdata (w_file st)) ->
  (off + zlen x <= f_hsize fm \/ f_hsize fm + f_ibs fm + f_bhsize fm <= off) ->
  at_ off x (fdata f').
Proof.
  intros Hf Hh Hw Hat Hd. unfold write_toc in Hw. destruct (w_toc st) as [|e toc] eqn:Etoc; [discriminate|].
  destruct (toc_bytes fm (e :: toc)) as [t|]; [|discriminate]. cbn [bind] in Hw.
  pose proof (fo_ibs _ Hf) as Hibs. pose proof (zlen_nonneg t) as Hnt.
  destruct (Z.eqb_spec ((zlen t + f_ibs fm - 1) / f_ibs fm) 1) as [E1|E1].
  - rewrite write_block_fwrite in Hw by assumption. cbn [fst] in Hw. apply Ok_inj in Hw. subst f'.
    apply fwrite_frame; [exact Hat|exact Hh|]. cbn [fpos fseek]. rewrite blk_len by exact Hf.
    assert (zlen t <= f_ibs fm).
    { pose proof (Z.div_mod (zlen t + f_ibs fm - 1) (f_ibs fm) ltac:(lia)).
      pose proof (Z.mod_pos_bound (zlen t + f_ibs fm - 1) (f_ibs fm) ltac:(lia)). lia. }
    lia.
  - rewrite write_block_fwrite in Hw by assumption. cbv iota in Hw.
    set (f1 := fwrite _ _) in *.
    assert (A1 : at_ off x (fdata f1)).
    { apply fwrite_frame; [exact Hat|exact Hh|]. cbn [fpos fseek]. rewrite blk_len by exact Hf. rewrite zlen_ztake. lia. }
    destruct (toc_loop fm _ _ _ _) as [f3 r] eqn:EL. apply Ok_inj in Hw. subst f'.
    destruct (toc_loop_frame fm Hf _ (fseek_end f1) _ _ _ _ off x A1 eq_refl EL) as [A3 P3].
    destruct (write_block fm f3 _ 0 _ None None) as [f4 o] eqn:W.
    destruct (write_block_frame_end _ _ _ _ _ _ off x _ _ Hf A3 P3 W) as (A4 & _). exact A4.
Qed.

(** documents written one after another (each call of Document.write, container_doc.py:133-134) *)
Fixpoint write_docs (fm : cfmt) (f : pyfile) (ds : list (list N * Z)) : pyfile :=
  match ds with [] => f | (d, m) :: r => write_docs fm (fst (doc_write fm f d m)) r end.
Lemma write_docs_frame fm : fmt_ok fm -> forall ds f off x,
  at_ off x (fdata f) -> fpos f = fsize f ->
  at_ off x (fdata (write_docs fm f ds)) /\ fpos (write_docs fm f ds) = fsize (write_docs fm f ds).
Proof.
  intros Hf. induction ds as [|[d m] ds IH]; intros f off x Hat Hp; cbn [write_docs]; [auto|].
  unfold doc_write. destruct (write_block fm f d (zlen d) m None None) as [g o] eqn:W.
  destruct (write_block_frame_end _ _ _ _ _ _ off x _ _ Hf Hat Hp W) as (A & B & _).
  cbn [fst]. apply IH; assumption.
Qed.

Theorem docs_undisturbed fm : good_fmt fm -> forall f d m later toc f',
  fpos f = fsize f -> f_hsize fm + f_ibs fm + f_bhsize fm <= fsize f ->
  zlen d < 16 ^ Z.of_nat (f_hexw fm) -> 0 <= m < 16 ^ Z.of_nat (f_hexw fm) ->
  fsize f < 2 ^ 63 ->
  let '(f1, off) := doc_write fm f d m in
  let f2 := write_docs fm f1 later in
  write_toc fm (mkw f2 toc) = Ok f' ->
  (forall fuel, doc_read fuel fm 0 (fdata f2) off m = Ok (d, zlen d, Z.max m (zlen d) + f_bhsize fm))
  /\ (forall fuel, doc_read fuel fm 0 (fdata f') off m = Ok (d, zlen d, Z.max m (zlen d) + f_bhsize fm)).
Proof.
  intros Hg f d m later toc f' Hp Hz Hd Hm H63. pose proof (good_ok _ Hg) as Hf.
  unfold doc_write. destruct (write_block_append fm f d (zlen d) m None Hf Hp) as (f1 & W & D & P).
  rewrite W. cbv zeta iota. intros HT.
  assert (A1 : at_ (fsize f) (blk fm d (zlen d) m None) (fdata f1)).
  { rewrite D. exists (fdata f), []. rewrite app_nil_r. auto. }
  destruct (write_docs_frame fm Hf later f1 _ _ A1 P) as [A2 P2].
  assert (Hh : 0 <= f_hsize fm) by (destruct Hg as [-> | ->]; discriminate).
  assert (A3 : at_ (fsize f) (blk fm d (zlen d) m None) (fdata f')).
  { eapply write_toc_frame; [exact Hf|exact Hh|exact HT|exact A2|right; exact Hz]. }
  split; intros fuel; unfold doc_read;
  (rewrite (gen_start_doc fm _ (fsize f) d m m Hf) by (try assumption; reflexivity));
  cbn [bind]; rewrite gen_drain_single; reflexivity.
Qed.

(** ** C09: inflate mode never produces a file *)
Lemma add_files_none deflate fm ents : forall st st',
  add_files deflate fm true st ents = Ok st' ->
  (exists k, w_toc st' = w_toc st ++ k /\ (ents <> [] -> k <> []) /\ Forall (fun p => snd p = None) k).
Proof.
  induction ents as [|[n p] ents IH]; intros st st'; cbn [add_files].
  - intros E; injection E as <-. exists []. rewrite app_nil_r. repeat split; [congruence|constructor].
  - destruct (add_file deflate fm true st n p) as [st1|] eqn:E1; [|discriminate]. cbn [bind]. intros E.
    destruct (IH _ _ E) as (k & K1 & K2 & K3).
    unfold add_file in E1. destruct p as [ct mt data|]; [|discriminate].
    destruct (file_description ct mt n) as [dd|]; [|discriminate]. cbn [bind] in E1.
    destruct (doc_write fm (w_file st) dd 0) as [f1 o]. injection E1 as <-. cbn [w_toc] in K1.
    exists ((o, None) :: k). rewrite K1, <- app_assoc. repeat split; [discriminate|]. constructor; [reflexivity|exact K3].
Qed.
Lemma toc_bytes_none fm toc : toc <> [] -> Forall (fun p => snd p = None) toc -> exists e, toc_bytes fm toc = Err e /\ e = StructError.
Proof.
  destruct toc as [|[a o] r]; [congruence|]. intros _ H. inversion H as [|? ? Ho Hr]; subst. cbn in Ho. subst o.
  cbn [toc_bytes]. unfold pack_int at 1. destruct (_ && _); cbn [bind]; eexists; split; reflexivity.
Qed.
Theorem build_default_fails deflate fm f ents offset : exists e, build deflate fm f ents false offset = Err e.
Proof.
  unfold build, build_prepared. set (l := sort_names _).
  destruct (write_header fm f offset (zlen l)) as [f0|e]; [|eexists; reflexivity]. cbn [bind negb].
  destruct (add_files deflate fm true (mkw f0 []) l) as [st|e] eqn:E; [|eexists; reflexivity]. cbn [bind].
  destruct (add_files_none _ _ _ _ _ E) as (k & K1 & K2 & K3). cbn [w_toc app] in K1.
  unfold write_toc. rewrite K1. destruct k as [|x k]; [eexists; reflexivity|].
  destruct (toc_bytes_none fm (x :: k) ltac:(discriminate) K3) as (e & He & _). rewrite He. eexists; reflexivity.
Qed.
Lemma add_files_inflate_ok deflate fm : forall es st, Forall valid_entry es ->
  exists st', add_files deflate fm true st (map prep_ent es) = Ok st'.
Proof.
  induction es as [|e es IH]; intros st Hv; [eexists; reflexivity|]. inversion Hv; subst.
  destruct (desc_ok e H1) as (Hd & _). cbn [map prep_ent add_files add_file]. rewrite Hd. cbn [bind].
  destruct (doc_write fm (w_file st) (desc e) 0) as [f1 o]. cbn [bind]. apply IH; assumption.
Qed.
Theorem build_default_error deflate es : valid_listing es -> zlen es < 2 ^ 31 ->
  build deflate fmt32 fempty (map node_of es) false 0 = Err StructError.
Proof.
  intros (Hne & Hv & Hnd) Hc.
  destruct (sort_names_map_ent prep_ent es (fun _ => eq_refl) Hnd) as (es' & Hsort & Hso).
  pose proof (sorted_valid es es' Hso (conj Hne (conj Hv Hnd))) as (Hne' & Hv' & _).
  unfold build, build_prepared. rewrite prep_nodes, Hsort, zlen_map.
  destruct (write_header_ok fmt32 (zlen es')) as (f0 & W0 & _); [left; reflexivity| |].
  { rewrite <- (zlen_perm _ _ (proj1 Hso)). pose proof (zlen_nonneg es). lia. }
  rewrite W0. cbn [bind negb].
  destruct (add_files_inflate_ok deflate fmt32 es' (mkw f0 []) Hv') as (st & E). rewrite E. cbn [bind].
  destruct (add_files_none _ _ _ _ _ E) as (k & K1 & K2 & K3). cbn [w_toc app] in K1.
  unfold write_toc. rewrite K1. destruct k as [|x k].
  { exfalso. apply K2; [|reflexivity]. destruct es'; [congruence|discriminate]. }
  destruct (toc_bytes_none fmt32 (x :: k) ltac:(discriminate) K3) as (e & He & ->). rewrite He. reflexivity.
Qed.
