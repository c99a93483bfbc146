(** Proofs: two-container files, field overflow, reader bounds and termination. *)
From Verif Require Import PyBase PyInt Utf PyFile Container ContainerHex ContainerToc Spec_Container ContainerProofs ContainerMore.
Open Scope Z_scope.

(** ** Facts that hold for every successful build *)
Lemma add_file_append deflate fm b st n p st' : fmt_ok fm -> fpos (w_file st) = fsize (w_file st) ->
  add_file deflate fm b st n p = Ok st' ->
  (exists k, fdata (w_file st') = fdata (w_file st) ++ k) /\ fpos (w_file st') = fsize (w_file st').
Proof.
  intros Hf Hp H. unfold add_file in H. destruct p as [ct mt data|]; [|discriminate].
  destruct (file_description ct mt n) as [d|]; [|discriminate]. cbn [bind] in H.
  unfold doc_write in H. destruct (write_block_append fm (w_file st) d (zlen d) 0 None Hf Hp) as (f1 & W1 & D1 & P1).
  rewrite W1 in H. destruct b.
  - apply Ok_inj in H. subst st'. cbn [w_file].
    destruct (fwrite_end (deflate data) f1 P1) as [D2 P2]. rewrite D2, P2, D1. split.
    + eexists. rewrite <- app_assoc. reflexivity.
    + unfold fsize. rewrite D2, zlen_app. reflexivity.
  - destruct (write_block_append fm f1 data (zlen data) default_block_size None Hf P1) as (f2 & W2 & D2 & P2).
    rewrite W2 in H. apply Ok_inj in H. subst st'. cbn [w_file]. split; [|exact P2].
    eexists. rewrite D2, D1, <- app_assoc. reflexivity.
Qed.
Lemma add_files_append deflate fm b : fmt_ok fm -> forall ents st st', fpos (w_file st) = fsize (w_file st) ->
  add_files deflate fm b st ents = Ok st' ->
  (exists k, fdata (w_file st') = fdata (w_file st) ++ k) /\ fpos (w_file st') = fsize (w_file st').
Proof.
  intros Hf. induction ents as [|[n p] ents IH]; intros st st' Hp; cbn [add_files].
  - intros E; apply Ok_inj in E. subst. split; [exists []; rewrite app_nil_r; reflexivity|exact Hp].
  - destruct (add_file deflate fm b st n p) as [st1|] eqn:E1; [|discriminate]. cbn [bind]. intros E.
    destruct (add_file_append _ _ _ _ _ _ _ Hf Hp E1) as [[k1 K1] P1].
    destruct (IH _ _ P1 E) as [[k2 K2] P2]. split; [|exact P2]. exists (k1 ++ k2). rewrite K2, K1, app_assoc. reflexivity.
Qed.

(** the table of contents always begins with a block header at the fixed place *)
Lemma write_toc_header fm st f' : fmt_ok fm -> 0 <= f_hsize fm <= fsize (w_file st) ->
  write_toc fm st = Ok f' ->
  exists d b n, at_ (f_hsize fm) (block_header fm d b n) (fdata f') /\ fsize (w_file st) <= fsize f' /\ 0 < d.
Proof.
  intros Hf Hh Hw. unfold write_toc in Hw. destruct (w_toc st) as [|e toc] eqn:Etoc; [discriminate|].
  destruct (toc_bytes fm (e :: toc)) as [t|] eqn:Et; [|discriminate]. cbn [bind] in Hw.
  assert (Htpos : 0 < zlen t).
  { destruct e as [a [d|]]; cbn [toc_bytes] in Et.
    - destruct (pack_int (f_isgn fm) (f_iw fm) a) as [pa|] eqn:Ea; [|discriminate]. cbn [bind] in Et.
      destruct (pack_int (f_isgn fm) (f_iw fm) d) as [pd|]; [|discriminate]. cbn [bind] in Et.
      destruct (pack_int (f_isgn fm) (f_iw fm) (f_end fm)) as [pe|]; [|discriminate]. cbn [bind] in Et.
      destruct (toc_bytes fm toc) as [r|]; [|discriminate]. cbn [bind] in Et. apply Ok_inj in Et. subst t.
      apply pack_int_len in Ea. rewrite !zlen_app, Ea.
      pose proof (zlen_nonneg pd). pose proof (zlen_nonneg pe). pose proof (zlen_nonneg r).
      pose proof (fo_iw _ Hf). pose proof (fo_fw _ Hf). lia.
    - destruct (pack_int _ _ a); discriminate. }
  destruct (Z.eqb_spec ((zlen t + f_ibs fm - 1) / f_ibs fm) 1) as [E1|E1].
  - rewrite write_block_fwrite in Hw by (try exact Hf; lia). cbn [fst] in Hw. apply Ok_inj in Hw. subst f'.
    exists (zlen t), (Z.max 0 (zlen t)), (next_val fm None). split; [|split; [|exact Htpos]].
    + eapply at_app_l. apply (fwrite_at (blk fm t (zlen t) 0 None) (fseek (f_hsize fm) (w_file st))). cbn. unfold fsize; cbn. fold (fsize (w_file st)). lia.
    + apply (fwrite_size_ge _ (fseek (f_hsize fm) (w_file st))). cbn; lia.
  - rewrite write_block_fwrite in Hw by (try exact Hf; lia). cbv iota in Hw.
    set (f1 := fwrite _ _) in *.
    assert (A1 : at_ (f_hsize fm) (block_header fm (zlen t) (Z.max (f_ibs fm) (zlen (ztake (f_ibs fm) t))) (next_val fm (Some (fsize (w_file st))))) (fdata f1)).
    { eapply at_app_l. unfold f1.
      apply (fwrite_at (blk fm (ztake (f_ibs fm) t) (zlen t) (f_ibs fm) (Some (fsize (w_file st)))) (fseek (f_hsize fm) (w_file st))).
      cbn. unfold fsize; cbn. fold (fsize (w_file st)). lia. }
    assert (S1 : fsize (w_file st) <= fsize f1) by (apply (fwrite_size_ge _ (fseek (f_hsize fm) (w_file st))); cbn; lia).
    destruct (toc_loop fm _ _ _ _) as [f3 r] eqn:EL. apply Ok_inj in Hw.
    assert (Hend : at_ (f_hsize fm) (block_header fm (zlen t) (Z.max (f_ibs fm) (zlen (ztake (f_ibs fm) t))) (next_val fm (Some (fsize (w_file st))))) (fdata f')
                   /\ at_ 0 (fdata f1) (fdata f')).
    { destruct (write_block fm f3 (ztake (f_ibs fm) r) 0 (f_ibs fm) None None) as [f4 o] eqn:W. cbn [fst] in Hw. subst f4.
      assert (A0 : at_ 0 (fdata f1) (fdata (fseek_end f1))) by (exists [], []; cbn; rewrite app_nil_r; auto).
      destruct (toc_loop_frame fm Hf _ (fseek_end f1) _ _ _ _ _ _ A1 eq_refl EL) as [A3 P3].
      destruct (toc_loop_frame fm Hf _ (fseek_end f1) _ _ _ _ _ _ A0 eq_refl EL) as [A4 P4].
      destruct (write_block_frame_end _ _ _ _ _ _ _ _ _ _ Hf A3 P3 W) as (A5 & _).
      destruct (write_block_frame_end _ _ _ _ _ _ _ _ _ _ Hf A4 P4 W) as (A6 & _). auto. }
    destruct Hend as [B1 B2]. apply at_bound in B2.
    eexists _, _, _. split; [exact B1|]. unfold fsize in *. lia.
Qed.

Lemma write_header_end fm f offset count f0 : fmt_ok fm -> 0 <= offset -> offset = fsize f ->
  write_header fm f offset count = Ok f0 ->
  exists h, fdata f0 = fdata f ++ h ++ zeros (f_ibs fm + f_bhsize fm) /\ fpos f0 = fsize f0
    /\ zlen h = f_hsize fm
    /\ (exists a c, pack_int (f_isgn fm) (f_first_w fm) (f_end fm) = Ok a /\ pack_int true 4 count = Ok c
                    /\ h = a ++ [0; 2; 0; 0]%N ++ c ++ zeros 4).
Proof.
  intros Hf H0 Ho H. unfold write_header in H.
  destruct (pack_int (f_isgn fm) (f_first_w fm) (f_end fm)) as [a|] eqn:Ea; [|discriminate]. cbn [bind] in H.
  replace (pack_int true 4 default_block_size) with (Ok [0; 2; 0; 0]%N) in H by reflexivity. cbn [bind] in H.
  destruct (pack_int true 4 count) as [c|] eqn:Ec; [|discriminate]. cbn [bind] in H.
  replace (pack_int true 4 0) with (Ok (zeros 4)) in H by reflexivity. cbn [bind] in H. apply Ok_inj in H.
  set (h := a ++ [0; 2; 0; 0]%N ++ c ++ zeros 4) in *.
  exists h. subst f0.
  assert (Hp1 : fpos (fseek offset f) = fsize (fseek offset f)) by (cbn; exact Ho).
  destruct (fwrite_end h _ Hp1) as [D1 P1].
  assert (Hp2 : fpos (fwrite h (fseek offset f)) = fsize (fwrite h (fseek offset f))).
  { rewrite P1. unfold fsize. rewrite D1, zlen_app. reflexivity. }
  destruct (fwrite_end (zeros (f_ibs fm + f_bhsize fm)) _ Hp2) as [D2 P2].
  split; [|split; [|split]].
  - rewrite D2, D1. cbn [fdata fseek]. rewrite <- app_assoc. reflexivity.
  - rewrite P2. unfold fsize. rewrite D2, zlen_app. reflexivity.
  - unfold h. rewrite !zlen_app. apply pack_int_len in Ea, Ec. rewrite Ea, Ec. change (zlen [0; 2; 0; 0]%N) with 4. change (zlen (zeros 4)) with 4.
    pose proof (fo_hs _ Hf). lia.
  - exists a, c. auto.
Qed.

Lemma app_eq_len {A} (a : list A) : forall b c d, zlen a = zlen b -> a ++ c = b ++ d -> a = b /\ c = d.
Proof.
  induction a as [|x a IH]; intros [|y b] c d Hl E.
  - auto.
  - unfold zlen in Hl; cbn in Hl; lia.
  - unfold zlen in Hl; cbn in Hl; lia.
  - injection E as -> E. destruct (IH b c d) as [-> ->]; [unfold zlen in *; cbn in Hl; lia|exact E|auto].
Qed.
Lemma at_join off a b f : at_ off a f -> at_ (off + zlen a) b f -> at_ off (a ++ b) f.
Proof.
  intros (p & q & F & Z1) (p' & q' & F' & Z2). rewrite F, app_assoc in F'.
  destruct (app_eq_len (p ++ a) p' q (b ++ q')) as [E1 E2]; [rewrite zlen_app; lia|exact F'|].
  exists p, q'. split; [|exact Z1]. rewrite F, E2, <- app_assoc. reflexivity.
Qed.

(** ** C08 *)
Lemma hexfield_hex fm v : (2 <= f_hexw fm)%nat -> 0 <= v -> all_digits 16 (hexfield fm v).
Proof.
  intros Hw Hv. destruct (int2hex_spec fm v Hv) as (H1 & _ & H3). unfold hexfield, pack_s.
  replace (f_hexw fm - length (int2hex fm v))%nat with O by lia. cbn [repeat]. rewrite app_nil_r.
  unfold all_digits in *. rewrite <- (firstn_skipn (f_hexw fm) (int2hex fm v)) in H1. apply Forall_app in H1. tauto.
Qed.

Lemma good32 : good_fmt fmt32. Proof. left; reflexivity. Qed.
Lemma good64 : good_fmt fmt64. Proof. right; reflexivity. Qed.

(** first container: what is certain about the first 20 bytes *)
Lemma build0_prefix deflate c0 f : build deflate fmt32 fempty c0 true 0 = Ok f ->
  exists a c x y, pack_int true 4 2147483647 = Ok a
    /\ at_ 0 (a ++ [0; 2; 0; 0]%N ++ c ++ zeros 4 ++ [13; 10; x; y]%N) (fdata f)
    /\ zlen c = 4 /\ digit_val 16 x <> None /\ digit_val 16 y <> None /\ 559 <= fsize f.
Proof.
  unfold build, build_prepared. set (l := sort_names _). intros H.
  destruct (write_header fmt32 fempty 0 (zlen l)) as [f0|] eqn:E0; [|discriminate]. cbn [bind] in H.
  destruct (add_files deflate fmt32 (negb true) (mkw f0 []) l) as [st|] eqn:E1; [|discriminate]. cbn [bind] in H.
  destruct (write_header_end fmt32 fempty 0 _ f0 fmt32_ok ltac:(lia) eq_refl E0) as (h & D0 & P0 & L0 & a & c & Ea & Ec & Hh).
  destruct (add_files_append deflate fmt32 _ fmt32_ok l (mkw f0 []) st P0 E1) as [[k K] P1]. cbn [w_file] in K.
  cbn [fdata fempty app] in D0.
  assert (Hs : 559 <= fsize (w_file st)).
  { unfold fsize. rewrite K, D0, !zlen_app, L0, zlen_zeros. pose proof (zlen_nonneg k). cbn [f_hsize f_ibs f_bhsize fmt32]. lia. }
  destruct (write_toc_header fmt32 st f fmt32_ok) as (d & b & n & A1 & S1 & Hd).
  { cbn [f_hsize fmt32]. lia. }
  { exact H. }
  assert (A0 : at_ 0 h (fdata f)).
  { eapply write_toc_frame; [exact fmt32_ok|cbn; lia|exact H| |left; cbn [f_hsize fmt32] in *; lia].
    rewrite K, D0. exists [], (zeros (f_ibs fmt32 + f_bhsize fmt32) ++ k). rewrite <- app_assoc. auto. }
  rewrite block_header_eq in A1.
  pose proof (hexfield_hex fmt32 d ltac:(cbn; lia) ltac:(lia)) as Hx. pose proof (hexfield_len fmt32 d) as Hl.
  destruct (hexfield fmt32 d) as [|x [|y r]]; [discriminate Hl|cbn in Hl; discriminate Hl|].
  apply Forall_cons_iff in Hx. destruct Hx as [[(vx & Hvx & _) _] Hx].
  apply Forall_cons_iff in Hx. destruct Hx as [[(vy & Hvy & _) _] _].
  exists a, c, x, y. split; [exact Ea|]. split; [|split; [|split; [|split]]].
  - assert (A1' : at_ 16 [13; 10; x; y]%N (fdata f)).
    { replace ([13; 10] ++ (x :: y :: r) ++ [32] ++ hexfield fmt32 b ++ [32] ++ hexfield fmt32 n ++ [32; 13; 10])%N
        with ([13; 10; x; y] ++ (r ++ [32] ++ hexfield fmt32 b ++ [32] ++ hexfield fmt32 n ++ [32; 13; 10]))%N in A1 by reflexivity.
      eapply at_app_l. exact A1. }
    replace (a ++ [0; 2; 0; 0]%N ++ c ++ zeros 4 ++ [13; 10; x; y]%N) with (h ++ [13; 10; x; y]%N) by (rewrite Hh, <- !app_assoc; reflexivity).
    apply at_join; [exact A0|]. rewrite L0. exact A1'.
  - apply pack_int_len in Ec. exact Ec.
  - congruence.
  - congruence.
  - lia.
Qed.

(** second container: its table of contents lands at byte 20 *)
Lemma build1_clobber deflate f c1 f2 off0 x0 :
  build deflate fmt64 (fseek_end f) c1 true (fsize f) = Ok f2 -> 20 <= fsize f ->
  at_ off0 x0 (fdata f) -> off0 + zlen x0 <= 20 ->
  at_ off0 x0 (fdata f2) /\ (exists d, 0 < d /\ at_ 20 ([13; 10]%N ++ hexfield fmt64 d) (fdata f2)) /\ fsize f <= fsize f2.
Proof.
  unfold build, build_prepared. set (l := sort_names _). intros H H20 Hat Hlt.
  destruct (write_header fmt64 (fseek_end f) (fsize f) (zlen l)) as [f0|] eqn:E0; [|discriminate]. cbn [bind] in H.
  destruct (add_files deflate fmt64 (negb true) (mkw f0 []) l) as [st|] eqn:E1; [|discriminate]. cbn [bind] in H.
  destruct (write_header_end fmt64 (fseek_end f) (fsize f) _ f0 fmt64_ok ltac:(lia) eq_refl E0) as (h & D0 & P0 & L0 & _).
  destruct (add_files_append deflate fmt64 _ fmt64_ok l (mkw f0 []) st P0 E1) as [[k K] P1]. cbn [w_file] in K.
  cbn [fdata fseek_end] in D0.
  assert (Hs : fsize f <= fsize (w_file st)).
  { unfold fsize. rewrite K, D0, !zlen_app. pose proof (zlen_nonneg k). pose proof (zlen_nonneg h).
    pose proof (zlen_nonneg (zeros (f_ibs fmt64 + f_bhsize fmt64))). lia. }
  assert (Hh : f_hsize fmt64 = 20) by reflexivity.
  destruct (write_toc_header fmt64 st f2 fmt64_ok ltac:(lia) H) as (d & b & n & A1 & S1 & Hd).
  split; [|split; [|lia]].
  - eapply write_toc_frame; [exact fmt64_ok|lia|exact H| |left; lia].
    rewrite K, D0. apply at_shift_app, at_shift_app. exact Hat.
  - exists d. split; [exact Hd|]. rewrite block_header_eq, Hh, app_assoc in A1. eapply at_app_l. exact A1.
Qed.

Lemma lstrip_head sp c s : sp c = false -> lstrip_by sp (c :: s) = c :: s.
Proof. intros H. cbn. rewrite H. reflexivity. Qed.

(** a number field interrupted by a line break is not a number *)
Lemma int_of_bytes_crlf x y t : digit_val 16 x <> None -> digit_val 16 y <> None ->
  t <> [] -> all_digits 16 t ->
  int_of_bytes 16 ([x; y; 13; 10]%N ++ t) = Err ValueError.
Proof.
  intros Hx Hy Ht Hd.
  destruct (digit_val 16 x) as [vx|] eqn:Ex; [|congruence]. destruct (digit_val 16 y) as [vy|] eqn:Ey; [|congruence].
  destruct (digit_not_special _ _ _ Ex ltac:(lia)) as (A1 & A2 & _ & A4).
  assert (Hstrip : strip_by is_space_ascii ([x; y; 13; 10]%N ++ t) = [x; y; 13; 10]%N ++ t).
  { unfold strip_by, rstrip_by. cbn [app]. rewrite lstrip_head by exact A4.
    destruct (exists_last Ht) as (t' & c & ->).
    assert (Hc : is_space_ascii c = false).
    { apply Forall_app in Hd. destruct Hd as [_ Hd]. apply Forall_cons_iff in Hd. destruct Hd as [[(v & Hv & _) _] _].
      eapply digit_not_special; [exact Hv|lia]. }
    replace (x :: y :: 13%N :: 10%N :: t' ++ [c]) with ((x :: y :: 13%N :: 10%N :: t') ++ [c]) by reflexivity.
    rewrite rev_app_distr. cbn [rev app]. rewrite lstrip_head by exact Hc.
    replace (c :: (((rev t' ++ [10%N]) ++ [13%N]) ++ [y]) ++ [x]) with (rev ((x :: y :: 13%N :: 10%N :: t') ++ [c])).
    2: { rewrite rev_app_distr. reflexivity. }
    rewrite rev_involutive. reflexivity. }
  unfold int_of_bytes, int_parse. rewrite Hstrip. cbn [app].
  replace (N.eqb x 45) with false by (symmetry; apply N.eqb_neq; exact A2).
  replace (N.eqb x 43) with false by (symmetry; apply N.eqb_neq; exact A1).
  unfold parse_unsigned. change (16 =? 16) with true. cbv iota.
  assert (Hs0 : strip_0x (x :: y :: 13%N :: 10%N :: t) = x :: y :: 13%N :: 10%N :: t).
  { cbn. assert (y <> 120%N /\ y <> 88%N) as [H1 H2] by (split; intros ->; discriminate Ey).
    apply N.eqb_neq in H1, H2. rewrite H1, H2, andb_false_r. reflexivity. }
  rewrite Hs0. cbn [parse_digits].
  replace (N.eqb x 95) with false by (symmetry; apply N.eqb_neq; intros ->; discriminate Ex). rewrite Ex.
  replace (N.eqb y 95) with false by (symmetry; apply N.eqb_neq; intros ->; discriminate Ey). rewrite Ey.
  reflexivity.
Qed.

Theorem two_containers_unreadable deflate containers f :
  zlen containers = 2 -> writer_build deflate containers true = Ok f ->
  forall n fuel, (0 < n)%nat -> extract_all n fuel (fdata f) = Err ValueError.
Proof.
  intros Hn Hb n fuel Hnp. unfold writer_build in Hb. rewrite Hn in Hb.
  change (negb ((2 =? 1) || (2 =? 2))) with false in Hb. change (2 =? 2) with true in Hb. cbv iota in Hb.
  destruct (dget [48%N] containers) as [c0|]; [|discriminate].
  destruct (build deflate fmt32 fempty c0 true 0) as [f0|] eqn:E0; [|discriminate]. cbn [bind] in Hb.
  destruct (dget [49%N] containers) as [c1|]; [|discriminate].
  destruct (build0_prefix _ _ _ E0) as (a & c & x & y & Ea & A0 & Lc & Hx & Hy & Hs).
  assert (La : zlen a = 4) by (apply pack_int_len in Ea; exact Ea).
  destruct (build1_clobber _ _ _ _ _ _ Hb ltac:(lia) A0) as (A1 & (d & Hd & A2) & S2).
  { rewrite !zlen_app, La, Lc. change (zlen (zeros 4)) with 4.
    change (zlen [0; 2; 0; 0]%N) with 4. change (zlen [13; 10; x; y]%N) with 4. lia. }
  assert (Hpre : at_ 0 ((a ++ [0; 2; 0; 0]%N ++ c ++ zeros 4 ++ [13; 10; x; y]%N) ++ [13; 10]%N ++ hexfield fmt64 d) (fdata f)).
  { apply at_join; [exact A1|]. replace (0 + zlen _) with 20; [exact A2|].
    rewrite !zlen_app, La, Lc. reflexivity. }
  pose proof (hexfield_hex fmt64 d ltac:(cbn; lia) ltac:(lia)) as Hhx. pose proof (hexfield_len fmt64 d) as Hhl.
  set (hf := hexfield fmt64 d) in *.
  destruct Hpre as (p0 & q & F & Z0). apply zlen_0 in Z0. subst p0. rewrite app_nil_l in F.
  assert (F' : fdata f = (a ++ [0; 2; 0; 0]%N ++ c ++ zeros 4) ++ [13; 10; x; y; 13; 10]%N ++ hf ++ q).
  { rewrite F. rewrite <- !app_assoc. reflexivity. }
  clear F.
  assert (L16 : zlen (a ++ [0; 2; 0; 0]%N ++ c ++ zeros 4) = 16) by (rewrite !zlen_app, La, Lc; reflexivity).
  assert (Hfs : 559 <= zlen (fdata f)) by (fold (fsize f); lia).
  destruct n as [|n]; [lia|]. unfold extract_all. cbn [extract_scan].
  assert (Ha : a = [255; 255; 255; 127]%N) by (cbn in Ea; congruence). 
  assert (Hdet : detect_format (fdata f) 0 = Ok fmt32) by (rewrite F', Ha; reflexivity).
  rewrite Hdet. cbn [bind]. unfold read_container.
  assert (Hrh : read_header fmt32 0 (fdata f) = Ok (512, unpack_int true c)).
  { unfold read_header. change (check_seek 0) with (Ok tt). cbn [bind f_first_w fmt32]. change (Z.of_nat 4 + 12) with 16. change (Z.of_nat 4) with 4.
    assert (Hsl : slice 0 16 (fdata f) = a ++ [0; 2; 0; 0]%N ++ c ++ zeros 4).
    { unfold slice. rewrite zdrop_0 by lia. rewrite F'. apply ztake_app_exact. exact L16. }
    rewrite Hsl, L16. change (16 =? 16) with true. cbv iota.
    rewrite (slice_app_mid a [0; 2; 0; 0]%N (c ++ zeros 4) 4 4 La eq_refl).
    rewrite (app_assoc a), (slice_app_mid (a ++ [0; 2; 0; 0]%N) c (zeros 4) (4 + 4) 4); [reflexivity| |exact Lc].
    rewrite zlen_app, La. reflexivity. }
  rewrite Hrh. cbn [bind]. change (512 =? 0) with false. cbv iota.
  unfold doc_read, gen_start, read_block. change (check_seek (f_hsize fmt32 + 0)) with (Ok tt). cbn [bind].
  change (f_hsize fmt32 + 0) with 16. change (f_bhsize fmt32) with 31.
  assert (Hb31 : zlen (slice 16 31 (fdata f)) = 31).
  { unfold slice. rewrite zlen_ztake, zlen_zdrop. lia. }
  assert (Hsl : exists z, slice 16 31 (fdata f) = [13; 10; x; y; 13; 10]%N ++ hf ++ z).
  { unfold slice.
    assert (E : zdrop 16 (fdata f) = [13; 10; x; y; 13; 10]%N ++ hf ++ q).
    { rewrite F'. apply zdrop_app_exact. exact L16. }
    rewrite E. rewrite app_assoc. rewrite ztake_app_ge.
    - eexists. rewrite <- app_assoc. reflexivity.
    - rewrite zlen_app, Hhl. change (zlen [13; 10; x; y; 13; 10]%N + Z.of_nat (f_hexw fmt64)) with 22. lia. }
  destruct Hsl as [z Hz]. rewrite Hz in *.
  assert (Hne : exists w1 w2, [13; 10; x; y; 13; 10]%N ++ hf ++ z = w1 :: w2) by (eexists _, _; reflexivity).
  destruct Hne as (w1 & w2 & Hw). rewrite Hw. rewrite <- Hw. rewrite Hb31. change (31 =? 31) with true. cbv iota.
  change (Z.of_nat (f_hexw fmt32)) with 8.
  assert (Hfield : slice 2 8 ([13; 10; x; y; 13; 10]%N ++ hf ++ z) = [x; y; 13; 10]%N ++ ztake 4 hf).
  { unfold slice. replace (zdrop 2 ([13; 10; x; y; 13; 10]%N ++ hf ++ z)) with ([x; y; 13; 10]%N ++ hf ++ z) by reflexivity.
    rewrite ztake_app_ge by (unfold zlen; cbn; lia). change (8 - zlen [x; y; 13; 10]%N) with 4.
    rewrite ztake_app_le; [reflexivity|]. rewrite Hhl. change (Z.of_nat (f_hexw fmt64)) with 16. lia. }
  rewrite Hfield, int_of_bytes_crlf; [reflexivity|exact Hx|exact Hy| |].
  - intros E. apply (f_equal zlen) in E. rewrite zlen_ztake, Hhl in E. discriminate E.
  - unfold all_digits in *. rewrite <- (ztake_drop 4 hf) in Hhx. apply Forall_app in Hhx. tauto.
Qed.
