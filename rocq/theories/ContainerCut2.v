(** Proofs: the contents table and the documents of a damaged container. *)
From Verif Require Import PyBase PyInt Utf PyFile Container Spec_Container ContainerHex ContainerToc ContainerProofs ContainerMore ContainerCut.
Open Scope Z_scope.

(** ** The first [j] bytes written over zeros *)
Fixpoint over0 (j : nat) (z : list N) : list N :=
  match z with
  | [] => []
  | c :: z' => match j with O => 0%N :: over0 0 z' | S k => c :: over0 k z' end
  end.
Lemma over0_0 z : over0 0 z = repeat 0%N (length z).
Proof. induction z as [|c z IH]; [reflexivity|]. cbn. rewrite IH. reflexivity. Qed.
Lemma over0_skip : forall a j z, skipn a (over0 j z) = over0 (j - a) (skipn a z).
Proof.
  induction a as [|a IH]; intros j z; [rewrite Nat.sub_0_r; reflexivity|].
  destruct z as [|c z]; [rewrite !skipn_nil; reflexivity|]. destruct j as [|j]; cbn [over0 skipn]; rewrite IH; reflexivity.
Qed.
Lemma over0_first : forall n j z, firstn n (over0 j z) = over0 j (firstn n z).
Proof.
  induction n as [|n IH]; intros j z; [reflexivity|].
  destruct z as [|c z]; [reflexivity|]. destruct j as [|j]; cbn [over0 firstn]; rewrite IH; reflexivity.
Qed.
Lemma over0_eq : forall j z, over0 j z = firstn j z ++ repeat 0%N (length z - j).
Proof.
  induction j as [|j IH]; intros z; [cbn; rewrite over0_0, Nat.sub_0_r; reflexivity|].
  destruct z as [|c z]; [reflexivity|]. cbn. rewrite IH. reflexivity.
Qed.
Lemma over0_len j z : zlen (over0 j z) = zlen z.
Proof. rewrite over0_eq. unfold zlen. rewrite app_length, firstn_length, repeat_length. lia. Qed.
Lemma over0_all j z : (length z <= j)%nat -> over0 j z = z.
Proof. intros H. rewrite over0_eq, firstn_all2 by exact H. replace (length z - j)%nat with 0%nat by lia. apply app_nil_r. Qed.
Lemma slice_over0 a n j z : slice a n (over0 j z) = over0 (j - Z.to_nat a) (slice a n z).
Proof. unfold slice, ztake, zdrop. rewrite over0_skip, over0_first. reflexivity. Qed.
Lemma over0_cut j t : exists i m, over0 j t = ztake i t ++ zeros m.
Proof.
  exists (Z.of_nat j), (Z.of_nat (length t - j)). rewrite over0_eq. unfold ztake, zeros. rewrite !Nat2Z.id. reflexivity.
Qed.

(** ** The contents table *)
Lemma gen_rest_tail_cut fm : fmt_ok fm -> forall n rest next P j fuel r,
  0 <= j -> zlen P = next ->
  let file := P ++ ztake j (tail_bytes fm n rest next) in
  zlen rest <= Z.of_nat n * f_ibs fm ->
  zlen P + zlen (tail_bytes fm n rest next) < f_end fm -> zlen P + zlen (tail_bytes fm n rest next) < 2 ^ 63 ->
  (65536 < 16 ^ Z.of_nat (f_hexw fm)) ->
  gen_rest fuel fm 0 file (zlen rest) next = Ok r -> exists i, concat r = ztake i rest.
Proof.
  intros Hf. pose proof (fo_ibs _ Hf) as Hibs. pose proof (fo_end _ Hf) as Hend. pose proof (fo_bh _ Hf) as Hbh.
  induction n as [|n IH]; intros rest next P j fuel r Hj HP file Hr Hfe H63 HM HR.
  - assert (zlen rest = 0) by (pose proof (zlen_nonneg rest); lia). rewrite H, gen_rest_done in HR. injection HR as <-.
    exists 0. rewrite ztake_0 by lia. reflexivity.
  - destruct (Z.eq_dec (zlen rest) 0) as [H0|H0].
    { rewrite H0, gen_rest_done in HR. injection HR as <-. exists 0. rewrite ztake_0 by lia. reflexivity. }
    pose proof (zlen_nonneg rest) as Hnn. pose proof (zlen_nonneg P) as HPn.
    cbn [tail_bytes] in file, Hfe, H63. cbv zeta in file, Hfe, H63. 
    set (next' := next + f_ibs fm + f_bhsize fm) in *.
    set (B := blk fm (ztake (f_ibs fm) rest) 0 (f_ibs fm) (Some next')) in *.
    set (T := tail_bytes fm n (zdrop (f_ibs fm) rest) next') in *.
    assert (Hck : zlen (ztake (f_ibs fm) rest) = Z.min (f_ibs fm) (zlen rest)) by (rewrite zlen_ztake; lia).
    assert (LB : zlen B = f_bhsize fm + f_ibs fm) by (unfold B; rewrite blk_len by exact Hf; lia).
    rewrite zlen_app in Hfe, H63. pose proof (zlen_nonneg T) as HT.
    assert (LF : zlen file = zlen P + Z.min j (zlen B + zlen T)) by (unfold file; rewrite zlen_app, zlen_ztake, zlen_app; lia).
    destruct fuel as [|fuel]; cbn [gen_rest] in HR; replace ((0 <? zlen rest) && negb (next =? f_end fm)) with true in HR by lia; [discriminate|].
    destruct (Z.lt_ge_cases j (f_bhsize fm)) as [Hsm|Hbig].
    { exfalso. destruct (read_block fm 0 file next (Some (zlen rest))) as [[b|]|e] eqn:X; cbn [bind] in HR; try discriminate.
      apply (@read_block_broken fm file next (Some (zlen rest)) Hf ltac:(lia) ltac:(left; lia) b X). }
    assert (BH : B = block_header fm 0 (f_ibs fm) next' ++ ztake (f_ibs fm) rest ++ zeros (f_ibs fm - zlen (ztake (f_ibs fm) rest))).
    { unfold B, blk. replace (Z.max (f_ibs fm) (zlen (ztake (f_ibs fm) rest))) with (f_ibs fm) by lia.
      unfold next_val. replace (next' =? 0) with false by (unfold next'; lia). reflexivity. }
    assert (FB : ztake j (B ++ T) = block_header fm 0 (f_ibs fm) next' ++ ztake (j - f_bhsize fm) ((ztake (f_ibs fm) rest ++ zeros (f_ibs fm - zlen (ztake (f_ibs fm) rest))) ++ T)).
    { rewrite BH, <- app_assoc. rewrite ztake_app_ge by (rewrite block_header_len by exact Hf; lia). rewrite block_header_len by exact Hf. reflexivity. }
    set (k := Z.min (f_ibs fm) (zlen rest)).
    assert (RB : read_block fm 0 file next (Some (zlen rest)) = Ok (Some (mkblock 0 (f_ibs fm) next' (slice (next + f_bhsize fm) k file)))).
    { apply read_block_core; try exact Hf; try lia; try (unfold next'; lia).
      unfold file. rewrite FB. exists P. eexists. split; [|exact HP]. f_equal.
      rewrite <- (ztake_drop (f_bhsize fm - 3) (block_header fm 0 (f_ibs fm) next')) at 1. rewrite <- app_assoc. reflexivity. }
    assert (DT : slice (next + f_bhsize fm) k file = ztake (Z.min (j - f_bhsize fm) k) rest).
    { unfold file. rewrite FB. unfold slice. rewrite app_assoc. rewrite zdrop_app_exact by (rewrite zlen_app, block_header_len; [lia|exact Hf]).
      assert (ZZ : forall (a b : Z) (l : list N), 0 <= a -> 0 <= b -> ztake a (ztake b l) = ztake (Z.min a b) l).
      { intros a b l A1 A2. unfold ztake. rewrite firstn_firstn. f_equal. lia. }
      rewrite ZZ by lia. rewrite <- app_assoc, ztake_app_le by lia. rewrite ZZ by lia. f_equal. lia. }
    rewrite RB in HR. cbn [bind b_data b_next] in HR. rewrite DT in HR.
    set (ck := ztake (Z.min (j - f_bhsize fm) k) rest) in *.
    assert (Lck : zlen ck = Z.min (j - f_bhsize fm) k) by (unfold ck; rewrite zlen_ztake; lia).
    destruct (gen_rest fuel fm 0 file (zlen rest - zlen ck) next') as [r'|e] eqn:G; cbn [bind] in HR; [|discriminate].
    injection HR as <-. cbn [concat].
    destruct (Z.lt_ge_cases (j - f_bhsize fm) k) as [Hc|Hc].
    { (* the data are cut *)
      exfalso. revert G. apply rest_beyond; unfold next'; lia. }
    assert (CK : ck = ztake (f_ibs fm) rest).
    { unfold ck. replace (Z.min (j - f_bhsize fm) k) with k by lia. unfold k, ztake.
      destruct (Z.le_ge_cases (f_ibs fm) (zlen rest)); [f_equal; lia|]. unfold zlen in *. rewrite !firstn_all2 by lia. reflexivity. }
    destruct (Z.eq_dec (zlen rest - zlen ck) 0) as [Z0|Z0].
    { rewrite Z0, gen_rest_done in G. injection G as <-. exists (zlen rest). cbn [concat]. rewrite app_nil_r, CK.
      rewrite (@ztake_all N (zlen rest) rest) by lia. apply ztake_all. lia. }
    replace (zlen rest - zlen ck) with (zlen (zdrop (f_ibs fm) rest)) in G by (rewrite zlen_zdrop; lia).
    destruct (Z.lt_ge_cases j (zlen B)) as [Hj2|Hj2].
    { exfalso. revert G. apply rest_beyond; unfold next'; try lia; rewrite ?zlen_zdrop; lia. }
    assert (FF : file = (P ++ B) ++ ztake (j - zlen B) T) by (unfold file; rewrite ztake_app_ge by lia; rewrite <- app_assoc; reflexivity).
    rewrite FF in G.
    destruct (IH (zdrop (f_ibs fm) rest) next' (P ++ B) (j - zlen B) fuel r') as (i & Hi); try assumption; try lia.
    + rewrite zlen_app. unfold next'. lia.
    + rewrite zlen_zdrop. lia.
    + rewrite zlen_app. fold T. lia.
    + rewrite zlen_app. fold T. lia.
    + rewrite Hi, CK. destruct (Z.le_ge_cases i 0).
      * exists (f_ibs fm). rewrite (@ztake_0 N i) by lia. apply app_nil_r.
      * exists (f_ibs fm + i). unfold ztake, zdrop. rewrite Z2Nat.inj_add by lia.
        rewrite <- (firstn_skipn (Z.to_nat (f_ibs fm)) rest) at 3. 
        rewrite firstn_app. rewrite firstn_firstn.
        assert (LL : length (firstn (Z.to_nat (f_ibs fm)) rest) = Z.to_nat (f_ibs fm)).
        { rewrite firstn_length. unfold zlen in *. unfold ztake in CK. lia. }
        rewrite LL. f_equal; f_equal; lia.
Qed.

Lemma toc_read_gen fm t h w next fuel d ds full : good_fmt fm -> 0 < zlen t -> zlen h = f_hsize fm ->
  let z := zone fm t next in let file := h ++ w in
  zlen t < 16 ^ Z.of_nat (f_hexw fm) -> 0 < next < f_end fm ->
  ztake (f_bhsize fm - 3) w = ztake (f_bhsize fm - 3) z -> f_bhsize fm <= zlen w ->
  (if zlen t <=? f_ibs fm then exists i m, slice (f_bhsize fm) (zlen t) w = ztake i t ++ zeros m
   else zlen file <= next
     \/ slice (f_bhsize fm) (f_ibs fm) w = ztake (f_ibs fm) t
        /\ exists P j, 0 <= j /\ zlen P = next /\ file = P ++ ztake j (tail fm t next)
           /\ zlen P + zlen (tail fm t next) < f_end fm /\ zlen P + zlen (tail fm t next) < 2 ^ 63) ->
  doc_read fuel fm 0 file (f_hsize fm) (f_ibs fm) = Ok (d, ds, full) ->
  (exists i m, d = ztake i t ++ zeros m) /\ (f_ibs fm < zlen t -> next < zlen file)
  /\ (zlen t <= f_ibs fm -> d = slice (f_bhsize fm) (zlen t) w).
Proof.
  intros Hg Ht Hh z file HtM Hnx Hcore Hlw Hdat HR. pose proof (good_ok _ Hg) as Hf.
  pose proof (fo_ibs _ Hf) as Hibs. pose proof (fo_bh _ Hf) as Hbh. pose proof (fo_end _ Hf) as Hend.
  assert (HM : 65536 < 16 ^ Z.of_nat (f_hexw fm)) by (clear - Hg; destruct Hg as [-> | ->]; reflexivity).
  assert (Hhs : 0 <= f_hsize fm < 2 ^ 63) by (clear - Hg; destruct Hg as [-> | ->]; split; [discriminate|reflexivity|discriminate|reflexivity]).
  pose proof (ceil1 fm (zlen t) Hf Ht) as Hc.
  unfold doc_read in HR.
  destruct (gen_start fm 0 file (f_hsize fm) (f_ibs fm)) as [g|e] eqn:G; cbn [bind] in HR; [|discriminate].
  destruct (gen_drain fuel fm 0 file g) as [d'|e] eqn:DR; cbn [bind] in HR; [|discriminate].
  injection HR as <- _ _.
  assert (ZZ : forall (a b : Z) (l : list N), 0 <= a <= b -> ztake a (ztake b l) = ztake a l).
  { intros a b l A1. unfold ztake. rewrite firstn_firstn. f_equal. lia. }
  assert (AT : forall H rst, z = H ++ rst -> zlen H = f_bhsize fm -> at_ (f_hsize fm) (ztake (f_bhsize fm - 3) H) file).
  { intros H rst Hz HL. exists h, (zdrop (f_bhsize fm - 3) w). split; [|exact Hh]. unfold file. f_equal.
    rewrite <- (ztake_drop (f_bhsize fm - 3) w) at 1. f_equal. rewrite Hcore, Hz. rewrite ztake_app_le by lia. reflexivity. }
  assert (SL : forall k, slice (f_hsize fm + f_bhsize fm) k file = slice (f_bhsize fm) k w).
  { intros k. unfold slice, file. rewrite zdrop_app_ge by lia. f_equal. f_equal. lia. }
  assert (LF : zlen file = f_hsize fm + zlen w) by (unfold file; rewrite zlen_app; lia).
  destruct (Z.leb_spec (zlen t) (f_ibs fm)) as [Hle|Hgt].
  - assert (Hz : z = blk fm t (zlen t) 0 None ++ zeros (f_ibs fm - zlen t)).
    { unfold z, zone. rewrite (proj2 Hc Hle). reflexivity. }
    assert (RB : read_block fm 0 file (f_hsize fm) None = Ok (Some (mkblock (zlen t) (zlen t) (f_end fm) (slice (f_hsize fm + f_bhsize fm) (Z.min (zlen t) (Z.min (zlen t) (zlen t))) file)))).
    { apply read_block_core; try exact Hf; try lia.
      apply (AT _ (t ++ zeros (f_ibs fm - zlen t))); [|apply block_header_len; exact Hf]. rewrite Hz. unfold blk.
      replace (Z.max 0 (zlen t)) with (zlen t) by lia. rewrite (@zeros_nil (zlen t - zlen t)) by lia. cbn [next_val]. rewrite app_nil_r, <- app_assoc. reflexivity. }
    destruct (gen_start_inv _ _ _ _ _ _ RB G) as (G1 & G2 & G3). cbn [b_data b_next b_doc] in *.
    rewrite (drain_end fuel fm file g G2) in DR. injection DR as <-. rewrite G1, SL.
    replace (Z.min (zlen t) (Z.min (zlen t) (zlen t))) with (zlen t) by lia. split; [exact Hdat|]. split; [lia|reflexivity].
  - assert (Hq1 : (zlen t + f_ibs fm - 1) / f_ibs fm <> 1) by (intros E; apply Hc in E; lia).
    assert (Hz : z = blk fm (ztake (f_ibs fm) t) (zlen t) (f_ibs fm) (Some next)).
    { unfold z, zone. destruct (Z.eqb_spec ((zlen t + f_ibs fm - 1) / f_ibs fm) 1); [congruence|reflexivity]. }
    assert (Htk : zlen (ztake (f_ibs fm) t) = f_ibs fm) by (rewrite zlen_ztake; lia).
    assert (RB : read_block fm 0 file (f_hsize fm) None = Ok (Some (mkblock (zlen t) (f_ibs fm) next (slice (f_hsize fm + f_bhsize fm) (Z.min (f_ibs fm) (Z.min (f_ibs fm) (zlen t))) file)))).
    { apply read_block_core; try exact Hf; try lia.
      apply (AT _ (ztake (f_ibs fm) t ++ zeros (Z.max (f_ibs fm) (zlen (ztake (f_ibs fm) t)) - zlen (ztake (f_ibs fm) t)))); [|apply block_header_len; exact Hf].
      rewrite Hz. unfold blk. replace (Z.max (f_ibs fm) (zlen (ztake (f_ibs fm) t))) with (f_ibs fm) by lia.
      unfold next_val. replace (next =? 0) with false by lia. reflexivity. }
    destruct (gen_start_inv _ _ _ _ _ _ RB G) as (G1 & G2 & G3). cbn [b_data b_next b_doc] in *.
    replace (Z.min (f_ibs fm) (Z.min (f_ibs fm) (zlen t))) with (f_ibs fm) in G1 by lia. rewrite SL in G1.
    assert (L1 : zlen (g_first g) <= f_ibs fm) by (rewrite G1; unfold slice; rewrite zlen_ztake; lia).
    unfold gen_drain in DR. rewrite G2, G3 in DR.
    destruct (gen_rest fuel fm 0 file (zlen t - zlen (g_first g)) next) as [r|e] eqn:R; cbn [bind] in DR; [|discriminate].
    injection DR as <-.
    destruct (Z.le_gt_cases (zlen file) next) as [Hb|Hb]; [exfalso; revert R; apply rest_beyond; lia|].
    split; [|split; [intros _; exact Hb|lia]].
    destruct Hdat as [Hb2|(Hs & P & j & Hj & HP & HF & HE & H6)].
    + exfalso. lia.
    + rewrite Hs in G1. rewrite G1 in R |- *. rewrite Htk in R.
      replace (zlen t - f_ibs fm) with (zlen (zdrop (f_ibs fm) t)) in R by (rewrite zlen_zdrop; lia).
      unfold tail in HF, HE, H6. replace ((zlen t + f_ibs fm - 1) / f_ibs fm =? 1) with false in HF, HE, H6 by lia.
      set (q := (zlen t + f_ibs fm - 1) / f_ibs fm) in *.
      pose proof (Z.div_mod (zlen t + f_ibs fm - 1) (f_ibs fm) ltac:(lia)) as Hdm.
      pose proof (Z.mod_pos_bound (zlen t + f_ibs fm - 1) (f_ibs fm) ltac:(lia)) as Hmb.
      assert (Hq0 : 0 <= q) by (apply Z.div_pos; lia).
      assert (Hq2 : 1 <= q) by (unfold q; apply Z.div_le_lower_bound; lia).
      rewrite HF in R.
      destruct (gen_rest_tail_cut fm Hf (Z.to_nat (q - 1)) (zdrop (f_ibs fm) t) next P j fuel r) as (i & Hi); try assumption.
      { rewrite zlen_zdrop. rewrite Z2Nat.id by lia. fold q in Hdm.
        replace ((q - 1) * f_ibs fm) with (f_ibs fm * q - f_ibs fm) by ring. lia. }
      rewrite Hi. destruct (Z.le_ge_cases i 0).
      * exists (f_ibs fm), 0. rewrite (@ztake_0 N i) by lia. reflexivity.
      * exists (f_ibs fm + i), 0. rewrite (@zeros_nil 0) by lia. rewrite app_nil_r.
        rewrite (ztake_split (f_ibs fm) (f_ibs fm + i)) by lia. f_equal. f_equal. lia.
Qed.
