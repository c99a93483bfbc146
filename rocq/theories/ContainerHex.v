(** Proofs: block header fields and single blocks. *)
From Verif Require Import PyBase PyInt Utf PyFile Container.
Open Scope Z_scope.

(** Facts shared by the two formats. *)
Record fmt_ok (fm : cfmt) : Prop := {
  fo_hexw : (2 <= f_hexw fm)%nat;
  fo_bh : f_bhsize fm = 7 + 3 * Z.of_nat (f_hexw fm);
  fo_end : 0 < f_end fm < 16 ^ Z.of_nat (f_hexw fm);
  fo_ibs : 512 <= f_ibs fm <= 65536;
  fo_bh55 : f_bhsize fm <= 55;
  fo_hs : f_hsize fm = Z.of_nat (f_first_w fm) + 12;
  fo_fw : (4 <= f_first_w fm <= 8)%nat;
  fo_iw : (f_iw fm = f_first_w fm)%nat;
  fo_ibs_iw : f_ibs fm / (3 * Z.of_nat (f_iw fm)) >= 1;
  fo_pack_end : exists m, pack_int (f_isgn fm) (f_iw fm) (f_end fm) = Ok m
}.
Ltac fmt_ok_tac :=
  constructor;
  [ cbn; lia | reflexivity | split; reflexivity | split; discriminate | discriminate | reflexivity
  | cbn; lia | reflexivity | discriminate | eexists; reflexivity ].
Lemma fmt32_ok : fmt_ok fmt32.
Proof. fmt_ok_tac. Qed.
Lemma fmt64_ok : fmt_ok fmt64.
Proof. fmt_ok_tac. Qed.

Definition hexfield (fm : cfmt) (v : Z) : list N := pack_s (f_hexw fm) (int2hex fm v).

Lemma rjust0_len w s : length (rjust0 w s) = Nat.max w (length s).
Proof. unfold rjust0. rewrite app_length, repeat_length. lia. Qed.
Lemma rjust0_digits base w s : 2 <= base <= 36 -> all_digits base s -> all_digits base (rjust0 w s).
Proof. intros. unfold rjust0. apply all_digits_app; [apply all_digits_zeros; exact H|exact H0]. Qed.
Lemma rjust0_dval base w s : 2 <= base -> dval base 0 (rjust0 w s) = dval base 0 s.
Proof. intros. unfold rjust0. rewrite dval_app, dval_zeros by exact H. reflexivity. Qed.

Lemma pack_s_len n s : length (pack_s n s) = n.
Proof. unfold pack_s. rewrite app_length, firstn_length, repeat_length. lia. Qed.

Lemma int2hex_spec fm v : 0 <= v ->
  all_digits 16 (int2hex fm v) /\ dval 16 0 (int2hex fm v) = v
  /\ length (int2hex fm v) = Nat.max (f_hexw fm) (Nat.max 2 (length (digits_of 16 v))).
Proof.
  intros Hv. unfold int2hex, fmt_02x. replace (v <? 0) with false by lia.
  destruct (digits_of_spec 16 v ltac:(lia) Hv) as (H1 & H2 & H3).
  set (s := rjust0 (f_hexw fm) (rjust0 2 (digits_of 16 v))).
  assert (Hs : all_digits 16 s) by (apply rjust0_digits; [lia|apply rjust0_digits; [lia|exact H1]]).
  assert (Hd : dval 16 0 s = v) by (unfold s; rewrite !rjust0_dval by lia; exact H3).
  assert (Hl : length s = Nat.max (f_hexw fm) (Nat.max 2 (length (digits_of 16 v)))) by (unfold s; rewrite !rjust0_len; lia).
  destruct (f_upper fm).
  - repeat split; [apply all_digits_upper; exact Hs|rewrite dval_upper by exact Hs; exact Hd|].
    unfold upper; rewrite map_length; exact Hl.
  - auto.
Qed.

Lemma hexfield_len fm v : zlen (hexfield fm v) = Z.of_nat (f_hexw fm).
Proof. unfold hexfield, zlen. rewrite pack_s_len. reflexivity. Qed.

(** A field holds its value exactly when it fits. *)
Lemma hexfield_parse fm v : (2 <= f_hexw fm)%nat -> 0 <= v < 16 ^ Z.of_nat (f_hexw fm) ->
  int_of_bytes 16 (hexfield fm v) = Ok v.
Proof.
  intros Hw Hv. destruct (int2hex_spec fm v ltac:(lia)) as (H1 & H2 & H3).
  assert (Hl : length (int2hex fm v) = f_hexw fm).
  { rewrite H3. pose proof (digits_of_len 16 v (f_hexw fm) ltac:(lia) ltac:(lia) ltac:(lia) ltac:(lia)). lia. }
  unfold hexfield, pack_s. rewrite <- Hl, firstn_all, Nat.sub_diag. cbn [repeat]. rewrite app_nil_r.
  unfold int_of_bytes. rewrite int_parse_digits; [rewrite H2; reflexivity|lia|right; reflexivity|exact H1|].
  intros E; rewrite E in Hl; cbn in Hl; lia.
Qed.
(** A value that does not fit is silently stored as another one. *)
Lemma hexfield_overflow fm v : (2 <= f_hexw fm)%nat -> 16 ^ Z.of_nat (f_hexw fm) <= v ->
  exists v', int_of_bytes 16 (hexfield fm v) = Ok v' /\ v' < v /\ 0 <= v'.
Proof.
  intros Hw Hv.
  assert (Hv0 : 0 <= v) by (pose proof (Z.pow_nonneg 16 (Z.of_nat (f_hexw fm))); lia).
  destruct (int2hex_spec fm v Hv0) as (H1 & H2 & H3).
  pose proof (digits_of_len_ge 16 v (f_hexw fm) ltac:(lia) Hv) as Hl.
  set (s := int2hex fm v) in *. set (a := firstn (f_hexw fm) s).
  assert (Hal : length a = f_hexw fm) by (unfold a; rewrite firstn_length; lia).
  assert (Ha : all_digits 16 a).
  { unfold a, all_digits in *. rewrite <- (firstn_skipn (f_hexw fm) s) in H1. apply Forall_app in H1. tauto. }
  exists (dval 16 0 a). pose proof (dval_bound 16 a ltac:(lia) Ha) as Hb.
  unfold zlen in Hb; rewrite Hal in Hb.
  repeat split; [|lia|lia].
  unfold hexfield, pack_s. fold s. fold a.
  replace (f_hexw fm - length s)%nat with O by lia. cbn [repeat]. rewrite app_nil_r.
  unfold int_of_bytes. apply int_parse_digits; [lia|right; reflexivity|exact Ha|].
  intros E; rewrite E in Hal; cbn in Hal; lia.
Qed.

Lemma block_header_eq fm d b n :
  block_header fm d b n = [13; 10]%N ++ hexfield fm d ++ [32%N] ++ hexfield fm b ++ [32%N] ++ hexfield fm n ++ [32; 13; 10]%N.
Proof. reflexivity. Qed.
Lemma block_header_len fm d b n : fmt_ok fm -> zlen (block_header fm d b n) = f_bhsize fm.
Proof.
  intros Hf. rewrite block_header_eq, !zlen_app, !hexfield_len, (fo_bh _ Hf).
  change (zlen [13; 10]%N) with 2. change (zlen [32]%N) with 1. change (zlen [32; 13; 10]%N) with 3. lia.
Qed.

Lemma slice_app_mid a m b off n : zlen a = off -> zlen m = n -> slice off n (a ++ m ++ b) = m.
Proof.
  intros H1 H2. unfold slice. rewrite zdrop_app_exact by exact H1. apply ztake_app_exact; exact H2.
Qed.

Lemma block_header_fields fm d b n : fmt_ok fm ->
  let w := Z.of_nat (f_hexw fm) in
  slice 2 w (block_header fm d b n) = hexfield fm d
  /\ slice (3 + w) w (block_header fm d b n) = hexfield fm b
  /\ slice (4 + w + w) w (block_header fm d b n) = hexfield fm n.
Proof.
  intros Hf w. rewrite block_header_eq. repeat split.
  - apply slice_app_mid; [reflexivity|apply hexfield_len].
  - rewrite (app_assoc [13; 10]%N), (app_assoc _ [32%N]).
    apply slice_app_mid; [|apply hexfield_len].
    rewrite !zlen_app, hexfield_len. change (zlen [13; 10]%N) with 2. change (zlen [32]%N) with 1. lia.
  - rewrite (app_assoc [13; 10]%N), (app_assoc _ [32%N]), (app_assoc _ (hexfield fm b)), (app_assoc _ [32%N]).
    apply slice_app_mid; [|apply hexfield_len].
    rewrite !zlen_app, !hexfield_len. change (zlen [13; 10]%N) with 2. change (zlen [32]%N) with 1. lia.
Qed.

(** Reading a block that is present in the file. *)
Lemma read_block_at fm coff file off mx d b n data :
  fmt_ok fm ->
  let M := 16 ^ Z.of_nat (f_hexw fm) in
  0 <= d < M -> 0 <= b < M -> 0 <= n < M ->
  off + coff < 2 ^ 63 ->
  at_ (off + coff) (block_header fm d b n ++ data) file ->
  zlen data = Z.min b (match mx with None => Z.min b d | Some m => m end) ->
  read_block fm coff file off mx = Ok (Some (mkblock d b n data)).
Proof.
  intros Hf M Hd Hb Hn Hoff Hat Hlen. unfold read_block.
  pose proof (at_bound _ _ _ Hat) as [H0 _].
  unfold check_seek. replace (off + coff <? 0) with false by lia.
  replace (2 ^ 63 <=? off + coff) with false by lia. cbn [bind].
  set (h := block_header fm d b n) in *.
  assert (Hh : zlen h = f_bhsize fm) by (apply block_header_len; exact Hf).
  assert (Hbuf : slice (off + coff) (f_bhsize fm) file = h).
  { rewrite (at_slice _ _ _ _ Hat).
    - apply ztake_app_exact; exact Hh.
    - rewrite zlen_app. pose proof (zlen_nonneg data). rewrite (fo_bh _ Hf) in *. lia. }
  rewrite Hbuf. destruct h as [|x h'] eqn:Eh.
  { exfalso. rewrite zlen_nil, (fo_bh _ Hf) in Hh. lia. }
  rewrite <- Eh in *. rewrite Hh, Z.eqb_refl.
  pose proof (block_header_fields fm d b n Hf) as (F1 & F2 & F3). fold h in F1, F2, F3.
  cbv zeta. rewrite Eh in F1, F2, F3, Hat. rewrite Eh. rewrite F1, F2, F3.
  pose proof (fo_hexw _ Hf) as Hw.
  rewrite !hexfield_parse by (try exact Hw; assumption). cbn [bind].
  set (k := Z.min b _). pose proof (zlen_nonneg data).
  unfold read_at. replace (k <? -1) with false by lia. replace (k =? -1) with false by lia. cbn [bind].
  assert (Hat2 : at_ (off + coff + f_bhsize fm) data file).
  { rewrite <- Hh. rewrite Eh. apply at_app_r. exact Hat. }
  rewrite (at_slice _ _ _ _ Hat2) by lia. rewrite ztake_all by lia. reflexivity.
Qed.

(** the bytes a write_block call produces *)
Definition next_val (fm : cfmt) (next : option Z) : Z :=
  match next with Some n => if n =? 0 then f_end fm else n | None => f_end fm end.
Definition blk (fm : cfmt) (data : list N) (doc minb : Z) (next : option Z) : list N :=
  block_header fm doc (Z.max minb (zlen data)) (next_val fm next) ++ data ++ zeros (Z.max minb (zlen data) - zlen data).

Lemma blk_len fm data doc minb next : fmt_ok fm ->
  zlen (blk fm data doc minb next) = f_bhsize fm + Z.max minb (zlen data).
Proof.
  intros Hf. unfold blk. rewrite !zlen_app, block_header_len, zlen_zeros by exact Hf. lia.
Qed.

Lemma fwrite_app a b f : 0 <= fpos f -> fwrite b (fwrite a f) = fwrite (a ++ b) f.
Proof.
  intros Hp. destruct a as [|x a']; [reflexivity|]. destruct b as [|y b'].
  { rewrite app_nil_r. reflexivity. }
  set (a := x :: a'). set (b := y :: b').
  assert (Ha : fwrite a f = mkfile (ztake (fpos f) (fdata f) ++ zeros (fpos f - fsize f) ++ a ++ zdrop (fpos f + zlen a) (fdata f)) (fpos f + zlen a)) by reflexivity.
  assert (Hab : fwrite (a ++ b) f = mkfile (ztake (fpos f) (fdata f) ++ zeros (fpos f - fsize f) ++ (a ++ b) ++ zdrop (fpos f + zlen (a ++ b)) (fdata f)) (fpos f + zlen (a ++ b))) by reflexivity.
  rewrite Hab, Ha. clear Ha Hab.
  unfold fwrite at 1. subst b. cbv iota. set (b := y :: b'). cbn [fdata fpos].
  set (D := fdata f) in *. set (p := fpos f) in *. unfold fsize. cbn [fdata]. fold D.
  pose proof (zlen_nonneg a) as Hna. pose proof (zlen_nonneg b) as Hnb. pose proof (zlen_nonneg D) as HnD.
  assert (Hpre : zlen ((ztake p D ++ zeros (p - zlen D)) ++ a) = p + zlen a).
  { rewrite !zlen_app, zlen_ztake, zlen_zeros. lia. }
  f_equal; [|rewrite zlen_app; lia].
  rewrite !(app_assoc (ztake p D)).
  rewrite (app_assoc _ a (zdrop _ D)).
  set (pre := (ztake p D ++ zeros (p - zlen D)) ++ a) in *.
  rewrite ztake_app_exact by exact Hpre.
  rewrite zeros_nil by (rewrite zlen_app, Hpre; pose proof (zlen_nonneg (zdrop (p + zlen a) D)); lia).
  rewrite zdrop_app_ge by lia. rewrite Hpre.
  replace (p + zlen a + zlen b - (p + zlen a)) with (zlen b) by lia.
  rewrite zdrop_zdrop by lia.
  rewrite zlen_app. replace (zlen b + (p + zlen a)) with (p + (zlen a + zlen b)) by lia.
  unfold pre. rewrite <- !app_assoc. reflexivity.
Qed.

Lemma fwrite_pos bs f : fpos (fwrite bs f) = fpos f + zlen bs.
Proof. destruct bs; cbn [fwrite fpos]; [rewrite zlen_nil; lia|reflexivity]. Qed.

Lemma write_block_fwrite fm f data doc minb off next : fmt_ok fm ->
  (match off with Some o => 0 <= o | None => 0 <= fpos f end) ->
  write_block fm f data doc minb off next =
    (fwrite (blk fm data doc minb next) (match off with Some o => fseek o f | None => f end),
     match off with Some o => o | None => fsize f end).
Proof.
  intros Hf Hp. unfold write_block, blk.
  assert (Hgen : forall g : pyfile, 0 <= fpos g -> forall h d z,
    fwrite z (fwrite d (fwrite h g)) = fwrite (h ++ d ++ z) g).
  { intros g Hg h d z. pose proof (zlen_nonneg h).
    rewrite (fwrite_app d z) by (rewrite fwrite_pos; lia). apply fwrite_app; exact Hg. }
  destruct off as [o|]; rewrite Hgen by (cbn; assumption); reflexivity.
Qed.

(** appending a block at the end *)
Lemma write_block_append fm f data doc minb next : fmt_ok fm -> fpos f = fsize f ->
  exists f', write_block fm f data doc minb None next = (f', fsize f)
    /\ fdata f' = fdata f ++ blk fm data doc minb next /\ fpos f' = fsize f'.
Proof.
  intros Hf Hp. pose proof (zlen_nonneg (fdata f)) as Hn. fold (fsize f) in Hn.
  rewrite write_block_fwrite by (try exact Hf; lia).
  eexists; split; [reflexivity|].
  destruct (fwrite_end (blk fm data doc minb next) f Hp) as [H1 H2].
  split; [exact H1|]. rewrite H2. unfold fsize. rewrite H1, zlen_app. reflexivity.
Qed.

(** A document stored as one block. *)
Definition doc_at (fm : cfmt) (file : list N) (off : Z) (data : list N) (minb : Z) : Prop :=
  at_ off (blk fm data (zlen data) minb None) file.

Lemma gen_start_doc fm file off data minb minr :
  fmt_ok fm -> off < 2 ^ 63 -> zlen data < 16 ^ Z.of_nat (f_hexw fm) ->
  0 <= minb < 16 ^ Z.of_nat (f_hexw fm) -> Z.max minb (zlen data) = Z.max minr (zlen data) ->
  doc_at fm file off data minb ->
  gen_start fm 0 file off minr =
    Ok (mkgen (zlen data) data (f_end fm) (Z.max minr (zlen data) + f_bhsize fm)).
Proof.
  intros Hf Hoff Hlen Hminb Hm Hat. unfold gen_start.
  unfold doc_at, blk in Hat. rewrite app_assoc in Hat. apply at_app_l in Hat.
  pose proof (zlen_nonneg data).
  rewrite (read_block_at fm 0 file off None (zlen data) (Z.max minb (zlen data)) (f_end fm) data);
    try assumption; try (rewrite ?Z.add_0_r; assumption); try lia.
  2: { pose proof (fo_end _ Hf); lia. }
  cbn [bind b_cur b_doc b_data b_next].
  replace (Z.max minb (zlen data) <? Z.max (zlen data) minr) with false by lia.
  cbn [bind]. do 2 f_equal. lia.
Qed.
Lemma gen_drain_single fuel fm file data full :
  gen_drain fuel fm 0 file (mkgen (zlen data) data (f_end fm) full) = Ok data.
Proof.
  unfold gen_drain. cbn [g_doc g_first g_next]. rewrite Z.sub_diag.
  destruct fuel; cbn [gen_rest]; cbn -[concat]; cbn [concat]; rewrite app_nil_r; reflexivity.
Qed.
