(** Proofs: the table of contents. *)
From Verif Require Import PyBase PyInt Utf PyFile Container ContainerHex.
Open Scope Z_scope.

Definition prepend {A} (p : list A) (l : list (list A)) : list (list A) :=
  match l with [] => [p] | x :: r => (p ++ x) :: r end.

Lemma split_go_nonnil sep s : forall k, split_go sep k s <> [].
Proof.
  induction s as [|c s IH]; intros k; [discriminate|]. cbn [split_go].
  destruct k; [|apply IH]. destruct (starts sep (c :: s)); [discriminate|].
  destruct (split_go sep 0 s); discriminate.
Qed.

Lemma split_go_nomatch sep p rest :
  (forall i, (i < length p)%nat -> starts sep (skipn i p ++ rest) = false) ->
  split_go sep 0 (p ++ rest) = prepend p (split_go sep 0 rest).
Proof.
  induction p as [|c p IH]; intros H.
  - cbn [app]. destruct (split_go sep 0 rest) eqn:E; [exfalso; revert E; apply split_go_nonnil|reflexivity].
  - pose proof (H O ltac:(cbn; lia)) as H0. cbn [skipn app] in H0. cbn [app split_go]. rewrite H0.
    rewrite IH.
    + destruct (split_go sep 0 rest); reflexivity.
    + intros i Hi. apply (H (S i)). cbn; lia.
Qed.

Lemma split_go_skip sep p rest : split_go sep (length p) (p ++ rest) = split_go sep 0 rest.
Proof. induction p as [|c p IH]; [reflexivity|]. cbn [length app split_go]. exact IH. Qed.

Lemma split_go_match sep rest : sep <> [] -> split_go sep 0 (sep ++ rest) = [] :: split_go sep 0 rest.
Proof.
  intros Hne. destruct sep as [|c sep'] eqn:E; [congruence|]. rewrite <- E.
  assert (Hs : starts sep (sep ++ rest) = true) by apply starts_app.
  rewrite E at 2. cbn [app split_go]. rewrite E in Hs. cbn [app] in Hs. rewrite E, Hs. f_equal.
  cbn [length]. replace (S (length sep') - 1)%nat with (length sep') by lia.
  apply split_go_skip.
Qed.

(** No spurious end marker in a group whose last byte is below 128. *)
Lemma no_marker k x front lst rest :
  length front = k -> (lst < 128)%N -> front ++ [lst] <> repeat 255%N k ++ [x] ->
  forall i, (i < length (front ++ [lst]))%nat ->
  starts (repeat 255%N k ++ [x]) (skipn i (front ++ [lst]) ++ rest) = false.
Proof.
  intros Hk Hl Hne i Hi. rewrite app_length in Hi; cbn in Hi.
  destruct (starts _ _) eqn:E; [|reflexivity]. exfalso.
  apply starts_spec in E. destruct E as [t Ht]. destruct i as [|i].
  - cbn [skipn] in Ht. apply Hne.
    assert (Hlen : length (front ++ [lst]) = length (repeat 255%N k ++ [x])) by (rewrite !app_length, repeat_length; cbn; lia).
    assert (firstn (length (front ++ [lst])) ((front ++ [lst]) ++ rest) = front ++ [lst]) by (rewrite firstn_app, Nat.sub_diag, firstn_all; cbn; apply app_nil_r).
    rewrite Ht, Hlen, firstn_app, Nat.sub_diag, firstn_all in H. cbn [firstn] in H. rewrite app_nil_r in H. congruence.
  - assert (Hn : nth_error (skipn (S i) (front ++ [lst]) ++ rest) (k - S i) = Some lst).
    { rewrite skipn_app.
      rewrite <- app_assoc, nth_error_app2 by (rewrite skipn_length; lia).
      rewrite skipn_length. replace (k - S i - (length front - S i))%nat with O by lia.
      replace (S i - length front)%nat with O by lia. reflexivity. }
    rewrite Ht in Hn. rewrite <- app_assoc, nth_error_app1 in Hn by (rewrite repeat_length; lia).
    apply nth_error_In, repeat_spec in Hn. lia.
Qed.

Lemma le_bytes_snoc w : forall v, le_bytes (S w) v = le_bytes w v ++ [Z.to_N ((v / 256 ^ Z.of_nat w) mod 256)].
Proof.
  induction w as [|w IH]; intros v.
  - cbn [le_bytes app]. change (256 ^ Z.of_nat 0) with 1. rewrite Z.div_1_r. reflexivity.
  - change (le_bytes (S (S w)) v) with (Z.to_N (v mod 256) :: le_bytes (S w) (v / 256)).
    rewrite IH. cbn [le_bytes app]. do 4 f_equal.
    rewrite Z.div_div by (try apply Z.pow_pos_nonneg; lia). rewrite Nat2Z.inj_succ, Z.pow_succ_r by lia. reflexivity.
Qed.

(** Offsets that the format can hold and the operating system can seek to. *)
Definition off_ok (fm : cfmt) (v : Z) : Prop := 0 <= v < f_end fm /\ v < 2 ^ 63.

Definition good_fmt (fm : cfmt) : Prop := fm = fmt32 \/ fm = fmt64.
Lemma good_ok fm : good_fmt fm -> fmt_ok fm.
Proof. intros [-> | ->]; [apply fmt32_ok|apply fmt64_ok]. Qed.

Definition marker (fm : cfmt) : list N := repeat 255%N (f_iw fm - 1) ++ [if f_isgn fm then 127%N else 255%N].
Lemma pack_marker fm : good_fmt fm -> pack_int (f_isgn fm) (f_iw fm) (f_end fm) = Ok (marker fm).
Proof. intros [-> | ->]; reflexivity. Qed.

Lemma pack_off fm v : good_fmt fm -> off_ok fm v ->
  exists front lst, pack_int (f_isgn fm) (f_iw fm) v = Ok (front ++ [lst])
    /\ length front = (f_iw fm - 1)%nat /\ (lst < 128)%N /\ front ++ [lst] <> marker fm.
Proof.
  intros Hg [[H1 H2] H3].
  assert (Hr : pack_int (f_isgn fm) (f_iw fm) v = Ok (le_bytes (f_iw fm) v)
     /\ v / 256 ^ Z.of_nat (f_iw fm - 1) < 128).
  { unfold pack_int. destruct Hg as [-> | ->]; cbn [f_isgn f_iw f_end fmt32 fmt64] in *.
    - change (256 ^ Z.of_nat 4) with 4294967296. change (4294967296 / 2) with 2147483648.
      replace ((_ <=? v) && (v <? _)) with true by lia. rewrite Z.mod_small by lia. split; [reflexivity|].
      change (256 ^ Z.of_nat (4 - 1)) with 16777216. apply Z.div_lt_upper_bound; lia.
    - change (256 ^ Z.of_nat 8) with 18446744073709551616. change (2 ^ 63) with 9223372036854775808 in H3.
      replace ((_ <=? v) && (v <? _)) with true by lia. rewrite Z.mod_small by lia. split; [reflexivity|].
      change (256 ^ Z.of_nat (8 - 1)) with 72057594037927936. apply Z.div_lt_upper_bound; lia. }
  destruct Hr as [Hp Hlast].
  assert (Hw : f_iw fm = S (f_iw fm - 1)) by (destruct Hg as [-> | ->]; reflexivity).
  exists (le_bytes (f_iw fm - 1) v), (Z.to_N ((v / 256 ^ Z.of_nat (f_iw fm - 1)) mod 256)).
  rewrite <- le_bytes_snoc, <- Hw. repeat split; [exact Hp|apply le_bytes_len| |].
  - assert (0 <= v / 256 ^ Z.of_nat (f_iw fm - 1)) by (apply Z.div_pos; [lia|apply Z.pow_pos_nonneg; lia]).
    rewrite Z.mod_small by lia. lia.
  - intros E. rewrite E in Hp. rewrite <- (pack_marker fm Hg) in Hp.
    pose proof (pack_marker fm Hg) as Hm.
    assert (0 < f_iw fm)%nat by lia.
    rewrite Hm in Hp.
    pose proof (unpack_pack _ _ _ _ H Hm) as U1. pose proof (unpack_pack _ _ _ _ H Hp) as U2. lia.
Qed.

Lemma prepend_prepend {A} (p q : list A) l : l <> [] -> prepend p (prepend q l) = prepend (p ++ q) l.
Proof. destruct l; [congruence|]. cbn. rewrite app_assoc. reflexivity. Qed.

(** C03 core: what the reader parses is what the writer packed. *)
Lemma parse_toc_bytes fm : good_fmt fm -> forall toc,
  Forall (fun p => off_ok fm (fst p) /\ off_ok fm (snd p)) toc ->
  exists t, toc_bytes fm (map (fun p => (fst p, Some (snd p))) toc) = Ok t
    /\ zlen t = 3 * Z.of_nat (f_iw fm) * zlen toc
    /\ parse_toc fm t = Ok toc.
Proof.
  intros Hg. unfold parse_toc. rewrite (pack_marker fm Hg). cbn [bind].
  assert (Hm : marker fm <> []) by (unfold marker; destruct (repeat _ _); discriminate).
  assert (Hml : length (marker fm) = f_iw fm) by (destruct Hg as [-> | ->]; reflexivity).
  assert (Hw : (0 < f_iw fm)%nat) by (destruct Hg as [-> | ->]; cbn; lia).
  enough (Hgen : forall toc, Forall (fun p => off_ok fm (fst p) /\ off_ok fm (snd p)) toc ->
    exists t pieces, toc_bytes fm (map (fun p => (fst p, Some (snd p))) toc) = Ok t
      /\ zlen t = 3 * Z.of_nat (f_iw fm) * zlen toc
      /\ split_go (marker fm) 0 t = pieces ++ [[]] /\ unpack_pairs fm pieces = Ok toc).
  { intros toc Ht. destruct (Hgen toc Ht) as (t & pieces & A & B & C & D).
    exists t. repeat split; [exact A|exact B|]. unfold split_str. rewrite C, removelast_last. exact D. }
  induction toc as [|[a d] toc IH]; intros Ht.
  - exists [], []. repeat split. unfold zlen; cbn [length]. lia.
  - inversion Ht as [|? ? [Ha Hd] Hrest]; subst. cbn [fst snd] in Ha, Hd.
    destruct (IH Hrest) as (t & pieces & A & B & C & D).
    destruct (pack_off fm a Hg Ha) as (fa & la & Pa & Lfa & Lla & Na).
    destruct (pack_off fm d Hg Hd) as (fd & ld & Pd & Lfd & Lld & Nd).
    cbn [map toc_bytes fst snd]. rewrite Pa, Pd, (pack_marker fm Hg). cbn [bind]. rewrite A. cbn [bind].
    set (ga := fa ++ [la]) in *. set (gd := fd ++ [ld]) in *.
    exists (ga ++ gd ++ marker fm ++ t), ((ga ++ gd) :: pieces).
    assert (Lga : zlen ga = Z.of_nat (f_iw fm)) by (eapply pack_int_len; exact Pa).
    assert (Lgd : zlen gd = Z.of_nat (f_iw fm)) by (eapply pack_int_len; exact Pd).
    repeat split.
    + rewrite !zlen_app, Lga, Lgd, B, zlen_cons. unfold zlen at 1. rewrite Hml. lia.
    + rewrite split_go_nomatch by (unfold marker; apply no_marker; assumption).
      rewrite split_go_nomatch by (unfold marker; apply no_marker; assumption).
      rewrite prepend_prepend by apply split_go_nonnil.
      rewrite split_go_match by exact Hm. cbn [prepend]. rewrite app_nil_r, C. reflexivity.
    + cbn [unpack_pairs]. rewrite zlen_app, Lga, Lgd.
      replace (Z.of_nat (f_iw fm) + Z.of_nat (f_iw fm) =? 2 * Z.of_nat (f_iw fm)) with true by lia.
      rewrite D. cbn [bind]. do 2 f_equal.
      replace (slice 0 (Z.of_nat (f_iw fm)) (ga ++ gd)) with ga
        by (unfold slice; rewrite zdrop_0 by lia; symmetry; apply ztake_app_exact; exact Lga).
      replace (slice (Z.of_nat (f_iw fm)) (Z.of_nat (f_iw fm)) (ga ++ gd)) with gd.
      2: { unfold slice; rewrite zdrop_app_exact by exact Lga. symmetry; apply ztake_all; lia. }
      rewrite (unpack_pack _ _ _ _ Hw Pa), (unpack_pack _ _ _ _ Hw Pd). reflexivity.
Qed.

(** ** The chained blocks of a long table of contents *)
Fixpoint tail_bytes (fm : cfmt) (n : nat) (rest : list N) (next : Z) : list N :=
  match n with
  | O => blk fm (ztake (f_ibs fm) rest) 0 (f_ibs fm) None
  | S k => let next' := next + f_ibs fm + f_bhsize fm in
           blk fm (ztake (f_ibs fm) rest) 0 (f_ibs fm) (Some next')
             ++ tail_bytes fm k (zdrop (f_ibs fm) rest) next'
  end.

Lemma tail_bytes_len fm : fmt_ok fm -> forall n rest next,
  zlen (tail_bytes fm n rest next) = (Z.of_nat n + 1) * (f_ibs fm + f_bhsize fm).
Proof.
  intros Hf. pose proof (fo_ibs _ Hf). induction n as [|n IH]; intros rest next; cbn [tail_bytes].
  - rewrite blk_len by exact Hf. rewrite zlen_ztake. pose proof (zlen_nonneg rest). lia.
  - rewrite zlen_app, IH, blk_len by exact Hf. rewrite zlen_ztake. pose proof (zlen_nonneg rest). lia.
Qed.

Lemma toc_loop_write fm : fmt_ok fm -> forall n f rest next f3 r,
  fpos f = fsize f -> toc_loop fm n f rest next = (f3, r) ->
  let f4 := fst (write_block fm f3 (ztake (f_ibs fm) r) 0 (f_ibs fm) None None) in
  fdata f4 = fdata f ++ tail_bytes fm n rest next /\ fpos f4 = fsize f4.
Proof.
  intros Hf. induction n as [|n IH]; intros f rest next f3 r Hp; cbn [toc_loop tail_bytes].
  - intros E; injection E as <- <-.
    destruct (write_block_append fm f (ztake (f_ibs fm) rest) 0 (f_ibs fm) None Hf Hp) as (f' & H1 & H2 & H3).
    rewrite H1. cbn [fst]. auto.
  - destruct (write_block_append fm f (ztake (f_ibs fm) rest) 0 (f_ibs fm)
                (Some (next + f_ibs fm + f_bhsize fm)) Hf Hp) as (f' & H1 & H2 & H3).
    rewrite H1. intros E. destruct (IH _ _ _ _ _ H3 E) as [H4 H5]. split; [|exact H5].
    rewrite H4, H2, <- app_assoc. reflexivity.
Qed.

Lemma gen_rest_done fuel fm coff file next : gen_rest fuel fm coff file 0 next = Ok [].
Proof. destruct fuel; reflexivity. Qed.

Lemma gen_rest_tail fm : fmt_ok fm -> forall n rest next file fuel,
  at_ next (tail_bytes fm n rest next) file ->
  zlen rest <= Z.of_nat n * f_ibs fm ->
  zlen file < f_end fm -> zlen file < 2 ^ 63 -> 0 <= next -> (n <= fuel)%nat ->
  exists r, gen_rest fuel fm 0 file (zlen rest) next = Ok r /\ concat r = rest.
Proof.
  intros Hf. pose proof (fo_ibs _ Hf) as Hibs. pose proof (fo_end _ Hf) as Hend.
  assert (H256 : 65536 < 16 ^ Z.of_nat (f_hexw fm) \/ 16 ^ Z.of_nat (f_hexw fm) <= 65536) by lia.
  induction n as [|n IH]; intros rest next file fuel Hat Hr Hfe Hf63 Hnx Hfuel.
  - assert (zlen rest = 0) by (pose proof (zlen_nonneg rest); lia).
    rewrite H. exists []. split; [apply gen_rest_done|]. apply zlen_0 in H. subst; reflexivity.
  - destruct (Z.eq_dec (zlen rest) 0) as [H0|H0].
    { rewrite H0. exists []. split; [apply gen_rest_done|]. apply zlen_0 in H0. subst; reflexivity. }
    pose proof (zlen_nonneg rest) as Hnn.
    destruct fuel as [|fuel]; [lia|]. cbn [tail_bytes] in Hat. cbv zeta in Hat.
    set (next' := next + f_ibs fm + f_bhsize fm) in *.
    assert (Hck : zlen (ztake (f_ibs fm) rest) = Z.min (f_ibs fm) (zlen rest)) by (rewrite zlen_ztake; lia).
    pose proof (at_bound _ _ _ Hat) as [_ Hb]. rewrite zlen_app, blk_len, tail_bytes_len in Hb by exact Hf.
    pose proof (fo_bh _ Hf) as Hbh.
    cbn [gen_rest]. replace ((0 <? zlen rest) && negb (next =? f_end fm)) with true by lia.
    assert (Hblk : read_block fm 0 file next (Some (zlen rest))
       = Ok (Some (mkblock 0 (f_ibs fm) next' (ztake (f_ibs fm) rest)))).
    { apply at_app_l in Hat. unfold blk in Hat. rewrite app_assoc in Hat. apply at_app_l in Hat.
      replace (Z.max (f_ibs fm) (zlen (ztake (f_ibs fm) rest))) with (f_ibs fm) in Hat by lia.
      unfold next_val in Hat. replace (next' =? 0) with false in Hat by (unfold next'; lia).
      apply read_block_at; try assumption; rewrite ?Z.add_0_r; try assumption; try lia. }
    rewrite Hblk. cbn [bind b_data b_next].
    replace (zlen rest - zlen (ztake (f_ibs fm) rest)) with (zlen (zdrop (f_ibs fm) rest)) by (rewrite zlen_zdrop; lia).
    destruct (IH (zdrop (f_ibs fm) rest) next' file fuel) as (r & R1 & R2); try assumption.
    + apply at_app_r in Hat. rewrite blk_len in Hat by exact Hf.
      replace (next + (f_bhsize fm + Z.max (f_ibs fm) (zlen (ztake (f_ibs fm) rest)))) with next' in Hat by (unfold next'; lia).
      exact Hat.
    + rewrite zlen_zdrop. lia.
    + unfold next'; lia.
    + lia.
    + rewrite R1. cbn [bind]. exists (ztake (f_ibs fm) rest :: r). split; [reflexivity|].
      cbn [concat]. rewrite R2. apply ztake_drop.
Qed.
