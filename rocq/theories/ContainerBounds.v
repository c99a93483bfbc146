(** Proofs: bounds and termination of the reader on arbitrary bytes. *)
From Coq Require Import String.
From Verif Require Import PyBase PyInt Utf PyFile Container ContainerHex ContainerToc Spec_Container ContainerProofs ContainerMore ContainerDefects.
Open Scope list_scope.
Open Scope Z_scope.

Lemma lstrip_in sp s c : In c (lstrip_by sp s) -> In c s.
Proof. induction s as [|x s IH]; cbn; [tauto|]. destruct (sp x); [intros; right; auto|tauto]. Qed.
Lemma strip_in sp s c : In c (strip_by sp s) -> In c s.
Proof.
  unfold strip_by, rstrip_by. intros H. rewrite <- in_rev in H. apply lstrip_in in H. rewrite <- in_rev in H.
  eapply lstrip_in; exact H.
Qed.
Lemma digit_val_nonneg base c d : digit_val base c = Some d -> 0 <= d.
Proof.
  unfold digit_val.
  destruct ((48 <=? Z.of_N c) && (Z.of_N c <=? 57)) eqn:E1;
  [|destruct ((97 <=? Z.of_N c) && (Z.of_N c <=? 122)) eqn:E2;
  [|destruct ((65 <=? Z.of_N c) && (Z.of_N c <=? 90)) eqn:E3]];
  destruct (_ <? base); intros E; try discriminate; injection E as <-; lia.
Qed.
Lemma parse_digits_nonneg base s : 0 <= base -> forall acc us v, 0 <= acc -> parse_digits base acc us s = Some v -> 0 <= v.
Proof.
  intros Hb. induction s as [|c s IH]; intros acc us v Ha; cbn [parse_digits].
  - destruct us; [discriminate|]. intros E; injection E as <-. exact Ha.
  - destruct (N.eqb c 95).
    + destruct us; [discriminate|]. apply IH; exact Ha.
    + destruct (digit_val base c) as [d|] eqn:E; [|discriminate]. apply IH.
      apply digit_val_nonneg in E. assert (0 <= acc * base) by (apply Z.mul_nonneg_nonneg; assumption). lia.
Qed.
Lemma int_of_bytes_nonneg base s v : 0 <= base -> ~ In 45%N s -> int_of_bytes base s = Ok v -> 0 <= v.
Proof.
  intros Hb Hn. unfold int_of_bytes, int_parse.
  destruct (strip_by is_space_ascii s) as [|c t] eqn:E; [discriminate|].
  assert (c <> 45%N).
  { intros ->. apply Hn. apply (strip_in is_space_ascii). rewrite E. left; reflexivity. }
  apply N.eqb_neq in H. rewrite H. unfold parse_unsigned.
  destruct (N.eqb c 43).
  - destruct (parse_digits base 0 true _) eqn:P; [|discriminate]. intros X; injection X as <-.
    eapply parse_digits_nonneg; [exact Hb| |exact P]. lia.
  - destruct (parse_digits base 0 true _) eqn:P; [|discriminate]. intros X; injection X as <-.
    eapply parse_digits_nonneg; [exact Hb| |exact P]. lia.
Qed.
Lemma in_slice off n (f : list N) c : In c (slice off n f) -> In c f.
Proof.
  unfold slice, ztake, zdrop. intros H.
  assert (H1 : In c (skipn (Z.to_nat off) f)) by (rewrite <- (firstn_skipn (Z.to_nat n)); apply in_or_app; left; exact H).
  rewrite <- (firstn_skipn (Z.to_nat off)). apply in_or_app; right; exact H1.
Qed.

(** a block read from a file without minus signs has non-negative fields and at most the
    allowed number of bytes *)
(** The reader never passes a negative remaining length: [mx = Some m] only with 0 < m. *)
Lemma read_block_bound fm coff file off mx b : ~ In 45%N file ->
  match mx with None => True | Some m => 0 <= m end ->
  read_block fm coff file off mx = Ok (Some b) ->
  0 <= b_doc b /\ 0 <= b_cur b /\ 0 <= b_next b
  /\ zlen (b_data b) <= Z.min (b_cur b) (match mx with None => b_doc b | Some m => m end).
Proof.
  intros Hn Hm H. unfold read_block in H.
  destruct (check_seek (off + coff)); [|discriminate]. cbn [bind] in H.
  set (buff := slice (off + coff) (f_bhsize fm) file) in *.
  assert (Hb : ~ In 45%N buff) by (intros X; apply Hn; eapply in_slice; exact X).
  destruct buff as [|x buff']; [discriminate|]. set (bf := x :: buff') in *.
  destruct (zlen bf =? f_bhsize fm); [|discriminate].
  assert (Hsl : forall a n, ~ In 45%N (slice a n bf)) by (intros i j X; apply Hb; eapply in_slice; exact X).
  destruct (int_of_bytes 16 (slice 2 _ bf)) as [d|] eqn:E1; [|discriminate]. cbn [bind] in H.
  destruct (int_of_bytes 16 (slice (3 + _) _ bf)) as [c|] eqn:E2; [|discriminate]. cbn [bind] in H.
  destruct (int_of_bytes 16 (slice (4 + _ + _) _ bf)) as [n|] eqn:E3; [|discriminate]. cbn [bind] in H.
  apply int_of_bytes_nonneg in E1, E2, E3; try lia; try apply Hsl.
  unfold read_at in H.
  set (k := Z.min c _) in *.
  assert (Hk : 0 <= k) by (unfold k; destruct mx; lia).
  replace (k <? -1) with false in H by lia. replace (k =? -1) with false in H by lia. cbn [bind] in H.
  apply Ok_inj in H. injection H as <-. cbn [b_doc b_cur b_next b_data].
  repeat split; try assumption. unfold slice. rewrite zlen_ztake, zlen_zdrop. unfold k in *. destruct mx; lia.
Qed.

Lemma gen_rest_bound fm coff file : ~ In 45%N file -> forall fuel left next r, 0 <= left ->
  gen_rest fuel fm coff file left next = Ok r -> zlen (concat r) <= left.
Proof.
  intros Hn. induction fuel as [|fuel IH]; intros left next r Hl; cbn [gen_rest].
  - destruct (_ && _); [discriminate|]. intros E; apply Ok_inj in E; subst. unfold zlen; cbn [concat length]. lia.
  - destruct ((0 <? left) && negb (next =? f_end fm)) eqn:C.
    2: { intros E; apply Ok_inj in E; subst. unfold zlen; cbn [concat length]. lia. }
    destruct (read_block fm coff file next (Some left)) as [[b|]|] eqn:R; [|discriminate|discriminate]. cbn [bind].
    destruct (read_block_bound fm coff file next (Some left) b Hn Hl R) as (_ & _ & _ & B).
    destruct (gen_rest fuel fm coff file (left - zlen (b_data b)) (b_next b)) as [r'|] eqn:G; [|discriminate]. cbn [bind].
    intros E; apply Ok_inj in E; subst. cbn [concat]. rewrite zlen_app.
    assert (zlen (concat r') <= left - zlen (b_data b)) by (eapply IH; [|exact G]; lia). lia.
Qed.

Theorem doc_read_bounded fuel fm coff file off min_bs d ds full : ~ In 45%N file ->
  doc_read fuel fm coff file off min_bs = Ok (d, ds, full) -> zlen d <= ds.
Proof.
  intros Hn H. unfold doc_read in H. destruct (gen_start fm coff file off min_bs) as [g|] eqn:G; [|discriminate].
  cbn [bind] in H. destruct (gen_drain fuel fm coff file g) as [dd|] eqn:D; [|discriminate]. cbn [bind] in H.
  apply Ok_inj in H. injection H as -> <- <-.
  unfold gen_start in G. destruct (read_block fm coff file off None) as [[b|]|] eqn:R; [|discriminate|discriminate].
  cbn [bind] in G.
  destruct (read_block_bound fm coff file off None b Hn I R) as (B1 & B2 & _ & B3).
  match type of G with bind ?e _ = _ => destruct e as [fl|] end; [|discriminate]. cbn [bind] in G.
  apply Ok_inj in G. subst g. cbn [g_doc]. unfold gen_drain in D. cbn [g_doc g_first g_next] in D.
  destruct (gen_rest fuel fm coff file (b_doc b - zlen (b_data b)) (b_next b)) as [r|] eqn:GR; [|discriminate]. cbn [bind] in D.
  apply Ok_inj in D. subst d. rewrite zlen_app.
  apply gen_rest_bound in GR; [|exact Hn|lia]. lia.
Qed.

(** ** Termination *)
(** the (remaining length, next block) pairs the read loop goes through *)
Inductive visits (fm : cfmt) (coff : Z) (file : list N) (left0 next0 : Z) : Z -> Z -> Prop :=
| v_first : visits fm coff file left0 next0 left0 next0
| v_next left next b : visits fm coff file left0 next0 left next ->
    0 < left -> next <> f_end fm ->
    read_block fm coff file next (Some left) = Ok (Some b) ->
    visits fm coff file left0 next0 (left - zlen (b_data b)) (b_next b).

Lemma visits_trans fm coff file l0 n0 l1 n1 b : 0 < l0 -> n0 <> f_end fm ->
  read_block fm coff file n0 (Some l0) = Ok (Some b) ->
  visits fm coff file (l0 - zlen (b_data b)) (b_next b) l1 n1 -> visits fm coff file l0 n0 l1 n1.
Proof.
  intros H1 H2 H3 V. induction V.
  - eapply v_next; eauto. constructor.
  - eapply v_next; eauto.
Qed.

Lemma gen_rest_terminates fm coff file : forall fuel left next,
  (forall l n b, visits fm coff file left next l n -> 0 < l -> n <> f_end fm ->
     read_block fm coff file n (Some l) = Ok (Some b) -> b_data b <> []) ->
  (Z.to_nat left <= fuel)%nat -> gen_rest fuel fm coff file left next <> Err Timeout.
Proof.
  induction fuel as [|fuel IH]; intros left next Hv Hf; cbn [gen_rest].
  - replace (0 <? left) with false by lia. discriminate.
  - destruct ((0 <? left) && negb (next =? f_end fm)) eqn:C; [|discriminate].
    assert (Hl : 0 < left) by lia. assert (Hne : next <> f_end fm) by lia.
    destruct (read_block fm coff file next (Some left)) as [[b|]|e] eqn:R.
    + cbn [bind]. assert (Hd : b_data b <> []) by (eapply Hv; [apply v_first| | |exact R]; assumption).
      assert (0 < zlen (b_data b)) by (destruct (b_data b) as [|x t]; [congruence|rewrite zlen_cons; pose proof (zlen_nonneg t); lia]).
      assert (Hr : gen_rest fuel fm coff file (left - zlen (b_data b)) (b_next b) <> Err Timeout).
      { apply IH; [|lia]. intros l n b' V. apply Hv. eapply visits_trans; eauto. }
      destruct (gen_rest fuel fm coff file _ _) as [r|e]; cbn [bind]; congruence.
    + cbn [bind]. discriminate.
    + cbn [bind]. intros E. injection E as ->. revert R. unfold read_block, check_seek, read_at.
      repeat match goal with
      | |- context [if ?c then _ else _] => destruct c; cbn [bind]; try discriminate
      | |- context [match slice ?a ?b ?c with _ => _ end] => destruct (slice a b c); cbn [bind]; try discriminate
      | |- context [int_of_bytes ?a ?b] => let E := fresh in destruct (int_of_bytes a b) eqn:E; cbn [bind];
          [|unfold int_of_bytes, int_parse in E; match type of E with match ?m with _ => _ end = _ => destruct m; inversion E; discriminate end]
      end; discriminate.
Qed.

(** ** Small facts used by the property file *)
Lemma small_count fm es : good_fmt fm -> container_size (layout_of fm) es < 2147483647 -> zlen es < 2 ^ 31.
Proof.
  intros Hg H. unfold container_size in H.
  assert (Hb : 0 <= l_block_header (layout_of fm)) by (destruct Hg as [-> | ->]; discriminate).
  assert (Hi : 0 < l_index_block (layout_of fm)) by (destruct Hg as [-> | ->]; reflexivity).
  assert (Hh : 0 < l_header (layout_of fm)) by (destruct Hg as [-> | ->]; reflexivity).
  assert (Hsum : zlen es <= sumz (map (entry_size (layout_of fm)) es)).
  { clear - Hb. induction es as [|e es IH]; [unfold zlen; cbn; lia|]. cbn [map sumz fold_right]. rewrite zlen_cons.
    unfold entry_size at 1. pose proof (utf16_size_nonneg (e_name e)). unfold sumz in *. lia. }
  assert (Ht : 0 <= toc_size (layout_of fm) es).
  { unfold toc_size. apply Z.mul_nonneg_nonneg; [destruct Hg as [-> | ->]; discriminate|apply zlen_nonneg]. }
  change (2 ^ 31) with 2147483648.
  destruct (_ <=? _); [lia|].
  assert (Hq : 0 <= (toc_size (layout_of fm) es + l_index_block (layout_of fm) - 1) / l_index_block (layout_of fm)) by (apply Z.div_pos; lia).
  set (q := _ / _) in *.
  assert (0 <= q * (l_block_header (layout_of fm) + l_index_block (layout_of fm))) by (apply Z.mul_nonneg_nonneg; lia).
  lia.
Qed.

Lemma field_exact_iff fm v : good_fmt fm -> 0 <= v ->
  (int_of_bytes 16 (hexfield fm v) = Ok v <-> v < 16 ^ Z.of_nat (f_hexw fm))
  /\ (16 ^ Z.of_nat (f_hexw fm) <= v -> exists v', int_of_bytes 16 (hexfield fm v) = Ok v' /\ 0 <= v' < v).
Proof.
  intros Hg Hv. pose proof (good_ok _ Hg) as Hf. pose proof (fo_hexw _ Hf) as Hw.
  assert (Ho : 16 ^ Z.of_nat (f_hexw fm) <= v -> exists v', int_of_bytes 16 (hexfield fm v) = Ok v' /\ 0 <= v' < v).
  { intros H. destruct (hexfield_overflow fm v Hw H) as (v' & A & B & C). exists v'. auto. }
  split; [|exact Ho]. split.
  - intros E. destruct (Z_lt_ge_dec v (16 ^ Z.of_nat (f_hexw fm))); [assumption|].
    destruct (Ho ltac:(lia)) as (v' & A & B). rewrite E in A. apply Ok_inj in A. lia.
  - intros H. apply hexfield_parse; [exact Hw|lia].
Qed.

Lemma overflow_write f data minb : fpos f = fsize f -> 4294967296 <= zlen data ->
  forall f' off, doc_write fmt32 f data minb = (f', off) ->
  exists wrong, wrong <> zlen data /\ int_of_bytes 16 (slice (off + 2) 8 (fdata f')) = Ok wrong.
Proof.
  intros Hp Hd f' off H. unfold doc_write in H.
  destruct (write_block_append fmt32 f data (zlen data) minb None fmt32_ok Hp) as (f1 & W & D & P).
  rewrite W in H. injection H as <- <-.
  destruct (hexfield_overflow fmt32 (zlen data) ltac:(cbn; lia) Hd) as (v & A & B & C).
  exists v. split; [lia|]. rewrite D. unfold blk. rewrite block_header_eq.
  rewrite <- !app_assoc, app_assoc, slice_app_mid; [exact A| |apply hexfield_len].
  rewrite zlen_app. reflexivity.
Qed.

(** "\r\n-0000001 00000000 7fffffff \r\n" followed by three bytes *)
Definition minus_file : list N := Eval vm_compute in
  [13; 10]%N ++ u "-0000001 00000005 7fffffff "%string ++ [13; 10; 1; 2; 3]%N.
Lemma minus_witness : exists file d ds full,
  doc_read 0 fmt32 0 file 0 0 = Ok (d, ds, full) /\ ds < zlen d.
Proof. exists minus_file. eexists _, _, _. vm_compute. split; reflexivity. Qed.

(** a one-byte block followed by an empty block that names itself as the next one *)
Definition hang_file : list N := Eval vm_compute in
  [13; 10]%N ++ u "00000005 00000001 00000020 "%string ++ [13; 10; 65]%N
  ++ [13; 10]%N ++ u "00000000 00000000 00000020 "%string ++ [13; 10]%N.
Lemma hang_witness : exists file, zlen file = 63 /\ forall fuel, doc_read fuel fmt32 0 file 0 0 = Err Timeout.
Proof.
  exists hang_file. split; [reflexivity|]. intros fuel.
  assert (G : gen_start fmt32 0 hang_file 0 0 = Ok (mkgen 5 [65%N] 32 5)) by (vm_compute; reflexivity).
  unfold doc_read. rewrite G. cbn [bind]. unfold gen_drain. cbn [g_doc g_first g_next].
  change (5 - zlen [65%N]) with 4.
  assert (R : read_block fmt32 0 hang_file 32 (Some 4) = Ok (Some (mkblock 0 0 32 []))) by (vm_compute; reflexivity).
  assert (L : gen_rest fuel fmt32 0 hang_file 4 32 = Err Timeout).
  { induction fuel as [|fuel IH]; [reflexivity|]. cbn [gen_rest].
    change ((0 <? 4) && negb (32 =? f_end fmt32)) with true. cbv iota. rewrite R. cbn [bind b_data b_next].
    change (4 - zlen (@nil N)) with 4. rewrite IH. reflexivity. }
  rewrite L. reflexivity.
Qed.
