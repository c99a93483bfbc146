(** Proofs: files that a stopped build or a broken copy leaves behind. *)
From Verif Require Import PyBase PyInt Utf PyFile Container Spec_Container ContainerHex ContainerToc ContainerProofs ContainerMore.
Open Scope Z_scope.

(** ** int() of a field with a zero byte *)
Lemma lstrip_keeps sp s (c : N) : sp c = false -> In c s -> In c (lstrip_by sp s).
Proof.
  intros Hc. induction s as [|x s IH]; [intros []|]. cbn [lstrip_by]. intros [->|H].
  - rewrite Hc. left; reflexivity.
  - destruct (sp x); [apply IH; exact H|right; exact H].
Qed.
Lemma strip_keeps sp s (c : N) : sp c = false -> In c s -> In c (strip_by sp s).
Proof.
  intros Hc H. unfold strip_by, rstrip_by. rewrite <- in_rev. apply lstrip_keeps; [exact Hc|].
  rewrite <- in_rev. apply lstrip_keeps; assumption.
Qed.
Lemma parse_digits_zero s : In 0%N s -> forall acc us, parse_digits 16 acc us s = None.
Proof.
  induction s as [|x s IH]; [intros []|]. intros H acc us. cbn [parse_digits].
  destruct (N.eqb_spec x 95).
  - destruct us; [reflexivity|]. apply IH. destruct H as [->|H]; [discriminate|exact H].
  - destruct (digit_val 16 x) eqn:E; [|reflexivity]. apply IH.
    destruct H as [->|H]; [cbn in E; discriminate|exact H].
Qed.
Lemma strip_0x_keeps s : In 0%N s -> In 0%N (strip_0x s).
Proof.
  unfold strip_0x. destruct s as [|a [|b t]]; try (intros H; exact H).
  destruct (N.eqb_spec a 48); [|intros H; exact H].
  destruct (N.eqb_spec b 120) as [Eb|Eb]; [|destruct (N.eqb_spec b 88) as [Eb2|Eb2]];
    cbn [andb orb]; try (intros H; exact H); subst;
    (intros [H|[H|H]]; [discriminate|discriminate|]; destruct t as [|c t]; [destruct H|];
     destruct (N.eqb_spec c 95) as [Ec|Ec]; [subst; destruct H as [H|H]; [discriminate|exact H]|exact H]).
Qed.
Lemma int_zero s : In 0%N s -> int_of_bytes 16 s = Err ValueError.
Proof.
  intros H. unfold int_of_bytes, int_parse.
  assert (HS : In 0%N (strip_by is_space_ascii s)) by (apply strip_keeps; [reflexivity|exact H]).
  destruct (strip_by is_space_ascii s) as [|c t] eqn:E; [destruct HS|].
  assert (PU : forall x, In 0%N x -> parse_unsigned 16 x = None).
  { intros x Hx. unfold parse_unsigned. change (16 =? 16) with true. cbv iota. apply parse_digits_zero, strip_0x_keeps. exact Hx. }
  destruct (N.eqb_spec c 45) as [->|N1]; [rewrite PU; [reflexivity|destruct HS as [HS|HS]; [discriminate|exact HS]]|].
  destruct (N.eqb_spec c 43) as [->|N2]; [rewrite PU; [reflexivity|destruct HS as [HS|HS]; [discriminate|exact HS]]|].
  rewrite PU; [reflexivity|exact HS].
Qed.

(** ** No step raises EOFError but detect_format *)
Lemma bind_no_eof {A B} (r : res A) (k : A -> res B) :
  r <> Err EOFError -> (forall a, r = Ok a -> k a <> Err EOFError) -> bind r k <> Err EOFError.
Proof. destruct r; cbn; intros H1 H2; [apply H2; reflexivity|congruence]. Qed.
Lemma int_no_eof s : int_of_bytes 16 s <> Err EOFError.
Proof. unfold int_of_bytes, int_parse. destruct (match strip_by _ _ with [] => _ | _ => _ end); discriminate. Qed.
Lemma check_seek_no_eof p : check_seek p <> Err EOFError.
Proof. unfold check_seek. destruct (_ <? _); [discriminate|]. destruct (_ <=? _); discriminate. Qed.
Lemma read_at_no_eof f p n : read_at f p n <> Err EOFError.
Proof. unfold read_at. destruct (_ <? _); [discriminate|]. destruct (_ =? _); discriminate. Qed.
Lemma read_block_no_eof fm coff file off m : read_block fm coff file off m <> Err EOFError.
Proof.
  unfold read_block. cbv zeta. apply bind_no_eof; [apply check_seek_no_eof|]. intros _ _.
  destruct (slice _ _ file) eqn:Eb; [discriminate|]. rewrite <- Eb.
  destruct (_ =? _); [|discriminate].
  repeat (apply bind_no_eof; [apply int_no_eof|]; intros ? _).
  apply bind_no_eof; [apply read_at_no_eof|]. intros ? _. discriminate.
Qed.
Lemma gen_start_no_eof fm coff file off m : gen_start fm coff file off m <> Err EOFError.
Proof.
  unfold gen_start. apply bind_no_eof; [apply read_block_no_eof|]. intros [b|] _; [|discriminate].
  cbv zeta. apply bind_no_eof; [|discriminate].
  destruct (_ <? _); [|discriminate]. destruct (_ =? _); discriminate.
Qed.
Lemma gen_rest_no_eof fm coff file : forall fuel left next, gen_rest fuel fm coff file left next <> Err EOFError.
Proof.
  induction fuel as [|k IH]; intros left next; cbn [gen_rest]; destruct (_ && _); try discriminate.
  apply bind_no_eof; [apply read_block_no_eof|]. intros [b|] _; [|discriminate].
  apply bind_no_eof; [apply IH|]. discriminate.
Qed.
Lemma gen_drain_no_eof fuel fm coff file g : gen_drain fuel fm coff file g <> Err EOFError.
Proof. unfold gen_drain. apply bind_no_eof; [apply gen_rest_no_eof|]. discriminate. Qed.
Lemma doc_read_no_eof fuel fm coff file off m : doc_read fuel fm coff file off m <> Err EOFError.
Proof.
  unfold doc_read. apply bind_no_eof; [apply gen_start_no_eof|]. intros g _.
  apply bind_no_eof; [apply gen_drain_no_eof|]. discriminate.
Qed.
Lemma units_of_no_eof be : forall n bs, (length bs <= n)%nat -> units_of be bs <> Err EOFError.
Proof.
  induction n as [|n IH]; intros [|a [|b t]] H; cbn [units_of]; try discriminate; cbn [length] in H; [lia|].
  apply bind_no_eof; [apply IH; lia|]. discriminate.
Qed.
Lemma utf16_chars_no_eof : forall n us, (length us <= n)%nat -> utf16_chars us <> Err EOFError.
Proof.
  induction n as [|n IH]; intros [|x t] H; cbn [utf16_chars]; try discriminate; cbn [length] in H; [lia|].
  destruct (is_surrogate x).
  - destruct t as [|y t]; [discriminate|]. cbn [length] in H. destruct (_ && _); [|discriminate].
    apply bind_no_eof; [apply IH; lia|]. discriminate.
  - apply bind_no_eof; [apply IH; lia|]. discriminate.
Qed.
Lemma utf16_decode_no_eof bs : utf16_decode bs <> Err EOFError.
Proof.
  assert (G : forall be b, (r <- units_of be b ;; utf16_chars r) <> Err EOFError).
  { intros be b. apply bind_no_eof; [eapply units_of_no_eof; reflexivity|]. intros a _. eapply utf16_chars_no_eof; reflexivity. }
  unfold utf16_decode. repeat match goal with |- context [match ?x with _ => _ end] => destruct x; try apply G end.
Qed.
Lemma parse_description_no_eof d n : parse_description d n <> Err EOFError.
Proof.
  unfold parse_description. cbv zeta. destruct (_ || _); [discriminate|].
  apply bind_no_eof; [apply utf16_decode_no_eof|]. discriminate.
Qed.
Lemma pack_int_no_eof s w v : pack_int s w v <> Err EOFError.
Proof. unfold pack_int. cbv zeta. destruct (_ && _); discriminate. Qed.
Lemma unpack_pairs_no_eof fm ps : unpack_pairs fm ps <> Err EOFError.
Proof.
  induction ps as [|x ps IH]; cbn [unpack_pairs]; [discriminate|]. cbv zeta.
  destruct (_ =? _); [|discriminate]. apply bind_no_eof; [exact IH|]. discriminate.
Qed.
Lemma parse_toc_no_eof fm d : parse_toc fm d <> Err EOFError.
Proof. unfold parse_toc. apply bind_no_eof; [apply pack_int_no_eof|]. intros m _. apply unpack_pairs_no_eof. Qed.
Lemma read_entries_no_eof fuel fm dbs coff file : forall toc size files, read_entries fuel fm dbs coff file toc size files <> Err EOFError.
Proof.
  induction toc as [|[a o] toc IH]; intros size files; cbn [read_entries]; [discriminate|].
  apply bind_no_eof; [apply doc_read_no_eof|]. intros [[d ds] f1] _.
  apply bind_no_eof; [apply parse_description_no_eof|]. intros [[nm ct] mt] _.
  apply bind_no_eof; [apply gen_start_no_eof|]. intros g _. apply IH.
Qed.
Lemma read_header_no_eof fm coff file : read_header fm coff file <> Err EOFError.
Proof.
  unfold read_header. apply bind_no_eof; [apply check_seek_no_eof|]. intros _ _. cbv zeta. destruct (_ =? _); discriminate.
Qed.
Lemma read_container_no_eof fuel fm file coff : read_container fuel fm file coff <> Err EOFError.
Proof.
  unfold read_container. apply bind_no_eof; [apply read_header_no_eof|]. intros [dbs c] _.
  destruct (_ =? _); [discriminate|]. apply bind_no_eof; [apply doc_read_no_eof|]. intros [[d ds] full] _.
  apply bind_no_eof; [apply parse_toc_no_eof|]. intros toc _. apply read_entries_no_eof.
Qed.
Lemma extract_files_no_eof fuel fm coff file : forall fs, extract_files fuel fm coff file fs <> Err EOFError.
Proof.
  induction fs as [|[n c] fs IH]; cbn [extract_files]; [discriminate|].
  apply bind_no_eof; [apply gen_drain_no_eof|]. intros d _. apply bind_no_eof; [exact IH|]. discriminate.
Qed.
(** a scan that succeeds on a non-empty file read a first container *)
Lemma extract_all_ok n fuel file outs : file <> [] -> extract_all n fuel file = Ok outs ->
  exists fm fs size out rest, detect_format file 0 = Ok fm /\ read_container fuel fm file 0 = Ok (fs, size)
    /\ extract_files fuel fm 0 file fs = Ok out /\ outs = out :: rest.
Proof.
  intros Hne. unfold extract_all. destruct n as [|n]; cbn [extract_scan]; [discriminate|]. cbv zeta.
  destruct (detect_format file 0) as [fm|e] eqn:D; cbn [bind].
  2:{ unfold detect_format in D. change (check_seek 0) with (Ok tt) in D. cbn [bind] in D. cbv zeta in D.
      destruct (str_eqb _ _); [discriminate|]. destruct (slice 0 8 file) eqn:S; [|discriminate].
      exfalso. destruct file as [|c t]; [congruence|]. discriminate S. }
  destruct (read_container fuel fm file 0) as [[fs size]|e] eqn:R; cbn [bind].
  2:{ pose proof (read_container_no_eof fuel fm file 0) as H. rewrite R in H. destruct e; try discriminate. congruence. }
  destruct (extract_files fuel fm 0 file fs) as [out|e] eqn:X; cbn [bind].
  2:{ pose proof (extract_files_no_eof fuel fm 0 file fs) as H. rewrite X in H. destruct e; try discriminate. congruence. }
  destruct (_ =? 0); [discriminate|].
  destruct (extract_scan n fuel file (0 + size)) as [r|e] eqn:S; cbn [bind]; [|discriminate].
  intros E. injection E as <-. exists fm, fs, size, out, r. repeat split; assumption.
Qed.

Lemma slice_slice a n b m (f : list N) : 0 <= a -> 0 <= b -> a + n <= m -> slice a n (slice b m f) = slice (b + a) n f.
Proof.
  intros Ha Hb Hm. unfold slice. replace (b + a) with (a + b) by lia. rewrite <- (@zdrop_zdrop N a b f) by assumption.
  set (l := zdrop b f). unfold ztake, zdrop. rewrite skipn_firstn_comm, firstn_firstn. f_equal. lia.
Qed.
Lemma ztake_split a b (l : list N) : 0 <= a <= b -> ztake b l = ztake a l ++ ztake (b - a) (zdrop a l).
Proof.
  intros H. rewrite <- (ztake_drop a (ztake b l)). f_equal.
  - unfold ztake. rewrite firstn_firstn. f_equal. lia.
  - unfold ztake, zdrop. rewrite skipn_firstn_comm. f_equal. lia.
Qed.

(** ** Reading a block whose header may be incomplete *)
(** the header holds a zero byte in its third field, or the file ends before the header does *)
Lemma read_block_broken fm file off mx : fmt_ok fm -> 0 <= off ->
  (zlen file < off + f_bhsize fm \/ slice (off + f_bhsize fm - 4) 1 file = [0%N]) ->
  forall b, read_block fm 0 file off mx <> Ok (Some b).
Proof.
  intros Hf Ho H b. pose proof (fo_bh _ Hf) as Hb. pose proof (fo_hexw _ Hf) as Hw.
  unfold read_block. rewrite Z.add_0_r. destruct (check_seek off); cbn [bind]; [|discriminate].
  set (buff := slice off (f_bhsize fm) file).
  assert (LB : zlen buff = Z.max 0 (Z.min (f_bhsize fm) (Z.max 0 (zlen file - Z.max 0 off)))) by (unfold buff, slice; rewrite zlen_ztake, zlen_zdrop; reflexivity).
  destruct buff as [|x t] eqn:Eb; [discriminate|]. rewrite <- Eb in *. clear Eb x t.
  destruct (Z.eqb_spec (zlen buff) (f_bhsize fm)) as [E|E]; [|discriminate].
  destruct H as [H|H]; [lia|]. cbv zeta.
  set (w := Z.of_nat (f_hexw fm)) in *.
  destruct (int_of_bytes 16 (slice 2 w buff)); cbn [bind]; [|discriminate].
  destruct (int_of_bytes 16 (slice (3 + w) w buff)); cbn [bind]; [|discriminate].
  rewrite int_zero; [discriminate|].
  assert (SP : slice (4 + w + w) w buff = slice (off + (4 + w + w)) (w - 1) file ++ slice (off + f_bhsize fm - 4) 1 file).
  { unfold buff. rewrite slice_slice by lia.
    unfold slice at 1. rewrite (ztake_split (w - 1) w) by lia. f_equal. unfold slice.
    rewrite zdrop_zdrop by lia. f_equal; [lia|]. f_equal. lia. }
  rewrite SP, H. apply in_or_app. right. left. reflexivity.
Qed.

(** ** Reading a block whose header is there, whatever its data *)
Lemma slice_at off a w L H file : at_ off (ztake L H) file -> 0 <= a -> a + w <= L -> 0 <= w -> L <= zlen H ->
  slice (off + a) w file = slice a w H.
Proof.
  intros At Ha Hw Hw0 HL. pose proof (at_bound _ _ _ At) as [B1 B2].
  assert (E1 : slice off L file = ztake L H).
  { rewrite (at_slice _ L _ _ At) by (rewrite zlen_ztake; lia). apply ztake_all. rewrite zlen_ztake. lia. }
  rewrite <- (slice_slice a w off L file) by lia. rewrite E1.
  change (ztake L H) with (slice 0 L H). rewrite slice_slice by lia. reflexivity.
Qed.
Lemma read_block_core fm file off mx d b n : fmt_ok fm ->
  let M := 16 ^ Z.of_nat (f_hexw fm) in
  0 <= d < M -> 0 <= b < M -> 0 <= n < M -> off < 2 ^ 63 ->
  at_ off (ztake (f_bhsize fm - 3) (block_header fm d b n)) file -> off + f_bhsize fm <= zlen file ->
  let k := Z.min b (match mx with None => Z.min b d | Some m => m end) in
  0 <= k ->
  read_block fm 0 file off mx = Ok (Some (mkblock d b n (slice (off + f_bhsize fm) k file))).
Proof.
  intros Hf M Hd Hb Hn Hoff At Hlen k Hk. unfold read_block. rewrite Z.add_0_r.
  pose proof (at_bound _ _ _ At) as [H0 _]. pose proof (fo_bh _ Hf) as Hbh. pose proof (fo_hexw _ Hf) as Hw.
  unfold check_seek. replace (off <? 0) with false by lia. replace (2 ^ 63 <=? off) with false by lia. cbn [bind].
  set (buff := slice off (f_bhsize fm) file).
  assert (LB : zlen buff = f_bhsize fm) by (unfold buff, slice; rewrite zlen_ztake, zlen_zdrop; lia).
  destruct buff as [|x t] eqn:Eb; [rewrite zlen_nil in LB; lia|]. rewrite <- Eb in *. clear Eb x t.
  rewrite LB, Z.eqb_refl. cbv zeta.
  pose proof (block_header_fields fm d b n Hf) as (F1 & F2 & F3). cbv zeta in F1, F2, F3.
  set (w := Z.of_nat (f_hexw fm)) in *.
  assert (G : forall a, 0 <= a -> a + w <= f_bhsize fm - 3 -> slice a w buff = slice a w (block_header fm d b n)).
  { intros a Ha Haw. unfold buff. rewrite slice_slice by lia.
    apply (slice_at off a w (f_bhsize fm - 3)); try assumption; try lia. rewrite block_header_len by exact Hf. lia. }
  rewrite !G by lia. rewrite F1, F2, F3. rewrite !hexfield_parse by (try exact Hw; assumption). cbn [bind].
  fold k. unfold read_at. replace (k <? -1) with false by lia. replace (k =? -1) with false by lia. reflexivity.
Qed.
Lemma gen_start_broken fm file off m g : (forall b, read_block fm 0 file off None <> Ok (Some b)) -> gen_start fm 0 file off m <> Ok g.
Proof.
  intros H. unfold gen_start. destruct (read_block fm 0 file off None) as [[b|]|e] eqn:E; cbn [bind]; [|discriminate|discriminate].
  exfalso. apply (H b). reflexivity.
Qed.
Lemma gen_start_inv fm file off m b g : read_block fm 0 file off None = Ok (Some b) -> gen_start fm 0 file off m = Ok g ->
  g_first g = b_data b /\ g_next g = b_next b /\ g_doc g = b_doc b.
Proof.
  intros E. unfold gen_start. rewrite E. cbn [bind]. cbv zeta.
  destruct (if b_cur b <? _ then _ else _) as [full|e]; cbn [bind]; [|discriminate].
  intros X. injection X as <-. repeat split.
Qed.
Lemma drain_end fuel fm file g : g_next g = f_end fm -> gen_drain fuel fm 0 file g = Ok (g_first g).
Proof.
  intros E. unfold gen_drain. rewrite E.
  assert (G : gen_rest fuel fm 0 file (g_doc g - zlen (g_first g)) (f_end fm) = Ok []).
  { destruct fuel; cbn [gen_rest]; rewrite Z.eqb_refl, andb_false_r; reflexivity. }
  rewrite G. cbn [bind concat]. rewrite app_nil_r. reflexivity.
Qed.
Lemma rest_beyond fuel fm file left nx r : 0 < f_bhsize fm -> 0 < left -> nx <> f_end fm -> 0 <= nx -> zlen file <= nx ->
  gen_rest fuel fm 0 file left nx <> Ok r.
Proof.
  intros Hb Hl Hn H0 Hz. destruct fuel as [|k]; cbn [gen_rest]; replace ((0 <? left) && negb (nx =? f_end fm)) with true by lia; [discriminate|].
  assert (E : forall b, read_block fm 0 file nx (Some left) <> Ok (Some b)).
  { intros b. unfold read_block. rewrite Z.add_0_r. destruct (check_seek nx); cbn [bind]; [|discriminate].
    unfold slice at 1. rewrite zdrop_all by lia. replace (ztake (f_bhsize fm) (@nil N)) with (@nil N) by (unfold ztake; rewrite firstn_nil; reflexivity). discriminate. }
  destruct (read_block fm 0 file nx (Some left)) as [[b|]|e] eqn:X; cbn [bind]; [|discriminate|discriminate].
  exfalso. apply (E b). reflexivity.
Qed.
Lemma starts_longer sep : forall s q, starts sep s = false -> starts sep (s ++ q) = true -> (length s < length sep)%nat.
Proof.
  induction sep as [|x sep IH]; intros s q; [discriminate|].
  destruct s as [|y s]; cbn [starts app length]; [intros; lia|].
  destruct (N.eqb x y); cbn [andb]; [|discriminate]. intros A B. specialize (IH _ _ A B). lia.
Qed.
Lemma starts_short sep : forall s, (length s < length sep)%nat -> starts sep s = false.
Proof.
  induction sep as [|x sep IH]; intros [|y s] H; cbn [length] in H; try lia; [reflexivity|]. cbn [starts].
  rewrite IH by lia. apply andb_false_r.
Qed.
Lemma starts_mono sep : forall s q, starts sep s = true -> starts sep (s ++ q) = true.
Proof.
  induction sep as [|x sep IH]; intros [|y s] q; cbn [starts app]; try reflexivity; [discriminate|].
  destruct (N.eqb x y); cbn [andb]; [apply IH|discriminate].
Qed.
Lemma split_short sep s : (length s < length sep)%nat -> split_go sep 0 s = [s].
Proof.
  induction s as [|c s IH]; [reflexivity|]. intros H. cbn [split_go]. rewrite starts_short by exact H.
  rewrite IH by (cbn [length] in H; lia). reflexivity.
Qed.
Lemma removelast_cons {A} (x : A) l : l <> [] -> removelast (x :: l) = x :: removelast l.
Proof. destruct l; [congruence|reflexivity]. Qed.
Lemma split_prefix sep q : forall p k, exists r, removelast (split_go sep k (p ++ q)) = removelast (split_go sep k p) ++ r.
Proof.
  induction p as [|c p IH]; intros k; [exists (removelast (split_go sep k q)); reflexivity|].
  cbn [app split_go]. destruct k as [|k]; [|apply IH].
  destruct (starts sep (c :: p)) eqn:S1.
  - pose proof (starts_mono sep (c :: p) q S1) as S2. cbn [app] in S2. rewrite S2.
    rewrite !removelast_cons by apply split_go_nonnil. destruct (IH (length sep - 1)%nat) as (r & R). exists r. rewrite R. reflexivity.
  - destruct (starts sep (c :: p ++ q)) eqn:S2.
    + pose proof (starts_longer sep (c :: p) q S1 S2) as L. rewrite (split_short sep p) by (cbn [length] in L; lia).
      eexists. reflexivity.
    + destruct (IH 0%nat) as (r & R). pose proof (split_go_nonnil sep p 0) as N1. pose proof (split_go_nonnil sep (p ++ q) 0) as N2.
      destruct (split_go sep 0 p) as [|x [|y l]]; [congruence|eexists; reflexivity|].
      destruct (split_go sep 0 (p ++ q)) as [|x' [|y' l']]; [congruence|discriminate R|].
      unfold cons_first. rewrite (removelast_cons x') in R by discriminate. rewrite (removelast_cons x) in R by discriminate.
      rewrite (removelast_cons (c :: x')) by discriminate. rewrite (removelast_cons (c :: x)) by discriminate.
      cbn [app] in R |- *. injection R as -> R. exists r. f_equal. exact R.
Qed.
Lemma starts_zeros_last front z : z <> 0%N -> forall s m, starts (front ++ [z]) s = false -> starts (front ++ [z]) (s ++ repeat 0%N m) = false.
Proof.
  intros Hz. induction front as [|x front IH]; intros s m; cbn [app].
  - destruct s as [|y s]; cbn [starts app]; [|intros H; exact H]. intros _. destruct m; cbn [repeat]; [reflexivity|].
    apply N.eqb_neq in Hz. rewrite Hz. reflexivity.
  - destruct s as [|y s]; cbn [starts app].
    + intros _. destruct m; cbn [repeat]; [reflexivity|].
      change (repeat 0%N m) with ([] ++ repeat 0%N m). rewrite IH; [apply andb_false_r|].
      destruct front; reflexivity.
    + destruct (N.eqb x y); cbn [andb]; [apply IH|reflexivity].
Qed.
Lemma split_zeros front z m : z <> 0%N -> forall p k,
  removelast (split_go (front ++ [z]) k (p ++ repeat 0%N m)) = removelast (split_go (front ++ [z]) k p).
Proof.
  intros Hz. induction p as [|c p IH]; intros k.
  - cbn [app]. cbn [split_go removelast]. revert k. induction m as [|m IHm]; intros k; [reflexivity|].
    cbn [repeat split_go]. destruct k as [|k]; [|apply IHm].
    assert (S : starts (front ++ [z]) (0%N :: repeat 0%N m) = false).
    { change (0%N :: repeat 0%N m) with ([] ++ repeat 0%N (S m)). apply starts_zeros_last; [exact Hz|]. destruct front; reflexivity. }
    rewrite S. specialize (IHm 0%nat). pose proof (split_go_nonnil (front ++ [z]) (repeat 0%N m) 0) as N1.
    destruct (split_go (front ++ [z]) 0 (repeat 0%N m)) as [|x [|y l]]; [congruence|reflexivity|discriminate IHm].
  - cbn [app split_go]. destruct k as [|k]; [|apply IH].
    destruct (starts (front ++ [z]) (c :: p)) eqn:S1.
    + pose proof (starts_mono _ (c :: p) (repeat 0%N m) S1) as S2. cbn [app] in S2. rewrite S2.
      rewrite !removelast_cons by apply split_go_nonnil. rewrite IH. reflexivity.
    + pose proof (starts_zeros_last front z Hz (c :: p) m S1) as S2. cbn [app] in S2. rewrite S2.
      specialize (IH 0%nat). pose proof (split_go_nonnil (front ++ [z]) p 0) as N1.
      pose proof (split_go_nonnil (front ++ [z]) (p ++ repeat 0%N m) 0) as N2.
      destruct (split_go (front ++ [z]) 0 p) as [|x [|y l]]; [congruence| |];
      (destruct (split_go (front ++ [z]) 0 (p ++ repeat 0%N m)) as [|x' [|y' l']]; [congruence| |]); cbn [cons_first].
      * reflexivity.
      * discriminate IH.
      * discriminate IH.
      * rewrite (removelast_cons x') in IH by discriminate. rewrite (removelast_cons x) in IH by discriminate.
        injection IH as -> IH. rewrite !(removelast_cons (c :: x)) by discriminate.
        f_equal. exact IH.
Qed.
Lemma unpack_pairs_prefix fm a : forall r toc, unpack_pairs fm (a ++ r) = Ok toc -> unpack_pairs fm a = Ok (firstn (length a) toc).
Proof.
  induction a as [|x a IH]; intros r toc; cbn [app unpack_pairs length firstn]; [reflexivity|]. cbv zeta.
  destruct (_ =? _); [|discriminate].
  destruct (unpack_pairs fm (a ++ r)) as [toc'|e] eqn:E; cbn [bind]; [|discriminate].
  intros X. injection X as <-. rewrite (IH _ _ E). reflexivity.
Qed.
(** a cut table of contents, with zeros after it, gives the first entries *)
Lemma parse_toc_cut fm t toc j m : good_fmt fm -> parse_toc fm t = Ok toc ->
  exists k, parse_toc fm (ztake j t ++ zeros m) = Ok (firstn k toc).
Proof.
  intros Hg. unfold parse_toc. rewrite (pack_marker fm Hg). cbn [bind]. intros H.
  unfold split_str in *. unfold marker in *. unfold zeros.
  rewrite split_zeros by (destruct (f_isgn fm); discriminate).
  pose proof (ztake_drop j t) as TD. rewrite <- TD in H.
  set (sep := repeat 255%N (f_iw fm - 1) ++ [if f_isgn fm then 127%N else 255%N]) in *.
  destruct (split_prefix sep (zdrop j t) (ztake j t) 0) as (r & R). rewrite R in H.
  eexists. apply (unpack_pairs_prefix fm _ _ _ H).
Qed.
