(** Reading a container that starts somewhere inside a file. *)
From Verif Require Import PyBase PyInt Utf PyFile Container ContainerHex ContainerToc Spec_Container ContainerProofs ContainerMore.
Open Scope Z_scope.

Section Shift.
Variable pre : list N.
Let L := zlen pre.

Lemma zdrop_shift q (f : list N) : 0 <= q -> zdrop (q + L) (pre ++ f) = zdrop q f.
Proof.
  intros Hq. unfold L, zdrop, zlen. replace (Z.to_nat (q + Z.of_nat (length pre))) with (length pre + Z.to_nat q)%nat by lia.
  rewrite skipn_app. replace (length pre + Z.to_nat q - length pre)%nat with (Z.to_nat q) by lia.
  rewrite skipn_all2 by lia. reflexivity.
Qed.
Lemma slice_shift q n (f : list N) : 0 <= q -> slice (q + L) n (pre ++ f) = slice q n f.
Proof. intros Hq. unfold slice. rewrite zdrop_shift by exact Hq. reflexivity. Qed.
Lemma L_nonneg : 0 <= L.
Proof. apply zlen_nonneg. Qed.
Lemma slice_past q n (f : list N) : zlen f <= q -> slice q n f = [].
Proof. intros H. unfold slice. rewrite zdrop_all by exact H. unfold ztake. apply firstn_nil. Qed.

Variable file : list N.
Hypothesis Hlen : L + zlen file < 2 ^ 63.

Lemma check_seek_ok q : check_seek q = Ok tt -> 0 <= q < 2 ^ 63.
Proof. unfold check_seek. destruct (Z.ltb_spec q 0); [discriminate|]. destruct (Z.leb_spec (2 ^ 63) q); [discriminate|]. lia. Qed.
Lemma check_seek_in q : 0 <= q < 2 ^ 63 -> check_seek q = Ok tt.
Proof. intros H. unfold check_seek. replace (q <? 0) with false by lia. replace (2 ^ 63 <=? q) with false by lia. reflexivity. Qed.

Lemma read_block_shift fm coff off m b : read_block fm coff file off m = Ok (Some b) -> read_block fm (coff + L) (pre ++ file) off m = Ok (Some b).
Proof.
  unfold read_block. cbv zeta. intros H. destruct (check_seek (off + coff)) as [[]|] eqn:E; [|discriminate]. apply check_seek_ok in E. cbn [bind] in H.
  pose proof L_nonneg as HL.
  destruct (Z_lt_le_dec (off + coff) (zlen file)) as [Hin|Hout]; [|rewrite slice_past in H by exact Hout; discriminate].
  rewrite (check_seek_in (off + (coff + L))) by lia. cbn [bind]. replace (off + (coff + L)) with (off + coff + L) by lia. rewrite slice_shift by lia.
  destruct (slice (off + coff) (f_bhsize fm) file) as [|x buff]; [discriminate|]. destruct (zlen (x :: buff) =? f_bhsize fm) eqn:Ez; [|discriminate].
  destruct (int_of_bytes 16 (slice 2 (Z.of_nat (f_hexw fm)) (x :: buff))) as [doc|]; [|discriminate]. cbn [bind] in *.
  destruct (int_of_bytes 16 (slice (3 + Z.of_nat (f_hexw fm)) (Z.of_nat (f_hexw fm)) (x :: buff))) as [cur|]; [|discriminate]. cbn [bind] in *.
  destruct (int_of_bytes 16 (slice (4 + Z.of_nat (f_hexw fm) + Z.of_nat (f_hexw fm)) (Z.of_nat (f_hexw fm)) (x :: buff))) as [next|]; [|discriminate]. cbn [bind] in *.
  assert (Hb : 0 <= f_bhsize fm) by (apply Z.eqb_eq in Ez; rewrite <- Ez; apply zlen_nonneg).
  replace (off + coff + L + f_bhsize fm) with (off + coff + f_bhsize fm + L) by lia. unfold read_at in *.
  rewrite zdrop_shift by lia. rewrite slice_shift by lia. exact H.
Qed.
Lemma gen_start_shift fm coff off m g : gen_start fm coff file off m = Ok g -> gen_start fm (coff + L) (pre ++ file) off m = Ok g.
Proof.
  unfold gen_start. intros H. destruct (read_block fm coff file off None) as [[b|]|] eqn:E; try discriminate. rewrite (read_block_shift _ _ _ _ _ E). exact H.
Qed.
Lemma gen_rest_shift fm coff : forall fuel left next r, gen_rest fuel fm coff file left next = Ok r -> gen_rest fuel fm (coff + L) (pre ++ file) left next = Ok r.
Proof.
  induction fuel as [|fuel IH]; intros left next r H; cbn [gen_rest] in *.
  - destruct ((0 <? left) && negb (next =? f_end fm)); [discriminate|exact H].
  - destruct ((0 <? left) && negb (next =? f_end fm)); [|exact H].
    destruct (read_block fm coff file next (Some left)) as [[b|]|] eqn:E; try discriminate. rewrite (read_block_shift _ _ _ _ _ E). cbn [bind] in *.
    destruct (gen_rest fuel fm coff file (left - zlen (b_data b)) (b_next b)) as [x|] eqn:E2; [|discriminate]. rewrite (IH _ _ _ E2). exact H.
Qed.
Lemma gen_drain_shift fm coff fuel g d : gen_drain fuel fm coff file g = Ok d -> gen_drain fuel fm (coff + L) (pre ++ file) g = Ok d.
Proof.
  unfold gen_drain. destruct (gen_rest fuel fm coff file (g_doc g - zlen (g_first g)) (g_next g)) as [r|] eqn:E; [|discriminate]. rewrite (gen_rest_shift _ _ _ _ _ _ E). auto.
Qed.
Lemma doc_read_shift fm coff fuel off m x : doc_read fuel fm coff file off m = Ok x -> doc_read fuel fm (coff + L) (pre ++ file) off m = Ok x.
Proof.
  unfold doc_read. destruct (gen_start fm coff file off m) as [g|] eqn:E; [|discriminate]. rewrite (gen_start_shift _ _ _ _ _ E). cbn [bind].
  destruct (gen_drain fuel fm coff file g) as [d|] eqn:E2; [|discriminate]. rewrite (gen_drain_shift _ _ _ _ _ E2). auto.
Qed.
Lemma read_entries_shift fm dbs coff fuel : forall toc size files x, read_entries fuel fm dbs coff file toc size files = Ok x -> read_entries fuel fm dbs (coff + L) (pre ++ file) toc size files = Ok x.
Proof.
  induction toc as [|[a d] toc IH]; intros size files x H; cbn [read_entries] in *; [exact H|].
  destruct (doc_read fuel fm coff file a 0) as [[[dd ds] full]|] eqn:E; [|discriminate]. rewrite (doc_read_shift _ _ _ _ _ _ E). cbn [bind] in *.
  destruct (parse_description dd ds) as [[[nm ct] mt]|]; [|discriminate]. cbn [bind] in *.
  destruct (gen_start fm coff file d dbs) as [g|] eqn:E2; [|discriminate]. rewrite (gen_start_shift _ _ _ _ _ E2). cbn [bind] in *. apply IH. exact H.
Qed.
Lemma read_header_shift fm coff x : 0 <= coff -> read_header fm coff file = Ok x -> read_header fm (coff + L) (pre ++ file) = Ok x.
Proof.
  unfold read_header. intros Hc H. destruct (check_seek coff) as [[]|] eqn:E; [|discriminate]. cbn [bind] in H. pose proof L_nonneg.
  rewrite slice_shift by exact Hc. destruct (Z_lt_le_dec coff (zlen file)) as [Hin|Hout].
  - rewrite check_seek_in by lia. exact H.
  - rewrite slice_past in H by exact Hout. change (zlen (@nil N)) with 0 in H. destruct (0 =? Z.of_nat (f_first_w fm) + 12) eqn:Ez; [lia|discriminate].
Qed.
Lemma read_container_shift fuel fm coff x : read_container fuel fm file coff = Ok x -> read_container fuel fm (pre ++ file) (coff + L) = Ok x.
Proof.
  unfold read_container. intros H. assert (Hc : 0 <= coff).
  { unfold read_header in H. destruct (check_seek coff) as [[]|] eqn:E; [|discriminate]. apply check_seek_ok in E. lia. }
  destruct (read_header fm coff file) as [[dbs cnt]|] eqn:E; [|discriminate]. rewrite (read_header_shift _ _ _ Hc E). cbn [bind] in *.
  destruct (dbs =? 0); [discriminate|]. destruct (doc_read fuel fm coff file (f_hsize fm) (f_ibs fm)) as [[[d ds] full]|] eqn:E2; [|discriminate].
  rewrite (doc_read_shift _ _ _ _ _ _ E2). cbn [bind] in *. destruct (parse_toc fm d) as [toc|]; [|discriminate]. cbn [bind] in *. apply read_entries_shift. exact H.
Qed.
Lemma extract_files_shift fuel fm coff : forall fs x, extract_files fuel fm coff file fs = Ok x -> extract_files fuel fm (coff + L) (pre ++ file) fs = Ok x.
Proof.
  induction fs as [|[n c] fs IH]; intros x H; cbn [extract_files] in *; [exact H|].
  destruct (gen_drain fuel fm coff file (c_gen c)) as [d|] eqn:E; [|discriminate]. rewrite (gen_drain_shift _ _ _ _ _ E). cbn [bind] in *.
  destruct (extract_files fuel fm coff file fs) as [r|] eqn:E2; [|discriminate]. rewrite (IH _ eq_refl). exact H.
Qed.
Lemma detect_shift off fm : detect_format file off = Ok fm -> detect_format (pre ++ file) (off + L) = Ok fm.
Proof.
  unfold detect_format. intros H. destruct (check_seek off) as [[]|] eqn:E; [|discriminate]. apply check_seek_ok in E. cbn [bind] in H. pose proof L_nonneg.
  rewrite slice_shift by lia. destruct (Z_lt_le_dec off (zlen file)) as [Hin|Hout].
  - rewrite check_seek_in by lia. exact H.
  - rewrite slice_past in H by exact Hout. discriminate.
Qed.

End Shift.

(** a file is a chain of containers: at its start a container can be read whose reported size is where
    the next one starts *)
Inductive chain (fuel : nat) : list N -> list (list (list N * list N)) -> Prop :=
| ch_end : chain fuel [] []
| ch_next p rest fm fs out outs : p <> [] -> detect_format (p ++ rest) 0 = Ok fm -> read_container fuel fm (p ++ rest) 0 = Ok (fs, zlen p) ->
    extract_files fuel fm 0 (p ++ rest) fs = Ok out -> chain fuel rest outs -> chain fuel (p ++ rest) (out :: outs).

Lemma scan_chain fuel file outs : chain fuel file outs -> forall pre n, zlen pre + zlen file < 2 ^ 63 -> (length outs < n)%nat ->
  extract_scan n fuel (pre ++ file) (zlen pre) = Ok outs.
Proof.
  induction 1 as [|p rest fm fs out outs Hp Hd Hr He Hc IH]; intros pre n Hl Hn; (destruct n as [|n]; [cbn in Hn; lia|]); cbn [extract_scan].
  - rewrite app_nil_r in *. rewrite (detect_eof pre (zlen pre)); [reflexivity|]. change (zlen (@nil N)) with 0 in Hl. lia.
  - pose proof (zlen_nonneg pre) as H0. change (zlen pre) with (0 + zlen pre) at 1 2 3 4.
    rewrite (detect_shift pre (p ++ rest) Hl 0 fm Hd). cbn [bind]. rewrite (read_container_shift pre (p ++ rest) Hl fuel fm 0 _ Hr). cbn [bind].
    rewrite (extract_files_shift pre (p ++ rest) Hl fuel fm 0 _ _ He). cbn [bind].
    assert (0 < zlen p) by (destruct p; [congruence|rewrite zlen_cons; pose proof (zlen_nonneg p); lia]).
    replace (0 + zlen pre + zlen p =? 0) with false by lia.
    rewrite <- (zlen_app pre p). rewrite (app_assoc pre p rest).
    rewrite (IH (pre ++ p) n); [reflexivity| |cbn [length] in Hn; lia]. rewrite !zlen_app in *. lia.
Qed.
Lemma chain_extracted fuel file outs : chain fuel file outs -> zlen file < 2 ^ 63 -> forall n, (length outs < n)%nat -> extract_all n fuel file = Ok outs.
Proof. intros H Hl n Hn. apply (scan_chain _ _ _ H [] n); [exact Hl|exact Hn]. Qed.
