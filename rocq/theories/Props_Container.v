(** Property theorems C01-C12 and C15 (containers).  Each closes with an already proved
    lemma; the specification vocabulary is in Spec_Container.v, the model in Container.v,
    Paths.v and Times.v. *)
From Coq Require Import String.
From Verif Require Import PyBase PyInt Utf PyFile Container Spec_Container Times Paths.
From Verif Require Import ContainerHex ContainerToc ContainerProofs ContainerMore ContainerDefects ContainerBounds ContainerShift.
Open Scope list_scope.
Open Scope Z_scope.

(** What a reader of a container sees of a file: name, declared size, both stamps. *)
Definition listing_view (fs : list (list N * cfile)) : list (list N * (Z * Z * Z)) :=
  map (fun p => (fst p, (c_size (snd p), c_created (snd p), c_modified (snd p)))) fs.
Definition expected_view (es : list entry) : list (list N * (Z * Z * Z)) :=
  map (fun e => (e_name e, (zlen (e_data e), e_ctime e, e_mtime e))) es.
Definition contents (es : list entry) : list (list N * list N) := map (fun e => (e_name e, e_data e)) es.
(** The folder as the builder sees it. *)
Definition folder (es : list entry) : list (list N * node) :=
  map (fun e => (e_name e, NFile (e_ctime e) (e_mtime e) (e_data e))) es.

Lemma roundtrip_view deflate fm es :
  good_fmt fm -> valid_listing es -> zlen es < 2 ^ 31 ->
  container_size (layout_of fm) es < f_end fm -> container_size (layout_of fm) es < 2 ^ 62 ->
  exists f es' N,
    build deflate fm fempty (folder es) true 0 = Ok f
    /\ zlen (fdata f) = container_size (layout_of fm) es
    /\ sorted_of es es'
    /\ forall fuel, (N <= fuel)%nat -> exists fs size,
         read_container fuel fm (fdata f) 0 = Ok (fs, size)
         /\ listing_view fs = expected_view es'
         /\ extract_files fuel fm 0 (fdata f) fs = Ok (contents es').
Proof.
  intros Hg Hv Hc H1 H2.
  destruct (container_roundtrip deflate fm es Hg Hv Hc H1 H2) as (f & es' & N & size & B & L & S & Hs & _ & R).
  exists f, es', N. repeat split; try assumption; try apply S.
  intros fuel Hfuel. exists (map (cfile_of fm) es'), size. split; [apply R; exact Hfuel|]. split.
  - unfold listing_view, expected_view. rewrite map_map. reflexivity.
  - apply extract_files_body.
Qed.

(** C01 *)
Theorem C01_container32_roundtrip : forall deflate es,
  valid_listing es -> container_size layout32 es < 2147483647 ->
  exists f es' N,
    build deflate fmt32 fempty (folder es) true 0 = Ok f
    /\ zlen (fdata f) = container_size layout32 es
    /\ sorted_of es es'
    /\ forall fuel, (N <= fuel)%nat -> exists fs size,
         read_container fuel fmt32 (fdata f) 0 = Ok (fs, size)
         /\ listing_view fs = expected_view es'
         /\ extract_files fuel fmt32 0 (fdata f) fs = Ok (contents es').
Proof.
  intros deflate es Hv Hs. apply (roundtrip_view deflate fmt32 es good32 Hv).
  - apply (small_count fmt32 es good32). exact Hs.
  - exact Hs.
  - eapply Z.lt_trans; [exact Hs|reflexivity].
Qed.
Print Assumptions C01_container32_roundtrip.

(** C02 *)
Theorem C02_container64_roundtrip : forall deflate es,
  valid_listing es -> zlen es < 2 ^ 31 -> container_size layout64 es < 2 ^ 62 ->
  exists f es' N,
    build deflate fmt64 fempty (folder es) true 0 = Ok f
    /\ zlen (fdata f) = container_size layout64 es
    /\ sorted_of es es'
    /\ forall fuel, (N <= fuel)%nat -> exists fs size,
         read_container fuel fmt64 (fdata f) 0 = Ok (fs, size)
         /\ listing_view fs = expected_view es'
         /\ extract_files fuel fmt64 0 (fdata f) fs = Ok (contents es').
Proof.
  intros deflate es Hv Hc Hs. apply (roundtrip_view deflate fmt64 es good64 Hv Hc); [|exact Hs].
  eapply Z.lt_trans; [exact Hs|reflexivity].
Qed.
Print Assumptions C02_container64_roundtrip.

(** C03: offsets are what the format can store: below the end marker and seekable. *)
Theorem C03_toc_exact : forall fm offsets, fm = fmt32 \/ fm = fmt64 ->
  Forall (fun p => (0 <= fst p < f_end fm /\ fst p < 2 ^ 63) /\ (0 <= snd p < f_end fm /\ snd p < 2 ^ 63)) offsets ->
  exists t, toc_bytes fm (map (fun p => (fst p, Some (snd p))) offsets) = Ok t
    /\ parse_toc fm t = Ok offsets.
Proof.
  intros fm offsets Hg H. destruct (parse_toc_bytes fm Hg offsets H) as (t & A & _ & B). exists t. split; assumption.
Qed.
Print Assumptions C03_toc_exact.

(** C04 *)
Theorem C04_single_container_scan : forall deflate es,
  valid_listing es -> container_size layout32 es < 2147483647 ->
  exists f es' N,
    writer_build deflate [([48%N], folder es)] true = Ok f
    /\ sorted_of es es'
    /\ forall n fuel, (2 <= n)%nat -> (N <= fuel)%nat ->
       extract_all n fuel (fdata f) = Ok [contents es'].
Proof.
  intros deflate es Hv Hs.
  destruct (build_extract deflate fmt32 es good32 Hv (small_count fmt32 es good32 Hs) Hs) as (f & es' & N & B & S & R).
  { eapply Z.lt_trans; [exact Hs|reflexivity]. }
  exists f, es', N. split; [|split; assumption].
  unfold writer_build. cbn [zlen length dget]. change (zlen [([48%N], folder es)]) with 1.
  change (negb ((1 =? 1) || (1 =? 2))) with false. change (1 =? 2) with false. cbv iota.
  change (str_eqb [48%N] [48%N]) with true. cbv iota.
  unfold folder. change (map _ es) with (map node_of es). rewrite B. reflexivity.
Qed.
Print Assumptions C04_single_container_scan.
Theorem C04_single_container64_scan : forall deflate es,
  valid_listing es -> zlen es < 2 ^ 31 -> container_size layout64 es < 2 ^ 62 ->
  exists f es' N,
    build deflate fmt64 fempty (folder es) true 0 = Ok f
    /\ sorted_of es es'
    /\ forall n fuel, (2 <= n)%nat -> (N <= fuel)%nat ->
       extract_all n fuel (fdata f) = Ok [contents es'].
Proof.
  intros deflate es Hv Hc Hs. apply (build_extract deflate fmt64 es good64 Hv Hc); [|exact Hs].
  eapply Z.lt_trans; [exact Hs|reflexivity].
Qed.
Print Assumptions C04_single_container64_scan.

(** C05: [f] is any file state in which the room for the table of contents is reserved. *)
Theorem C05_documents_undisturbed : forall fm, fm = fmt32 \/ fm = fmt64 -> forall f d m later toc f',
  fpos f = fsize f -> f_hsize fm + f_ibs fm + f_bhsize fm <= fsize f ->
  zlen d < 16 ^ Z.of_nat (f_hexw fm) -> 0 <= m < 16 ^ Z.of_nat (f_hexw fm) ->
  fsize f < 2 ^ 63 ->
  let '(f1, off) := doc_write fm f d m in
  let f2 := write_docs fm f1 later in
  write_toc fm (mkw f2 toc) = Ok f' ->
  (forall fuel, doc_read fuel fm 0 (fdata f2) off m = Ok (d, zlen d, Z.max m (zlen d) + f_bhsize fm))
  /\ (forall fuel, doc_read fuel fm 0 (fdata f') off m = Ok (d, zlen d, Z.max m (zlen d) + f_bhsize fm)).
Proof. exact docs_undisturbed. Qed.
Print Assumptions C05_documents_undisturbed.

(** C06 *)
Theorem C06_build_order_independent : forall deflate fm f ents ents' nested offset,
  NoDup (map fst ents) -> Permutation ents ents' ->
  build deflate fm f ents nested offset = build deflate fm f ents' nested offset.
Proof. exact build_perm. Qed.
Print Assumptions C06_build_order_independent.

(** C07 *)
Theorem C07_field_exact_iff_fits : forall fm v, fm = fmt32 \/ fm = fmt64 -> 0 <= v ->
  (int_of_bytes 16 (hexfield fm v) = Ok v <-> v < 16 ^ Z.of_nat (f_hexw fm))
  /\ (16 ^ Z.of_nat (f_hexw fm) <= v -> exists v', int_of_bytes 16 (hexfield fm v) = Ok v' /\ 0 <= v' < v).
Proof. exact field_exact_iff. Qed.
Print Assumptions C07_field_exact_iff_fits.
(** the field of the 32-bit format is eight hexadecimal digits: 4 GiB and more is lost *)
Theorem C07_silent_overflow : forall f data minb, fpos f = fsize f -> 4294967296 <= zlen data ->
  forall f' off, doc_write fmt32 f data minb = (f', off) ->
  exists wrong, wrong <> zlen data
    /\ int_of_bytes 16 (slice (off + 2) 8 (fdata f')) = Ok wrong.
Proof. exact overflow_write. Qed.
Print Assumptions C07_silent_overflow.

(** C08: the user's expectation fails for every two-container folder that can be built. *)
Theorem C08_two_containers_refuted : forall deflate containers f,
  zlen containers = 2 -> writer_build deflate containers true = Ok f ->
  forall n fuel, (0 < n)%nat -> extract_all n fuel (fdata f) = Err ValueError.
Proof. exact two_containers_unreadable. Qed.
Print Assumptions C08_two_containers_refuted.

(** C09 *)
Theorem C09_default_build_refuted : forall deflate fm f ents offset,
  exists e, build deflate fm f ents false offset = Err e.
Proof. exact build_default_fails. Qed.
Print Assumptions C09_default_build_refuted.
Theorem C09_default_build_error : forall deflate es, valid_listing es -> zlen es < 2 ^ 31 ->
  build deflate fmt32 fempty (folder es) false 0 = Err StructError.
Proof. exact build_default_error. Qed.
Print Assumptions C09_default_build_error.

(** C10 *)
Theorem C10_read_bounded : forall fuel fm coff file off min_bs d ds full,
  ~ In 45%N file -> (* no minus sign *)
  doc_read fuel fm coff file off min_bs = Ok (d, ds, full) -> zlen d <= ds.
Proof. exact doc_read_bounded. Qed.
Print Assumptions C10_read_bounded.
Theorem C10_minus_sign_refuted : exists file d ds full,
  doc_read 0 fmt32 0 file 0 0 = Ok (d, ds, full) /\ ds < zlen d.
Proof. exact minus_witness. Qed.
Print Assumptions C10_minus_sign_refuted.

(** C11 *)
Theorem C11_reader_stops : forall fm coff file left next fuel,
  (forall l n b, visits fm coff file left next l n -> 0 < l -> n <> f_end fm ->
     read_block fm coff file n (Some l) = Ok (Some b) -> b_data b <> []) ->
  (Z.to_nat left <= fuel)%nat -> gen_rest fuel fm coff file left next <> Err Timeout.
Proof. intros fm coff file left next fuel. exact (gen_rest_terminates fm coff file fuel left next). Qed.
Print Assumptions C11_reader_stops.
Theorem C11_reader_hangs_refuted : exists file, zlen file = 63 /\
  forall fuel, doc_read fuel fmt32 0 file 0 0 = Err Timeout.
Proof. exact hang_witness. Qed.
Print Assumptions C11_reader_hangs_refuted.

(** C12 *)
Theorem C12_plain_names_stay_inside : forall dest name, dest <> [] -> plain_name name ->
  resolve (path_join dest name) = name :: resolve dest /\ is_abs (path_join dest name) = is_abs dest.
Proof. intros dest name Hd Hn. split; [apply resolve_plain; assumption|apply is_abs_join; [assumption|apply plain_not_abs; assumption]]. Qed.
Print Assumptions C12_plain_names_stay_inside.
(** "../x" is written next to the destination folder, "/x" anywhere. *)
Theorem C12_escape_refuted : forall dest folder x, dest <> [] -> plain_name folder -> plain_name x ->
  resolve (path_join (path_join dest folder) (dot2 ++ [slash] ++ x)) = x :: resolve dest
  /\ path_join dest ([slash] ++ x) = [slash] ++ x.
Proof. exact escape. Qed.
Print Assumptions C12_escape_refuted.

(** C15 *)
Theorem C15_stamp_loss : forall dt, 0 <= dt <= datetime_max ->
  parse_datetime (epoch2int dt) <= dt < parse_datetime (epoch2int dt) + 100
  /\ 0 <= epoch2int dt < 2 ^ 64.
Proof. intros dt H. split; [apply stamp_roundtrip; exact H|apply stamp_unsigned; exact H]. Qed.
Print Assumptions C15_stamp_loss.
Theorem C15_stamp_monotone : forall a b, a <= b -> epoch2int a <= epoch2int b.
Proof. exact stamp_mono. Qed.
Print Assumptions C15_stamp_monotone.
Theorem C15_decode_monotone_in_calendar : forall s t, 0 <= s -> s <= t -> t * 100 <= datetime_max ->
  parse_datetime s <= parse_datetime t.
Proof. exact parse_mono. Qed.
Print Assumptions C15_decode_monotone_in_calendar.
Theorem C15_out_of_calendar : forall t, datetime_max < t * 100 -> parse_datetime t = datetime_last_second.
Proof. exact parse_out. Qed.
Print Assumptions C15_out_of_calendar.
Theorem C15_stamp_fixed : forall t, 0 <= t -> t * 100 <= datetime_max -> epoch2int (parse_datetime t) = t.
Proof. exact encode_parse. Qed.
Print Assumptions C15_stamp_fixed.

(** ** The hypotheses are met by concrete, non-trivial cases *)
Lemma is_ok_ex {A} (r : res A) : is_ok r = true -> exists x, r = Ok x.
Proof. destruct r; [eexists; reflexivity|discriminate]. Qed.
Definition ex_entries : list entry :=
  [mkent (u "versions"%string) 636000000000000 636000000000001 (u "{1,0}"%string);
   mkent (u "Форма"%string) 5 6 (repeat 7%N 600);
   mkent (u "a"%string) 0 0 []].
(** executable version of [valid_entry], used for the examples only *)
Definition entry_check (e : entry) : bool :=
  forallb scalarb (e_name e) && negb (existsb (N.eqb 0) (e_name e))
  && match e_name e with [] => true | c :: _ => negb (N.eqb c 65279) && negb (N.eqb c 65534) end
  && (0 <=? e_ctime e) && (e_ctime e <? 2 ^ 64) && (0 <=? e_mtime e) && (e_mtime e <? 2 ^ 64).
Lemma entry_check_ok e : entry_check e = true -> valid_entry e.
Proof.
  unfold entry_check. rewrite !andb_true_iff. intros ((((((H1 & H2) & H3) & H4) & H5) & H6) & H7).
  split; [|split; [|split; [|split]]].
  - rewrite forallb_forall in H1. apply Forall_forall. intros c Hc. specialize (H1 c Hc).
    unfold scalarb in H1. rewrite andb_true_iff in H1. destruct H1 as [A B]. split; [apply N.ltb_lt; exact A|].
    destruct (is_surrogate c); [discriminate|reflexivity].
  - intros Hin. apply negb_true_iff in H2. assert (existsb (N.eqb 0) (e_name e) = true); [|congruence].
    apply existsb_exists. exists 0%N. split; [exact Hin|reflexivity].
  - unfold no_bom. destruct (e_name e) as [|c t]; [exact I|]. rewrite andb_true_iff, !negb_true_iff, !N.eqb_neq in H3. exact H3.
  - split; [apply Z.leb_le; exact H4|apply Z.ltb_lt; exact H5].
  - split; [apply Z.leb_le; exact H6|apply Z.ltb_lt; exact H7].
Qed.
Example ex_entries_valid : valid_listing ex_entries.
Proof.
  split; [discriminate|]. split.
  - apply Forall_forall. intros e He. apply entry_check_ok.
    assert (A : forallb entry_check ex_entries = true) by (vm_compute; reflexivity).
    rewrite forallb_forall in A. apply A. exact He.
  - assert (E : map e_name ex_entries = [u "versions"%string; u "Форма"%string; u "a"%string]) by reflexivity.
    rewrite E. vm_compute. repeat (apply NoDup_cons; [intros H; cbn [In] in H; decompose [or] H; try discriminate; assumption|]). apply NoDup_nil.
Qed.
Example ex_entries_size : container_size layout32 ex_entries < 2147483647 /\ container_size layout64 ex_entries < 2 ^ 62
  /\ zlen ex_entries < 2 ^ 31.
Proof. vm_compute. repeat split; reflexivity. Qed.
(** 43 files: the table of contents of the 32-bit format spans two blocks *)
Definition ex_many : list entry :=
  map (fun i => mkent (u "f"%string ++ str_of_int (Z.of_nat i)) 0 0 [N.of_nat i]) (seq 0 100).
Example ex_many_multi_block :
  l_index_block layout32 < toc_size layout32 ex_many /\ container_size layout32 ex_many < 2147483647.
Proof. vm_compute. split; reflexivity. Qed.
Example ex_toc : Forall (fun p => (0 <= fst p < f_end fmt32 /\ fst p < 2 ^ 63) /\ (0 <= snd p < f_end fmt32 /\ snd p < 2 ^ 63))
  [(2147483646, 2139095039); (255, 65535)].
Proof. repeat constructor; cbn; lia. Qed.
Example ex_two : exists f, writer_build (fun x => x) [([48%N], folder ex_entries); ([49%N], folder ex_entries)] true = Ok f.
Proof. apply is_ok_ex. vm_compute. reflexivity. Qed.
Definition ex_reserved : pyfile := match write_header fmt32 fempty 0 1 with Ok f => f | Err _ => fempty end.
Example ex_doc : fpos ex_reserved = fsize ex_reserved
  /\ (f_hsize fmt32 + f_ibs fmt32 + f_bhsize fmt32 <=? fsize ex_reserved) = true
  /\ is_ok (write_toc fmt32 (mkw (fst (doc_write fmt32 ex_reserved [1; 2; 3]%N 0)) [(559, Some 600)])) = true.
Proof. vm_compute. repeat split; reflexivity. Qed.

(** C53: a file that consists of containers one after the other is extracted completely, each container
    as it reads at the start of what follows the previous one, whatever the positions in the file *)
Theorem C53_chain_extracted : forall fuel file outs, chain fuel file outs -> zlen file < 2 ^ 63 ->
  forall n, (length outs < n)%nat -> extract_all n fuel file = Ok outs.
Proof. intros. eapply chain_extracted; eassumption. Qed.
Print Assumptions C53_chain_extracted.
(** reading does not depend on what stands before the container *)
Theorem C53_position_irrelevant : forall pre file fuel fm fs size, zlen pre + zlen file < 2 ^ 63 ->
  read_container fuel fm file 0 = Ok (fs, size) ->
  read_container fuel fm (pre ++ file) (zlen pre) = Ok (fs, size) /\
  forall out, extract_files fuel fm 0 file fs = Ok out -> extract_files fuel fm (zlen pre) (pre ++ file) fs = Ok out.
Proof.
  intros pre file fuel fm fs size Hl Hr. split.
  - apply (read_container_shift pre file Hl fuel fm 0 _ Hr).
  - intros out He. apply (extract_files_shift pre file Hl fuel fm 0 _ _ He).
Qed.
Print Assumptions C53_position_irrelevant.
(** but no container that the program builds can be followed by another one: the size that the reader
    computes for it is larger than the container *)
Theorem C53_built_size_refuted : forall deflate fm es, good_fmt fm -> valid_listing es -> zlen es < 2 ^ 31 ->
  container_size (layout_of fm) es < f_end fm -> container_size (layout_of fm) es < 2 ^ 62 ->
  exists f N, build deflate fm fempty (folder es) true 0 = Ok f /\
    forall fuel, (N <= fuel)%nat -> exists fs size, read_container fuel fm (fdata f) 0 = Ok (fs, size) /\ zlen (fdata f) < size.
Proof.
  intros deflate fm es Hg Hv Hc H1 H2.
  destruct (container_roundtrip deflate fm es Hg Hv Hc H1 H2) as (f & es' & N & size & B & L & S & Hs & _ & R).
  exists f, N. split; [exact B|]. intros fuel Hf. exists (map (cfile_of fm) es'), size. split; [apply R; exact Hf|apply Hs].
Qed.
Print Assumptions C53_built_size_refuted.
(** two containers as the platform writes them (table of contents in a block of 512 bytes) *)
Definition ch_built (name data : list N) : list N :=
  match build (fun x => x) fmt32 fempty (folder [mkent name 1 2 data]) true 0 with Ok f => fdata f | _ => [] end.
Definition ch_platform (bs : list N) : list N := ztake 27 bs ++ [48; 48; 48; 48; 48; 50; 48; 48]%N ++ zdrop 35 bs.
Definition ch_one : list N := Eval vm_compute in ch_platform (ch_built [97]%N [1; 2; 3]%N).
Definition ch_two : list N := Eval vm_compute in ch_platform (ch_built [98]%N [4]%N).
Example C53_chain_met : chain 1 (ch_one ++ ch_two ++ []) [[([97]%N, [1; 2; 3]%N)]; [([98]%N, [4]%N)]] /\ zlen (ch_one ++ ch_two ++ []) < 2 ^ 63.
Proof.
  split; [|vm_compute; reflexivity]. eapply ch_next; [discriminate|vm_compute; reflexivity|vm_compute; reflexivity|vm_compute; reflexivity|].
  eapply ch_next; [discriminate|vm_compute; reflexivity|vm_compute; reflexivity|vm_compute; reflexivity|constructor].
Qed.
