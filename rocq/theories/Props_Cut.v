(** C97-C98: what is left of a container when the program is stopped while it builds it, or when
    the file is cut afterwards, and what extraction makes of it. *)
From Coq Require Import String.
From Verif Require Import PyBase PyInt Utf PyFile Container Spec_Container ContainerHex ContainerToc ContainerProofs ContainerMore ContainerBounds ContainerCut ContainerCut2 ContainerCut3 ContainerCut4 Props_Container.
Open Scope list_scope.
Open Scope Z_scope.

(** C97.  Whatever bytes a stopped build leaves: extraction either reports an error, or finds
    no byte at all, or its first folder holds the first files of the listing, each of them whole. *)
Theorem C97_stopped_build : forall deflate fm es left, fm = fmt32 \/ fm = fmt64 ->
  valid_listing es -> zlen es < 2 ^ 31 ->
  container_size (layout_of fm) es < f_end fm -> container_size (layout_of fm) es < 2 ^ 62 ->
  stopped deflate fm (folder es) left ->
  forall n fuel outs, extract_all n fuel left = Ok outs ->
  left = [] \/ exists es' k rest, sorted_of es es' /\ outs = contents (firstn k es') :: rest.
Proof. exact stopped_build. Qed.
Print Assumptions C97_stopped_build.

(** The specification of the stop agrees with the build: the finished container is the last of the
    states that [stopped] lists, and once the first block of the table is whole, the file is the
    built one up to the further blocks of the table. *)
Theorem C97_stops_lead_to_build : forall deflate fm es f, fm = fmt32 \/ fm = fmt64 ->
  valid_listing es -> zlen es < 2 ^ 31 ->
  container_size (layout_of fm) es < f_end fm -> container_size (layout_of fm) es < 2 ^ 62 ->
  build deflate fm fempty (folder es) true 0 = Ok f ->
  stopped deflate fm (folder es) (fdata f)
  /\ forall f0 st t j, write_header fm fempty 0 (zlen (in_order deflate (folder es))) = Ok f0 ->
    add_files deflate fm false (mkw f0 []) (in_order deflate (folder es)) = Ok st ->
    toc_bytes fm (w_toc st) = Ok t -> zlen (first_table_block fm t (fsize (w_file st))) <= j ->
    fdata (fwrite (ztake j (first_table_block fm t (fsize (w_file st)))) (fseek (f_hsize fm) (w_file st)))
    = ztake (fsize (w_file st)) (fdata f).
Proof. exact finished. Qed.
Print Assumptions C97_stops_lead_to_build.

(** As long as the contents table has not been begun, every file that is not empty is rejected. *)
Theorem C97_before_table_rejected : forall deflate fm es, fm = fmt32 \/ fm = fmt64 ->
  valid_listing es -> zlen es < 2 ^ 31 ->
  container_size (layout_of fm) es < f_end fm -> container_size (layout_of fm) es < 2 ^ 62 ->
  forall f0 k st m, write_header fm fempty 0 (zlen es) = Ok f0 ->
    add_files deflate fm false (mkw f0 []) (firstn k (in_order deflate (folder es))) = Ok st ->
    0 < m -> 0 < zlen (ztake m (fdata (w_file st))) ->
  forall n fuel, exists e, extract_all n fuel (ztake m (fdata (w_file st))) = Err e.
Proof.
  intros deflate fm es Hg Hv Hc H1 H2 f0 k st m W A Hm HL n fuel.
  destruct (extract_all n fuel (ztake m (fdata (w_file st)))) as [outs|e] eqn:HX; [|exists e; reflexivity]. exfalso.
  pose proof (good_ok _ Hg) as Hf.
  destruct (build_layout deflate fm es Hg Hv Hc H1 H2) as (es' & h & t & B).
  pose proof (bt_order _ _ _ _ _ _ B) as Ord. destruct (bt_write _ _ _ _ _ _ B) as (f0' & W0 & D0 & P0).
  pose proof (bt_sorted _ _ _ _ _ _ B) as So. rewrite (zlen_perm _ _ (proj1 So)), W0 in W. injection W as <-.
  change (folder es) with (map node_of es) in A. rewrite Ord, firstn_map in A.
  destruct (add_files_body deflate fm Hf (firstn k es') f0' [] (Forall_firstn' _ k _ (bt_valid _ _ _ _ _ _ B)) P0) as (f1 & W1 & D1 & P1).
  rewrite W1 in A. injection A as <-. cbn [w_file] in *. rewrite D1, D0, <- app_assoc in *.
  eapply (fun a => @stopped_early deflate fm es es' h t (body fm (firstn k es')) m n fuel outs Hg B (Z.lt_le_incl _ _ Hm) a); [|exact HX].
  intros E. rewrite E in HL. discriminate.
Qed.
Print Assumptions C97_before_table_rejected.

(** Without a byte there is nothing to reject: the empty file is extracted to no folder at all. *)
Theorem C97_empty_file_refuted : forall n fuel, extract_all (S n) fuel [] = Ok [].
Proof. reflexivity. Qed.
Print Assumptions C97_empty_file_refuted.

Definition two_files : list entry := [mkent (u "b"%string) 5 6 (repeat 7%N 600); mkent (u "a"%string) 1 2 (u "text"%string)].
Lemma two_valid : valid_listing two_files.
Proof.
  split; [discriminate|]. split.
  - apply Forall_forall. intros e He. apply entry_check_ok.
    assert (A : forallb entry_check two_files = true) by (vm_compute; reflexivity).
    rewrite forallb_forall in A. apply A. exact He.
  - vm_compute. repeat (apply NoDup_cons; [intros H; cbn [In] in H; decompose [or] H; try discriminate; assumption|]). apply NoDup_nil.
Qed.
Definition two_head : pyfile := Eval vm_compute in match write_header fmt32 fempty 0 2 with Ok f => f | Err _ => fempty end.
Definition two_st : wst := Eval vm_compute in
  match add_files (fun x => x) fmt32 false (mkw two_head []) (in_order (fun x => x) (folder two_files)) with Ok s => s | Err _ => mkw fempty [] end.
Definition two_built : list N := Eval vm_compute in
  match build (fun x => x) fmt32 fempty (folder two_files) true 0 with Ok f => fdata f | Err _ => [] end.
Definition two_left (j : Z) : list N :=
  match toc_bytes fmt32 (w_toc two_st) with
  | Ok t => fdata (fwrite (ztake j (first_table_block fmt32 t (fsize (w_file two_st)))) (fseek 16 (w_file two_st)))
  | Err _ => []
  end.
Lemma two_stopped j : 0 <= j -> stopped (fun x => x) fmt32 (folder two_files) (two_left j).
Proof.
  intros Hj. unfold two_left.
  assert (T : exists t, toc_bytes fmt32 (w_toc two_st) = Ok t) by (eexists; vm_compute; reflexivity).
  destruct T as (t & T). rewrite T.
  apply (@stop_table (fun x => x) fmt32 (folder two_files) two_head two_st t j); [vm_compute; reflexivity|vm_compute; reflexivity|exact T|exact Hj].
Qed.
(** The user's expectation that an unfinished container is always noticed fails: stopped after
    one entry of the table, it is a container with one file, without any error. *)
Theorem C97_unnoticed_refuted : exists left, stopped (fun x => x) fmt32 (folder two_files) left
  /\ extract_all 3 3 left = Ok [[(u "a"%string, u "text"%string)]].
Proof. exists (two_left (31 + 12)). split; [apply two_stopped; lia|vm_compute; reflexivity]. Qed.
Print Assumptions C97_unnoticed_refuted.

(** C98.  A container that was cut after [n] bytes: extraction reports an error, or the first
    folder holds the first files of the listing, each of them whole, or all of them, the last one cut. *)
Theorem C98_cut_container : forall deflate fm es f n, fm = fmt32 \/ fm = fmt64 ->
  valid_listing es -> zlen es < 2 ^ 31 ->
  container_size (layout_of fm) es < f_end fm -> container_size (layout_of fm) es < 2 ^ 62 ->
  build deflate fm fempty (folder es) true 0 = Ok f -> 0 <= n ->
  forall m fuel outs, extract_all m fuel (ztake n (fdata f)) = Ok outs ->
  n = 0 \/ exists es', sorted_of es es' /\
    ((exists k rest, outs = contents (firstn k es') :: rest)
     \/ exists es0 e i rest, es' = es0 ++ [e] /\ outs = (contents es0 ++ [(e_name e, ztake i (e_data e))]) :: rest).
Proof. exact cut_file. Qed.
Print Assumptions C98_cut_container.

(** With a contents table of one block (up to 42 files in the old format, 2730 in the new one) a cut
    never makes a file disappear silently on its own: without an error, either every file is there
    and only the last one is shortened, or the cut was inside the room of the table and the folder
    comes out empty. *)
Theorem C98_small_container_cut : forall deflate fm es f n,
  (fm = fmt32 /\ zlen es <= 42 \/ fm = fmt64 /\ zlen es <= 2730) -> valid_listing es ->
  container_size (layout_of fm) es < f_end fm -> container_size (layout_of fm) es < 2 ^ 62 ->
  build deflate fm fempty (folder es) true 0 = Ok f -> 0 <= n < zlen (fdata f) ->
  forall m fuel outs, extract_all m fuel (ztake n (fdata f)) = Ok outs ->
  n = 0
  \/ (n < f_hsize fm + f_bhsize fm + f_ibs fm /\ exists rest, outs = [] :: rest)
  \/ exists es', sorted_of es es' /\ exists es0 e i rest, es' = es0 ++ [e] /\ outs = (contents es0 ++ [(e_name e, ztake i (e_data e))]) :: rest.
Proof.
  intros deflate fm es f n Hsm Hv H1 H2. apply cut_small; [|exact Hv| |exact H1|exact H2|].
  - destruct Hsm as [[E _]|[E _]]; [left|right]; exact E.
  - destruct Hsm as [[_ E]|[_ E]]; lia.
  - destruct Hsm as [[-> E]|[-> E]]; [change (3 * Z.of_nat (f_iw fmt32)) with 12; change (f_ibs fmt32) with 512|change (3 * Z.of_nat (f_iw fmt64)) with 24; change (f_ibs fmt64) with 65536]; lia.
Qed.
Print Assumptions C98_small_container_cut.

(** A cut inside the data of the last file is not noticed. *)
Theorem C98_cut_unnoticed_refuted : exists es f n, valid_listing es
  /\ build (fun x => x) fmt32 fempty (folder es) true 0 = Ok f /\ n < zlen (fdata f)
  /\ extract_all 3 3 (ztake n (fdata f)) = Ok [[(u "a"%string, u "text"%string); (u "b"%string, repeat 7%N 100)]]
  /\ exists e, In e es /\ e_name e = u "b"%string /\ e_data e = repeat 7%N 600.
Proof.
  exists two_files.
  assert (E : exists f, build (fun x => x) fmt32 fempty (folder two_files) true 0 = Ok f /\ fdata f = two_built).
  { eexists; split; vm_compute; reflexivity. }
  destruct E as (f & E & D). exists f, (zlen two_built - 500). rewrite D.
  split; [exact two_valid|]. split; [exact E|]. split; [lia|]. split; [vm_compute; reflexivity|].
  eexists. split; [left; reflexivity|]. split; reflexivity.
Qed.
Print Assumptions C98_cut_unnoticed_refuted.

(** ** The hypotheses are met *)
Example two_sizes : container_size layout32 two_files < 2147483647 /\ container_size layout32 two_files < 2 ^ 62 /\ zlen two_files < 2 ^ 31.
Proof. vm_compute. repeat split; reflexivity. Qed.
(** stopped after 700 bytes: rejected; stopped inside the header of the table: rejected *)
Example stop_700 : stopped (fun x => x) fmt32 (folder two_files) (ztake 700 (fdata (w_file two_st)))
  /\ extract_all 3 3 (ztake 700 (fdata (w_file two_st))) = Err ValueError.
Proof.
  split; [|vm_compute; reflexivity].
  apply (@stop_docs (fun x => x) fmt32 (folder two_files) two_head 2 two_st 700); [vm_compute; reflexivity|vm_compute; reflexivity|lia].
Qed.
Example stop_in_header : extract_all 3 3 (two_left 20) = Err ValueError.
Proof. vm_compute. reflexivity. Qed.
(** a finished table is the whole container *)
Example stop_done : two_left 100 = two_built.
Proof. vm_compute. reflexivity. Qed.
(** cuts: in the file header, in the table, in the first file, in the padding of the table *)
Example cuts : extract_all 3 3 (ztake 10 two_built) = Err StructError /\ extract_all 3 3 (ztake 60 two_built) = Err AttributeError
  /\ extract_all 3 3 (ztake 700 two_built) = Err AttributeError /\ extract_all 3 3 (ztake 50 two_built) = Ok [[]].
Proof. vm_compute. repeat split; reflexivity. Qed.
