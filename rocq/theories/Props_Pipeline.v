(** Property theorems C13, C14 and C48 (the whole container pipeline).  Specification
    vocabulary: Spec_Container.v and Spec_Pipeline.v; model: Container.v and Pipeline.v. *)
From Coq Require Import String.
From Verif Require Import PyBase PyInt Utf PyFile PyText PyB64 Container Spec_Container ContainerProofs.
From Verif Require Import Pipeline Spec_Pipeline PipelineProofs PipelineMore.
Open Scope list_scope.
Open Scope Z_scope.

(** the listing of the stored (compressed) files with the stamps of the intermediate folder *)
Definition stored_listing (deflate : list N -> list N) (stamp : list N -> Z * Z) (items : list item) : list entry :=
  map (fun i => mkent (i_name i) (fst (stamp (i_name i))) (snd (stamp (i_name i))) (stored deflate i)) items.
Definition stamps_ok (stamp : list N -> Z * Z) (names : list (list N)) : Prop :=
  forall n, In n names -> 0 <= fst (stamp n) < 2 ^ 64 /\ 0 <= snd (stamp n) < 2 ^ 64.
(** any order in which a pool may run the tasks *)
Definition any_order (sched : list (list N * list N) -> list (list N * list N)) : Prop := forall l, Permutation l (sched l).

(** C13: plain files *)
Theorem C13_pipeline_identity : forall deflate digest os inf stamp es,
  valid_listing es -> ~ In (u "configinfo"%string) (map e_name es) -> no_signature es ->
  (forall e, In e es -> restores_without_gap inf (deflate (e_data e)) (e_data e)) ->
  stamps_ok stamp (map e_name es) ->
  container_size layout32 (stored_listing deflate stamp (map Plain es)) < 2147483647 ->
  exists bytes N,
    pack deflate digest os stamp [(u "0"%string, map file_node es)] = Ok bytes
    /\ forall sched n fuel depth, any_order sched -> (2 <= n)%nat -> (N <= fuel)%nat ->
       exists fo, Permutation (map file_tree es) fo /\ unpack inf n fuel depth sched bytes = Ok [fo].
Proof.
  intros deflate digest os inf stamp es (Hne & Hv & Hnd) Hci Hsig Hinf Hst Hsz.
  assert (Hn : map i_name (map Plain es) = map e_name es) by (rewrite map_map; reflexivity).
  destruct (@pipeline deflate digest os inf stamp (map Plain es)) as (bytes & N & P & U).
  - destruct es; [congruence|discriminate].
  - rewrite Hn. exact Hnd.
  - rewrite Hn. apply Forall_map. eapply Forall_impl; [|exact Hv]. intros e (A & B & C & _). repeat split; assumption || apply C.
  - rewrite Hn. exact Hci.
  - apply Forall_map. exact Hsig.
  - apply Forall_map. apply Forall_forall. intros e He. apply Hinf, He.
  - intros n xs Hin. apply in_map_iff in Hin. destruct Hin as (e & E & _). discriminate.
  - rewrite Hn. exact Hst.
  - exact Hsz.
  - exists bytes, N. split; [rewrite map_map in P; exact P|]. intros sched n fuel depth Hs H1 H2.
    destruct (U sched n fuel depth Hs H1 H2) as (items' & fo & Hp & HF & E). exists fo. split; [|exact E].
    apply Permutation_sym in Hp. apply Permutation_map_inv in Hp. destruct Hp as (es' & -> & Hp).
    replace fo with (map file_tree es'); [apply Permutation_map, Hp|].
    clear - HF. revert fo HF. induction es' as [|e es' IH]; intros fo HF; inversion HF as [|x y l l' H1 H2]; subst; [reflexivity|].
    cbn [map]. rewrite (IH l' H2). inversion H1; subst. reflexivity.
Qed.
Print Assumptions C13_pipeline_identity.
(** the hypothesis on the decompressor is needed: a pair that restores every file is not enough,
    because reading stops at the first piece that yields nothing, without an error *)
Theorem C13_gap_truncates_refuted : forall inf stream pieces before after d,
  cut stream pieces -> feed inf (i_init inf) pieces = Ok (before ++ [] :: after) -> concat (before ++ [] :: after) = d ->
  Forall (fun o => o <> []) before -> concat after <> [] ->
  restores inf stream d /\ exists b, inflate_file inf stream = Ok (concat before, b) /\ concat before <> d.
Proof.
  intros inf stream pieces before after d C F E H Ha. split; [exists pieces, (before ++ [] :: after); auto|].
  destruct (@inflate_gap inf stream pieces before after C F H) as [b Eb]. exists b. split; [exact Eb|]. intros Q. apply Ha.
  rewrite concat_app in E. cbn [concat app] in E. rewrite <- Q in E. rewrite <- (app_nil_r (concat before)) in E at 2. apply app_inv_head in E. exact E.
Qed.
Print Assumptions C13_gap_truncates_refuted.

(** C14: plain files and one-level folders together *)
Theorem C14_folder_pipeline : forall deflate digest os inf stamp items,
  items <> [] -> NoDup (map i_name items) -> Forall valid_name (map i_name items) ->
  ~ In (u "configinfo"%string) (map i_name items) -> Forall valid_item items ->
  (forall d, restores_promptly inf (deflate d) d) ->
  (forall n es, In (Sub n es) items -> ~ In (n ++ u ".temp"%string) (map i_name items)) ->
  stamps_ok stamp (map i_name items) ->
  container_size layout32 (stored_listing deflate stamp items) < 2147483647 ->
  exists bytes N,
    pack deflate digest os stamp [(u "0"%string, map item_node items)] = Ok bytes
    /\ forall sched n fuel depth, any_order sched -> (2 <= n)%nat -> (N <= fuel)%nat ->
       exists items' fo, Permutation items items' /\ Forall2 comes_back items' fo
         /\ unpack inf n fuel depth sched bytes = Ok [fo].
Proof.
  intros deflate digest os inf stamp items Hne Hnd Hvn Hci Hvi Hinf Ht Hst Hsz.
  apply (@pipeline deflate digest os inf stamp items Hne Hnd Hvn Hci Hvi); try assumption.
  apply Forall_forall. intros [e|n es] _; cbn [codec_fits]; [apply promptly_without_gap|]; auto.
Qed.
Print Assumptions C14_folder_pipeline.
(** a plain file that begins with the signature never comes back as a file *)
Theorem C14_signature_file_refuted : forall inf depth fuel n stream d fo fo',
  restores_promptly inf stream d -> looks_like_container d -> NoDup (map fst fo) ->
  decompress_task inf depth fuel (n, stream) fo = Ok fo' ->
  exists t, extract_tree depth fuel d = Ok t /\ dget n fo' = Some (TDir t).
Proof. exact signature_file. Qed.
Print Assumptions C14_signature_file_refuted.
(** a file named like the temporary copy of a folder is gone once the folder is extracted *)
Theorem C14_temp_sibling_refuted : forall inf depth fuel n stream d fo fo',
  restores_promptly inf stream d -> looks_like_container d -> NoDup (map fst fo) ->
  decompress_task inf depth fuel (n, stream) fo = Ok fo' -> dget (n ++ u ".temp"%string) fo' = None.
Proof. exact sibling_lost. Qed.
Print Assumptions C14_temp_sibling_refuted.
(** deeper folders and empty folders are never packed *)
Theorem C14_two_levels_refuted : forall deflate digest os stamp name ents rest n sub n2 sub2,
  In (n, NDir sub) ents -> In (n2, NDir sub2) sub -> exists e, pack deflate digest os stamp ((name, ents) :: rest) = Err e.
Proof. exact two_levels. Qed.
Print Assumptions C14_two_levels_refuted.
Theorem C14_empty_folder_refuted : forall deflate digest os stamp name ents rest n,
  In (n, NDir []) ents -> exists e, pack deflate digest os stamp ((name, ents) :: rest) = Err e.
Proof. exact empty_folder. Qed.
Print Assumptions C14_empty_folder_refuted.

(** C48: configinfo receives the name and digest of every other stored file *)
Theorem C48_configinfo_versions : forall deflate digest os inf stamp ce es p1 p2 all,
  e_name ce = u "configinfo"%string -> es <> [] -> NoDup (map e_name (ce :: es)) -> Permutation (ce :: es) all -> zlen es < 2 ^ 31 ->
  Forall (fun e => valid_name (e_name e) /\ zlen (e_name e) <= 62) es -> (forall d, sha1_text (digest d)) ->
  no_signature es -> (forall d, restores_without_gap inf (deflate d) d) ->
  ~ contains mark_text p1 -> ~ contains mark_text p2 -> ~ In CR (p1 ++ p2) -> Forall scalar (p1 ++ p2) ->
  utf8_encode (p1 ++ mark_text ++ p2) = Ok (e_data ce) ->
  stamps_ok stamp (map e_name (ce :: es)) ->
  exists es' new, sorted_of es es'
    /\ utf8_decode new = Ok (write_nl os (p1 ++ versions_line (str_of_int (zlen es)) digest (deflated deflate es') ++ p2))
    /\ (container_size layout32 (stored_listing deflate stamp (map Plain (with_data ce new :: es))) < 2147483647 ->
       exists bytes N, pack deflate digest os stamp [(u "0"%string, map file_node all)] = Ok bytes
       /\ forall sched n fuel depth, any_order sched -> (2 <= n)%nat -> (N <= fuel)%nat ->
          exists fo, Permutation (map file_tree (with_data ce new :: es)) fo /\ unpack inf n fuel depth sched bytes = Ok [fo]).
Proof.
  intros deflate digest os inf stamp ce es p1 p2 all H1 H2 H3 H4 H5 H6 H7 H8 H9 H10 H11 H12 H13 H14 H15.
  destruct (@configinfo_pipeline deflate digest os inf stamp ce es p1 p2 all) as (es' & new & A & B & C); try assumption.
  exists es', new. split; [exact A|]. split; [exact B|]. intros Hsz. apply C.
  unfold stored_listing in Hsz. unfold packed_entries, deflated. rewrite map_map in *. exact Hsz.
Qed.
Print Assumptions C48_configinfo_versions.
(** the file is not truncated: when the new text is shorter, the end of the old bytes stays *)
Theorem C48_tail_refuted : forall os versions old new, rewrite_configinfo os versions old = Ok new ->
  exists t text, utf8_decode old = Ok t /\ utf8_encode (write_nl os (str_replace mark_text versions (univ_nl t))) = Ok text
    /\ new = text ++ zdrop (zlen text) old /\ zlen new = Z.max (zlen text) (zlen old).
Proof. exact rewrite_tail. Qed.
Print Assumptions C48_tail_refuted.

(** ** Concrete cases *)
(** the pair that stores files as they are *)
Definition id_inflater : inflater := mkinflater unit tt (fun st b => Ok (b, tt)).
Definition id_deflate (d : list N) : list N := d.
Lemma id_feed ps : feed id_inflater tt ps = Ok ps.
Proof. induction ps as [|p ps IH]; [reflexivity|]. cbn [feed i_step id_inflater bind]. change (i_init id_inflater) with tt in *. rewrite IH. reflexivity. Qed.
Lemma cut_concat l ps : cut l ps -> concat ps = l.
Proof. induction 1 as [|p Hp|p rest ps Hp Hr IH]; cbn [concat]; [reflexivity|apply app_nil_r|rewrite IH; reflexivity]. Qed.
Lemma cut_nonempty l ps : cut l ps -> Forall (fun p => p <> []) ps.
Proof.
  induction 1 as [|p Hp|p rest ps Hp Hr IH]; [constructor| |]; (constructor; [intros ->; cbn in Hp; lia|]); [constructor|exact IH].
Qed.
Lemma id_promptly d : restores_promptly id_inflater (id_deflate d) d.
Proof.
  pose proof (cut_pieces (length d) d (le_n _)) as C. exists (pieces (length d) d), (pieces (length d) d).
  split; [exact C|]. split; [apply id_feed|]. split; [apply cut_concat, C|]. split.
  - intros a b E. pose proof (@cut_nonempty _ _ C) as F. rewrite E in F. apply Forall_app in F. destruct F as [_ F]. inversion F; congruence.
  - intros o more E. apply cut_inv in C. destruct C as [[-> E2]|[[_ E2]|(p & rest & qs & Ed & E2 & Hp & _)]]; rewrite E in E2.
    + discriminate.
    + injection E2 as -> _. right. reflexivity.
    + injection E2 as -> _. left. lia.
Qed.
(** a pair that is correct in the textbook sense but starts every stream with 8192 bytes that
    yield nothing: every file comes back empty *)
Definition lazy_inflater : inflater := mkinflater bool false (fun st b => Ok (if st then b else [], true)).
Definition lazy_deflate (d : list N) : list N := zeros 8192 ++ d.
Lemma lazy_feed ps : feed lazy_inflater true ps = Ok ps.
Proof. induction ps as [|p ps IH]; [reflexivity|]. cbn [feed i_step lazy_inflater bind]. rewrite IH. reflexivity. Qed.
Theorem C13_correct_pair_refuted :
  (forall d, restores lazy_inflater (lazy_deflate d) d) /\
  (forall d, inflate_file lazy_inflater (lazy_deflate d) = Ok ([], false)).
Proof.
  assert (C : forall d, cut (lazy_deflate d) (zeros 8192 :: pieces (length d) d)) by (intros d; apply cut_full; [reflexivity|apply cut_pieces; apply le_n]).
  assert (F : forall d, feed lazy_inflater (i_init lazy_inflater) (zeros 8192 :: pieces (length d) d) = Ok ([] :: pieces (length d) d)).
  { intros d. change (feed lazy_inflater (i_init lazy_inflater) (zeros 8192 :: pieces (length d) d)) with (outs <- feed lazy_inflater true (pieces (length d) d) ;; Ok ([] :: outs)).
    rewrite lazy_feed. reflexivity. }
  split; intros d.
  - eexists _, _. split; [apply C|]. split; [apply F|]. cbn [concat app]. apply cut_concat with (1 := cut_pieces (length d) d (le_n _)).
  - unfold inflate_file. rewrite <- (@cut_fun _ _ (C d) _ (cut_pieces _ _ (le_n _))). reflexivity.
Qed.
Print Assumptions C13_correct_pair_refuted.

Definition ex_a := mkent (u "a.txt"%string) 1 2 (u "hello"%string).
Definition ex_b := mkent (u "b"%string) 3 4 [].
Definition ex_items : list item := [Plain ex_a; Sub (u "dir"%string) [ex_b; ex_a]].
Definition ex_stamp (n : list N) : Z * Z := (zlen n, 7).
Definition ex_digest (d : list N) : list N := repeat 65%N 28.
(** the hypotheses of C14 hold for it ... *)
Lemma name_ok n : forallb (fun c => (0 <? c)%N && (c <? 55296)%N) n = true -> valid_name n.
Proof.
  intros H. rewrite forallb_forall in H. split; [|split].
  - apply Forall_forall. intros c Hc. apply H in Hc. apply small_scalar. lia.
  - intros Hc. apply H in Hc. discriminate.
  - destruct n as [|c n]; [exact I|]. specialize (H c (or_introl eq_refl)). unfold no_bom. lia.
Qed.
Lemma not_container d : starts sig32 d = false -> ~ looks_like_container d.
Proof. intros H [t ->]. cbn in H. discriminate. Qed.
Lemma nodup_names l : (fix nd (l : list (list N)) := match l with [] => true | x :: r => negb (existsb (str_eqb x) r) && nd r end) l = true -> NoDup l.
Proof.
  induction l as [|x l IH]; [constructor|]. intros H. apply andb_true_iff in H. destruct H as [H1 H2]. constructor; [|apply IH, H2].
  intros Hin. apply negb_true_iff in H1. assert (E : existsb (str_eqb x) l = true) by (apply existsb_exists; exists x; split; [exact Hin|apply str_eqb_refl]). congruence.
Qed.
Lemma ent_ok e : forallb (fun c => (0 <? c)%N && (c <? 55296)%N) (e_name e) && (0 <=? e_ctime e) && (e_ctime e <? 2 ^ 64) && (0 <=? e_mtime e) && (e_mtime e <? 2 ^ 64) = true -> valid_entry e.
Proof.
  intros H. repeat (apply andb_true_iff in H; destruct H as [H ?]). destruct (@name_ok (e_name e) H) as (A & B & C).
  repeat split; try assumption; try apply C; lia.
Qed.
Example ex_hyps : ex_items <> [] /\ NoDup (map i_name ex_items) /\ Forall valid_name (map i_name ex_items) /\ ~ In (u "configinfo"%string) (map i_name ex_items)
  /\ Forall valid_item ex_items /\ (forall n es, In (Sub n es) ex_items -> ~ In (n ++ u ".temp"%string) (map i_name ex_items))
  /\ stamps_ok ex_stamp (map i_name ex_items) /\ container_size layout32 (stored_listing id_deflate ex_stamp ex_items) < 2147483647.
Proof.
  split; [discriminate|]. split; [apply nodup_names; reflexivity|]. split; [repeat (constructor; [apply name_ok; reflexivity|]); constructor|].
  split; [intros H; repeat (destruct H as [H|H]; [discriminate|]); destruct H|]. split.
  - constructor; [apply not_container; reflexivity|]. constructor; [|constructor]. split; [|split].
    + split; [discriminate|]. split; [repeat (constructor; [apply ent_ok; reflexivity|]); constructor|apply nodup_names; reflexivity].
    + constructor; [apply not_container; reflexivity|]. constructor; [apply not_container; reflexivity|constructor].
    + reflexivity.
  - split; [|split].
    + intros n es [H|[H|[]]]; [discriminate|]. injection H as <- _. intros H. repeat (destruct H as [H|H]; [discriminate|]). destruct H.
    + intros n H. repeat (destruct H as [<-|H]; [split; split; reflexivity || discriminate|]). destruct H.
    + reflexivity.
Qed.
(** ... and the unpacked folder is the packed one, here with the tasks run in reverse order *)
Definition run_pipeline (os : platform) sched (ents : list (list N * node)) : res (list (list (list N * tree))) :=
  b <- pack id_deflate ex_digest os ex_stamp [(u "0"%string, ents)] ;; unpack id_inflater 3 50 0 sched b.
Example ex_pipeline : run_pipeline Posix (@rev _) (map item_node ex_items) =
  Ok [[(u "dir"%string, TDir [(u "a.txt"%string, TFile (u "hello"%string)); (u "b"%string, TFile [])]); (u "a.txt"%string, TFile (u "hello"%string))]].
Proof. vm_compute. reflexivity. Qed.
(** a file called dir.temp survives or not depending on the order of the tasks *)
Definition ex_temp_items : list item := [Sub (u "dir"%string) [ex_a]; Plain (mkent (u "dir.temp"%string) 0 0 (u "mine"%string))].
Example ex_temp : run_pipeline Posix (fun l => l) (map item_node ex_temp_items) =
    Ok [[(u "dir"%string, TDir [(u "a.txt"%string, TFile (u "hello"%string))]); (u "dir.temp"%string, TFile (u "mine"%string))]]
  /\ run_pipeline Posix (@rev _) (map item_node ex_temp_items) = Ok [[(u "dir"%string, TDir [(u "a.txt"%string, TFile (u "hello"%string))])]].
Proof. split; vm_compute; reflexivity. Qed.
(** configinfo before and after; when there is no other file the end of the old text stays *)
Definition ex_ci (t : list N) : entry := mkent (u "configinfo"%string) 0 0 t.
Example ex_configinfo : run_pipeline Posix (fun l => l) (map file_node [ex_b; ex_ci (u "{1,{____versions____}}"%string); ex_a]) =
  Ok [[(u "a.txt"%string, TFile (u "hello"%string)); (u "b"%string, TFile []);
       (u "configinfo"%string, TFile (u "{1,{2,""a.txt"",AAAAAAAAAAAAAAAAAAAAAAAAAAAA,""b"",AAAAAAAAAAAAAAAAAAAAAAAAAAAA}}"%string))]].
Proof. vm_compute. reflexivity. Qed.
Example ex_configinfo_tail : run_pipeline Posix (fun l => l) (map file_node [ex_ci (u "{1,{____versions____}}"%string)]) =
  Ok [[(u "configinfo"%string, TFile (u "{1,{0}}_versions____}}"%string))]].
Proof. vm_compute. reflexivity. Qed.
(** the hypotheses of C48 on that file *)
Example ex_configinfo_hyps : ~ contains mark_text (u "{1,"%string) /\ ~ contains mark_text (u "}"%string)
  /\ utf8_encode (u "{1,"%string ++ mark_text ++ u "}"%string) = Ok (e_data (ex_ci (u "{1,{____versions____}}"%string))) /\ sha1_text (ex_digest []).
Proof.
  split; [|split; [|split; [reflexivity|]]].
  - intros (a & b & E). apply (f_equal zlen) in E. rewrite !zlen_app in E. change (zlen mark_text) with 18 in E. change (zlen (u "{1,"%string)) with 3 in E. pose proof (zlen_nonneg a). pose proof (zlen_nonneg b). lia.
  - intros (a & b & E). apply (f_equal zlen) in E. rewrite !zlen_app in E. change (zlen mark_text) with 18 in E. change (zlen (u "}"%string)) with 1 in E. pose proof (zlen_nonneg a). pose proof (zlen_nonneg b). lia.
  - split; [reflexivity|]. repeat (constructor; [left; reflexivity|]). constructor.
Qed.
