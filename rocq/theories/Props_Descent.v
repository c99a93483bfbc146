(** C23-C26, C42-C44: versioned source files.
    Model: Descent.v.  Vocabulary: Spec_Descent.v. *)
From Coq Require Import String.
From Verif Require Import PyBase PyInt Descent Spec_Descent DescentProofs DescentHist DescentDir DescentDefects.
Open Scope list_scope.
Open Scope Z_scope.

(** C23 *)
Theorem C23_insert_remove : forall n d, good_ext n -> d <> 0 ->
  get_descent_file_name (plain_of n) d = versioned n d /\
  remove_descent_from_filename (get_descent_file_name (plain_of n) d) = Some (plain_of n).
Proof. intros n d Hg Hd. rewrite versioned_name by assumption. split; [reflexivity|apply remove_versioned; exact Hg]. Qed.
Print Assumptions C23_insert_remove.
Theorem C23_insert_injective : forall n n' d d', good_ext n -> good_ext n' -> d <> 0 -> d' <> 0 ->
  get_descent_file_name (plain_of n) d = get_descent_file_name (plain_of n') d' -> n = n' /\ d = d'.
Proof. intros n n' d d' H H' Hd Hd'. rewrite !versioned_name by assumption. apply versioned_inj; assumption. Qed.
Print Assumptions C23_insert_injective.
Theorem C23_other_names_kept : forall s,
  (dots s < 2)%nat \/ (exists a v b, s = a ++ 46%N :: v ++ 46%N :: b /\ ~ In 46%N v /\ ~ In 46%N b /\ not_a_number v) ->
  remove_descent_from_filename s = Some s.
Proof. intros s [H|(a & v & b & E & Hv & Hb & Hn)]; [apply remove_short; exact H|eapply remove_keeps; eassumption]. Qed.
Print Assumptions C23_other_names_kept.
(** a number not written the way str() writes it ('007') turns the name into None *)
Theorem C23_odd_number_refuted : forall a v b z, ~ In 46%N v -> ~ In 46%N b -> int_of_str v = Ok z -> str_of_int z <> v ->
  remove_descent_from_filename (a ++ 46%N :: v ++ 46%N :: b) = None.
Proof. exact remove_noncanonical. Qed.
Print Assumptions C23_odd_number_refuted.
(** a name without a dot does not get its version back off, and is not found again *)
Theorem C23_no_extension_refuted : forall s d v, ~ In 46%N s -> 0 < d <= v ->
  remove_descent_from_filename (get_descent_file_name s d) <> Some s /\
  get_near_descent_file_name [(get_descent_file_name s d, true)] s v <> Some (get_descent_file_name s d).
Proof.
  intros s d v Hs Hd. rewrite noext_remove, noext_near, noext_name by (auto; lia). split.
  - intros E. injection E as E. apply (f_equal (@length N)) in E. rewrite app_length in E. cbn [length] in E. lia.
  - intros E. injection E as E. apply (f_equal (@length N)) in E. cbn [length] in E. lia.
Qed.
Print Assumptions C23_no_extension_refuted.

(** C24 *)
Theorem C24_nearest_version : forall ents n v, good_ext n -> unambiguous ents n -> 0 <= v ->
  nearest ents n v (get_near_descent_file_name ents (plain_of n) v).
Proof. intros. apply near_correct; assumption. Qed.
Print Assumptions C24_nearest_version.
Theorem C24_listing_order_irrelevant : forall ents ents' n v, good_ext n -> unambiguous ents n -> 0 <= v ->
  Permutation ents ents' ->
  get_near_descent_file_name ents' (plain_of n) v = get_near_descent_file_name ents (plain_of n) v.
Proof.
  intros ents ents' n v Hg Hu Hv Hp.
  assert (Hin : forall e, In e ents' <-> In e ents) by (intros e; split; apply Permutation_in; [symmetry|]; exact Hp).
  assert (Hu' : unambiguous ents' n) by (intros e He; apply Hu; apply Hin; exact He).
  eapply nearest_fun; [exact Hg|apply near_correct; eassumption|].
  pose proof (near_correct Hg Hu Hv) as Ha. unfold nearest, stored in *.
  destruct Ha as [(d & H1 & H2 & H3 & H4)|(H1 & H2)].
  - left. exists d. split; [apply Hin; exact H1|]. split; [exact H2|]. split; [|exact H4].
    intros d' Hd'. apply H3. apply Hin. exact Hd'.
  - right. split; [intros d Hd; apply H1; apply Hin; exact Hd|]. destruct H2 as [[[b H2] H3]|[H2 H3]]; [left|right]; (split; [|exact H3]).
    + exists b. apply Hin. exact H2.
    + intros b Hb. apply (H2 b). apply Hin. exact Hb.
Qed.
Print Assumptions C24_listing_order_irrelevant.
(** without the hypothesis: a version of test2.bsl is taken for a version of test.bsl, and a
    file that does not exist is returned *)
Theorem C24_similar_name_refuted : forall n t d v, good_ext n -> ~ In 46%N t -> t <> [] -> 0 < d <= v ->
  let ents := [(versioned (mkname (stem n ++ t) (ext n)) d, true)] in
  get_near_descent_file_name ents (plain_of n) v = Some (versioned n d) /\ ~ In (versioned n d, true) ents.
Proof.
  intros n t d v Hg Ht Hne Hd ents. split; [apply collide; assumption|].
  intros [E|[]]. injection E as E. apply versioned_inj in E; [|exact Hg|exact Hg]. destruct E as [E _].
  destruct n as [s e]. cbn [stem ext] in E. injection E as E. rewrite <- (app_nil_r s) in E at 2. apply app_inv_head in E. contradiction.
Qed.
Print Assumptions C24_similar_name_refuted.

(** C25: after any sequence of unpacks into a well-formed folder, one more unpack of content
    [c] of file [n] for version [v] changes exactly the answers for [n] from [v] up to the
    next stored version, and makes them [c]. *)
Theorem C25_version_history : forall ns f0 ops n v c, compatible ns -> holds_only ns f0 ->
  Forall (fun o => In (fst (fst o)) ns /\ 0 < snd (fst o)) ops -> In n ns -> 0 < v ->
  exists f f', unpacks ops f0 = Ok f /\ unpack_file_ce f (plain_of n) c v = Ok f' /\
    pack_file_ce f' (plain_of n) v = Ok c /\
    (forall w, 0 <= w < v -> pack_file_ce f' (plain_of n) w = pack_file_ce f (plain_of n) w) /\
    (forall w, v < w -> (exists d, v < d <= w /\ has_version f n d) ->
       pack_file_ce f' (plain_of n) w = pack_file_ce f (plain_of n) w) /\
    (forall w, v < w -> (forall d, v < d <= w -> ~ has_version f n d) -> pack_file_ce f' (plain_of n) w = Ok c) /\
    (forall m w, In m ns -> m <> n -> 0 <= w -> pack_file_ce f' (plain_of m) w = pack_file_ce f (plain_of m) w).
Proof.
  intros ns f0 ops n v c Hc Hf0 Hops Hn Hv. destruct (unpacks_ok Hc Hf0 Hops) as (f & E & Hf).
  destruct (@unpack_step ns Hc f n v c Hf Hn Hv) as (f' & E' & Hf' & Hnew & Hsame).
  exists f, f'. split; [exact E|]. split; [exact E'|]. split; [apply Hnew; [lia|intros d Hd; lia]|].
  split; [intros w Hw; apply Hsame; [exact Hn|lia|right; left; lia]|].
  split; [intros w Hw Hd; apply Hsame; [exact Hn|lia|right; right; exact Hd]|].
  split; [intros w Hw Hd; apply Hnew; [lia|exact Hd]|].
  intros m w Hm Hne Hw. apply Hsame; [exact Hm|exact Hw|left; exact Hne].
Qed.
Print Assumptions C25_version_history.

(** C26 *)
Theorem C26_check_version : forall a b,
  check_version a b = Ok tt <->
  exists a0 a1 a2 b0 b1 b2 x y,
    a = a0 ++ 46%N :: a1 ++ 46%N :: a2 /\ b = b0 ++ 46%N :: b1 ++ 46%N :: b2 /\
    Forall (fun p => ~ In 46%N p) [a0; a1; a2; b0; b1; b2] /\
    int_of_str a0 = Ok x /\ int_of_str b0 = Ok x /\ int_of_str a1 = Ok y /\ int_of_str b1 = Ok y.
Proof.
  intros a b. unfold check_version. split.
  - intros H.
    pose proof (join_split_ch DOT a) as Ja. pose proof (join_split_ch DOT b) as Jb.
    pose proof (@split_ch_parts_nosep DOT a) as Na. pose proof (@split_ch_parts_nosep DOT b) as Nb.
    destruct (split_ch DOT a) as [|a0 [|a1 [|a2 [|]]]]; try discriminate.
    destruct (split_ch DOT b) as [|b0 [|b1 [|b2 [|]]]]; try discriminate.
    destruct (int_of_str a0) as [x0|] eqn:E1; cbn [bind] in H; [|discriminate].
    destruct (int_of_str a1) as [x1|] eqn:E2; cbn [bind] in H; [|discriminate].
    destruct (int_of_str b0) as [y0|] eqn:E3; cbn [bind] in H; [|discriminate].
    destruct (int_of_str b1) as [y1|] eqn:E4; cbn [bind] in H; [|discriminate].
    destruct ((x0 =? y0) && (x1 =? y1)) eqn:E5; [|discriminate]. apply andb_true_iff in E5. destruct E5 as [E5 E6].
    apply Z.eqb_eq in E5. apply Z.eqb_eq in E6. subst y0 y1.
    exists a0, a1, a2, b0, b1, b2, x0, x1. cbn [join app] in Ja, Jb. split; [symmetry; exact Ja|]. split; [symmetry; exact Jb|].
    split; [|auto]. inversion Na as [|? ? N1 Na']; subst. inversion Na' as [|? ? N2 Na'']; subst. inversion Na'' as [|? ? N3 _]; subst.
    inversion Nb as [|? ? N4 Nb']; subst. inversion Nb' as [|? ? N5 Nb'']; subst. inversion Nb'' as [|? ? N6 _]; subst.
    repeat (apply Forall_cons; [assumption|]). apply Forall_nil.
  - intros (a0 & a1 & a2 & b0 & b1 & b2 & x & y & -> & -> & Hf & E1 & E2 & E3 & E4).
    inversion Hf as [|? ? N1 Hf1]; subst. inversion Hf1 as [|? ? N2 Hf2]; subst. inversion Hf2 as [|? ? N3 Hf3]; subst.
    inversion Hf3 as [|? ? N4 Hf4]; subst. inversion Hf4 as [|? ? N5 Hf5]; subst. inversion Hf5 as [|? ? N6 _]; subst.
    change 46%N with DOT. rewrite !Paths.split_ch_app.
    rewrite (@split_ch_nosep DOT _ N1), (@split_ch_nosep DOT _ N2), (@split_ch_nosep DOT _ N3), (@split_ch_nosep DOT _ N4), (@split_ch_nosep DOT _ N5), (@split_ch_nosep DOT _ N6).
    cbn [app]. rewrite E1, E2, E3, E4. cbn [bind]. rewrite !Z.eqb_refl. reflexivity.
Qed.
Print Assumptions C26_check_version.

(** C42 *)
Theorem C42_pack_folder : forall ns f v, compatible ns -> holds_only ns f -> 0 <= v ->
  (forall n, In n ns -> present f n -> available f n v) ->
  exists r, pack_dir f v = Ok r /\
    (forall n, In n ns -> present f n ->
       exists c, pack_file_ce f (plain_of n) v = Ok c /\ dget (plain_of n) r = Some c) /\
    (forall k c, dget k r = Some c -> exists n, In n ns /\ k = plain_of n /\ present f n).
Proof. intros ns f v Hc. apply pack_dir_ok; exact Hc. Qed.
Print Assumptions C42_pack_folder.
(** each file is listed once, however many of its versions the folder holds *)
Theorem C42_each_once : forall f, NoDup (list_descent_dir f) /\
  forall e, In e (list_descent_dir f) <-> exists n c, In (n, c) f /\ e = remove_descent_from_filename n.
Proof.
  intros f. split; [apply list_go_nodup|]. intros e. unfold list_descent_dir. rewrite list_go_in, in_map_iff. split.
  - intros (_ & [n c] & E & H). exists n, c. split; [exact H|symmetry; exact E].
  - intros (n & c & H & E). split; [intros []|]. exists (n, c). split; [symmetry; exact E|exact H].
Qed.
Print Assumptions C42_each_once.
Theorem C42_newer_file_refuted : forall ns f v n, compatible ns -> holds_only ns f -> 0 <= v ->
  In n ns -> present f n -> ~ available f n v -> pack_dir f v = Err ExtExc.
Proof. intros ns f v n Hc. apply pack_dir_fail; exact Hc. Qed.
Print Assumptions C42_newer_file_refuted.

(** C43 *)
Theorem C43_selection_stable : forall ents n v, good_ext n -> 0 <= v ->
  (exists b, In (plain_of n, b) ents) ->
  (forall e, In (e, true) ents -> starts (stem n) e = true -> ends (ext n) e = true -> dots e <> S (dots (plain_of n))) ->
  get_near_descent_file_name ents (plain_of n) v = Some (plain_of n).
Proof. intros; apply near_again; assumption. Qed.
Print Assumptions C43_selection_stable.

(** C44: unpacking version [v] with OrganizerFileCE.unpack loses every older version *)
Theorem C44_older_versions_lost_refuted : forall ns v src, compatible ns -> 0 < v ->
  Forall (fun x => exists n, In n ns /\ fst x = plain_of n) src ->
  forall dest, exists g, organizer_unpack v src dest = Ok g /\
    forall n w, In n ns -> 0 <= w < v -> pack_file_ce g (plain_of n) w = Err FileNotFoundError.
Proof. intros ns v src Hc. apply unpack_wipes; exact Hc. Qed.
Print Assumptions C44_older_versions_lost_refuted.

(** ** Concrete cases meeting the hypotheses *)
Definition nm (a b : string) : fname := mkname (u a) (u b).
Definition sample_names : list fname := [nm "obj" "bsl"; nm "Form.elem" "json"; nm "image" "png"].
Lemma nodot_number s : int_of_str s = Err ValueError -> not_a_number s.
Proof. intros H z E. congruence. Qed.
Example sample_compatible : compatible sample_names.
Proof.
  split.
  - unfold sample_names. repeat (apply Forall_cons; [split|]); try apply Forall_nil.
    + apply dots_0. reflexivity.
    + intros a v E Hv. exfalso. apply (f_equal dots) in E. rewrite dots_dot in E. vm_compute in E. discriminate.
    + apply dots_0. reflexivity.
    + intros a v E Hv. apply nodot_number.
      assert (E2 : split_ch 46%N (stem (nm "Form.elem" "json")) = split_ch 46%N a ++ split_ch 46%N v) by (rewrite E; apply Paths.split_ch_app).
      rewrite (@split_ch_nosep _ _ Hv) in E2. change (split_ch 46%N (stem (nm "Form.elem" "json"))) with ([u "Form"] ++ [u "elem"]) in E2.
      apply app_inj_tail in E2. destruct E2 as [_ <-]. reflexivity.
    + apply dots_0. reflexivity.
    + intros a v E Hv. exfalso. apply (f_equal dots) in E. rewrite dots_dot in E. vm_compute in E. discriminate.
  - intros a b Ha Hb Hne _ [H1 H2]. cbn in Ha, Hb.
    destruct Ha as [<-|[<-|[<-|[]]]], Hb as [<-|[<-|[<-|[]]]]; try congruence; vm_compute in H1; discriminate.
Qed.
Definition sample_folder : folder :=
  [(plain_of (nm "obj" "bsl"), u "a"); (versioned (nm "obj" "bsl") 10, u "b"); (versioned (nm "image" "png") 3, u "c")].
Example sample_holds : holds_only sample_names sample_folder.
Proof.
  split.
  - repeat constructor; intros H; vm_compute in H; intuition discriminate.
  - intros e He. cbn [sample_folder map fst In] in He. destruct He as [<-|[<-|[<-|[]]]].
    + exists (nm "obj" "bsl"). split; [cbn; auto|left; reflexivity].
    + exists (nm "obj" "bsl"). split; [cbn; auto|right; exists 10; split; [lia|reflexivity]].
    + exists (nm "image" "png"). split; [cbn; auto|right; exists 3; split; [lia|reflexivity]].
Qed.
Example sample_unambiguous : unambiguous (listing sample_folder) (nm "obj" "bsl").
Proof. eapply holds_unambiguous; [exact sample_compatible|cbn; auto|exact sample_holds]. Qed.
Example sample_near : map (fun v => get_near_descent_file_name (listing sample_folder) (plain_of (nm "obj" "bsl")) v) [5; 10; 99]
  = [Some (u "obj.bsl"); Some (u "obj.10.bsl"); Some (u "obj.10.bsl")].
Proof. vm_compute. reflexivity. Qed.
Example sample_pack_fails : pack_dir sample_folder 2 = Err ExtExc /\ is_ok (pack_dir sample_folder 3) = true.
Proof. split; vm_compute; reflexivity. Qed.
Example sample_unavailable : present sample_folder (nm "image" "png") /\ ~ available sample_folder (nm "image" "png") 2.
Proof.
  split; [right; exists 3; cbn; auto|]. intros [H|(d & Hd & H)].
  - unfold has_plain in H. vm_compute in H. intuition discriminate.
  - unfold has_version in H. cbn [sample_folder map fst In] in H. destruct H as [H|[H|[H|[]]]].
    + symmetry in H. apply versioned_not_plain in H; [exact H| |intros X; vm_compute in X; intuition discriminate].
      destruct sample_compatible as [Hok _]. inversion Hok; assumption.
    + apply (f_equal (@hd N 0%N)) in H. vm_compute in H. discriminate.
    + apply versioned_inj in H; [|apply dots_0; reflexivity|apply dots_0; reflexivity]. lia.
Qed.
Example odd_number : int_of_str (u "007") = Ok 7 /\ str_of_int 7 <> u "007".
Proof. split; [reflexivity|discriminate]. Qed.
Example versions_match : check_version (u "1.0.5") (u "1.00.99") = Ok tt /\ check_version (u "1.0.5") (u "1.1.5") = Err AssertionError.
Proof. split; reflexivity. Qed.
