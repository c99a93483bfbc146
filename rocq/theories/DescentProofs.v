(** Proofs about the version file names (model: Descent.v, vocabulary: Spec_Descent.v). *)
From Coq Require Export Permutation.
From Verif Require Import PyBase PyInt Paths Descent Spec_Descent.
Set Implicit Arguments.
Open Scope list_scope.
Open Scope Z_scope.

Lemma last_app {A} (l : list A) x d : last (l ++ [x]) d = x.
Proof. apply last_last. Qed.
Lemma removelast_app1 {A} (l : list A) x : removelast (l ++ [x]) = l.
Proof. apply removelast_last. Qed.

Lemma split_len s : length (split_ch DOT s) = S (dots s).
Proof.
  unfold dots. induction s as [|c s IH]; [reflexivity|]. cbn [split_ch count_occ].
  destruct (N.eqb_spec c DOT) as [->|Hne].
  - destruct (N.eq_dec DOT 46%N) as [_|H]; [cbn; rewrite IH; reflexivity|exfalso; apply H; reflexivity].
  - destruct (N.eq_dec c 46%N) as [H|_]; [contradiction|].
    pose proof (@split_ch_nonnil DOT s) as Hn. destruct (split_ch DOT s); [congruence|]. cbn in *. exact IH.
Qed.
Lemma dots_app a b : dots (a ++ b) = (dots a + dots b)%nat.
Proof. apply count_occ_app. Qed.
Lemma dots_dot a b : dots (a ++ 46%N :: b) = S (dots a + dots b).
Proof. rewrite dots_app. change (46%N :: b) with ([46%N] ++ b). rewrite dots_app. cbn. lia. Qed.
Lemma dots_0 s : ~ In 46%N s <-> dots s = 0%nat.
Proof. unfold dots. apply (count_occ_not_In N.eq_dec). Qed.
Lemma int_nodot d : ~ In DOT (str_of_int d).
Proof. intros H. apply str_of_int_chars in H. unfold DOT in H. lia. Qed.

Lemma split_plain n : good_ext n -> split_ch DOT (plain_of n) = split_ch DOT (stem n) ++ [ext n].
Proof. intros H. unfold plain_of. change 46%N with DOT. rewrite split_ch_app. rewrite (@split_ch_nosep DOT (ext n)) by exact H. reflexivity. Qed.
Lemma split_versioned n d : good_ext n -> split_ch DOT (versioned n d) = split_ch DOT (stem n) ++ [str_of_int d; ext n].
Proof.
  intros H. unfold versioned. change 46%N with DOT. rewrite !split_ch_app.
  rewrite (@split_ch_nosep DOT (ext n)) by exact H. rewrite (@split_ch_nosep DOT (str_of_int d)) by apply int_nodot. reflexivity.
Qed.
Lemma join_app sep a b : a <> [] -> b <> [] -> join sep (a ++ b) = join sep a ++ sep ++ join sep b.
Proof.
  intros Ha Hb. induction a as [|x a IH]; [congruence|]. destruct a as [|y a].
  - cbn [app]. rewrite join_cons by exact Hb. reflexivity.
  - change ((x :: y :: a) ++ b) with (x :: ((y :: a) ++ b)). rewrite join_cons by discriminate.
    rewrite IH by discriminate. rewrite (@join_cons sep x (y :: a)) by discriminate. rewrite !app_assoc. reflexivity.
Qed.
Lemma insert_last {A} (l : list A) x y d : insert_before_last x (l ++ [y]) d = l ++ [x; y].
Proof. unfold insert_before_last. rewrite removelast_app1, last_app. reflexivity. Qed.

Lemma versioned_name n d : good_ext n -> d <> 0 -> get_descent_file_name (plain_of n) d = versioned n d.
Proof.
  intros H Hd. unfold get_descent_file_name. destruct (Z.eqb_spec d 0); [contradiction|].
  rewrite split_plain by exact H. rewrite insert_last.
  rewrite join_app by (try apply split_ch_nonnil; discriminate). rewrite join_split_ch. cbn [join app]. reflexivity.
Qed.

Lemma remove_versioned n d : good_ext n -> remove_descent_from_filename (versioned n d) = Some (plain_of n).
Proof.
  intros H. unfold remove_descent_from_filename. rewrite split_versioned by exact H.
  rewrite app_length. cbn [length].
  pose proof (@split_ch_nonnil DOT (stem n)) as Hn.
  assert (Hl : (length (split_ch DOT (stem n)) + 2 <? 3)%nat = false).
  { apply Nat.ltb_ge. destruct (split_ch DOT (stem n)); [congruence|]. cbn. lia. }
  rewrite Hl. change [str_of_int d; ext n] with ([str_of_int d] ++ [ext n]). rewrite app_assoc.
  rewrite removelast_app1, !last_app, removelast_app1, int_of_str_of_int, str_eqb_refl.
  rewrite join_app by (try exact Hn; discriminate). rewrite join_split_ch. reflexivity.
Qed.

Lemma remove_keeps s a v b : s = a ++ 46%N :: v ++ 46%N :: b -> ~ In 46%N v -> ~ In 46%N b -> not_a_number v ->
  remove_descent_from_filename s = Some s.
Proof.
  intros -> Hv Hb Hn. unfold remove_descent_from_filename.
  destruct (length (split_ch DOT (a ++ 46%N :: v ++ 46%N :: b)) <? 3)%nat; [reflexivity|].
  change 46%N with DOT. rewrite !split_ch_app, (@split_ch_nosep DOT _ Hb), (@split_ch_nosep DOT _ Hv).
  cbn [app]. change [v; b] with ([v] ++ [b]). rewrite app_assoc, removelast_app1, last_app.
  destruct (int_of_str v) eqn:E; [exfalso; eapply Hn; exact E|reflexivity].
Qed.
Lemma remove_short s : (dots s < 2)%nat -> remove_descent_from_filename s = Some s.
Proof.
  intros H. unfold remove_descent_from_filename. rewrite split_len.
  destruct (Nat.ltb_spec (S (dots s)) 3); [reflexivity|lia].
Qed.

Lemma versioned_inj n n' d d' : good_ext n -> good_ext n' -> versioned n d = versioned n' d' -> n = n' /\ d = d'.
Proof.
  intros H H' E. pose proof (split_versioned d H) as S1. pose proof (split_versioned d' H') as S2.
  rewrite E in S1. rewrite S2 in S1.
  change [str_of_int d'; ext n'] with ([str_of_int d'] ++ [ext n']) in S1.
  change [str_of_int d; ext n] with ([str_of_int d] ++ [ext n]) in S1.
  rewrite !app_assoc in S1. apply app_inj_tail in S1. destruct S1 as [S1 Ee].
  apply app_inj_tail in S1. destruct S1 as [S1 Ed]. apply str_of_int_inj in Ed.
  assert (stem n = stem n') as Es.
  { rewrite <- (join_split_ch DOT (stem n)), <- (join_split_ch DOT (stem n')). congruence. }
  split; [|congruence]. destruct n, n'; cbn in *; congruence.
Qed.
Lemma plain_inj n n' : good_ext n -> good_ext n' -> plain_of n = plain_of n' -> n = n'.
Proof.
  intros H H' E. pose proof (split_plain H) as S1. pose proof (split_plain H') as S2.
  rewrite E in S1. rewrite S2 in S1. apply app_inj_tail in S1. destruct S1 as [S1 Ee].
  assert (stem n = stem n') as Es.
  { rewrite <- (join_split_ch DOT (stem n)), <- (join_split_ch DOT (stem n')). congruence. }
  destruct n, n'; cbn in *; congruence.
Qed.
Lemma dots_plain n : dots (plain_of n) = S (dots (stem n) + dots (ext n)).
Proof. apply dots_dot. Qed.
Lemma dots_versioned n d : dots (versioned n d) = S (S (dots (stem n) + dots (ext n))).
Proof.
  unfold versioned. rewrite dots_dot, dots_dot.
  assert (dots (str_of_int d) = 0%nat) by (apply dots_0; apply int_nodot). lia.
Qed.
Lemma versioned_not_plain n n' d : name_ok n' -> good_ext n -> versioned n d <> plain_of n'.
Proof.
  intros [Hg Hn] H E. pose proof (split_versioned d H) as S1. rewrite E, (split_plain Hg) in S1.
  change [str_of_int d; ext n] with ([str_of_int d] ++ [ext n]) in S1. rewrite app_assoc in S1.
  apply app_inj_tail in S1. destruct S1 as [S1 _].
  assert (stem n' = stem n ++ 46%N :: str_of_int d) as Es.
  { rewrite <- (join_split_ch DOT (stem n')), S1.
    rewrite join_app by (try apply split_ch_nonnil; discriminate). rewrite join_split_ch. reflexivity. }
  eapply (Hn _ _ Es); [apply int_nodot|apply int_of_str_of_int].
Qed.

(** ** first_max *)
Lemma first_max_spec key l : forall b, In (first_max key b l) (b :: l) /\
  Forall (fun x => key x <= key (first_max key b l)) (b :: l).
Proof.
  induction l as [|x l IH]; intros b; cbn [first_max].
  - split; [left; reflexivity|]. constructor; [lia|constructor].
  - destruct (key x >? key b) eqn:E; destruct (IH (if key x >? key b then x else b)) as [H1 H2]; rewrite E in *.
    + split; [cbn in *; tauto|]. inversion H2; subst. constructor; [lia|]. constructor; [lia|assumption].
    + split; [cbn in *; tauto|]. inversion H2; subst. constructor; [lia|]. constructor; [lia|assumption].
Qed.

(** ** near_scan *)
Section Near.
  Variable n : fname.
  Hypothesis Hg : good_ext n.
  Let scan ents := near_scan (stem n) (ext n) (plain_of n) (length (split_ch DOT (plain_of n))) ents.

  Lemma scan_plain ents : fst (scan ents) = true <-> exists b, In (plain_of n, b) ents.
  Proof.
    unfold scan. induction ents as [|[e isf] ents IH]; cbn [near_scan fst].
    - split; [discriminate|intros [b []]].
    - destruct (near_scan (stem n) (ext n) (plain_of n) (length (split_ch DOT (plain_of n))) ents) as [w ds]. cbn [fst] in IH.
      destruct (starts (stem n) e && ends (ext n) e) eqn:E1.
      + destruct (str_eqb e (plain_of n)) eqn:E2.
        * apply str_eqb_spec in E2. subst. cbn. split; [intros _; exists isf; left; reflexivity|reflexivity].
        * apply str_eqb_neq in E2. assert (Hr : w = true <-> exists b, In (plain_of n, b) ((e, isf) :: ents)).
          { rewrite IH. split; intros [b H]; exists b; cbn in *; [tauto|]. destruct H as [H|H]; [congruence|exact H]. }
          destruct (negb (length (split_ch DOT e) - 1 =? length (split_ch DOT (plain_of n)))%nat); [exact Hr|].
          destruct isf; [|exact Hr]. destruct (int_of_str (last (removelast (split_ch DOT e)) [])); exact Hr.
      + cbn [fst]. rewrite IH. split; intros [b H]; exists b; cbn in *; [tauto|]. destruct H as [H|H]; [|exact H].
        exfalso. injection H as -> ->. apply andb_false_iff in E1. unfold plain_of in E1. destruct E1 as [E1|E1].
        * rewrite starts_app in E1. discriminate.
        * assert (ends (ext n) (stem n ++ 46%N :: ext n) = true).
          { apply ends_spec. exists (stem n ++ [46%N]). rewrite <- app_assoc. reflexivity. }
          congruence.
  Qed.

  Lemma starts_versioned d : starts (stem n) (versioned n d) = true.
  Proof. apply starts_app. Qed.
  Lemma ends_versioned d : ends (ext n) (versioned n d) = true.
  Proof.
    apply ends_spec. exists (stem n ++ 46%N :: str_of_int d ++ [46%N]). unfold versioned.
    rewrite <- app_assoc. cbn [app]. rewrite <- app_assoc. reflexivity.
  Qed.

  Lemma scan_descents ents : unambiguous ents n -> forall d, In d (snd (scan ents)) <-> stored ents n d.
  Proof.
    unfold scan. induction ents as [|[e isf] ents IH]; intros Hu d.
    - cbn. unfold stored. cbn. tauto.
    - assert (Hu' : unambiguous ents n) by (intros e' He'; apply Hu; right; exact He').
      specialize (IH Hu' d). cbn [near_scan].
      destruct (near_scan (stem n) (ext n) (plain_of n) (length (split_ch DOT (plain_of n))) ents) as [w ds]. cbn [snd] in IH.
      assert (Hskip : (isf = true -> e <> versioned n d) -> (In d ds <-> stored ((e, isf) :: ents) n d)).
      { intros Hne. unfold stored in *. cbn [In]. rewrite IH. split; [tauto|].
        assert ((e, isf) = (versioned n d, true) -> False) by (intros H; injection H as H1 H2; exact (Hne H2 H1)). tauto. }
      destruct (starts (stem n) e && ends (ext n) e) eqn:E1.
      + apply andb_true_iff in E1. destruct E1 as [Hs He].
        destruct (str_eqb e (plain_of n)) eqn:E2.
        { apply str_eqb_spec in E2. cbn [snd]. apply Hskip. intros _ E3. rewrite E2 in E3.
          apply (f_equal dots) in E3. rewrite dots_plain, dots_versioned in E3. lia. }
        apply str_eqb_neq in E2. rewrite !split_len.
        destruct (Nat.eqb_spec (S (dots e) - 1) (S (dots (plain_of n)))) as [E3|E3]; cbn [negb snd].
        2: { apply Hskip. intros _ E4. subst e. rewrite dots_plain, dots_versioned in E3. lia. }
        destruct isf; [|apply Hskip; discriminate].
        destruct (Hu e (or_introl eq_refl) E2 Hs He ltac:(lia)) as [(z & Hz & ->)|(a & v & b & E4 & Hv & Hb & Hnum)].
        * rewrite (split_versioned z Hg). change [str_of_int z; ext n] with ([str_of_int z] ++ [ext n]).
          rewrite app_assoc, removelast_app1, last_app, int_of_str_of_int. cbn [snd In].
          unfold stored in *. cbn [In]. rewrite IH. split.
          -- intros [->|H]; [left; reflexivity|tauto].
          -- assert ((versioned n z, true) = (versioned n d, true) -> z = d).
             { intros H. injection H as H. apply (versioned_inj _ _ Hg Hg) in H. tauto. } tauto.
        * assert (E5 : int_of_str (last (removelast (split_ch DOT e)) []) = int_of_str v).
          { rewrite E4. change 46%N with DOT. rewrite !split_ch_app, (@split_ch_nosep DOT _ Hb), (@split_ch_nosep DOT _ Hv).
            cbn [app]. change [v; b] with ([v] ++ [b]). rewrite app_assoc, removelast_app1, last_app. reflexivity. }
          rewrite E5. destruct (int_of_str v) as [z|] eqn:E6; [exfalso; eapply Hnum; exact E6|]. cbn [snd].
          apply Hskip. intros _ E7. rewrite E7, (split_versioned d Hg) in E5.
          change [str_of_int d; ext n] with ([str_of_int d] ++ [ext n]) in E5.
          rewrite app_assoc, removelast_app1, last_app, int_of_str_of_int in E5. congruence.
      + cbn [snd]. apply Hskip. intros _ E2. subst e. rewrite starts_versioned, ends_versioned in E1. discriminate.
  Qed.

  Lemma stored_pos ents d : unambiguous ents n -> stored ents n d -> 0 < d.
  Proof.
    intros Hu Hs. destruct (Hu (versioned n d) Hs) as [(z & Hz & E)|(a & v & b & E4 & Hv & Hb & Hnum)].
    - intros E. apply (f_equal dots) in E. rewrite dots_plain, dots_versioned in E. lia.
    - apply starts_versioned.
    - apply ends_versioned.
    - rewrite dots_plain, dots_versioned. lia.
    - apply (versioned_inj _ _ Hg Hg) in E. destruct E as [_ ->]. exact Hz.
    - exfalso. pose proof (split_versioned d Hg) as S1. rewrite E4 in S1. change 46%N with DOT in S1.
      rewrite !split_ch_app, (@split_ch_nosep DOT _ Hb), (@split_ch_nosep DOT _ Hv) in S1. cbn [app] in S1.
      change [v; b] with ([v] ++ [b]) in S1. change [str_of_int d; ext n] with ([str_of_int d] ++ [ext n]) in S1.
      rewrite !app_assoc in S1. apply app_inj_tail in S1. destruct S1 as [S1 _]. apply app_inj_tail in S1.
      destruct S1 as [_ ->]. eapply Hnum. apply int_of_str_of_int.
  Qed.

  Lemma near_correct ents v : unambiguous ents n -> 0 <= v ->
    nearest ents n v (get_near_descent_file_name ents (plain_of n) v).
  Proof.
    intros Hu Hv. unfold get_near_descent_file_name.
    assert (E1 : join [DOT] (removelast (split_ch DOT (plain_of n))) = stem n).
    { rewrite split_plain by exact Hg. rewrite removelast_app1. apply join_split_ch. }
    assert (E2 : last (split_ch DOT (plain_of n)) [] = ext n).
    { rewrite split_plain by exact Hg. apply last_app. }
    rewrite E1, E2. pose proof (scan_plain ents) as Hp. pose proof (scan_descents Hu) as Hd. unfold scan in *.
    destruct (near_scan (stem n) (ext n) (plain_of n) (length (split_ch DOT (plain_of n))) ents) as [w ds].
    cbn [fst snd] in *.
    assert (Hin : forall d, In d ds <-> stored ents n d) by (intros d; rewrite (Hd d); tauto).
    assert (Hno : (forall d, stored ents n d -> v < d) -> nearest ents n v (if w then Some (plain_of n) else None)).
    { intros H. right. split; [exact H|]. destruct w.
      - left. split; [apply Hp; reflexivity|reflexivity].
      - right. split; [|reflexivity]. intros b Hb. assert (false = true) by (apply Hp; exists b; exact Hb). discriminate. }
    destruct ds as [|d0 rest].
    { apply Hno. intros d Hs. apply Hin in Hs. destruct Hs. }
    set (m := first_max (near_key v) d0 rest). destruct (first_max_spec (near_key v) rest d0) as [Hmin Hmax]. fold m in Hmin, Hmax.
    rewrite Forall_forall in Hmax.
    assert (Hm : stored ents n m) by (apply Hin; exact Hmin). pose proof (stored_pos _ Hu Hm) as Hmp.
    destruct (m >? v) eqn:E3.
    - apply Hno. intros d Hs. pose proof (stored_pos _ Hu Hs). apply Hin in Hs. apply Hmax in Hs.
      unfold near_key in Hs. rewrite E3 in Hs. destruct (d >? v) eqn:E4; lia.
    - left. exists m. split; [exact Hm|]. split; [lia|]. split; [|reflexivity].
      intros d Hs Hle. apply Hin in Hs. apply Hmax in Hs. unfold near_key in Hs. rewrite E3 in Hs.
      destruct (d >? v) eqn:E4; lia.
  Qed.
End Near.
