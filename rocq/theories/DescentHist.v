(** Version histories of a folder (C25, C42, C43). *)
From Verif Require Import PyBase PyInt Paths Descent Spec_Descent DescentProofs.
Set Implicit Arguments.
Open Scope list_scope.
Open Scope Z_scope.

Lemma nearest_fun ents n v a a' : good_ext n -> nearest ents n v a -> nearest ents n v a' -> a = a'.
Proof.
  intros Hg [(d & H1 & H2 & H3 & H4)|(H1 & H2)] [(d' & H1' & H2' & H3' & H4')|(H1' & H2')]; subst.
  - assert (d = d') as -> by (pose proof (H3 _ H1' ltac:(lia)); pose proof (H3' _ H1 ltac:(lia)); lia). reflexivity.
  - specialize (H1' _ H1). lia.
  - specialize (H1 _ H1'). lia.
  - destruct H2 as [[[b H2] ->]|[H2 ->]], H2' as [[[b' H2'] ->]|[H2' ->]]; try reflexivity; exfalso; firstorder.
Qed.

Lemma stored_listing f n d : stored (listing f) n d <-> has_version f n d.
Proof.
  unfold stored, has_version, listing. rewrite !in_map_iff. split.
  - intros (x & H1 & H2). injection H1 as H1. exists x. split; assumption.
  - intros (x & H1 & H2). exists x. rewrite H1. split; [reflexivity|exact H2].
Qed.
Lemma plain_listing f n b : In (plain_of n, b) (listing f) -> has_plain f n.
Proof. unfold listing, has_plain. rewrite !in_map_iff. intros (x & H1 & H2). injection H1 as H1 _. exists x. auto. Qed.
Lemma plain_listing' f n : has_plain f n -> In (plain_of n, true) (listing f).
Proof. unfold listing, has_plain. rewrite !in_map_iff. intros (x & H1 & H2). exists x. rewrite H1. auto. Qed.

Lemma starts_cut a b c : starts a (b ++ 46%N :: c) = true -> dots a = dots b -> starts a b = true.
Proof.
  revert b. induction a as [|x a IH]; intros b H Hd; [reflexivity|].
  destruct b as [|y b].
  - cbn in H. apply andb_true_iff in H. destruct H as [H _]. apply N.eqb_eq in H. subst. cbn in Hd. discriminate.
  - cbn [app starts] in *. apply andb_true_iff in H. destruct H as [H1 H2]. rewrite H1. apply N.eqb_eq in H1. subst y.
    cbn [andb]. apply IH; [exact H2|]. unfold dots in *. cbn [count_occ] in Hd. destruct (N.eq_dec x 46); lia.
Qed.
Lemma ends_cut a b c : ends a (c ++ 46%N :: b) = true -> ~ In 46%N a -> ~ In 46%N b -> ends a b = true.
Proof.
  intros H Ha Hb. unfold ends in *. rewrite rev_app_distr in H. cbn [rev] in H. rewrite <- app_assoc in H. cbn [app] in H.
  eapply starts_cut; [exact H|]. assert (forall s, ~ In 46%N s -> dots (rev s) = 0%nat).
  { intros s Hs. apply dots_0. intros Hin. apply Hs. apply in_rev. exact Hin. }
  rewrite !H0; auto.
Qed.

Lemma holds_unambiguous ns f n : compatible ns -> In n ns -> holds_only ns f -> unambiguous (listing f) n.
Proof.
  intros [Hok Hc] Hn [Hnd Hf] e He Hne Hs He' Hd.
  assert (Hin : In e (map fst f)). { unfold listing in He. apply in_map_iff in He. destruct He as (x & H1 & H2). injection H1 as H1. subst. apply in_map. exact H2. }
  rewrite Forall_forall in Hok.
  pose proof (Hok n Hn) as [Hgn _].
  assert (Hxn : dots (ext n) = 0%nat) by (apply dots_0; exact Hgn).
  destruct (Hf e Hin) as (m & Hm & [->|(d & Hd0 & ->)]).
  - pose proof (Hok m Hm) as [Hgm Hmn]. right.
    rewrite !dots_plain in Hd. assert (dots (ext m) = 0%nat) by (apply dots_0; exact Hgm).
    pose proof (split_len (stem m)) as Hl.
    pose proof (@split_ch_parts_nosep DOT (stem m)) as Hnd'.
    destruct (exists_last (l := split_ch DOT (stem m)) (@split_ch_nonnil DOT (stem m))) as (l & x & E).
    destruct l as [|y l].
    { rewrite E in Hl. cbn in Hl. lia. }
    assert (Es : stem m = join [DOT] (y :: l) ++ 46%N :: x).
    { rewrite <- (join_split_ch DOT (stem m)), E. rewrite join_app by discriminate. reflexivity. }
    assert (Hx : ~ In 46%N x).
    { rewrite E in Hnd'. apply Forall_app in Hnd'. destruct Hnd' as [_ Hnd']. inversion Hnd'; subst. assumption. }
    exists (join [DOT] (y :: l)), x, (ext m). split; [|split; [exact Hx|split; [exact Hgm|apply (Hmn _ _ Es Hx)]]].
    unfold plain_of. rewrite Es, <- app_assoc. reflexivity.
  - left. pose proof (Hok m Hm) as [Hgm Hmn]. assert (dots (ext m) = 0%nat) by (apply dots_0; exact Hgm).
    rewrite dots_plain, dots_versioned in Hd.
    destruct (list_eq_dec N.eq_dec (stem n) (stem m)) as [E1|E1].
    + destruct (list_eq_dec N.eq_dec (ext n) (ext m)) as [E2|E2].
      * assert (n = m) as -> by (destruct n, m; cbn in *; congruence). exists d. auto.
      * exfalso. eapply (Hc n m Hn Hm); [congruence|lia|]. split.
        -- rewrite E1. rewrite <- (app_nil_r (stem m)) at 2. apply starts_app.
        -- unfold versioned in He'. eapply ends_cut; [|exact Hgn|exact Hgm].
           rewrite app_comm_cons in He'. rewrite app_assoc in He'. exact He'.
    + exfalso. eapply (Hc n m Hn Hm); [congruence|lia|]. split.
      * unfold versioned in Hs. eapply starts_cut; [exact Hs|lia].
      * unfold versioned in He'. eapply ends_cut; [|exact Hgn|exact Hgm].
        rewrite app_comm_cons in He'. rewrite app_assoc in He'. exact He'.
Qed.

Lemma dget_some_in {V} (f : list (list N * V)) k : In k (map fst f) <-> exists c, dget k f = Some c.
Proof.
  split.
  - intros H. destruct (dget k f) eqn:E; [eexists; reflexivity|]. apply dget_none in E. contradiction.
  - intros [c H]. apply dget_in in H. apply (in_map fst) in H. exact H.
Qed.

Lemma in_dset k x c (f : folder) : In x (map fst (dset k c f)) <-> x = k \/ In x (map fst f).
Proof.
  change (map fst (dset k c f)) with (dkeys (dset k c f)). rewrite dkeys_dset. fold (dkeys f).
  destruct (existsb (str_eqb k) (dkeys f)) eqn:E.
  - apply existsb_exists in E. destruct E as (y & Hy & E). apply str_eqb_spec in E. subst y. split; [tauto|]. intros [->|H]; assumption.
  - rewrite in_app_iff. cbn. intuition.
Qed.
Lemma nodup_dset k c (f : folder) : NoDup (map fst f) -> NoDup (map fst (dset k c f)).
Proof.
  change (map fst (dset k c f)) with (dkeys (dset k c f)). rewrite dkeys_dset. fold (dkeys f).
  destruct (existsb (str_eqb k) (dkeys f)) eqn:E; [auto|].
  intros H.
  rewrite <- (rev_involutive (dkeys f ++ [k])). apply NoDup_rev. rewrite rev_app_distr. cbn. constructor.
  - rewrite <- in_rev. intros Hin. assert (existsb (str_eqb k) (dkeys f) = true).
    { apply existsb_exists. exists k. split; [exact Hin|apply str_eqb_refl]. } congruence.
  - apply NoDup_rev. exact H.
Qed.

Section Hist.
  Variable ns : list fname.
  Hypothesis Hcomp : compatible ns.

  Lemma ok_in n : In n ns -> name_ok n.
  Proof. destruct Hcomp as [H _]. rewrite Forall_forall in H. auto. Qed.
  Lemma ext_in n : In n ns -> good_ext n.
  Proof. intros H. apply ok_in in H. apply H. Qed.

  Lemma pack_near f n w a : holds_only ns f -> In n ns -> 0 <= w -> nearest (listing f) n w a ->
    pack_file_ce f (plain_of n) w =
      match a with None => Err FileNotFoundError
      | Some x => match dget x f with Some c => Ok c | None => Err FileNotFoundError end end.
  Proof.
    intros Hf Hn Hw Ha. unfold pack_file_ce, pack_get_descent_filename.
    assert (get_near_descent_file_name (listing f) (plain_of n) w = a) as ->.
    { eapply nearest_fun; [apply ext_in; exact Hn| |exact Ha]. apply near_correct; [apply ext_in; exact Hn| |exact Hw].
      eapply holds_unambiguous; eauto. }
    destruct a as [x|]; reflexivity.
  Qed.
  Lemma near_of f n w : holds_only ns f -> In n ns -> 0 <= w -> nearest (listing f) n w (get_near_descent_file_name (listing f) (plain_of n) w).
  Proof.
    intros Hf Hn Hw. apply near_correct; [apply ext_in; exact Hn| |exact Hw]. eapply holds_unambiguous; eauto.
  Qed.
  Lemma nearest_in f n w x : nearest (listing f) n w (Some x) -> exists c, dget x f = Some c.
  Proof.
    intros [(d & H1 & H2 & H3 & H4)|(H1 & [[[b H2] H3]|[_ H3]])]; [| |discriminate].
    - injection H4 as ->. apply dget_some_in. apply stored_listing in H1. exact H1.
    - injection H3 as ->. apply dget_some_in. eapply plain_listing. exact H2.
  Qed.

  Section Step.
    Variables (f : folder) (n : fname) (v : Z) (c : list N).
    Hypotheses (Hf : holds_only ns f) (Hn : In n ns) (Hv : 0 < v).
    Let f' := dset (versioned n v) c f.

    Lemma step_holds : holds_only ns f'.
    Proof.
      split; [apply nodup_dset; apply Hf|]. intros e He. apply in_dset in He. destruct He as [->|He].
      - exists n. split; [exact Hn|]. right. exists v. auto.
      - apply Hf. exact He.
    Qed.
    Lemma step_version m d : In m ns -> has_version f' m d <-> (m = n /\ d = v) \/ has_version f m d.
    Proof.
      intros Hm. unfold has_version, f'. rewrite in_dset. split; [|intros [[-> ->]|H]; [left; reflexivity|right; exact H]].
      intros [E|H]; [|right; exact H]. left. eapply versioned_inj; [apply ext_in; exact Hm|apply ext_in; exact Hn|exact E].
    Qed.
    Lemma step_plain m : In m ns -> has_plain f' m <-> has_plain f m.
    Proof.
      intros Hm. unfold has_plain, f'. rewrite in_dset. split; [|auto].
      intros [E|H]; [|exact H]. exfalso. symmetry in E. revert E. apply versioned_not_plain; [apply ok_in; exact Hm|apply ext_in; exact Hn].
    Qed.
    (** the answer for [m] at [w] is the same before and after *)
    Lemma step_same m w : In m ns -> 0 <= w ->
      (m <> n \/ w < v \/ exists d, v < d <= w /\ has_version f n d) ->
      pack_file_ce f' (plain_of m) w = pack_file_ce f (plain_of m) w.
    Proof.
      intros Hm Hw Hc. pose proof (@near_of f m w Hf Hm Hw) as Ha. set (a := get_near_descent_file_name (listing f) (plain_of m) w) in *.
      rewrite (@pack_near f m w a Hf Hm Hw Ha).
      assert (Hpl : (exists b, In (plain_of m, b) (listing f')) <-> (exists b, In (plain_of m, b) (listing f))).
      { split; intros [b H]; exists true; apply plain_listing'; apply plain_listing in H; apply (@step_plain m Hm) in H || apply (@step_plain m Hm); assumption. }
      assert (Ha' : nearest (listing f') m w a).
      { destruct Ha as [(d & H1 & H2 & H3 & H4)|(H1 & H2)].
        - left. exists d. split; [apply stored_listing; apply step_version; [exact Hm|]; right; apply stored_listing; exact H1|].
          split; [exact H2|]. split; [|exact H4]. intros d' Hd' Hle. apply stored_listing in Hd'. apply (@step_version m d' Hm) in Hd'.
          destruct Hd' as [[-> ->]|Hd']; [|apply H3; [apply stored_listing; exact Hd'|exact Hle]].
          destruct Hc as [Hc|[Hc|(z & Hz & Hzv)]]; [congruence|lia|].
          apply stored_listing in Hzv. specialize (H3 _ Hzv ltac:(lia)). lia.
        - right. split.
          + intros d Hd. apply stored_listing in Hd. apply (@step_version m d Hm) in Hd. destruct Hd as [[-> ->]|Hd]; [|apply H1; apply stored_listing; exact Hd].
            destruct Hc as [Hc|[Hc|(z & Hz & Hzv)]]; [congruence|lia|]. apply stored_listing in Hzv. specialize (H1 _ Hzv). lia.
          + destruct H2 as [[H2 ->]|[H2 ->]]; [left|right]; split; try reflexivity; [apply Hpl; exact H2|].
            intros b Hb. destruct (proj1 Hpl (ex_intro _ b Hb)) as [b' Hb']. eapply H2; exact Hb'. }
      rewrite (@pack_near f' m w a step_holds Hm Hw Ha').
      destruct a as [x|] eqn:Ea; [|reflexivity]. unfold f'. rewrite dget_dset_other; [reflexivity|].
      destruct Ha as [(d & H1 & H2 & H3 & H4)|(H1 & [[H2 H3]|[_ H3]])]; [| |discriminate].
      - injection H4 as ->. intros E. apply versioned_inj in E; [|apply ext_in; exact Hm|apply ext_in; exact Hn]. destruct E as [-> ->].
        destruct Hc as [Hc|[Hc|(z & Hz & Hzv)]]; [congruence|lia|]. apply stored_listing in Hzv. specialize (H3 _ Hzv ltac:(lia)). lia.
      - injection H3 as ->. intros E. symmetry in E. revert E. apply versioned_not_plain; [apply ok_in; exact Hm|apply ext_in; exact Hn].
    Qed.
    (** and the new content from [v] up to the next stored version *)
    Lemma step_new w : v <= w -> (forall d, v < d <= w -> ~ has_version f n d) ->
      pack_file_ce f' (plain_of n) w = Ok c.
    Proof.
      intros Hw Hc. rewrite (@pack_near f' n w (Some (versioned n v)) step_holds Hn ltac:(lia)).
      - unfold f'. rewrite dget_dset_same. reflexivity.
      - left. exists v. split; [apply stored_listing; apply step_version; [exact Hn|left; auto]|].
        split; [lia|]. split; [|reflexivity]. intros d Hd Hle. apply stored_listing in Hd. apply (@step_version n d Hn) in Hd.
        destruct Hd as [[_ ->]|Hd]; [lia|]. destruct (Z_le_gt_dec d v); [assumption|]. exfalso. apply (Hc d); [lia|exact Hd].
    Qed.
  End Step.

  (** One unpack, fully described. *)
  Lemma unpack_step f n v c : holds_only ns f -> In n ns -> 0 < v ->
    exists f', unpack_file_ce f (plain_of n) c v = Ok f' /\ holds_only ns f' /\
      (forall w, v <= w -> (forall d, v < d <= w -> ~ has_version f n d) -> pack_file_ce f' (plain_of n) w = Ok c) /\
      (forall m w, In m ns -> 0 <= w -> (m <> n \/ w < v \/ exists d, v < d <= w /\ has_version f n d) ->
         pack_file_ce f' (plain_of m) w = pack_file_ce f (plain_of m) w).
  Proof.
    intros Hf Hn Hv. unfold unpack_file_ce, unpack_get_descent_filename. rewrite versioned_name by (try apply ext_in; auto; lia).
    assert (Hwrite : exists f', Ok (dset (versioned n v) c f) = Ok f' /\ holds_only ns f' /\
      (forall w, v <= w -> (forall d, v < d <= w -> ~ has_version f n d) -> pack_file_ce f' (plain_of n) w = Ok c) /\
      (forall m w, In m ns -> 0 <= w -> (m <> n \/ w < v \/ exists d, v < d <= w /\ has_version f n d) ->
         pack_file_ce f' (plain_of m) w = pack_file_ce f (plain_of m) w)).
    { eexists. split; [reflexivity|]. split; [apply step_holds; assumption|]. split.
      - intros w Hw Hd. apply step_new; assumption.
      - intros m w Hm Hw Hc. apply step_same; assumption. }
    destruct (dget (versioned n v) f) as [old|] eqn:E0; [cbn [bind]; exact Hwrite|].
    pose proof (@near_of f n v Hf Hn (Z.lt_le_incl _ _ Hv)) as Ha.
    destruct (get_near_descent_file_name (listing f) (plain_of n) v) as [x|] eqn:E1; [|cbn [bind]; exact Hwrite].
    destruct (@nearest_in f n v x Ha) as [near Enear]. rewrite Enear.
    destruct (str_eqb near c) eqn:E2; [|cbn [bind]; exact Hwrite]. apply str_eqb_spec in E2. subst near. cbn [bind].
    exists f. split; [reflexivity|]. split; [exact Hf|]. split; [|reflexivity].
    intros w Hw Hd. rewrite (@pack_near f n w (Some x) Hf Hn ltac:(lia)); [rewrite Enear; reflexivity|].
    destruct Ha as [(d & H1 & H2 & H3 & H4)|(H1 & H2)].
    - left. exists d. split; [exact H1|]. split; [lia|]. split; [|exact H4]. intros d' Hs Hle.
      destruct (Z_le_gt_dec d' v); [apply H3; assumption|]. exfalso. apply (Hd d'); [lia|apply stored_listing; exact Hs].
    - right. split; [|exact H2]. intros d Hs. destruct (Z_lt_ge_dec w d); [assumption|]. exfalso.
      specialize (H1 _ Hs). apply (Hd d); [lia|apply stored_listing; exact Hs].
  Qed.

  (** Any sequence of unpacks succeeds and keeps the folder well-formed. *)
  Fixpoint unpacks (ops : list (fname * Z * list N)) (f : folder) : res folder :=
    match ops with
    | [] => Ok f
    | (n, v, c) :: rest => g <- unpack_file_ce f (plain_of n) c v ;; unpacks rest g
    end.
  Lemma unpacks_ok ops : forall f, holds_only ns f -> Forall (fun o => In (fst (fst o)) ns /\ 0 < snd (fst o)) ops ->
    exists g, unpacks ops f = Ok g /\ holds_only ns g.
  Proof.
    induction ops as [|[[n v] c] ops IH]; intros f Hf Ho; [exists f; auto|].
    inversion Ho as [|? ? [H1 H2] H3]; subst. cbn [fst snd] in *.
    destruct (@unpack_step f n v c Hf H1 H2) as (f' & E & Hf' & _). cbn [unpacks]. rewrite E. cbn [bind]. apply IH; assumption.
  Qed.
End Hist.
