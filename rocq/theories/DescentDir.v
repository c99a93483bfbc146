(** Packing a whole versioned folder (C42), repeated selection (C43), unpacking (C44). *)
From Verif Require Import PyBase PyInt Paths Descent Spec_Descent DescentProofs DescentHist.
Set Implicit Arguments.
Open Scope list_scope.
Open Scope Z_scope.

Definition opt_eqb (x e : option (list N)) : bool :=
  match x, e with Some a, Some b => str_eqb a b | None, None => true | _, _ => false end.
Lemma opt_eqb_spec x e : opt_eqb x e = true <-> x = e.
Proof.
  destruct x, e; cbn; try (split; [discriminate|congruence]); [|split; auto].
  rewrite str_eqb_spec. split; congruence.
Qed.

Lemma list_go_in f : forall seen e, In e (list_descent_go seen f) <->
  ~ In e seen /\ In e (map (fun x => remove_descent_from_filename (fst x)) f).
Proof.
  induction f as [|[n c] f IH]; intros seen e; cbn [list_descent_go map fst In]; [tauto|].
  set (r := remove_descent_from_filename n).
  change (existsb _ seen) with (existsb (fun x => opt_eqb x r) seen).
  destruct (existsb (fun x => opt_eqb x r) seen) eqn:E.
  - apply existsb_exists in E. destruct E as (x & Hx & E). apply opt_eqb_spec in E. subst x.
    rewrite IH. split; [tauto|]. intros [H1 [H2|H2]]; [subst e; contradiction|tauto].
  - assert (~ In r seen).
    { intros H. assert (existsb (fun x => opt_eqb x r) seen = true); [|congruence].
      apply existsb_exists. exists r. split; [exact H|apply opt_eqb_spec; reflexivity]. }
    cbn [In]. rewrite IH. cbn [In]. split.
    + intros [->|[H1 H2]]; [tauto|]. split; [tauto|tauto].
    + intros [H1 [H2|H2]]; [tauto|]. destruct (opt_eqb r e) eqn:E2.
      * apply opt_eqb_spec in E2. tauto.
      * assert (r <> e) by (intros ->; rewrite (proj2 (opt_eqb_spec e e) eq_refl) in E2; discriminate). tauto.
Qed.

Lemma list_go_nodup f : forall seen, NoDup (list_descent_go seen f).
Proof.
  induction f as [|[n c] f IH]; intros seen; cbn [list_descent_go]; [constructor|].
  destruct (existsb _ seen); [apply IH|]. constructor; [|apply IH]. rewrite list_go_in. cbn [In]. tauto.
Qed.

Section Dir.
  Variable ns : list fname.
  Hypothesis Hcomp : compatible ns.

  Lemma remove_plain n : In n ns -> remove_descent_from_filename (plain_of n) = Some (plain_of n).
  Proof.
    intros Hn. destruct (ok_in Hcomp _ Hn) as [Hg Hx].
    destruct (Nat.ltb_spec (dots (plain_of n)) 2); [apply remove_short; assumption|].
    rewrite dots_plain in H. assert (dots (ext n) = 0%nat) by (apply dots_0; exact Hg).
    pose proof (split_len (stem n)) as Hl.
    pose proof (@split_ch_parts_nosep DOT (stem n)) as Hnd'.
    destruct (exists_last (l := split_ch DOT (stem n)) (@split_ch_nonnil DOT (stem n))) as (l & x & E).
    destruct l as [|y l]; [rewrite E in Hl; cbn in Hl; lia|].
    assert (Es : stem n = join [DOT] (y :: l) ++ 46%N :: x).
    { rewrite <- (join_split_ch DOT (stem n)), E. rewrite join_app by discriminate. reflexivity. }
    assert (Hxn : ~ In 46%N x).
    { rewrite E in Hnd'. apply Forall_app in Hnd'. destruct Hnd' as [_ Hnd']. inversion Hnd'; subst. assumption. }
    apply remove_keeps with (a := join [DOT] (y :: l)) (v := x) (b := ext n); [|exact Hxn|exact Hg|eapply Hx; eauto].
    unfold plain_of. rewrite Es, <- app_assoc. reflexivity.
  Qed.

  Lemma listed f e : holds_only ns f -> In e (list_descent_dir f) <-> exists n, In n ns /\ e = Some (plain_of n) /\ present f n.
  Proof.
    intros [Hnd Hf]. unfold list_descent_dir. rewrite list_go_in. cbn [In]. rewrite in_map_iff. split.
    - intros [_ ([x c] & E & Hx)]. cbn [fst] in E. assert (Hk : In x (map fst f)) by (apply (in_map fst) in Hx; exact Hx).
      destruct (Hf x Hk) as (n & Hn & [->|(d & Hd & ->)]).
      + rewrite (remove_plain _ Hn) in E. exists n. split; [exact Hn|]. split; [congruence|]. left. exact Hk.
      + rewrite remove_versioned in E by (apply (ext_in Hcomp _ Hn)). exists n. split; [exact Hn|]. split; [congruence|].
        right. exists d. exact Hk.
    - intros (n & Hn & -> & Hp). split; [tauto|]. destruct Hp as [Hp|[d Hp]]; unfold has_plain, has_version in Hp; apply in_map_iff in Hp; destruct Hp as (x & E & Hx); exists x; (split; [|exact Hx]); rewrite E.
      + apply remove_plain. exact Hn.
      + apply remove_versioned. apply (ext_in Hcomp _ Hn).
  Qed.

  Lemma avail_ok f n v : holds_only ns f -> In n ns -> 0 <= v ->
    (available f n v -> exists c, pack_file_ce f (plain_of n) v = Ok c) /\
    (~ available f n v -> pack_file_ce f (plain_of n) v = Err FileNotFoundError).
  Proof.
    intros Hf Hn Hv. pose proof (@near_of ns Hcomp f n v Hf Hn Hv) as Ha.
    rewrite (@pack_near ns Hcomp f n v _ Hf Hn Hv Ha).
    destruct (get_near_descent_file_name (listing f) (plain_of n) v) as [x|].
    - destruct (@nearest_in f n v x Ha) as [c E]. rewrite E. split; [eauto|]. intros Hno. exfalso. apply Hno.
      destruct Ha as [(d & H1 & H2 & H3 & H4)|(H1 & [[[b H2] H3]|[_ H3]])]; [| |discriminate].
      + right. exists d. split; [lia|apply stored_listing; exact H1].
      + left. eapply plain_listing. exact H2.
    - split; [|reflexivity]. intros Hav. exfalso.
      destruct Ha as [(d & H1 & H2 & H3 & H4)|(H1 & [[_ H3]|[H2 H3]])]; [discriminate|discriminate|].
      destruct Hav as [Hp|(d & Hd & Hs)].
      + eapply H2. apply plain_listing'. exact Hp.
      + apply stored_listing in Hs. specialize (H1 _ Hs). lia.
  Qed.

  Lemma pack_entries_ok f v es : forall dest,
    Forall (fun e => exists n c, In n ns /\ e = Some (plain_of n) /\ pack_file_ce f (plain_of n) v = Ok c) es ->
    exists r, pack_entries f v es dest = Ok r /\
      forall k, dget k r = match (if existsb (opt_eqb (Some k)) es then Some tt else None) with
        | Some _ => match pack_file_ce f k v with Ok c => Some c | Err _ => None end
        | None => dget k dest end.
  Proof.
    induction es as [|e es IH]; intros dest He.
    - exists dest. split; reflexivity.
    - inversion He as [|? ? (n & c & Hn & -> & E) Hes]; subst. cbn [pack_entries]. rewrite E.
      destruct (IH (dset (plain_of n) c dest) Hes) as (r & Hr & Hk). exists r. split; [exact Hr|].
      intros k. rewrite Hk. cbn [existsb]. destruct (opt_eqb (Some k) (Some (plain_of n))) eqn:E2; cbn [orb].
      + apply opt_eqb_spec in E2. injection E2 as ->. rewrite E.
        destruct (existsb (opt_eqb (Some (plain_of n))) es); [reflexivity|apply dget_dset_same].
      + destruct (existsb (opt_eqb (Some k)) es); [reflexivity|]. apply dget_dset_other.
        intros ->. rewrite (proj2 (opt_eqb_spec _ _) eq_refl) in E2. discriminate.
  Qed.
  Lemma pack_entries_fail f v es : forall dest, Forall (fun e => exists n, e = Some n) es ->
    (exists n, In (Some n) es /\ exists x, pack_file_ce f n v = Err x) -> pack_entries f v es dest = Err ExtExc.
  Proof.
    induction es as [|e es IH]; intros dest He (n & Hn & x & Hx); [destruct Hn|].
    inversion He as [|? ? [m ->] Hes]; subst. cbn [pack_entries]. destruct (pack_file_ce f m v) as [c|y] eqn:E; [|reflexivity].
    apply IH; [exact Hes|]. destruct Hn as [Hn|Hn]; [injection Hn as ->; congruence|]. exists n. eauto.
  Qed.

  Lemma pack_dir_ok f v : holds_only ns f -> 0 <= v -> (forall n, In n ns -> present f n -> available f n v) ->
    exists r, pack_dir f v = Ok r /\
      (forall n, In n ns -> present f n -> exists c, pack_file_ce f (plain_of n) v = Ok c /\ dget (plain_of n) r = Some c) /\
      (forall k c, dget k r = Some c -> exists n, In n ns /\ k = plain_of n /\ present f n).
  Proof.
    intros Hf Hv Hav. unfold pack_dir.
    destruct (@pack_entries_ok f v (list_descent_dir f) []) as (r & Hr & Hk).
    { apply Forall_forall. intros e He. apply (listed _ Hf) in He. destruct He as (n & Hn & -> & Hp).
      destruct (@avail_ok f n v Hf Hn Hv) as [H _]. destruct (H (Hav _ Hn Hp)) as [c Hc]. exists n, c. auto. }
    exists r. split; [exact Hr|]. split.
    - intros n Hn Hp. destruct (@avail_ok f n v Hf Hn Hv) as [H _]. destruct (H (Hav _ Hn Hp)) as [c Hc]. exists c. split; [exact Hc|].
      rewrite Hk. assert (existsb (opt_eqb (Some (plain_of n))) (list_descent_dir f) = true) as ->.
      { apply existsb_exists. exists (Some (plain_of n)). split; [|apply opt_eqb_spec; reflexivity].
        apply (listed _ Hf). exists n. auto. }
      rewrite Hc. reflexivity.
    - intros k c Hkc. rewrite Hk in Hkc. destruct (existsb (opt_eqb (Some k)) (list_descent_dir f)) eqn:E; [|discriminate].
      apply existsb_exists in E. destruct E as (e & He & E). apply opt_eqb_spec in E. subst e.
      apply (listed _ Hf) in He. destruct He as (n & Hn & Ek & Hp). exists n. split; [exact Hn|]. split; [congruence|exact Hp].
  Qed.
  Lemma pack_dir_fail f v n : holds_only ns f -> 0 <= v -> In n ns -> present f n -> ~ available f n v ->
    pack_dir f v = Err ExtExc.
  Proof.
    intros Hf Hv Hn Hp Hno. unfold pack_dir. apply pack_entries_fail.
    - apply Forall_forall. intros e He. apply (listed _ Hf) in He. destruct He as (m & _ & -> & _). eauto.
    - exists (plain_of n). split; [apply (listed _ Hf); eauto|]. exists FileNotFoundError. apply (@avail_ok f n v Hf Hn Hv). exact Hno.
  Qed.
End Dir.

(** selecting again from an already selected name *)
Lemma near_again ents n v : good_ext n -> 0 <= v ->
  (exists b, In (plain_of n, b) ents) ->
  (forall e, In (e, true) ents -> starts (stem n) e = true -> ends (ext n) e = true -> dots e <> S (dots (plain_of n))) ->
  get_near_descent_file_name ents (plain_of n) v = Some (plain_of n).
Proof.
  intros Hg Hv Hp Hno.
  assert (Hu : unambiguous ents n) by (intros e He _ Hs He' Hd; exfalso; eapply Hno; eassumption).
  pose proof (near_correct Hg Hu Hv) as Ha.
  eapply nearest_fun; [exact Hg|exact Ha|]. right. split; [|left; split; [exact Hp|reflexivity]].
  intros d Hs. exfalso. eapply (Hno _ Hs); [apply starts_versioned|apply ends_versioned|].
  rewrite dots_versioned, dots_plain. reflexivity.
Qed.

(** the inherited unpack forgets the folder: older versions are gone *)
Lemma unpack_wipes ns v src : compatible ns -> 0 < v -> Forall (fun x => exists n, In n ns /\ fst x = plain_of n) src ->
  forall dest, exists g, organizer_unpack v src dest = Ok g /\
    forall n w, In n ns -> 0 <= w < v -> pack_file_ce g (plain_of n) w = Err FileNotFoundError.
Proof.
  intros Hc Hv Hsrc dest. unfold organizer_unpack.
  assert (Hgen : forall f, holds_only ns f ->
    (forall n w, In n ns -> 0 <= w < v -> pack_file_ce f (plain_of n) w = Err FileNotFoundError) ->
    exists g, unpack_entries v src f = Ok g /\
      forall n w, In n ns -> 0 <= w < v -> pack_file_ce g (plain_of n) w = Err FileNotFoundError).
  { induction src as [|[x c] src IH]; intros f Hf Hno; [exists f; auto|].
    inversion Hsrc as [|? ? (n & Hn & E) Hs]; subst. cbn [fst] in E. subst x. cbn [unpack_entries].
    destruct (@unpack_step ns Hc f n v c Hf Hn Hv) as (f' & -> & Hf' & _ & Hsame). cbn [bind].
    apply (IH Hs f' Hf'). intros m w Hm Hw. rewrite Hsame; [apply Hno; assumption|exact Hm|lia|right; left; lia]. }
  apply Hgen.
  - split; [constructor|intros e []].
  - intros n w Hn Hw. unfold pack_file_ce, pack_get_descent_filename, get_near_descent_file_name. reflexivity.
Qed.
