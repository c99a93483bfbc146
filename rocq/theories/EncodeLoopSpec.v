(** The function [build] of EncodeLoopMain.v against the relation [assembled] of Spec_Encode.v,
    and the loop from the top object. *)
From Coq Require Import String Permutation.
From Verif Require Import PyBase Container Spec_Container ContainerProofs EncodeLoop EncodeLoopProofs Spec_Encode EncodeLoopMain.
Set Implicit Arguments.
Open Scope list_scope.
Open Scope N_scope.

(** ** Lists of included objects *)
Section L.
Variable D : Type.
Variable lower : list N -> list N.
Notation entry := (entry D).
Notation kid := (list N * entry)%type.
Lemma fill_items_spec (l : list entry) ids items : NoDup (map (fun e : entry => lower (fst (snd e))) l) ->
  (fill_items lower l ids = Ok items <->
   Forall2 (fun i i' => exists u (e : entry), i = Id D u /\ i' = Data (snd (snd e)) /\ In e l /\ lower (fst (snd e)) = lower u) ids items).
Proof.
  intros Hn. revert items. induction ids as [|[u|d] ids IH]; intros items; cbn [fill_items].
  - split; [intros H; injection H as <-; constructor|intros H; inversion H; reflexivity].
  - split.
    + destruct (last_with lower u l) as [d|] eqn:E; [|discriminate]. destruct (fill_items lower l ids) as [r|] eqn:Er; [|discriminate]. cbn [bind]. intros H. injection H as <-.
      constructor; [|apply IH; reflexivity]. apply (@last_with_in D lower u l d Hn) in E. destruct E as (n & v & Hin & Hl). exists u, (n, (v, d)). cbn. auto.
    + intros H. inversion H as [|? i' ? r (u0 & [n [v d]] & E1 & E2 & Hin & Hl) Hr]; subst. injection E1 as <-. cbn [fst snd] in *.
      assert (last_with lower u l = Some d) as -> by (apply (@last_with_in D lower u l d Hn); exists n, v; auto). apply IH in Hr. rewrite Hr. reflexivity.
  - split; [discriminate|]. intros H. inversion H as [|? i' ? r (u0 & e & E1 & _) Hr]; subst. discriminate.
Qed.
Lemma fill_slot_spec idx (ks : list kid) s s' : distinct_kids lower ks -> (forall t, Permutation (of_type idx t) (kids_of t ks)) ->
  (fill_slot lower idx s = Ok s' <-> filled lower ks s s').
Proof.
  intros Hd HP. assert (Hn : forall t, NoDup (map fst (of_type idx t)) /\ NoDup (map (fun e : entry => lower (fst (snd e))) (of_type idx t))).
  { intros t. destruct (Hd t) as [N1 N2]. split; [refine (Permutation_NoDup _ N1)|refine (Permutation_NoDup _ N2)]; apply Permutation_map; symmetry; exact (HP t). }
  destruct s as [t|[t|] ids]; cbn [fill_slot].
  - assert (Hs : Permutation (sort_names (of_type idx t)) (kids_of t ks)) by (etransitivity; [symmetry; apply sort_by_perm|apply HP]).
    split.
    + intros H. injection H as <-. constructor; [exact Hs|apply sort_names_ascending; apply Hn].
    + intros H. inversion H as [? es HPe Ha| | |]; subst. do 3 f_equal. apply ascending_unique; [rewrite Hs, HPe; reflexivity|apply sort_names_ascending; apply Hn|exact Ha].
  - destruct (Hn t) as [_ N2]. pose proof (HP t) as HPt. destruct (of_type idx t) as [|x la] eqn:E.
    + apply Permutation_nil in HPt. split.
      * intros H. injection H as <-. apply filled_no_kid. exact HPt.
      * intros H. inversion H as [|? ? ? Hne| |]; subst; [congruence|reflexivity].
    + assert (Hne : kids_of t ks <> []) by (intros E0; rewrite E0 in HPt; symmetry in HPt; apply Permutation_nil in HPt; discriminate). rewrite <- E in *. clear E. split.
      * destruct (fill_items lower (of_type idx t) ids) as [r|] eqn:Er; [|discriminate]. intros H. injection H as <-. apply filled_listed; [exact Hne|].
        apply (proj1 (@fill_items_spec _ ids r N2)) in Er. clear - Er HPt. induction Er as [|i i' l l' (u & e & A & B & C & F) Hr IH]; constructor; [|exact IH].
        exists u, e. split; [exact A|]. split; [exact B|]. split; [rewrite <- HPt; exact C|exact F].
      * intros H. inversion H as [|? ? items Hk HF|? ? Hk|]; subst; [|congruence].
        assert (fill_items lower (of_type idx t) ids = Ok items) as ->; [|reflexivity]. apply (@fill_items_spec _ ids items N2).
        clear - HF HPt. induction HF as [|i i' l l' (u & e & A & B & C & F) Hr IH]; constructor; [|exact IH].
        exists u, e. split; [exact A|]. split; [exact B|]. split; [rewrite HPt; exact C|exact F].
  - split; [intros H; injection H as <-; constructor|intros H; inversion H; reflexivity].
Qed.
Lemma fill_slots_spec idx (ks : list kid) ss ss' : distinct_kids lower ks -> (forall t, Permutation (of_type idx t) (kids_of t ks)) ->
  (fill_slots lower idx ss = Ok ss' <-> Forall2 (filled lower ks) ss ss').
Proof.
  intros Hd HP. revert ss'. induction ss as [|s ss IH]; intros ss'; cbn [fill_slots].
  - split; [intros H; injection H as <-; constructor|intros H; inversion H; reflexivity].
  - split.
    + destruct (fill_slot lower idx s) as [s1|] eqn:E; [|discriminate]. cbn [bind]. destruct (fill_slots lower idx ss) as [r|] eqn:Er; [|discriminate]. intros H. injection H as <-.
      constructor; [apply (fill_slot_spec idx s s1 Hd HP); exact E|apply IH; reflexivity].
    + intros H. inversion H as [|? s1 ? r Hs Hr]; subst. apply (fill_slot_spec idx s s1 Hd HP) in Hs. rewrite Hs. cbn [bind]. apply IH in Hr. rewrite Hr. reflexivity.
Qed.

Variable finish : info (list (slot D)) -> list (slot D) -> res (option D * list (list N)).
Lemma slots_order_free i (a b : tindex D) : (forall t, Permutation (of_type a t) (of_type b t)) -> (a = [] <-> b = []) ->
  (forall t, NoDup (map fst (of_type a t)) /\ NoDup (map (fun e : entry => lower (fst (snd e))) (of_type a t))) -> with_slots lower finish i a = with_slots lower finish i b.
Proof.
  intros H1 H2 H3. unfold with_slots. pose proof (@fill_slots_perm D lower a b (i_data i) H1 H3) as E. destruct a as [|x a], b as [|y b]; [reflexivity| | |rewrite E; reflexivity].
  - destruct H2 as [H2 _]. discriminate (H2 eq_refl).
  - destruct H2 as [_ H2]. discriminate (H2 eq_refl).
Qed.
Lemma slots_complete i (ks : list kid) r : distinct_kids lower ks -> (with_slots lower finish i (group ks) = Ok r <-> completes_slots lower finish i ks r).
Proof.
  intros Hd. unfold with_slots, completes_slots. destruct ks as [|k ks].
  - cbn [group map]. split; [intros H; left; auto|]. intros [[_ H]|[H _]]; [exact H|congruence].
  - assert (HP : forall t, Permutation (of_type (group (k :: ks)) t) (kids_of t (k :: ks))) by (intros t; rewrite of_group; reflexivity).
    destruct (group (k :: ks)) as [|g0 g] eqn:Eg; [discriminate|]. rewrite <- Eg in *. split.
    + intros H. right. split; [discriminate|]. destruct (fill_slots lower (group (k :: ks)) (i_data i)) as [ss|] eqn:E; [|discriminate]. exists ss. split; [|exact H].
      apply (fill_slots_spec _ _ _ Hd HP). exact E.
    + intros [[H _]|(_ & ss & H1 & H2)]; [discriminate|]. apply (fill_slots_spec _ _ _ Hd HP) in H1. rewrite H1. exact H2.
Qed.
End L.

Section Q.
Variables D Pt Ft : Type.
Variable lower : list N -> list N.
Variable finish : info Pt -> tindex D -> res (option D * list Ft).
Notation entry := (entry D).
Notation kid := (list N * entry)%type.
Variable completes : info Pt -> list kid -> option D * list Ft -> Prop.
Hypothesis order_free : forall i (a b : tindex D), (forall t, Permutation (of_type a t) (of_type b t)) -> (a = [] <-> b = []) ->
  (forall t, NoDup (map fst (of_type a t)) /\ NoDup (map (fun e : entry => lower (fst (snd e))) (of_type a t))) -> finish i a = finish i b.
Hypothesis complete : forall i ks r, distinct_kids lower ks -> (finish i (group ks) = Ok r <-> completes i ks r).
Notation assembled := (assembles completes).
Notation assembled_all := (assembles_all completes).
Notation build := (build finish).
Notation build_all := (build_all finish).
Notation wf := (wf lower).

Lemma build_spec h : forall n ks fs, (height n <= h)%nat -> wf n -> (build n = Ok (ks, fs) <-> assembled n ks fs).
Proof.
  induction h as [|h IH]; intros n ks fs Hh Hw; [destruct n; cbn in Hh; lia|].
  assert (Hall : forall cs, (forall c, In c cs -> wf c /\ (height c <= h)%nat) -> forall ks fs, build_all cs = Ok (ks, fs) <-> assembled_all cs ks fs).
  { clear n ks fs Hh Hw. induction cs as [|c cs IHc]; intros Hc ks fs; cbn [EncodeLoopMain.build_all].
    - split; [intros H; injection H as <- <-; constructor|intros H; inversion H; reflexivity].
    - destruct (Hc c (or_introl eq_refl)) as [Hw Hh]. specialize (IHc (fun x Hx => Hc x (or_intror Hx))). split.
      + destruct (build c) as [[k f]|] eqn:E; [|discriminate]. cbn [bind]. destruct (build_all cs) as [[k2 f2]|] eqn:E2; [|discriminate]. cbn [bind]. intros H. injection H as <- <-.
        constructor; [apply IH; assumption|apply IHc; reflexivity].
      + intros H. inversion H as [|? ? k f k2 f2 H1 H2]; subst. apply IH in H1; [|assumption|assumption]. rewrite H1. cbn [bind]. apply IHc in H2. rewrite H2. reflexivity. }
  destruct n as [i cs]. rewrite build_eq. 
  assert (Hc : forall c, In c cs -> wf c /\ (height c <= h)%nat) by (intros c Hin; split; [eapply wf_child; eassumption|pose proof (height_child finish i cs c Hin); lia]).
  specialize (Hall cs Hc). destruct (i_marked i) eqn:Em; cbn [negb].
  - destruct cs as [|c cs].
    + assert (Hd0 : distinct_kids lower (@nil kid)) by (intros t; split; apply NoDup_nil). unfold finished. split.
      * destruct (finish i []) as [[d own]|] eqn:E; [|discriminate]. cbn [bind]. intros H. injection H as <- <-. apply as_leaf; [assumption|]. apply complete; [exact Hd0|exact E].
      * intros H. inversion H as [? ? Hm|? d own ? Hf|? ? ? ? ? ? ? ? Hne]; subst; [congruence| |congruence]. apply complete in Hf; [|exact Hd0]. cbn [group map] in Hf. rewrite Hf. reflexivity.
    + set (ch := c :: cs) in *. assert (Hch : ch <> []) by discriminate.
      assert (Hdist : forall k f, build_all ch = Ok (k, f) -> distinct_kids lower k).
      { intros k f E. destruct (forallb (nok finish) ch) eqn:Eb.
        - rewrite (build_all_ok finish ch Eb) in E. assert (k = flat_map (nk finish) ch) as -> by congruence. apply kids_distinct. inversion Hw; assumption.
        - destruct (build_all_err finish ch Eb) as [e He]. congruence. }
      clearbody ch. clear c cs. split.
      * destruct ch as [|c cs]; [congruence|]. destruct (build_all (c :: cs)) as [[k f]|] eqn:E; [|discriminate]. cbn [bind]. destruct k as [|k0 k]; [discriminate|].
        destruct (str_eqb (i_class i) (i_type i)) eqn:Ec; [|discriminate]. apply str_eqb_spec in Ec.
        unfold finished. destruct (finish i (group (k0 :: k))) as [[d own]|] eqn:Ef; [|discriminate].
        cbn [bind]. intros H. injection H as <- <-. eapply as_inner; [exact Em|exact Ec|exact Hch|apply Hall; reflexivity|discriminate|]. apply complete; [eapply Hdist; reflexivity|exact Ef].
      * intros H. inversion H as [? ? Hm|? d own ? Hf|? ? k f d own ? Ec ? Ha Hk Hf]; subst; [congruence|congruence|]. destruct ch as [|c cs]; [congruence|]. apply Hall in Ha. rewrite Ha. cbn [bind].
        apply complete in Hf; [|eapply Hdist; exact Ha]. destruct k as [|k0 k]; [congruence|]. rewrite Ec, str_eqb_refl. unfold finished. rewrite Hf. reflexivity.
  - split; [intros H; injection H as <- <-; constructor; exact Em|]. intros H. inversion H; subst; [reflexivity|congruence|congruence].
Qed.
Lemma build_all_spec cs ks fs : (forall c, In c cs -> wf c) -> (build_all cs = Ok (ks, fs) <-> assembled_all cs ks fs).
Proof.
  revert ks fs. induction cs as [|c cs IHc]; intros ks fs Hc; cbn [EncodeLoopMain.build_all].
  - split; [intros H; injection H as <- <-; constructor|intros H; inversion H; reflexivity].
  - pose proof (Hc c (or_introl eq_refl)) as Hw. assert (IHc' := fun ks fs => IHc ks fs (fun x Hx => Hc x (or_intror Hx))). split.
    + destruct (build c) as [[k f]|] eqn:E; [|discriminate]. cbn [bind]. destruct (build_all cs) as [[k2 f2]|] eqn:E2; [|discriminate]. cbn [bind]. intros H. injection H as <- <-.
      constructor; [apply (@build_spec (height c)); [lia|exact Hw|exact E]|apply IHc'; reflexivity].
    + intros H. inversion H as [|? ? k f k2 f2 H1 H2]; subst. apply (@build_spec (height c)) in H1; [|lia|assumption]. rewrite H1. cbn [bind]. apply IHc' in H2. rewrite H2. reflexivity.
Qed.

Lemma height_all_in (cs : list (node Pt)) c : In c cs -> (height c <= height_all cs)%nat.
Proof. induction cs as [|x cs IH]; [contradiction|]. cbn. intros [->|H]; [lia|]. specialize (IH H). unfold height_all in IH. lia. Qed.
Lemma flat_kof root (l : list (node Pt)) : flat_map (@kof D Pt Ft finish) (map (fun c => mktask c root []) l) = map (pair root) (flat_map (nk finish) l).
Proof. induction l as [|c l IH]; [reflexivity|]. cbn [map flat_map]. rewrite IH, map_app. reflexivity. Qed.
Lemma flat_fof root (l : list (node Pt)) : flat_map (@fof D Pt Ft finish) (map (fun c => mktask c root []) l) = flat_map (nf finish) l.
Proof. induction l as [|c l IH]; [reflexivity|]. cbn [map flat_map]. rewrite IH. reflexivity. Qed.
Lemma forallb_top root (l : list (node Pt)) : forallb (@okb D Pt Ft finish) (map (fun c => mktask c root []) l) = forallb (nok finish) l.
Proof. induction l as [|c l IH]; [reflexivity|]. cbn [map forallb]. rewrite IH. reflexivity. Qed.
Lemma sel_p_pair root (ks : list kid) : sel_p root (map (pair root) ks) = ks.
Proof. unfold sel_p. induction ks as [|k ks IH]; [reflexivity|]. cbn. rewrite str_eqb_refl. cbn. rewrite IH. reflexivity. Qed.

Lemma good_top root (cs : list (node Pt)) : wf_all lower cs -> @good D Pt lower (depth root) (map (fun c => mktask c root []) cs).
Proof.
  intros [Hd Hw]. split.
  - intros t Ht. apply in_map_iff in Ht. destruct Ht as (c & <- & Hc). cbn. auto.
  - rewrite map_map. destruct Hd as [Hd _]. induction cs as [|c cs IH]; [constructor|]. cbn [map] in *. apply NoDup_cons_iff in Hd. destruct Hd as [Hx Hr].
    apply NoDup_cons_iff. split; [|apply IH; [exact Hr|intros x Hin; apply Hw; right; exact Hin]].
    intros Hin. apply in_map_iff in Hin. destruct Hin as (c2 & E2 & Hc2). rewrite !tkey_mk in E2.
    destruct (wf_names (Hw c (or_introl eq_refl))). destruct (wf_names (Hw c2 (or_intror Hc2))).
    apply obj_id_inj in E2; try assumption. destruct E2 as (_ & Et & Ef). apply Hx. apply in_map_iff. exists c2. split; [unfold tag; congruence|exact Hc2].
Qed.

Theorem encode_tree_ok root (cs : list (node Pt)) ks fs sched fuel : wf_all lower cs -> schedule sched -> assembled_all cs ks fs -> (2 * height_all cs <= fuel)%nat ->
  exists idx files, encode_tree finish fuel sched root cs = Ok (idx, files) /\ Permutation files fs /\
    distinct_kids lower ks /\ match idx with Some d => ks <> [] /\ tok d ks | None => ks = [] end.
Proof.
  intros Hwf Hs Ha Hf. pose proof Ha as Hb. apply (@build_all_spec cs ks fs (proj2 Hwf)) in Hb.
  destruct (forallb (nok finish) cs) eqn:Eok; [|destruct (build_all_err finish cs Eok) as [e He]; congruence].
  rewrite (build_all_ok finish cs Eok) in Hb. injection Hb as <- <-.
  assert (Hdk : distinct_kids lower (flat_map (nk finish) cs)) by (apply kids_distinct; exact (proj1 Hwf)).
  destruct cs as [|c0 cs0]; [exists None, []; split; [destruct fuel; reflexivity|split; [constructor|split; [exact Hdk|reflexivity]]]|].
  set (cs := c0 :: cs0) in *. assert (Hne : map (fun c => @mktask D Pt c root []) cs <> []) by discriminate.
  pose proof (@level D Pt Ft lower finish order_free sched Hs (height_all cs) (map (fun c => mktask c root []) cs) (depth root) Hne (@good_top root cs Hwf)) as HL.
  specialize (HL ltac:(intros t Ht; apply in_map_iff in Ht; destruct Ht as (c & <- & Hc); apply height_all_in; exact Hc) O [] [] [] [] (@pok_nil D) ltac:(intros ? [])).
  rewrite forallb_top, Eok, flat_kof, flat_fof in HL. destruct HL as (r & files' & idx' & Hr & HPf & Hpk & Hl). cbn [app] in *.
  unfold encode_tree. replace fuel with (r + (fuel - r))%nat by lia. rewrite Hl. cbn [settle s_tasks s_levels bind].
  assert (El : forall k n, loop finish k n sched (mkstate files' idx' [] []) = Ok (mkstate files' idx' [] [])) by (intros [|k] n; reflexivity).
  rewrite El. cbn [bind s_index s_files]. exists (dget root idx'), files'. split; [reflexivity|]. split; [exact HPf|]. split; [exact Hdk|].
  pose proof (proj2 Hpk root) as Hroot. rewrite sel_p_pair in Hroot. exact Hroot.
Qed.
Theorem encode_tree_err root (cs : list (node Pt)) sched fuel : wf_all lower cs -> schedule sched -> (forall ks fs, ~ assembled_all cs ks fs) ->
  exists e, encode_tree finish fuel sched root cs = Err e.
Proof.
  intros Hwf Hs Hno. destruct (forallb (nok finish) cs) eqn:Eok.
  { exfalso. eapply Hno. apply (@build_all_spec cs _ _ (proj2 Hwf)). apply build_all_ok. exact Eok. }
  destruct cs as [|c0 cs0]; [discriminate|]. set (cs := c0 :: cs0) in *. assert (Hne : map (fun c => @mktask D Pt c root []) cs <> []) by discriminate.
  pose proof (@level D Pt Ft lower finish order_free sched Hs (height_all cs) (map (fun c => mktask c root []) cs) (depth root) Hne (@good_top root cs Hwf)) as HL.
  specialize (HL ltac:(intros t Ht; apply in_map_iff in Ht; destruct Ht as (c & <- & Hc); apply height_all_in; exact Hc) O [] [] [] [] (@pok_nil D) ltac:(intros ? [])).
  rewrite forallb_top, Eok in HL. destruct (HL fuel) as [e He]. unfold encode_tree. rewrite He. exists e. reflexivity.
Qed.
End Q.

(** ** With lists of included objects *)
Section R.
Variable D : Type.
Variable lower : list N -> list N.
Variable finish : info (list (slot D)) -> list (slot D) -> res (option D * list (list N)).
Definition build_all_slots_spec := @build_all_spec D _ _ lower (with_slots lower finish) (completes_slots lower finish) (@slots_order_free D lower finish) (@slots_complete D lower finish).
Definition encode_top_ok := @encode_tree_ok D _ _ lower (with_slots lower finish) (completes_slots lower finish) (@slots_order_free D lower finish) (@slots_complete D lower finish).
Definition encode_top_err := @encode_tree_err D _ _ lower (with_slots lower finish) (completes_slots lower finish) (@slots_order_free D lower finish) (@slots_complete D lower finish).
End R.
