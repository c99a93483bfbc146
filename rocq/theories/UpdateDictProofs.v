(** Proofs about UpdateDict.v. *)
From Verif Require Import PyBase Json UpdateDict Spec_Index.
Set Implicit Arguments.
Open Scope list_scope.
Open Scope Z_scope.

Definition merge1 (old : option json) (v : json) : res json :=
  match old with
  | None | Some JNull => Ok v
  | Some old =>
    match v with
    | JDict nd => match old with
                  | JDict od => r <- _update_dict od nd ;; Ok (JDict r)
                  | _ => Err ExtExc
                  end
    | JList l => match old with JList ol => Ok (JList (ol ++ l)) | _ => Err ExtExc end
    | _ => Ok v
    end
  end.
Lemma update_cons base k v rest :
  _update_dict base ((k, v) :: rest) = (v' <- merge1 (dget k base) v ;; _update_dict (dset k v' base) rest).
Proof.
  unfold _update_dict at 1. cbn [update_value]. unfold merge1.
  destruct (dget k base) as [[]|]; destruct v; reflexivity.
Qed.
Lemma update_nil base : _update_dict base [] = Ok base.
Proof. reflexivity. Qed.

Lemma proper_cons k v d : proper (JDict ((k, v) :: d)) -> proper v /\ ~ In k (map fst d) /\ proper (JDict d).
Proof.
  intros H. inversion H as [| | | | |? Hn Hv]; subst. cbn in Hn. inversion Hn; subst. split; [apply (Hv k); left; reflexivity|].
  split; [assumption|]. constructor; [assumption|]. intros k' v' Hin. apply (Hv k'). right. exact Hin.
Qed.
Lemma proper_get k v d : proper (JDict d) -> dget k d = Some v -> proper v.
Proof. intros H E. inversion H as [| | | | |? Hn Hv]; subst. apply dget_in in E. eapply Hv; exact E. Qed.

Definition good_merge (new : json) : Prop :=
  forall d, new = JDict d -> forall base, (forall r, _update_dict base d = Ok r -> merged base d r) /\
    (mergeable base d -> exists r, _update_dict base d = Ok r) /\
    ((exists r, _update_dict base d = Ok r) -> mergeable base d).

Lemma merge1_spec v : good_merge v -> forall old v', merge1 old v = Ok v' -> merged_at old (Some v) (Some v').
Proof.
  intros G old v' H. unfold merge1 in H. destruct old as [o|].
  - destruct o as [| | | |ol|od]; destruct v as [| | | |l|nd]; try (injection H as <-; constructor; exact I); try discriminate H; try (injection H as <-; first [apply m_null|apply m_lists]).
    destruct (_update_dict od nd) as [r|e] eqn:E; [|discriminate]. injection H as <-.
    apply m_dicts. apply (G nd eq_refl od). exact E.
  - injection H as <-. constructor.
Qed.
Lemma merge1_ok v : good_merge v -> forall old, (exists v', merge1 old v = Ok v') <-> (forall x, old = Some x -> x <> JNull -> mergeable_at x v).
Proof.
  intros G old. split.
  - intros [v' H] x -> Hx. destruct v as [| | | |l|nd]; try (constructor; exact I).
    + destruct x; try congruence; try discriminate H. apply s_lists.
    + destruct x as [| | | | |od]; try congruence; try discriminate H. cbn [merge1] in H. apply s_dicts. apply (G nd eq_refl od).
      destruct (_update_dict od nd) as [r|e]; [exists r; reflexivity|discriminate].
  - intros H. destruct old as [x|]; [|exists v; reflexivity].
    destruct x as [| | | |ol|od] eqn:Ex; [exists v; reflexivity|..];
      (assert (Hm : mergeable_at x v) by (subst; apply H; [reflexivity|discriminate])); rewrite Ex in Hm; inversion Hm; subst;
      try (destruct v; try contradiction; eexists; reflexivity); try (eexists; reflexivity).
    match goal with |- exists v', merge1 (Some (JDict ?a)) (JDict ?b) = _ => destruct (proj1 (proj2 (G b eq_refl a))) as [r E]; [assumption|] end.
    cbn [merge1]. rewrite E. eexists; reflexivity.
Qed.

Lemma dget_cons_ne {V} k k0 (v : V) d : k <> k0 -> dget k ((k0, v) :: d) = dget k d.
Proof. intros H. cbn. apply str_eqb_neq in H. rewrite H. reflexivity. Qed.
Lemma dget_cons_eq {V} k (v : V) d : dget k ((k, v) :: d) = Some v.
Proof. cbn. rewrite str_eqb_refl. reflexivity. Qed.

Lemma update_good new : proper new -> good_merge new.
Proof.
  induction new as [| | | | |d IH] using json_ind2; intros Hp d0 E0; try discriminate E0. injection E0 as <-.
  induction d as [|[k v] d IHd]; intros base.
  - split; [|split].
    + intros r H. injection H as <-. constructor. intros k. constructor.
    + intros _. exists base. reflexivity.
    + intros _. constructor. intros k x y _ H. discriminate H.
  - inversion IH as [|? ? IHv IHr]; subst. cbn [snd] in IHv. apply proper_cons in Hp. destruct Hp as (Hpv & Hk & Hpd).
    specialize (IHv Hpv). specialize (IHd IHr Hpd).
    assert (Hkd : dget k d = None) by (apply dget_none; exact Hk).
    split; [|split].
    + intros r H. rewrite update_cons in H. destruct (merge1 (dget k base) v) as [v'|e] eqn:Em; [|discriminate]. cbn [bind] in H.
      destruct (IHd (dset k v' base)) as [I1 _]. specialize (I1 r H). inversion I1 as [? ? ? I1']; subst. constructor. intros k'.
      specialize (I1' k'). destruct (str_eq_dec k' k) as [->|Hne].
      * rewrite dget_cons_eq. rewrite Hkd, dget_dset_same in I1'. inversion I1' as [x E1 E2 E3| | | | |]; subst. apply merge1_spec; assumption.
      * rewrite dget_cons_ne by exact Hne. rewrite dget_dset_other in I1' by exact Hne. exact I1'.
    + intros H. inversion H as [? ? H']; subst.
      assert (Hm : exists v', merge1 (dget k base) v = Ok v').
      { apply merge1_ok; [exact IHv|]. intros x Ex Hx. eapply H'; [exact Ex|apply dget_cons_eq|exact Hx]. }
      destruct Hm as [v' Em]. destruct (IHd (dset k v' base)) as (_ & I2 & _).
      destruct I2 as [r Er].
      { constructor. intros k' x y Ex Ey Hx. destruct (str_eq_dec k' k) as [->|Hne]; [congruence|].
        rewrite dget_dset_other in Ex by exact Hne. eapply H'; [exact Ex|rewrite dget_cons_ne by exact Hne; exact Ey|exact Hx]. }
      exists r. rewrite update_cons, Em. exact Er.
    + intros [r H]. rewrite update_cons in H. destruct (merge1 (dget k base) v) as [v'|e] eqn:Em; [|discriminate]. cbn [bind] in H.
      destruct (IHd (dset k v' base)) as (_ & _ & I3). assert (I3' := I3 (ex_intro _ r H)). inversion I3' as [? ? I4]; subst.
      constructor. intros k' x y Ex Ey Hx. destruct (str_eq_dec k' k) as [->|Hne].
      * rewrite dget_cons_eq in Ey. injection Ey as <-. apply (proj1 (@merge1_ok v IHv (dget k base))); [exists v'; exact Em|exact Ex|exact Hx].
      * rewrite dget_cons_ne in Ey by exact Hne. eapply I4; [rewrite dget_dset_other by exact Hne; exact Ex|exact Ey|exact Hx].
Qed.

Lemma update_merged a b r : proper (JDict b) -> _update_dict a b = Ok r -> merged a b r.
Proof. intros H E. eapply update_good; [exact H|reflexivity|exact E]. Qed.
Lemma update_total a b : proper (JDict b) -> (exists r, _update_dict a b = Ok r) <-> mergeable a b.
Proof. intros H. destruct (update_good H eq_refl a) as (_ & H2 & H3). split; assumption. Qed.

(** key order *)
Lemma dkeys_dset' {V} k (v : V) d : dkeys (dset k v d) = dkeys d \/ ~ In k (dkeys d) /\ dkeys (dset k v d) = dkeys d ++ [k].
Proof.
  rewrite dkeys_dset. destruct (existsb (str_eqb k) (dkeys d)) eqn:E; [left; reflexivity|right].
  split; [|reflexivity]. intros Hin. assert (existsb (str_eqb k) (dkeys d) = true); [|congruence].
  apply existsb_exists. exists k. split; [exact Hin|apply str_eqb_refl].
Qed.
Definition memk (l : list (list N)) (k : list N) : bool := existsb (str_eqb k) l.
Lemma memk_spec l k : memk l k = true <-> In k l.
Proof.
  unfold memk. rewrite existsb_exists. split.
  - intros (x & H & E). apply str_eqb_spec in E. subst. exact H.
  - intros H. exists k. split; [exact H|apply str_eqb_refl].
Qed.
Lemma update_keys b : NoDup (map fst b) -> forall a r, _update_dict a b = Ok r -> dkeys r = dkeys a ++ filter (fun k => negb (memk (dkeys a) k)) (dkeys b).
Proof.
  induction b as [|[k v] b IH]; intros Hn a r H.
  - injection H as <-. cbn. rewrite app_nil_r. reflexivity.
  - inversion Hn; subst. rewrite update_cons in H. destruct (merge1 (dget k a) v) as [v'|e]; [|discriminate]. cbn [bind] in H.
    rewrite (IH ltac:(assumption) _ _ H). cbn [dkeys map fst filter]. fold (dkeys b). rewrite dkeys_dset. unfold memk at 2.
    destruct (existsb (str_eqb k) (dkeys a)) eqn:E; cbn [negb].
    + reflexivity.
    + rewrite <- app_assoc. cbn [app]. f_equal. f_equal. apply filter_ext_in. intros x Hx. f_equal.
      unfold memk. rewrite existsb_app. cbn. assert (str_eqb x k = false) as ->; [|rewrite !orb_false_r; reflexivity].
      apply str_eqb_neq. intros ->. contradiction.
Qed.
Lemma update_empty_r a : _update_dict a [] = Ok a.
Proof. reflexivity. Qed.
Lemma update_fresh b : NoDup (map fst b) -> forall a, (forall k, In k (dkeys b) -> ~ In k (dkeys a)) -> _update_dict a b = Ok (a ++ b).
Proof.
  induction b as [|[k v] b IH]; intros Hn a H; [rewrite app_nil_r; reflexivity|].
  inversion Hn; subst. rewrite update_cons.
  assert (Hk : ~ In k (dkeys a)) by (apply H; left; reflexivity).
  assert (dget k a = None) as -> by (apply dget_none; exact Hk). cbn [merge1 bind].
  rewrite dset_fresh by exact Hk. rewrite IH; [rewrite <- app_assoc; reflexivity|assumption|].
  intros x Hx Hin. unfold dkeys in Hin. rewrite map_app in Hin. apply in_app_or in Hin. destruct Hin as [Hin|[<-|[]]].
  - exact (H x (or_intror Hx) Hin).
  - contradiction.
Qed.
Lemma update_empty_l b : proper (JDict b) -> _update_dict [] b = Ok b.
Proof. intros H. inversion H; subst. apply (@update_fresh b ltac:(assumption) []). intros k _ []. Qed.

(** properness is kept *)
Lemma nodup_snoc {A} (l : list A) x : NoDup l -> ~ In x l -> NoDup (l ++ [x]).
Proof.
  intros H Hx. apply (NoDup_Add (a := x) (l := l)); [|split; assumption].
  rewrite <- (app_nil_r l) at 1. apply Add_app.
Qed.
Lemma proper_dset k v d : proper v -> proper (JDict d) -> proper (JDict (dset k v d)).
Proof.
  intros Hv Hd. inversion Hd as [| | | | |? Hn Hp]; subst. constructor.
  - fold (dkeys (dset k v d)). destruct (dkeys_dset' k v d) as [->|[Hni ->]]; [exact Hn|].
    apply nodup_snoc; assumption.
  - intros k' v' Hin. revert Hin. clear Hn Hd. induction d as [|[k0 v0] d IH]; cbn.
    + intros [E|[]]. injection E as _ <-. exact Hv.
    + destruct (str_eqb k k0).
      * intros [E|Hin]; [injection E as _ <-; exact Hv|apply (Hp k'); right; exact Hin].
      * intros [E|Hin]; [apply (Hp k'); left; exact E|]. apply IH; [|exact Hin]. intros k1 v1 H1. apply (Hp k1). right. exact H1.
Qed.

Lemma update_proper new : proper new -> forall d, new = JDict d -> forall base r, proper (JDict base) -> _update_dict base d = Ok r -> proper (JDict r).
Proof.
  induction new as [| | | | |d IH] using json_ind2; intros Hp d0 E0; try discriminate E0. injection E0 as <-.
  induction d as [|[k v] d IHd]; intros base r Hb H; [injection H as <-; exact Hb|].
  inversion IH as [|? ? IHv IHr]; subst. cbn [snd] in IHv. apply proper_cons in Hp. destruct Hp as (Hpv & Hk & Hpd).
  rewrite update_cons in H. destruct (merge1 (dget k base) v) as [v'|e] eqn:Em; [|discriminate]. cbn [bind] in H.
  apply (IHd IHr Hpd _ _) in H; [exact H|]. apply proper_dset; [|exact Hb].
  unfold merge1 in Em. destruct (dget k base) as [o|] eqn:Eo; [|injection Em as <-; exact Hpv].
  destruct o as [| | | |ol|od]; destruct v as [| | | |l|nd]; try (injection Em as <-; first [exact Hpv|constructor]); try discriminate Em.
  destruct (_update_dict od nd) as [r'|e] eqn:E; [|discriminate]. injection Em as <-.
  eapply IHv; [exact Hpv|reflexivity| |exact E]. eapply proper_get; [exact Hb|exact Eo].
Qed.

(** ** Paths *)
Lemma at_path_cons k p d : p <> [] -> at_path (k :: p) d = match dget k d with Some (JDict d') => at_path p d' | _ => None end.
Proof. intros H. cbn [at_path]. destruct (dget k d) as [[]|]; destruct p; try congruence; reflexivity. Qed.

(** the later dictionary wins for scalars *)
Lemma later_wins p : p <> [] -> forall a b r v, merged a b r -> at_path p b = Some v -> is_scalar v -> at_path p r = Some v.
Proof.
  induction p as [|k p IH]; [congruence|]. intros _ a b r v Hm Hb Hv. inversion Hm as [? ? ? Hk]; subst. specialize (Hk k).
  destruct (list_eq_dec str_eq_dec p []) as [->|Hp].
  - cbn [at_path] in *. destruct (dget k b) as [y|] eqn:Ey; [|discriminate]. injection Hb as ->.
    inversion Hk; subst; try reflexivity; contradiction.
  - rewrite at_path_cons in * by exact Hp. destruct (dget k b) as [y|] eqn:Ey; [|discriminate].
    destruct y as [| | | | |db]; try discriminate. inversion Hk; subst; try exact Hb. eapply IH; eassumption.
Qed.
(** an entry of the earlier one stays unless the later one has a value there or a
    non-dictionary above it *)
Lemma earlier_stays p : forall a b r v, merged a b r -> at_path p a = Some v -> untouched p b -> at_path p r = Some v.
Proof.
  induction p as [|k p IH]; [intros a b r v _ _ []|]. intros a b r v Hm Ha Hu. inversion Hm as [? ? ? Hk]; subst. specialize (Hk k).
  cbn [untouched] in Hu. destruct (list_eq_dec str_eq_dec p []) as [->|Hp].
  - cbn [at_path] in *. destruct (dget k b) as [y|] eqn:Ey.
    + destruct y; try contradiction. destruct Hu as [Hu _]. congruence.
    + inversion Hk; subst. exact Ha.
  - rewrite at_path_cons in * by exact Hp. destruct (dget k b) as [y|] eqn:Ey.
    + destruct y as [| | | | |db]; try contradiction. destruct Hu as [_ Hu].
      destruct (dget k a) as [x|] eqn:Ex; [|discriminate]. destruct x as [| | | | |da]; try discriminate.
      inversion Hk; subst; try contradiction. eapply IH; eassumption.
    + inversion Hk; subst. exact Ha.
Qed.
Lemma update_fold_keep p v ds : forall a r, Forall (fun d => proper (JDict d)) ds -> update_fold a ds = Ok r ->
  at_path p a = Some v -> Forall (untouched p) ds -> at_path p r = Some v.
Proof.
  induction ds as [|d ds IH]; intros a r Hp H Ha Hu; [injection H as <-; exact Ha|].
  inversion Hp; subst. inversion Hu; subst. cbn [update_fold] in H. destruct (_update_dict a d) as [r1|] eqn:E; [|discriminate]. cbn [bind] in H.
  eapply IH; [assumption|exact H| |assumption]. eapply earlier_stays; [eapply update_merged; eassumption|exact Ha|assumption].
Qed.
Lemma update_fold_wins p v ds1 d ds2 : p <> [] -> is_scalar v -> forall a r, Forall (fun d => proper (JDict d)) (ds1 ++ d :: ds2) ->
  update_fold a (ds1 ++ d :: ds2) = Ok r -> at_path p d = Some v -> Forall (untouched p) ds2 -> at_path p r = Some v.
Proof.
  intros Hp Hv. induction ds1 as [|d1 ds1 IH]; intros a r Hpr H Ha Hu.
  - cbn [app] in *. inversion Hpr; subst. cbn [update_fold] in H. destruct (_update_dict a d) as [r1|] eqn:E; [|discriminate]. cbn [bind] in H.
    eapply update_fold_keep; [eassumption|exact H| |exact Hu]. eapply later_wins; [exact Hp|eapply update_merged; eassumption|exact Ha|exact Hv].
  - cbn [app] in *. inversion Hpr; subst. cbn [update_fold] in H. destruct (_update_dict a d1) as [r1|] eqn:E; [|discriminate]. cbn [bind] in H.
    eapply IH; eassumption.
Qed.
Lemma update_dict_wins p v ds1 d ds2 r : p <> [] -> is_scalar v -> Forall (fun d => proper (JDict d)) (ds1 ++ d :: ds2) ->
  update_dict (ds1 ++ d :: ds2) = Ok r -> at_path p d = Some v -> Forall (untouched p) ds2 -> at_path p r = Some v.
Proof.
  intros Hp Hv Hpr H Hd Hu. destruct ds1 as [|d1 ds1].
  - cbn [app] in *. destruct ds2 as [|d2 ds2].
    + cbn [update_dict] in H. inversion Hpr; subst. rewrite update_empty_l in H by assumption. injection H as <-. exact Hd.
    + cbn [update_dict] in H. inversion Hpr; subst. eapply update_fold_keep; eassumption.
  - cbn [app] in *. inversion Hpr; subst.
    assert (E : update_dict (d1 :: ds1 ++ d :: ds2) = update_fold d1 (ds1 ++ d :: ds2)) by (destruct ds1; reflexivity).
    rewrite E in H. eapply update_fold_wins; eassumption.
Qed.

Lemma update_err new : forall d, new = JDict d -> forall base e, _update_dict base d = Err e -> e = ExtExc.
Proof.
  induction new as [| | | | |d IH] using json_ind2; intros d0 E0; try discriminate E0. injection E0 as <-.
  induction d as [|[k v] d IHd]; intros base e H; [discriminate|].
  inversion IH as [|? ? IHv IHr]; subst. cbn [snd] in IHv. rewrite update_cons in H.
  destruct (merge1 (dget k base) v) as [v'|e'] eqn:Em; cbn [bind] in H; [exact (IHd IHr _ _ H)|]. injection H as <-.
  unfold merge1 in Em. destruct (dget k base) as [o|]; [|discriminate].
  destruct o as [| | | |ol|od]; destruct v as [| | | |l|nd]; try discriminate Em; try (injection Em as <-; reflexivity).
  destruct (_update_dict od nd) as [r'|e2] eqn:E; [discriminate|]. injection Em as <-. eapply IHv; [reflexivity|exact E].
Qed.

Lemma in_ddel {V} k x (d : list (list N * V)) : In x (ddel k d) -> In x d.
Proof.
  induction d as [|[k' v] d IH]; cbn; [intros []|]. destruct (str_eqb k k'); [intros H; right; exact H|].
  intros [H|H]; [left; exact H|right; exact (IH H)].
Qed.
Lemma nodup_ddel {V} k (d : list (list N * V)) : NoDup (map fst d) -> NoDup (map fst (ddel k d)).
Proof.
  induction d as [|[k' v] d IH]; cbn; [intros H; exact H|]. intros H. inversion H; subst. destruct (str_eqb k k'); [assumption|].
  cbn. constructor; [|apply IH; assumption]. intros Hin. apply in_map_iff in Hin. destruct Hin as ([k2 v2] & E & Hin). cbn in E. subst k2.
  apply in_ddel in Hin. apply (in_map fst) in Hin. contradiction.
Qed.
Lemma proper_ddel k d : proper (JDict d) -> proper (JDict (ddel k d)).
Proof.
  intros H. inversion H; subst. constructor; [apply nodup_ddel; assumption|]. intros k' v' Hin. apply in_ddel in Hin. eauto.
Qed.
Lemma ddel_absent {V} k (d : list (list N * V)) : dget k d = None -> ddel k d = d.
Proof.
  induction d as [|[k' v] d IH]; cbn; [reflexivity|]. destruct (str_eqb k k'); [discriminate|]. intros H. rewrite IH by exact H. reflexivity.
Qed.
Lemma ddel_gone {V} k (d : list (list N * V)) : NoDup (map fst d) -> dget k (ddel k d) = None.
Proof.
  induction d as [|[k' v] d IH]; cbn; [reflexivity|]. intros H. inversion H; subst. destruct (str_eqb k k') eqn:E.
  - apply str_eqb_spec in E. subst k'. apply dget_none. assumption.
  - cbn. rewrite E. apply IH. assumption.
Qed.
Lemma load_all_ok load names subs : map load names = map Some subs -> load_all load (map JStr names) = Ok subs.
Proof.
  revert subs. induction names as [|n names IH]; intros [|d subs] H; try discriminate; [reflexivity|]. cbn [map] in H. injection H as H1 H2.
  cbn [map load_all]. rewrite H1, (IH subs H2). reflexivity.
Qed.
Lemma check_index_eq load f main names subs : f <> [] -> load f = Some main -> dget s_index_json main = Some (JList (map JStr names)) ->
  map load names = map Some subs -> check_index load f = (r <- update_dict (subs ++ [ddel s_index_json main]) ;; Ok (Some r)).
Proof.
  intros Hf Hl Hg Hs. unfold check_index. destruct f as [|c f]; [congruence|]. rewrite Hl, Hg. destruct names as [|n names].
  - destruct subs; [|discriminate]. reflexivity.
  - cbn [jtruthy map iterate bind]. change (JStr n :: map JStr names) with (map JStr (n :: names)). rewrite (load_all_ok load (n :: names) subs Hs). reflexivity.
Qed.
Fixpoint nodup_b (l : list (list N)) : bool := match l with [] => true | x :: r => negb (existsb (str_eqb x) r) && nodup_b r end.
Lemma nodup_strs l : nodup_b l = true -> NoDup l.
Proof.
  induction l as [|x l IH]; cbn; [constructor|]. intros H. apply andb_true_iff in H. destruct H as [H1 H2]. constructor; [|apply IH; exact H2].
  intros Hin. apply negb_true_iff in H1. assert (existsb (str_eqb x) l = true); [|congruence]. apply existsb_exists. exists x. split; [exact Hin|apply str_eqb_refl].
Qed.
