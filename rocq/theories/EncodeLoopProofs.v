(** Proofs about EncodeLoop.v. *)
From Coq Require Import String Permutation.
From Verif Require Import PyBase Container ContainerProofs UpdateDictProofs OrgCodeProofs EncodeLoop.
Set Implicit Arguments.
Open Scope list_scope.
Open Scope N_scope.

Section P.
Variable D : Type.
Variable lower : list N -> list N.
Notation entry := (entry D).
Notation tindex := (tindex D).
Notation pindex := (pindex D).

(** ** Indexes as collections of contributions (parent, (type, entry)) *)
Definition ctr : Type := list N * (list N * entry).
Definition sel_t (t : list N) (ks : list (list N * entry)) : list entry := map snd (filter (fun k => str_eqb t (fst k)) ks).
Definition sel_p (p : list N) (cs : list ctr) : list (list N * entry) := map snd (filter (fun c => str_eqb p (fst c)) cs).

Lemma perm_filter {A} (f : A -> bool) l l' : Permutation l l' -> Permutation (filter f l) (filter f l').
Proof.
  induction 1; cbn.
  - constructor.
  - destruct (f x); [constructor|]; assumption.
  - destruct (f x), (f y); try constructor; reflexivity.
  - etransitivity; eassumption.
Qed.
Lemma sel_t_perm t a b : Permutation a b -> Permutation (sel_t t a) (sel_t t b).
Proof. intros H. apply Permutation_map, perm_filter, H. Qed.
Lemma sel_p_perm t a b : Permutation a b -> Permutation (sel_p t a) (sel_p t b).
Proof. intros H. apply Permutation_map, perm_filter, H. Qed.
Lemma sel_t_app t a b : sel_t t (a ++ b) = sel_t t a ++ sel_t t b.
Proof. unfold sel_t. rewrite filter_app, map_app. reflexivity. Qed.
Lemma sel_p_app t a b : sel_p t (a ++ b) = sel_p t a ++ sel_p t b.
Proof. unfold sel_p. rewrite filter_app, map_app. reflexivity. Qed.

Definition tok (d : tindex) (ks : list (list N * entry)) : Prop :=
  NoDup (map fst d) /\ (forall t, Permutation (of_type d t) (sel_t t ks)) /\ (d = [] -> ks = []).
Definition pok (idx : pindex) (cs : list ctr) : Prop :=
  NoDup (map fst idx) /\
  forall p, match dget p idx with Some d => sel_p p cs <> [] /\ tok d (sel_p p cs) | None => sel_p p cs = [] end.

Lemma tok_perm d a b : Permutation a b -> tok d a -> tok d b.
Proof.
  intros P (H1 & H2 & H3). split; [exact H1|]. split; [intros t; rewrite (H2 t); apply sel_t_perm; exact P|].
  intros Hd. specialize (H3 Hd). subst a. apply Permutation_nil in P. exact P.
Qed.
Lemma pok_perm idx a b : Permutation a b -> pok idx a -> pok idx b.
Proof.
  intros P [H1 H2]. split; [exact H1|]. intros p. specialize (H2 p). pose proof (sel_p_perm p P) as HP. destruct (dget p idx) as [d|].
  - destruct H2 as [Hne Ht]. split; [|eapply tok_perm; eassumption]. intros E. rewrite E in HP. symmetry in HP. apply Permutation_nil in HP. contradiction.
  - rewrite H2 in HP. apply Permutation_nil in HP. exact HP.
Qed.
Lemma pok_nil : pok [] [].
Proof. split; [constructor|]. intros p. reflexivity. Qed.

Lemma nodup_dset {V} k (v : V) d : NoDup (map fst d) -> NoDup (map fst (dset k v d)).
Proof.
  intros H. destruct (dget k d) as [w|] eqn:E.
  - assert (map fst (dset k v d) = map fst d) as ->; [|exact H]. clear H. revert E. induction d as [|[k' v'] d IH]; cbn; [discriminate|].
    destruct (str_eqb k k') eqn:Ek; [apply str_eqb_spec in Ek; subst; reflexivity|]. intros E. cbn. rewrite IH by exact E. reflexivity.
  - rewrite dset_new by exact E. rewrite map_app. cbn.
    apply Permutation_NoDup with (l := k :: map fst d); [apply Permutation_cons_append|]. constructor; [|exact H]. apply dget_none in E. exact E.
Qed.
Lemma of_type_dset (d : tindex) t l t' : of_type (dset t l d) t' = if str_eqb t' t then l else of_type d t'.
Proof.
  unfold of_type. destruct (str_eqb t' t) eqn:E.
  - apply str_eqb_spec in E. subst. rewrite dget_dset_same. reflexivity.
  - rewrite dget_dset_other; [reflexivity|]. intros ->. rewrite str_eqb_refl in E. discriminate.
Qed.
Lemma dset_nonnil {V} k (v : V) d : dset k v d <> [].
Proof. destruct d as [|[k' v'] d]; cbn; [discriminate|]. destruct (str_eqb k k'); discriminate. Qed.
Lemma tok_add d ks t l es : tok d ks -> (forall e, In e es -> fst e = t) -> l = map snd es -> es <> [] ->
  tok (dset t (of_type d t ++ l) d) (ks ++ es).
Proof.
  intros (H1 & H2 & H3) He -> Hne. split; [apply nodup_dset; exact H1|]. split.
  - intros t'. rewrite of_type_dset, sel_t_app. destruct (str_eqb t' t) eqn:E.
    + apply str_eqb_spec in E. subst t'. apply Permutation_app; [apply H2|]. unfold sel_t.
      assert (filter (fun k => str_eqb t (fst k)) es = es) as ->; [|reflexivity]. clear Hne. induction es as [|e es IH]; [reflexivity|]. cbn.
      rewrite (He e (or_introl eq_refl)), str_eqb_refl. f_equal. apply IH. intros x Hx. apply He. right. exact Hx.
    + assert (sel_t t' es = []) as ->; [|rewrite app_nil_r; apply H2]. unfold sel_t. clear Hne. induction es as [|e es IH]; [reflexivity|]. cbn.
      rewrite (He e (or_introl eq_refl)), E. apply IH. intros x Hx. apply He. right. exact Hx.
  - intros E. exfalso. exact (dset_nonnil _ _ _ E).
Qed.
Lemma tok_nil : tok [] []. Proof. split; [constructor|]. split; [intros t; reflexivity|reflexivity]. Qed.
Lemma sel_p_one p q k : sel_p p [(q, k)] = if str_eqb p q then [k] else [].
Proof. unfold sel_p. cbn. destruct (str_eqb p q); reflexivity. Qed.
Lemma pok_add idx cs p t e : pok idx cs -> pok (add_entry p t e idx) (cs ++ [(p, (t, e))]).
Proof.
  intros [H1 H2]. unfold add_entry. split; [apply nodup_dset; exact H1|]. intros q. rewrite sel_p_app, sel_p_one.
  destruct (str_eqb q p) eqn:E.
  - apply str_eqb_spec in E. subst q. rewrite dget_dset_same. split; [intros Hn; apply app_eq_nil in Hn; destruct Hn; discriminate|].
    specialize (H2 p). apply tok_add with (es := [(t, e)]); [|intros x [<-|[]]; reflexivity|reflexivity|discriminate].
    destruct (dget p idx) as [d|]; [apply H2|]. rewrite H2. apply tok_nil.
  - rewrite app_nil_r. rewrite dget_dset_other; [apply H2|]. intros ->. rewrite str_eqb_refl in E. discriminate.
Qed.
Lemma of_type_in (d : tindex) t l : NoDup (map fst d) -> In (t, l) d -> of_type d t = l.
Proof.
  intros Hn Hin. unfold of_type. induction d as [|[k v] d IH]; [contradiction|]. cbn in *. inversion Hn; subst.
  destruct Hin as [E|Hin]; [injection E as -> ->; rewrite str_eqb_refl; reflexivity|].
  destruct (str_eqb t k) eqn:E; [|apply IH; assumption]. apply str_eqb_spec in E. subst. exfalso. apply H1. apply in_map_iff. exists (k, l). auto.
Qed.
Lemma merge_types_get new : forall base : tindex, NoDup (map fst new) -> forall t, of_type (merge_types base new) t = of_type base t ++ of_type new t.
Proof.
  unfold merge_types. induction new as [|[k l] new IH]; intros base Hn t; [cbn; rewrite app_nil_r; reflexivity|].
  cbn [fold_left fst snd] in *. cbn [map fst] in Hn. inversion Hn as [|? ? Hk Hr]; subst. rewrite IH by exact Hr. rewrite of_type_dset.
  destruct (str_eqb t k) eqn:E.
  - apply str_eqb_spec in E. subst t. assert (of_type new k = []) as ->.
    { unfold of_type. assert (dget k new = None) as ->; [|reflexivity]. apply dget_none. exact Hk. }
    unfold of_type at 3. cbn. rewrite str_eqb_refl. rewrite app_nil_r. reflexivity.
  - unfold of_type at 4. cbn [dget]. rewrite E. reflexivity.
Qed.
Lemma merge_types_nodup new : forall base : tindex, NoDup (map fst base) -> NoDup (map fst (merge_types base new)).
Proof. unfold merge_types. induction new as [|[k l] new IH]; intros base Hn; [exact Hn|]. cbn. apply IH. apply nodup_dset. exact Hn. Qed.
Lemma merge_types_nil new : forall base : tindex, merge_types base new = [] -> base = [] /\ new = [].
Proof.
  unfold merge_types. induction new as [|[k l] new IH]; intros base H; [auto|]. cbn in H. apply IH in H. destruct H as [H _].
  exfalso. exact (dset_nonnil _ _ _ H).
Qed.
Lemma tok_merge a b ka kb : tok a ka -> tok b kb -> tok (merge_types a b) (ka ++ kb).
Proof.
  intros (A1 & A2 & A3) (B1 & B2 & B3). split; [apply merge_types_nodup; exact A1|]. split.
  - intros t. rewrite merge_types_get by exact B1. rewrite sel_t_app. apply Permutation_app; [apply A2|apply B2].
  - intros E. apply merge_types_nil in E. destruct E as [-> ->]. rewrite (A3 eq_refl), (B3 eq_refl). reflexivity.
Qed.
Definition merge1 (b : pindex) (e : list N * tindex) : pindex :=
  match dget (fst e) b with
  | Some d => dset (fst e) (merge_types d (snd e)) b
  | None => dset (fst e) (snd e) b
  end.
Lemma merge_index_get new : forall base : pindex, NoDup (map fst new) -> forall p,
  dget p (merge_index base new) = match dget p base, dget p new with
                                  | Some d, Some d' => Some (merge_types d d')
                                  | Some d, None => Some d
                                  | None, x => x
                                  end.
Proof.
  change (@merge_index D) with (fun base new => fold_left merge1 new base). cbn beta.
  induction new as [|[k d] new IH]; intros base Hn p; [cbn; destruct (dget p base); reflexivity|].
  cbn [fold_left]. cbn [map fst] in Hn. inversion Hn as [|? ? Hk Hr]; subst. rewrite IH by exact Hr. cbn [dget].
  assert (Hg : dget k new = None) by (apply dget_none; exact Hk).
  destruct (str_eqb p k) eqn:E.
  - apply str_eqb_spec in E. subst p. rewrite Hg. unfold merge1. cbn [fst snd]. destruct (dget k base); rewrite dget_dset_same; reflexivity.
  - assert (dget p (merge1 base (k, d)) = dget p base) as ->; [|reflexivity]. unfold merge1. cbn [fst snd].
    destruct (dget k base); apply dget_dset_other; intros ->; rewrite str_eqb_refl in E; discriminate.
Qed.
Lemma merge_index_nodup new : forall base : pindex, NoDup (map fst base) -> NoDup (map fst (merge_index base new)).
Proof.
  change (@merge_index D) with (fun base new => fold_left merge1 new base). cbn beta.
  induction new as [|[k l] new IH]; intros base Hn; [exact Hn|]. cbn [fold_left]. apply IH. unfold merge1. destruct (dget _ base); apply nodup_dset; exact Hn.
Qed.
Lemma pok_merge a b ca cb : pok a ca -> pok b cb -> pok (merge_index a b) (ca ++ cb).
Proof.
  intros [A1 A2] [B1 B2]. split; [apply merge_index_nodup; exact A1|]. intros p. rewrite merge_index_get by exact B1. rewrite sel_p_app.
  specialize (A2 p). specialize (B2 p). destruct (dget p a) as [d|], (dget p b) as [d'|].
  - destruct A2 as [An At], B2 as [Bn Bt]. split; [intros E; apply app_eq_nil in E; destruct E; contradiction|]. apply tok_merge; assumption.
  - rewrite B2, app_nil_r. exact A2.
  - rewrite A2. exact B2.
  - rewrite A2, B2. reflexivity.
Qed.
Lemma dget_ddel {V} k p (d : list (list N * V)) : NoDup (map fst d) -> dget p (ddel k d) = if str_eqb p k then None else dget p d.
Proof.
  intros H. destruct (str_eqb p k) eqn:E.
  - apply str_eqb_spec in E. subst. apply ddel_gone. exact H.
  - apply dget_ddel_other. intros ->. rewrite str_eqb_refl in E. discriminate.
Qed.
Definition without (k : list N) (cs : list ctr) : list ctr := filter (fun c => negb (str_eqb k (fst c))) cs.
Lemma sel_p_without k p cs : sel_p p (without k cs) = if str_eqb p k then [] else sel_p p cs.
Proof.
  unfold sel_p, without. induction cs as [|[q e] cs IH]; [cbn; destruct (str_eqb p k); reflexivity|]. cbn [filter fst].
  destruct (str_eqb k q) eqn:Ek; cbn [negb filter fst].
  - apply str_eqb_spec in Ek. subst q. rewrite IH. destruct (str_eqb p k); reflexivity.
  - destruct (str_eqb p q) eqn:Ep; cbn [map].
    + rewrite IH. apply str_eqb_spec in Ep. subst q. destruct (str_eqb p k) eqn:E; [|reflexivity]. apply str_eqb_spec in E. subst. rewrite str_eqb_refl in Ek. discriminate.
    + exact IH.
Qed.
Lemma pok_del idx cs k : pok idx cs -> pok (ddel k idx) (without k cs).
Proof.
  intros [H1 H2]. split; [apply nodup_ddel; exact H1|]. intros p. rewrite dget_ddel by exact H1. rewrite sel_p_without.
  destruct (str_eqb p k); [reflexivity|apply H2].
Qed.

(** ** Filling does not depend on the order *)
Definition distinct_kids (ks : list (list N * entry)) : Prop :=
  forall t, NoDup (map fst (sel_t t ks)) /\ NoDup (map (fun e : entry => lower (fst (snd e))) (sel_t t ks)).

Lemma last_with_in u (l : list entry) d : NoDup (map (fun e : entry => lower (fst (snd e))) l) ->
  (last_with lower u l = Some d <-> exists n u', In (n, (u', d)) l /\ lower u' = lower u).
Proof.
  induction l as [|[n [u' d']] l IH]; intros Hn; cbn; [split; [discriminate|intros (? & ? & [] & _)]|].
  cbn in Hn. inversion Hn as [|? ? Hx Hr]; subst. specialize (IH Hr). destruct (last_with lower u l) as [d2|] eqn:E.
  - split.
    + intros H. injection H as ->. destruct (proj1 IH eq_refl) as (m & v & Hin & Hl). exists m, v. auto.
    + intros (m & v & [H|Hin] & Hl).
      * injection H as -> -> ->. exfalso. apply Hx. 
        assert (Hd : exists m v, In (m, (v, d2)) l /\ lower v = lower u).
        { clear - E. revert d2 E. induction l as [|[m [w z]] l IH]; intros d2; cbn; [discriminate|]. destruct (last_with lower u l) as [q|].
          - intros H. injection H as ->. destruct (IH d2 eq_refl) as (a & b & Hin & Hl). exists a, b. auto.
          - destruct (str_eqb (lower w) (lower u)) eqn:Ew; [|discriminate]. intros H. injection H as ->. apply str_eqb_spec in Ew. exists m, w. auto. }
        destruct Hd as (a & b & Hin & Hl2). apply in_map_iff. exists (a, (b, d2)). cbn. split; [congruence|exact Hin].
      * apply IH. exists m, v. auto.
  - destruct (str_eqb (lower u') (lower u)) eqn:Eu.
    + apply str_eqb_spec in Eu. split.
      * intros H. injection H as ->. exists n, u'. auto.
      * intros (m & v & [H|Hin] & Hl); [injection H as -> -> ->; reflexivity|]. exfalso. apply Hx. apply in_map_iff. exists (m, (v, d)). cbn. split; [congruence|exact Hin].
    + split; [discriminate|]. intros (m & v & [H|Hin] & Hl).
      * injection H as -> -> ->. rewrite Hl, str_eqb_refl in Eu. discriminate.
      * assert (None = Some d) by (apply IH; exists m, v; auto). discriminate.
Qed.
Lemma last_with_perm u (l l' : list entry) : Permutation l l' -> NoDup (map (fun e : entry => lower (fst (snd e))) l) ->
  last_with lower u l = last_with lower u l'.
Proof.
  intros P Hn. assert (Hn' : NoDup (map (fun e : entry => lower (fst (snd e))) l')) by (eapply Permutation_NoDup; [apply Permutation_map; exact P|exact Hn]).
  destruct (last_with lower u l) as [d|] eqn:E.
  - symmetry. apply (@last_with_in u l' d Hn'). apply (@last_with_in u l d Hn) in E. destruct E as (n & v & Hin & Hl). exists n, v. split; [eapply Permutation_in; eassumption|exact Hl].
  - destruct (last_with lower u l') as [d|] eqn:E'; [|reflexivity]. exfalso. apply (@last_with_in u l' d Hn') in E'. destruct E' as (n & v & Hin & Hl).
    assert (last_with lower u l = Some d); [|congruence]. apply (@last_with_in u l d Hn). exists n, v. split; [eapply Permutation_in; [symmetry; exact P|exact Hin]|exact Hl].
Qed.
Lemma fill_items_perm (l l' : list entry) items : Permutation l l' -> NoDup (map (fun e : entry => lower (fst (snd e))) l) ->
  fill_items lower l items = fill_items lower l' items.
Proof.
  intros P Hn. induction items as [|[u|d] items IH]; [reflexivity| |reflexivity]. cbn. rewrite (last_with_perm u P Hn), IH. reflexivity.
Qed.
Lemma fill_slots_perm (a b : tindex) ss : (forall t, Permutation (of_type a t) (of_type b t)) ->
  (forall t, NoDup (map fst (of_type a t)) /\ NoDup (map (fun e : entry => lower (fst (snd e))) (of_type a t))) ->
  fill_slots lower a ss = fill_slots lower b ss.
Proof.
  intros P Hn. induction ss as [|s ss IH]; [reflexivity|]. cbn [fill_slots]. rewrite IH.
  assert (fill_slot lower a s = fill_slot lower b s) as ->; [|reflexivity]. destruct s as [t|[t|] items]; [| |reflexivity].
  - cbn [fill_slot]. rewrite (@sort_names_perm _ (of_type a t) (of_type b t)); [reflexivity|apply Hn|apply P].
  - cbn [fill_slot]. specialize (P t). destruct (Hn t) as [_ Hn2]. destruct (of_type a t) as [|x la] eqn:Ea.
    + apply Permutation_nil in P. rewrite P. reflexivity.
    + destruct (of_type b t) as [|y lb] eqn:Eb; [apply Permutation_sym, Permutation_nil in P; discriminate|].
      rewrite (@fill_items_perm (x :: la) (y :: lb)) by assumption. reflexivity.
Qed.
End P.
