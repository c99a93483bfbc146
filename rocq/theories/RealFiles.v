(** What a tree of handled objects writes. *)
From Coq Require Import String Permutation.
From Verif Require Import PyBase PyText Utf Brace Pipeline ObjCode Spec_Obj Payload MetaObj Spec_MetaObj MetaObjBase ObjCodeMain MetaObjMain EncodeLoop Include Tree Spec_Tree TreeProofs Classes ClassesProofs MetaObj Real Spec_Real RealMain.
Set Implicit Arguments.
Open Scope list_scope.
Open Scope N_scope.

Section F.
Variable src : folder.
Notation object := (object folder written).
Notation models := (models src).
Lemma item_ind2 (Q : item -> Prop) : (forall c u n b d ks, (forall k, In k ks -> Q k) -> Q (Item c u n b d ks)) -> forall x, Q x.
Proof.
  intros H. fix IH 1. intros [c u n b d ks]. apply H. revert ks. fix IHl 1. intros [|k ks] k' Hk; [destruct Hk|]. destruct Hk as [<-|Hk]; [apply IH|exact (IHl ks k' Hk)].
Qed.
Lemma models_folders x : forall o, models x o -> map fst (folders o) = it_folders x.
Proof.
  induction x as [c u n b d ks IH] using item_ind2. intros o H. inversion H as [? ? ? ? ? ? own fs os' Hm Hfs Hs]; subst. cbn [folders it_folders map fst]. f_equal. rewrite map_map. cbn [fst].
  rewrite <- (map_map fst (cons (c_name c, n))). f_equal. clear - IH Hm. induction Hm as [|k o ks os' Hk Hr IHm]; [reflexivity|]. cbn [flat_map]. rewrite map_app. refine (f_equal2 (@app path) _ _); [apply IH; [left; reflexivity|exact Hk]|apply IHm; intros; apply IH; [right; assumption|assumption]].
Qed.
Lemma models_height x : forall o, models x o -> o_height o = it_height x.
Proof.
  induction x as [c u n b d ks IH] using item_ind2. intros o H. inversion H as [? ? ? ? ? ? own fs os' Hm Hfs Hs]; subst. cbn [o_height it_height]. f_equal. clear - IH Hm.
  induction Hm as [|k o ks os' Hk Hr IHm]; [reflexivity|]. cbn [fold_right]. rewrite IHm, (IH k); [reflexivity|left; reflexivity|exact Hk|intros; apply IH; [right; assumption|assumption]].
Qed.
Lemma models_heights xs (os' : list object) : Forall2 models xs os' -> o_heights os' = it_heights xs.
Proof. intros H. induction H as [|x o xs os' Hx Hr IH]; [reflexivity|]. unfold o_heights, it_heights in *. cbn [fold_right]. rewrite IH, (models_height Hx). reflexivity. Qed.
Lemma models_files x : forall o, models x o -> Permutation (map fst (all_files o)) (flat_map (it_files src) (below x)) /\ Forall (fun e : written => same_entry (dget (fst e) src) (snd e)) (all_files o).
Proof.
  induction x as [c u n b d ks IH] using item_ind2. intros o H. inversion H as [? ? ? ? ? ? own fs os' Hm Hfs Hs]; subst. cbn [all_files below flat_map].
  assert (K : Permutation (map fst (flat_map (@all_files _ _) os')) (flat_map (it_files src) (flat_map below ks)) /\ Forall (fun e : written => same_entry (dget (fst e) src) (snd e)) (flat_map (@all_files _ _) os')).
  { clear - IH Hm. induction Hm as [|k o ks os' Hk Hr IHm]; [split; constructor|]. cbn [flat_map]. destruct IHm as [I1 I2]; [intros; apply IH; [right; assumption|assumption]|]. destruct (IH k (or_introl eq_refl) o Hk) as [J1 J2].
    split; [|apply Forall_app; split; assumption]. rewrite map_app, flat_map_app. apply Permutation_app; assumption. }
  destruct K as [K1 K2]. split; [|apply Forall_app; split; assumption]. rewrite map_app. eapply perm_trans; [apply Permutation_app_comm|]. apply Permutation_app; [|exact K1]. apply Permutation_refl'. exact Hfs.
Qed.
Lemma models_all xs (os' : list object) : Forall2 models xs os' -> map fst (flat_map (@folders _ _) os') = flat_map it_folders xs /\
  Permutation (map fst (flat_map (@all_files _ _) os')) (flat_map (it_files src) (flat_map below xs)) /\ Forall (fun e : written => same_entry (dget (fst e) src) (snd e)) (flat_map (@all_files _ _) os').
Proof.
  intros H. induction H as [|x o xs os' Hx Hr (I1 & I2 & I3)]; [split; [reflexivity|split; constructor]|]. cbn [flat_map]. destruct (models_files Hx) as [J1 J2]. split; [|split].
  - rewrite map_app. refine (f_equal2 (@app path) _ _); [apply models_folders; exact Hx|exact I1].
  - rewrite map_app, flat_map_app. apply Permutation_app; assumption.
  - apply Forall_app. split; assumption.
Qed.

(** different identifiers, different files *)
Lemma here_nodup uuid ns : NoDup ns -> NoDup (here uuid src ns).
Proof.
  intros H. unfold here. induction H as [|n ns Hn H IH]; [constructor|]. cbn [flat_map]. destruct (dget (dotted uuid n) src); [|exact IH]. cbn [app]. constructor; [|exact IH].
  intros Hin. apply in_flat_map in Hin. destruct Hin as (m & Hm & Hin). destruct (dget (dotted uuid m) src); [|destruct Hin]. destruct Hin as [E|[]]. apply dotted_inj in E. subst. contradiction.
Qed.
Lemma here_in uuid ns n : In n (here uuid src ns) -> exists m, In m ns /\ n = dotted uuid m.
Proof. unfold here. intros H. apply in_flat_map in H. destruct H as (m & Hm & H). destruct (dget (dotted uuid m) src); [|destruct H]. destruct H as [<-|[]]. eauto. Qed.
Lemma own_nodup store c uuid : NoDup (numbers c) -> NoDup (object_files store c uuid src).
Proof.
  unfold numbers. intros H. rewrite map_app in H. apply MetaObjMain.nodup_app in H. destruct H as (N1 & N2 & N3). apply MetaObjMain.nodup_app in N2. destruct N2 as (N4 & N5 & N6).
  assert (Hu : forall ns, ~ In uuid (here uuid src ns)). { intros ns Hin. apply here_in in Hin. destruct Hin as (m & _ & E). apply (f_equal (@length N)) in E. unfold dotted in E. rewrite app_length in E. rewrite app_length in E. cbn [length] in E. lia. }
  unfold object_files. repeat apply NoDup_app_intro.
  - apply here_nodup. exact N4.
  - destruct store; [constructor; [intros []|constructor]|constructor].
  - apply here_nodup. exact N1.
  - apply here_nodup. exact N5.
  - intros x H1 H2. apply here_in in H1, H2. destruct H1 as (m & Hm & ->), H2 as (m' & Hm' & E). apply dotted_inj in E. subst m'. apply (N3 m Hm). apply in_or_app. auto.
  - intros x H1 H2. destruct store; [|destruct H1]. destruct H1 as [<-|[]]. apply in_app_or in H2. destruct H2 as [H2|H2]; exact (Hu _ H2).
  - intros x H1 H2. apply in_app_or in H2. destruct H2 as [H2|H2].
    + destruct store; [|destruct H2]. destruct H2 as [<-|[]]. exact (Hu _ H1).
    + apply here_in in H1. destruct H1 as (m & Hm & ->). apply in_app_or in H2. destruct H2 as [H2|H2]; apply here_in in H2; destruct H2 as (m' & Hm' & E); apply dotted_inj in E; subst m'; [apply (N3 m Hm'); apply in_or_app; auto|exact (N6 m Hm Hm')].
Qed.
Lemma before_dot (a b x : list N) : ~ In 46 a -> ~ In 46 b -> (x = a \/ exists n, x = dotted a n) -> (x = b \/ exists n, x = dotted b n) -> a = b.
Proof.
  revert b x. induction a as [|p a IH]; intros [|q b] x Ha Hb Hx Hy; [reflexivity|exfalso..|].
  - apply Hb. left. destruct Hx as [->|[n ->]]; destruct Hy as [E|[m E]]; unfold dotted in E; cbn [app] in E; congruence.
  - apply Ha. left. destruct Hx as [->|[n ->]]; destruct Hy as [E|[m E]]; unfold dotted in E; cbn [app] in E; congruence.
  - assert (exists y, x = p :: y /\ (y = a \/ exists n, y = dotted a n)) as (y & -> & Hy1). { destruct Hx as [->|[n ->]]; [exists a; auto|exists (dotted a n); split; [reflexivity|eauto]]. }
    assert (p = q /\ (y = b \/ exists n, y = dotted b n)) as [-> Hy2]. { destruct Hy as [E|[m E]]; [injection E as -> ->; auto|]. change (dotted (q :: b) m) with (q :: dotted b m) in E. injection E as -> ->. eauto. }
    f_equal. apply (IH b y); [intros Hin; apply Ha; right; exact Hin|intros Hin; apply Hb; right; exact Hin|exact Hy1|exact Hy2].
Qed.
Lemma file_of store c uuid n : In n (object_files store c uuid src) -> n = uuid \/ exists m, n = dotted uuid m.
Proof. intros H. apply own_files in H. destruct H as [[_ ->]|H]; [auto|]. apply in_map_iff in H. destruct H as (m & <- & _). eauto. Qed.
Lemma files_nodup xs : NoDup (map it_uuid xs) -> (forall x, In x xs -> ~ In 46 (it_uuid x) /\ NoDup (numbers (it_class x))) -> NoDup (flat_map (it_files src) xs).
Proof.
  intros Hn Hd. apply nodup_flat.
  - intros x Hx. apply own_nodup. apply (Hd x Hx).
  - apply NoDup_map_inv in Hn. exact Hn.
  - intros x y n Hx Hy H1 H2. unfold it_files in H1, H2. apply file_of in H1, H2. pose proof (@before_dot _ _ n (proj1 (Hd x Hx)) (proj1 (Hd y Hy)) H1 H2) as E.
    clear - Hn Hx Hy E. induction xs as [|z xs IH]; [destruct Hx|]. cbn [map] in Hn. apply NoDup_cons_iff in Hn. destruct Hn as [N1 N2]. destruct Hx as [->|Hx], Hy as [->|Hy]; auto.
    + exfalso. apply N1. rewrite E. apply in_map. exact Hy.
    + exfalso. apply N1. rewrite <- E. apply in_map. exact Hx.
Qed.
End F.
