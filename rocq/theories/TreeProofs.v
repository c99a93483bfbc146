(** The extraction loop of Tree.v writes exactly the folders of the objects. *)
From Coq Require Import String Permutation.
From Verif Require Import PyBase Brace Container ContainerProofs EncodeLoop Spec_Encode EncodeLoopMain Include Tree Spec_Tree.
Set Implicit Arguments.
Open Scope list_scope.
Open Scope N_scope.

Lemma tag_eqb_spec (a b : tag) : tag_eqb a b = true <-> a = b.
Proof.
  unfold tag_eqb. destruct a as [a1 a2], b as [b1 b2]. cbn. rewrite andb_true_iff, !str_eqb_spec. split; [intros [-> ->]; reflexivity|intros H; injection H as -> ->; auto].
Qed.
Lemma tag_eqb_refl (a : tag) : tag_eqb a a = true. Proof. apply tag_eqb_spec. reflexivity. Qed.
Lemma path_eqb_spec (p q : path) : path_eqb p q = true <-> p = q.
Proof.
  revert q. induction p as [|x p IH]; intros [|y q]; cbn; try (split; [discriminate|congruence]); [tauto|]. rewrite andb_true_iff, tag_eqb_spec, IH. split; [intros [-> ->]; reflexivity|intros H; injection H as -> ->; auto].
Qed.

Lemma NoDup_app_l {A} (a b : list A) : NoDup (a ++ b) -> NoDup a.
Proof. induction a as [|x a IH]; [constructor|]. cbn. intros H. apply NoDup_cons_iff in H. destruct H as [H1 H2]. constructor; [|apply IH; exact H2]. intros Hx. apply H1. apply in_or_app. left. exact Hx. Qed.
Lemma NoDup_app_intro {A} (a b : list A) : NoDup a -> NoDup b -> (forall x, In x a -> In x b -> False) -> NoDup (a ++ b).
Proof.
  induction a as [|x a IH]; intros Ha Hb H; [exact Hb|]. apply NoDup_cons_iff in Ha. destruct Ha as [H1 H2]. cbn. constructor.
  - intros Hx. apply in_app_or in Hx. destruct Hx as [Hx|Hx]; [exact (H1 Hx)|]. apply (H x); [left; reflexivity|exact Hx].
  - apply IH; [exact H2|exact Hb|]. intros y Hy. apply H. right. exact Hy.
Qed.
Section X.
Variables P F : Type.
Notation object := (object P F).
Notation sources := (sources P).
Lemma exists_path_false p (ss : sources) : ~ In p (map fst ss) -> exists_path p ss = false.
Proof.
  intros H. unfold exists_path. destruct (existsb _ ss) eqn:E; [|reflexivity]. apply existsb_exists in E. destruct E as (e & He & Ep). apply path_eqb_spec in Ep. subst p. exfalso. apply H. apply in_map. exact He.
Qed.
Lemma put_sources_ok (new ss : sources) : NoDup (map fst (ss ++ new)) -> put_sources new ss = Ok (ss ++ new).
Proof.
  revert ss. induction new as [|[p o] new IH]; intros ss H; cbn [put_sources]; [rewrite app_nil_r; reflexivity|].
  rewrite exists_path_false.
  - rewrite IH; rewrite <- app_assoc; [reflexivity|exact H].
  - rewrite map_app in H. cbn [map] in H. apply NoDup_remove_2 in H. intros Hin. apply H. apply in_or_app. left. exact Hin.
Qed.

Lemma object_ind2 (Q : object -> Prop) : (forall t u n b own d fs ks, (forall k, In k ks -> Q k) -> Q (Object t u n b own d fs ks)) -> forall o, Q o.
Proof.
  intros H. fix IH 1. intros [t u n b own d fs ks]. apply H. induction ks as [|k ks IHk]; [contradiction|]. intros x [<-|Hx]; [apply IH|apply IHk; exact Hx].
Qed.
Lemma height_kid o k : In k (o_kids o) -> (o_height k < @o_height P F o)%nat.
Proof.
  destruct o as [t u n b own d fs ks]. cbn [o_kids o_height]. induction ks as [|x ks IH]; [contradiction|]. intros [->|H]; cbn [fold_right]; [lia|]. specialize (IH H). lia.
Qed.
Lemma folders_eq (o : object) : folders o = ([o_tag o], o_own o) :: map (fun e : path * P => (o_tag o :: fst e, snd e)) (flat_map (@folders P F) (o_kids o)).
Proof. destruct o. reflexivity. Qed.

Variable lower : list N -> list N.
Variable lists : list N -> bool.
Variable rd : list N -> P -> option (list N * list N).
Variable dec : list N -> list N -> res (list N * P * list (list N * list (child (list N * P)))).
Variable enc : info P -> tindex val -> res (option val * list F).
Notation handled := (handled lower lists rd dec enc).

(** an object and the folder it is put in *)
Definition place : Type := (path * object)%type.
Definition at_folders (x : place) : sources := map (fun e : path * P => (fst x ++ fst e, snd e)) (folders (snd x)).
Definition task_of (x : place) : xtask := mkxtask (o_type (snd x)) (o_uuid (snd x)) (fst x).
Definition below (x : place) : path := fst x ++ [o_tag (snd x)].
Definition is_file (o : object) : bool := negb (o_inner o).
Definition kid_places (x : place) : list place := map (pair (below x)) (filter is_file (o_kids (snd x))).
Definition own_sources (x : place) : sources :=
  (below x, o_own (snd x)) :: map (fun k => (below x ++ [o_tag k], o_own k)) (filter (fun k => negb (is_file k)) (o_kids (snd x))).

Lemma new_sources_eq x gs : flat_map (fun g : list N * list (child (list N * P)) => map (pair (fst g)) (snd g)) gs = map (@child_of P F) (o_kids (snd x)) ->
  new_sources (below x) (o_own (snd x)) gs = own_sources x.
Proof.
  intros H. unfold new_sources, own_sources. f_equal.
  assert (E : forall l : list object, map (fun k => (below x ++ [o_tag k], o_own k)) (filter (fun k => negb (is_file k)) l)
            = flat_map (fun c : list N * child (list N * P) => match snd c with CFile _ _ => [] | CInner _ (n, o) => [(below x ++ [(fst c, n)], o)] end) (map (@child_of P F) l)).
  { induction l as [|k l IH]; [reflexivity|]. cbn [map filter flat_map]. replace (is_file k) with (negb (o_inner k)) by reflexivity. rewrite negb_involutive. destruct (o_inner k) eqn:Ek; cbn [map]; rewrite IH; unfold child_of; rewrite Ek; reflexivity. }
  rewrite E, <- H. clear. induction gs as [|[t ks] gs IH]; [reflexivity|]. cbn [flat_map]. rewrite flat_map_app, <- IH. f_equal. cbn [fst snd]. clear. induction ks as [|k ks IH]; [reflexivity|]. cbn. rewrite IH. reflexivity.
Qed.
Lemma new_tasks_eq x gs : flat_map (fun g : list N * list (child (list N * P)) => map (pair (fst g)) (snd g)) gs = map (@child_of P F) (o_kids (snd x)) ->
  new_tasks (below x) gs = map task_of (kid_places x).
Proof.
  intros H. unfold new_tasks, kid_places. rewrite map_map.
  assert (E : forall l : list object, map (fun k => task_of (below x, k)) (filter is_file l)
            = flat_map (fun c : list N * child (list N * P) => match snd c with CFile _ u => [mkxtask (fst c) u (below x)] | CInner _ _ => [] end) (map (@child_of P F) l)).
  { induction l as [|k l IH]; [reflexivity|]. cbn [map filter flat_map]. replace (is_file k) with (negb (o_inner k)) by reflexivity. destruct (o_inner k) eqn:Ek; cbn [map negb]; rewrite IH; unfold child_of; rewrite Ek; reflexivity. }
  rewrite E, <- H. clear. induction gs as [|[t ks] gs IH]; [reflexivity|]. cbn [flat_map]. rewrite flat_map_app, <- IH. f_equal. cbn [fst snd]. clear. induction ks as [|k ks IH]; [reflexivity|]. cbn. rewrite IH. reflexivity.
Qed.
(** the folders of an object: its own, the inner objects' and those of its objects with files *)
Lemma folders_split x : (forall k, In k (o_kids (snd x)) -> o_inner k = true -> o_kids k = []) ->
  Permutation (at_folders x) (own_sources x ++ flat_map at_folders (kid_places x)).
Proof.
  intros Hk. unfold at_folders at 1, own_sources. rewrite folders_eq. cbn [map fst snd app]. apply perm_skip. rewrite map_map.
  unfold kid_places. destruct x as [p o]. cbn [fst snd] in *. unfold below. cbn [fst snd]. generalize (o_kids o) Hk. clear Hk. induction l as [|k l IH]; intros Hk; [constructor|].
  cbn [flat_map filter]. rewrite map_app. specialize (IH (fun x Hx => Hk x (or_intror Hx))). unfold is_file in *. destruct (o_inner k) eqn:Ek; cbn [negb map flat_map app].
  - rewrite folders_eq, (Hk k (or_introl eq_refl) Ek). cbn [flat_map map fst snd app]. rewrite <- app_assoc. cbn [app]. apply perm_skip. exact IH.
  - eapply perm_trans; [apply Permutation_app_head; exact IH|]. eapply perm_trans; [apply Permutation_app_swap_app|]. apply Permutation_app_head. apply Permutation_app_tail. apply Permutation_refl'. unfold at_folders. cbn [fst snd]. apply map_ext. intros [q y]. cbn [fst snd]. rewrite <- app_assoc. reflexivity.
Qed.

Definition ready (x : place) : Prop := o_inner (snd x) = false /\ handled (snd x).
Lemma ready_kids (x y : place) : ready x -> In y (kid_places x) -> ready y.
Proof.
  intros [_ H] Hy. unfold kid_places in Hy. apply in_map_iff in Hy. destruct Hy as (k & <- & Hk). apply filter_In in Hk. destruct Hk as [Hk Hf]. split; [cbn; unfold is_file in Hf; apply negb_true_iff; exact Hf|].
  inversion H as [t u n b own d fs ks ? ? ? ? ? ? ? ? Hks E]; subst. rewrite <- E in Hk. cbn in *. apply Hks. exact Hk.
Qed.
Lemma ready_inner (x : place) k : handled (snd x) -> In k (o_kids (snd x)) -> o_inner k = true -> o_kids k = [].
Proof.
  intros H Hk Hi. inversion H as [t u n b own d fs ks ? ? ? ? ? ? ? ? Hks E]; subst. rewrite <- E in Hk. cbn in Hk. specialize (Hks k Hk). inversion Hks as [t' u' n' b' own' d' fs' ks' ? ? ? Hb]; subst. cbn in *. auto.
Qed.

Lemma run_ok (x : place) ss : ready x -> NoDup (map fst (ss ++ own_sources x)) -> run_xtask dec (task_of x) ss = Ok (ss ++ own_sources x, map task_of (kid_places x)).
Proof.
  intros [Hi H] Hn. inversion H as [t u n b own d fs ks ? ? Hd ? ? ? ? ? ? E]; subst. assert (b = false) as -> by (rewrite <- E in Hi; exact Hi).
  destruct (Hd eq_refl) as (gs & E1 & E2). unfold run_xtask, task_of. rewrite <- E. cbn [o_type o_uuid xt_type xt_uuid xt_path]. rewrite E1. cbn [bind].
  assert (Ep : fst x ++ [(t, n)] = below x) by (unfold below; rewrite <- E; reflexivity). rewrite Ep.
  assert (Eo : own = o_own (snd x)) by (rewrite <- E; reflexivity). assert (Ek : ks = o_kids (snd x)) by (rewrite <- E; reflexivity). rewrite Eo. rewrite Ek in E2.
  rewrite (new_sources_eq x gs E2), (new_tasks_eq x gs E2). rewrite put_sources_ok by exact Hn. reflexivity.
Qed.
Lemma nodup_prefix (a b : sources) : NoDup (map fst (a ++ b)) -> NoDup (map fst a).
Proof. rewrite map_app. intros H. apply NoDup_app_l in H. exact H. Qed.
Lemma round_ok T : forall ss, Forall ready T -> NoDup (map fst (ss ++ flat_map own_sources T)) ->
  xround dec (map task_of T) ss = Ok (ss ++ flat_map own_sources T, map task_of (flat_map kid_places T)).
Proof.
  induction T as [|x T IH]; intros ss HT Hn; cbn [map xround flat_map]; [rewrite app_nil_r; reflexivity|]. apply Forall_cons_iff in HT. destruct HT as [Hx HT].
  cbn [flat_map] in Hn. rewrite app_assoc in Hn. rewrite (run_ok ss Hx (nodup_prefix _ _ Hn)). cbn [bind]. rewrite (IH _ HT Hn). cbn [bind]. rewrite map_app, app_assoc. reflexivity.
Qed.
Lemma flat_perm2 (A B : Type) (f g : A -> list B) T : (forall x, In x T -> Permutation (f x) (g x)) -> Permutation (flat_map f T) (flat_map g T).
Proof. induction T as [|x T IH]; intros H; [constructor|]. cbn. apply Permutation_app; [apply H; left; reflexivity|apply IH; intros y Hy; apply H; right; exact Hy]. Qed.
Lemma flat_app2 (A B : Type) (f g : A -> list B) T : Permutation (flat_map (fun x => f x ++ g x) T) (flat_map f T ++ flat_map g T).
Proof. induction T as [|x T IH]; [constructor|]. cbn. rewrite IH, <- !app_assoc. apply Permutation_app_head. rewrite Permutation_app_swap_app. reflexivity. Qed.
Lemma flat_map_comp (A B C : Type) (f : A -> list B) (g : B -> list C) T : flat_map g (flat_map f T) = flat_map (fun x => flat_map g (f x)) T.
Proof. induction T as [|x T IH]; [reflexivity|]. cbn. rewrite flat_map_app, IH. reflexivity. Qed.

Lemma xloop_ok sched : schedule sched -> forall h T n ss fuel, Forall ready T -> Forall (fun x => (o_height (snd x) <= h)%nat) T -> (h <= fuel)%nat ->
  NoDup (map fst (ss ++ flat_map at_folders T)) ->
  exists ss', xloop dec fuel n sched ss (map task_of T) = Ok ss' /\ Permutation ss' (ss ++ flat_map at_folders T).
Proof.
  intros Hs h. induction h as [|h IH]; intros T n ss fuel HT Hh Hf Hn.
  - destruct T as [|x T]; [|apply Forall_inv in Hh; destruct (snd x); cbn in Hh; lia]. exists ss. split; [destruct fuel; reflexivity|]. cbn. rewrite app_nil_r. reflexivity.
  - destruct T as [|x0 T0]; [exists ss; split; [destruct fuel; reflexivity|cbn; rewrite app_nil_r; reflexivity]|]. set (T := x0 :: T0) in *.
    destruct fuel as [|fuel]; [lia|]. assert (Hstep : forall ts, ts <> [] -> xloop dec (S fuel) n sched ss ts = (' (ss, ts') <- xround dec (sched n ts) ss ;; xloop dec fuel (S n) sched ss ts')) by (intros [|t ts] Ht; [congruence|reflexivity]).
    rewrite Hstep by discriminate. destruct (Permutation_map_inv task_of T (Permutation_sym (Permutation_sym (Hs n (map task_of T))))) as (T' & ET & PT). rewrite ET.
    assert (HT' : Forall ready T') by (rewrite <- PT; exact HT).
    assert (Hsplit : Permutation (flat_map at_folders T) (flat_map own_sources T' ++ flat_map at_folders (flat_map kid_places T'))).
    { rewrite (Permutation_flat_map at_folders PT), flat_map_comp, <- flat_app2. apply flat_perm2. intros x Hx. apply folders_split. intros k Hk Hi. eapply ready_inner; [|exact Hk|exact Hi].
      rewrite Forall_forall in HT'. apply (HT' x Hx). }
    assert (Hn2 : NoDup (map fst ((ss ++ flat_map own_sources T') ++ flat_map at_folders (flat_map kid_places T')))).
    { refine (Permutation_NoDup _ Hn). apply Permutation_map. rewrite <- app_assoc. apply Permutation_app_head. exact Hsplit. }
    rewrite (round_ok ss HT' (nodup_prefix _ _ Hn2)). cbn [bind].
    destruct (IH (flat_map kid_places T') (S n) (ss ++ flat_map own_sources T') fuel) as (ss' & E & HP).
    + apply Forall_forall. intros y Hy. apply in_flat_map in Hy. destruct Hy as (x & Hx & Hy). eapply ready_kids; [|exact Hy]. rewrite Forall_forall in HT'. apply HT'. exact Hx.
    + apply Forall_forall. intros y Hy. apply in_flat_map in Hy. destruct Hy as (x & Hx & Hy). unfold kid_places in Hy. apply in_map_iff in Hy. destruct Hy as (k & <- & Hk). apply filter_In in Hk. destruct Hk as [Hk _].
      pose proof (height_kid (snd x) k Hk) as HH. assert (In x T) as HxT by (eapply Permutation_in; [symmetry; exact PT|exact Hx]). rewrite Forall_forall in Hh. specialize (Hh x HxT). cbn [snd]. lia.
    + lia.
    + exact Hn2.
    + exists ss'. split; [exact E|]. rewrite HP, <- app_assoc. apply Permutation_app_head. symmetry. exact Hsplit.
Qed.

(** ** Different objects have different folders *)
Lemma folders_head o e : In e (folders o) -> exists p, fst e = @o_tag P F o :: p.
Proof. rewrite folders_eq. intros [<-|H]; [exists []; reflexivity|]. apply in_map_iff in H. destruct H as (x & <- & _). exists (fst x). reflexivity. Qed.
Lemma nodup_flat (A B : Type) (f : A -> list B) (l : list A) : (forall x, In x l -> NoDup (f x)) -> NoDup l -> (forall x y b, In x l -> In y l -> In b (f x) -> In b (f y) -> x = y) -> NoDup (flat_map f l).
Proof.
  induction l as [|x l IH]; intros H1 H2 H3; [constructor|]. cbn. apply NoDup_cons_iff in H2. destruct H2 as [Hx H2]. apply NoDup_app_intro.
  - apply H1. left. reflexivity.
  - apply IH; [intros y Hy; apply H1; right; exact Hy|exact H2|intros y z b Hy Hz; apply H3; right; assumption].
  - intros b Hb Hb2. apply in_flat_map in Hb2. destruct Hb2 as (y & Hy & Hb2). apply Hx. rewrite (H3 x y b (or_introl eq_refl) (or_intror Hy) Hb Hb2). exact Hy.
Qed.
Lemma folders_nodup_all os : (forall o, In o os -> NoDup (map fst (folders o))) -> NoDup (map (@o_tag P F) os) -> NoDup (map fst (flat_map (@folders P F) os)).
Proof.
  intros H1 H2. rewrite flat_map_concat_map, concat_map, map_map, <- flat_map_concat_map. apply nodup_flat; [exact H1|eapply NoDup_map_inv; exact H2|].
  intros x y b Hx Hy Hb Hb2. apply in_map_iff in Hb. destruct Hb as (e & <- & He). apply in_map_iff in Hb2. destruct Hb2 as (e2 & E2 & He2).
  apply folders_head in He. apply folders_head in He2. destruct He as [p Hp], He2 as [p2 Hp2]. assert (Et : o_tag x = o_tag y) by congruence. 
  apply (nodup_map_inj (@o_tag P F) os); assumption.
Qed.
Lemma folders_nodup o : handled o -> NoDup (map fst (folders o)).
Proof.
  induction o as [t u n b own d fs ks IH] using object_ind2. intros H. inversion H as [t' u' n' b' own' d' fs' ks' ? ? ? ? ? ? ? [Hd _] Hk]; subst. rewrite folders_eq. cbn [map fst o_kids].
  rewrite map_map. cbn [fst]. constructor.
  - intros Hin. apply in_map_iff in Hin. destruct Hin as (e & E & He). injection E as Ee. apply in_flat_map in He. destruct He as (k & Hk1 & He). apply folders_head in He. destruct He as [p Hp]. congruence.
  - rewrite <- (map_map fst (fun p => o_tag (Object t u n b own d fs ks) :: p)). apply FinFun.Injective_map_NoDup; [intros p q E; congruence|]. apply folders_nodup_all; [intros k Hin; apply IH; [exact Hin|apply Hk; exact Hin]|exact Hd].
Qed.
(** From the top folder: objects with files of their own *)
Theorem extraction sched fuel (os : list object) : schedule sched -> (forall o, In o os -> handled o /\ o_inner o = false) -> NoDup (map (@o_tag P F) os) -> (o_heights os <= fuel)%nat ->
  exists ss, xloop dec fuel 0 sched [] (map (fun o => mkxtask (o_type o) (o_uuid o) []) os) = Ok ss /\ Permutation ss (flat_map (@folders P F) os).
Proof.
  intros Hs Ho Hn Hf. set (T := map (pair (@nil tag)) os : list place).
  assert (ET : map (fun o : object => mkxtask (o_type o) (o_uuid o) []) os = map task_of T) by (unfold T; rewrite map_map; reflexivity).
  assert (EF : flat_map at_folders T = flat_map (@folders P F) os).
  { unfold T. clear. induction os as [|o os IH]; [reflexivity|]. cbn [map flat_map]. rewrite IH. f_equal. unfold at_folders. cbn [fst snd app]. rewrite <- (map_id (folders o)) at 2. apply map_ext. intros [p x]. reflexivity. }
  destruct (@xloop_ok sched Hs (o_heights os) T 0%nat [] fuel) as (ss & E & HP).
  - apply Forall_forall. intros x Hx. unfold T in Hx. apply in_map_iff in Hx. destruct Hx as (o & <- & Hin). destruct (Ho o Hin). split; assumption.
  - apply Forall_forall. intros x Hx. unfold T in Hx. apply in_map_iff in Hx. destruct Hx as (o & <- & Hin). cbn [snd]. clear - Hin. induction os as [|y os IH]; [contradiction|]. cbn. destruct Hin as [->|Hin]; [lia|]. specialize (IH Hin). unfold o_heights in IH. lia.
  - exact Hf.
  - cbn [app]. rewrite EF. apply folders_nodup_all; [|exact Hn]. intros o Hin. apply folders_nodup. apply (Ho o Hin).
  - exists ss. rewrite ET. split; [exact E|]. rewrite EF in HP. exact HP.
Qed.
End X.
