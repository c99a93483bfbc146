(** A build from the folders of the objects gives their files and data, in whatever order the folders are
    listed and the tasks end. *)
From Coq Require Import String Permutation.
From Verif Require Import PyBase Brace Container ContainerProofs EncodeLoop EncodeLoopProofs Spec_Encode EncodeLoopMain EncodeLoopSpec Include Tree Spec_Tree TreeProofs.
Set Implicit Arguments.
Open Scope list_scope.
Open Scope N_scope.

Section B.
Variables P F : Type.
Notation object := (object P F).
Notation sources := (sources P).
Notation kid := (list N * entry val)%type.
Variable lower : list N -> list N.
Variable lists : list N -> bool.
Variable rd : list N -> P -> option (list N * list N).
Variable dec : list N -> list N -> res (list N * P * list (list N * list (child (list N * P)))).
Variable enc : info P -> tindex val -> res (option val * list F).
Notation handled := (handled lower lists rd dec enc).
Notation distinct := (distinct lower).
Notation folders := (@folders P F).
Notation o_tag := (@o_tag P F).
Variable alike : list N -> P -> P -> Prop.
Hypothesis alike_rd : forall t a b, alike t a b -> rd t b = rd t a.
Hypothesis alike_enc : forall t n a b idx r, alike t a b -> enc (info_of rd (t, n) a) idx = Ok r -> enc (info_of rd (t, n) b) idx = Ok r.
Definition done (i : info P) (ks : list kid) (r : option val * list F) : Prop := enc i (group ks) = Ok r.
Definition kid_of (o : object) : kid := (o_type o, entry_of o).

(** ** Folders below a folder *)
Lemma under_perm q (a b : sources) : Permutation a b -> Permutation (under q a) (under q b).
Proof. intros H. unfold under. apply Permutation_flat_map. exact H. Qed.
Lemma under_app q (a b : sources) : under q (a ++ b) = under q a ++ under q b.
Proof. unfold under. apply flat_map_app. Qed.
Lemma under_map q x (l : sources) : under q (map (fun e : path * P => (x :: fst e, snd e)) l) = if tag_eqb x q then l else [].
Proof.
  unfold under. induction l as [|[p o] l IH]; [destruct (tag_eqb x q); reflexivity|]. cbn [map flat_map fst snd]. rewrite IH. destruct (tag_eqb x q); reflexivity.
Qed.
Lemma under_folders q o : under q (folders o) = if tag_eqb (o_tag o) q then ([], o_own o) :: flat_map folders (o_kids o) else [].
Proof.
  rewrite folders_eq. change (([o_tag o], o_own o) :: map (fun e : path * P => (o_tag o :: fst e, snd e)) (flat_map folders (o_kids o))) with
    ([([o_tag o], o_own o)] ++ map (fun e : path * P => (o_tag o :: fst e, snd e)) (flat_map folders (o_kids o))).
  rewrite under_app, under_map. unfold under. cbn [flat_map fst snd]. destruct (tag_eqb (o_tag o) q); reflexivity.
Qed.
Lemma under_none q ks : ~ In q (map o_tag ks) -> under q (flat_map folders ks) = [].
Proof.
  induction ks as [|k ks IH]; intros H; [reflexivity|]. cbn [flat_map]. rewrite under_app, under_folders. destruct (tag_eqb (o_tag k) q) eqn:E; [apply tag_eqb_spec in E; exfalso; apply H; left; exact E|].
  apply IH. intros Hq. apply H. right. exact Hq.
Qed.
Lemma under_one ks k : NoDup (map o_tag ks) -> In k ks -> under (o_tag k) (flat_map folders ks) = ([], o_own k) :: flat_map folders (o_kids k).
Proof.
  induction ks as [|x ks IH]; intros Hn Hk; [contradiction|]. cbn [map] in Hn. apply NoDup_cons_iff in Hn. destruct Hn as [Hx Hn]. cbn [flat_map]. rewrite under_app, under_folders. destruct Hk as [->|Hk].
  - rewrite tag_eqb_refl, under_none by exact Hx. rewrite app_nil_r. reflexivity.
  - destruct (tag_eqb (o_tag x) (o_tag k)) eqn:E; [|apply IH; assumption]. apply tag_eqb_spec in E. exfalso. apply Hx. rewrite E. apply in_map. exact Hk.
Qed.
Lemma in_under q p o (ss : sources) : In (p, o) (under q ss) <-> In (q :: p, o) ss.
Proof.
  unfold under. rewrite in_flat_map. split.
  - intros ([[|x p'] o'] & Hin & H); cbn [fst snd] in H; [destruct H|]. destruct (tag_eqb x q) eqn:E; [|destruct H]. apply tag_eqb_spec in E. subst x. destruct H as [H|[]]. injection H as -> ->. exact Hin.
  - intros H. exists (q :: p, o). split; [exact H|]. cbn [fst snd]. rewrite tag_eqb_refl. left. reflexivity.
Qed.
Lemma type_at_cons t0 (q : tag) (p : path) : type_at t0 (q :: p) = type_at (fst q) p.
Proof. unfold type_at. destruct p as [|x p]; [reflexivity|]. cbn [last]. revert x. induction p as [|y p IH]; intros x; [reflexivity|]. cbn [last]. apply IH. Qed.
Lemma under_back t0 q (ss ss' : sources) : read_back alike t0 ss ss' -> read_back alike (fst q) (under q ss) (under q ss').
Proof.
  intros [H1 H2]. split.
  - intros p b Hin. apply in_under in Hin. destruct (H1 _ _ Hin) as (a & A & B). exists a. rewrite type_at_cons in B. split; [apply in_under; exact A|exact B].
  - intros p a Hin. apply in_under in Hin. destruct (H2 _ _ Hin) as (b & B). exists b. apply in_under. exact B.
Qed.
(** the subfolders are the objects *)
Lemma listing_tags t0 (ss : sources) (xs : list P) ks qs : read_back alike t0 (map (pair []) xs ++ flat_map folders ks) ss -> NoDup (map o_tag ks) -> listing ss qs -> Permutation qs (map o_tag ks).
Proof.
  intros HP Hn [H1 H2]. apply NoDup_Permutation; [exact H1|exact Hn|]. intros q. rewrite H2. split.
  - intros (p & o & Hin). destruct (proj1 HP _ _ Hin) as (a & Hin' & _). clear Hin. rename Hin' into Hin. apply in_app_or in Hin. destruct Hin as [Hin|Hin]; [apply in_map_iff in Hin; destruct Hin as (y & E & _); discriminate|].
    apply in_flat_map in Hin. destruct Hin as (k & Hk & Hin). apply folders_head in Hin. destruct Hin as [p2 E]. cbn in E. assert (q = o_tag k) as -> by congruence. apply in_map. exact Hk.
  - intros Hq. apply in_map_iff in Hq. destruct Hq as (k & <- & Hk). destruct (proj2 HP [o_tag k] (o_own k)) as (b & Hb); [|exists [], b; exact Hb]. apply in_or_app. right. apply in_flat_map. exists k. split; [exact Hk|].
    rewrite folders_eq. left. reflexivity.
Qed.

(** ** One object after another *)
(** what is shown of a node *)
Definition matches (o : object) (n : node P) (fs : list F) : Prop :=
  assembles done n [kid_of o] fs /\ Permutation fs (all_files o) /\ wf lower n /\ (height n <= o_height o)%nat /\ exists own', n_info n = info_of rd (o_tag o) own' /\ rd (o_type o) own' = Some (o_name o, o_uuid o).
Inductive matches_all : list object -> list (node P) -> list F -> Prop :=
| ma_nil : matches_all [] [] []
| ma_cons o os n ns f fs : matches o n f -> matches_all os ns fs -> matches_all (o :: os) (n :: ns) (f ++ fs).
Lemma matches_assembles os ns fs : matches_all os ns fs -> assembles_all done ns (map kid_of os) fs.
Proof. induction 1 as [|o os n ns f fs (H & _) _ IH]; [constructor|]. cbn [map]. change (kid_of o :: map kid_of os) with ([kid_of o] ++ map kid_of os). constructor; assumption. Qed.
Lemma matches_files os ns fs : matches_all os ns fs -> Permutation fs (flat_map (@all_files P F) os).
Proof. induction 1 as [|o os n ns f fs (_ & H & _) _ IH]; [constructor|]. cbn [flat_map]. apply Permutation_app; assumption. Qed.
Lemma matches_wf os ns fs n : matches_all os ns fs -> In n ns -> wf lower n.
Proof. induction 1 as [|o os n0 ns f fs (_ & _ & H & _) _ IH]; [contradiction|]. intros [<-|Hn]; auto. Qed.
Lemma matches_height os ns fs : matches_all os ns fs -> (height_all ns <= o_heights os)%nat.
Proof. induction 1 as [|o os n ns f fs (_ & _ & _ & H & _) _ IH]; [constructor|]. unfold height_all, o_heights in *. cbn. lia. Qed.
Lemma matches_maps os ns fs : matches_all os ns fs ->
  map (@Spec_Encode.tag P) ns = map o_tag os /\
  forall t, map (fun n => i_name (n_info n)) (siblings t ns) = map (@o_name P F) (filter (fun o => str_eqb t (o_type o)) os) /\
            map (fun n => lower (i_uuid (n_info n))) (siblings t ns) = map (fun o => lower (o_uuid o)) (filter (fun o => str_eqb t (o_type o)) os).
Proof.
  induction 1 as [|o os n ns f fs (_ & _ & _ & _ & own' & Hi & Hr) _ IH]; [repeat split|]. destruct IH as [IH1 IH2]. 
  assert (Ei : n_info n = mkinfo (o_type o) (o_name o) (o_type o) true (o_name o) (o_uuid o) own') by (rewrite Hi; unfold info_of, Spec_Tree.o_tag; cbn [fst snd]; rewrite Hr; reflexivity).
  split.
  - cbn [map]. rewrite IH1. f_equal. unfold Spec_Encode.tag. rewrite Ei. reflexivity.
  - intros t. destruct (IH2 t) as [A B]. unfold siblings in *. cbn [filter]. rewrite Ei. cbn [i_marked i_type andb]. destruct (str_eqb t (o_type o)); [|auto]. cbn [map]. rewrite Ei. cbn [i_name i_uuid]. rewrite A, B. auto.
Qed.
Lemma names_of_tags (os : list object) t : NoDup (map o_tag os) -> NoDup (map (@o_name P F) (filter (fun o => str_eqb t (o_type o)) os)).
Proof.
  induction os as [|o os IH]; [constructor|]. cbn [map filter]. intros H. apply NoDup_cons_iff in H. destruct H as [H1 H2]. specialize (IH H2). destruct (str_eqb t (o_type o)) eqn:E; [|exact IH].
  cbn [map]. constructor; [|exact IH]. intros Hin. apply in_map_iff in Hin. destruct Hin as (x & Ex & Hx). apply filter_In in Hx. destruct Hx as [Hx Et]. apply str_eqb_spec in E. apply str_eqb_spec in Et.
  apply H1. apply in_map_iff. exists x. split; [unfold Spec_Tree.o_tag; congruence|exact Hx].
Qed.
Lemma matches_siblings os ns fs : matches_all os ns fs -> distinct os -> distinct_siblings lower ns.
Proof.
  intros H [D1 D2]. apply matches_maps in H. destruct H as [E H]. split; [rewrite E; exact D1|]. intros t. destruct (H t) as [A B]. rewrite A, B. split; [apply names_of_tags; exact D1|apply D2].
Qed.
Lemma distinct_perm (a b : list object) : Permutation a b -> distinct a -> distinct b.
Proof.
  intros HP [H1 H2]. split; [refine (Permutation_NoDup _ H1); apply Permutation_map; exact HP|]. intros t. refine (Permutation_NoDup _ (H2 t)). apply Permutation_map.
  clear - HP. induction HP; cbn; [constructor| | |etransitivity; eassumption]. 
  - destruct (str_eqb t (o_type x)); [apply perm_skip|]; exact IHHP.
  - destruct (str_eqb t (o_type x)), (str_eqb t (o_type y)); try reflexivity. apply perm_swap.
Qed.
Lemma entries_perm t (a b : list object) : Permutation a b -> Permutation (entries t a) (entries t b).
Proof.
  intros HP. unfold entries. apply Permutation_map. induction HP; cbn; [constructor| | |etransitivity; eassumption]. 
  - destruct (str_eqb t (o_type x)); [apply perm_skip|]; exact IHHP.
  - destruct (str_eqb t (o_type x)), (str_eqb t (o_type y)); try reflexivity. apply perm_swap.
Qed.
Lemma sel_entries t (os : list object) : sel_t t (map kid_of os) = entries t os.
Proof.
  unfold sel_t, entries. induction os as [|o os IH]; [reflexivity|]. cbn [map filter fst kid_of]. destruct (str_eqb t (o_type o)); cbn [map]; rewrite IH; reflexivity.
Qed.

Lemma object_built h : forall o ss n, (o_height o <= h)%nat -> handled o -> read_back alike (o_type o) (([], o_own o) :: flat_map folders (o_kids o)) ss -> reads lists rd (o_tag o) ss n -> exists fs, matches o n fs.
Proof.
  induction h as [|h IH]; intros o ss n Hh Ho HP Hr; [destruct o; cbn in Hh; lia|].
  assert (Hlist : forall (ss : sources) ks' cs, reads_list lists rd ss (map o_tag ks') cs ->
    (forall k, In k ks' -> (o_height k <= h)%nat /\ handled k /\ read_back alike (o_type k) (([], o_own k) :: flat_map folders (o_kids k)) (under (o_tag k) ss)) -> exists fs, matches_all ks' cs fs).
  { clear o ss n Hh Ho HP Hr. intros ss ks'. induction ks' as [|k ks' IHk]; intros cs Hr Hk; [inversion Hr; subst; exists []; constructor|]. cbn [map] in Hr. inversion Hr as [|? ? ? c cs' Hc Hcs]; subst.
    destruct (Hk k (or_introl eq_refl)) as (A1 & A2 & A3). destruct (IH k _ c A1 A2 A3 Hc) as [f Hf]. destruct (IHk cs' Hcs (fun x Hx => Hk x (or_intror Hx))) as [fs Hfs]. exists (f ++ fs). constructor; assumption. }
  pose proof Ho as Ho'. inversion Ho' as [t u nm b own d fs ks T1 T2 Hdec Hb Hl Hrd Henc Hd Hk E]. clear Ho'. subst o. cbn [o_own o_kids Spec_Tree.o_tag o_type o_name] in HP, Hr.
  inversion Hr as [q ss' own' cs Hin Hl0 Hl1 Eq]; subst.
  change (lists t = false -> cs = []) in Hl0. change (lists t = true -> reads_all lists rd ss cs) in Hl1. assert (Hal : alike t own own').
  { destruct (proj1 HP _ _ Hin) as (a & Hin' & Ha). destruct Hin' as [E|Hin']; [injection E as <-; exact Ha|]. clear Hin. rename Hin' into Hin. apply in_flat_map in Hin. destruct Hin as (k & _ & Hin). apply folders_head in Hin. destruct Hin as [p E]. discriminate. }
  pose proof Hrd as Hrd'. rewrite <- (alike_rd Hal) in Hrd'.
  assert (Ei : info_of rd (t, nm) own' = mkinfo t nm t true nm u own') by (unfold info_of; cbn [fst snd]; rewrite Hrd'; reflexivity).
  assert (Hcs : exists ks' fs', Permutation ks ks' /\ matches_all ks' cs fs').
  { destruct (lists t) eqn:Elt.
    - specialize (Hl1 eq_refl). inversion Hl1 as [? qs ? Hq Hrl]; subst. 
      pose proof (@listing_tags t ss [own] ks qs HP (proj1 Hd) Hq) as Hqs. destruct (Permutation_map_inv _ _ Hqs) as (ks' & -> & Hp). 
      destruct (Hlist ss ks' cs Hrl) as [fs' Hfs].
      + intros k Hin2. assert (Hin3 : In k ks) by (eapply Permutation_in; [symmetry; exact Hp|exact Hin2]). split; [|split].
        * pose proof (height_kid (Object t u nm b own d fs ks) k Hin3). lia.
        * apply Hk. exact Hin3.
        * rewrite <- (under_one ks k (proj1 Hd) Hin3). refine (@under_back t (o_tag k) (([], own) :: flat_map folders ks) ss HP).
      + exists ks', fs'. auto.
    - rewrite (Hl0 eq_refl), (Hl eq_refl). exists [], []. split; constructor. }
  change (o_tag (Object t u nm b own d fs ks)) with (t, nm). destruct Hcs as (ks' & fs' & Hp & Hm). pose proof (distinct_perm Hp Hd) as Hd'.
  assert (Hfin : done (info_of rd (t, nm) own') (map kid_of ks') (Some d, fs)).
  { unfold done. apply (@alike_enc t nm own own' _ _ Hal). apply Henc.
    - intros t'. rewrite of_group, sel_entries. apply entries_perm. symmetry. exact Hp.
    - destruct ks' as [|k ks']; cbn; [apply Permutation_sym, Permutation_nil in Hp; subst; tauto|]. split; [discriminate|]. intros ->. apply Permutation_nil in Hp. discriminate. }
  exists (fs' ++ fs). split; [|split; [|split; [|split]]].
  - destruct ks' as [|k ks'].
    + inversion Hm; subst. cbn [app]. change [kid_of (Object t u nm b own d fs ks)] with (hands_on (mkinfo t nm t true nm u own') (Some d)). rewrite <- Ei. apply as_leaf; [unfold tag in *; rewrite Ei; reflexivity|exact Hfin].
    + change [kid_of (Object t u nm b own d fs ks)] with (hands_on (mkinfo t nm t true nm u own') (Some d)). rewrite <- Ei. eapply as_inner; [rewrite Ei; reflexivity|rewrite Ei; reflexivity| |apply matches_assembles; exact Hm|discriminate|exact Hfin].
      inversion Hm; discriminate.
  - cbn [all_files]. apply Permutation_app_tail. rewrite (matches_files Hm). apply Permutation_flat_map. symmetry. exact Hp.
  - constructor; [rewrite Ei; exact T1|rewrite Ei; exact T2|eapply matches_siblings; eassumption|]. intros c Hc. eapply matches_wf; eassumption.
  - cbn [height o_height]. pose proof (matches_height Hm) as Hmh. unfold height_all, o_heights in Hmh. apply le_n_S. etransitivity; [exact Hmh|]. 
    assert (Hle : forall l l' : list object, Permutation l l' -> (o_heights l' <= o_heights l)%nat) by (clear; intros l l' HP; induction HP; unfold o_heights in *; cbn; lia). apply (Hle ks ks' Hp).
  - exists own'. split; [reflexivity|exact Hrd'].
Qed.
Lemma objects_built os ss cs : (forall o, In o os -> handled o) -> distinct os -> read_back alike [] (flat_map folders os) ss -> reads_all lists rd ss cs ->
  exists os' fs, Permutation os os' /\ matches_all os' cs fs.
Proof.
  intros Ho Hd HP Hr. inversion Hr as [? qs ? Hq Hrl]; subst. pose proof (@listing_tags [] ss [] os qs HP (proj1 Hd) Hq) as Hqs. destruct (Permutation_map_inv _ _ Hqs) as (os' & -> & Hp).
  assert (Hin : forall k, In k os' -> In k os) by (intros k Hk; eapply Permutation_in; [symmetry; exact Hp|exact Hk]).
  assert (exists fs, matches_all os' cs fs) as [fs Hfs]; [|exists os', fs; auto]. clear Hr Hq Hqs Hp.
  revert cs Hrl Hin. induction os' as [|k os' IH]; intros cs Hrl Hin; [inversion Hrl; subst; exists []; constructor|]. cbn [map] in Hrl. inversion Hrl as [|? ? ? c cs' Hc Hcs]; subst.
  destruct (IH cs' Hcs (fun x Hx => Hin x (or_intror Hx))) as [fs Hfs]. destruct (@object_built (o_height k) k (under (o_tag k) ss) c) as [f Hf]; [lia|apply Ho, Hin; left; reflexivity| |exact Hc|exists (f ++ fs); constructor; assumption].
  rewrite <- (under_one os k (proj1 Hd) (Hin k (or_introl eq_refl))). refine (@under_back [] (o_tag k) _ ss HP).
Qed.

Hypothesis order_free : forall i (a b : tindex val), (forall t, Permutation (of_type a t) (of_type b t)) -> (a = [] <-> b = []) ->
  (forall t, NoDup (map fst (of_type a t)) /\ NoDup (map (fun e : entry val => lower (fst (snd e))) (of_type a t))) -> enc i a = enc i b.

Theorem assembly root sched fuel os (ss : sources) cs : (forall o, In o os -> handled o) -> distinct os -> read_back alike [] (flat_map folders os) ss -> reads_all lists rd ss cs ->
  schedule sched -> (2 * o_heights os <= fuel)%nat ->
  exists idx files, encode_tree enc fuel sched root cs = Ok (idx, files) /\ Permutation files (flat_map (@all_files P F) os) /\
    (forall t, Permutation (match idx with Some d => of_type d t | None => [] end) (entries t os)).
Proof.
  intros Ho Hd HP Hr Hs Hf. destruct (objects_built Ho Hd HP Hr) as (os' & fs & Hp & Hm).
  assert (Hle : forall l l' : list object, Permutation l l' -> (o_heights l' <= o_heights l)%nat) by (clear; intros l l' HP; induction HP; unfold o_heights in *; cbn; lia).
  destruct (@encode_tree_ok val P F lower enc done order_free (fun i ks r _ => iff_refl _) root cs (map kid_of os') fs sched fuel) as (idx & files & E & HF & _ & Hi).
  - split; [eapply matches_siblings; [exact Hm|eapply distinct_perm; eassumption]|]. intros c Hc. eapply matches_wf; eassumption.
  - exact Hs.
  - apply matches_assembles. exact Hm.
  - pose proof (matches_height Hm). specialize (Hle os os' Hp). lia.
  - exists idx, files. split; [exact E|]. split.
    + rewrite HF, (matches_files Hm). apply Permutation_flat_map. symmetry. exact Hp.
    + intros t. destruct idx as [d|].
      * destruct Hi as (_ & _ & Hi & _). rewrite (Hi t). etransitivity; [|apply entries_perm; symmetry; exact Hp]. rewrite <- sel_entries. apply Permutation_refl'. reflexivity.
      * destruct os' as [|k os']; [|discriminate]. apply Permutation_sym, Permutation_nil in Hp. subst. constructor.
Qed.
End B.
