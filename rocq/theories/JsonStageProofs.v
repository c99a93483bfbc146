(** Proofs about JsonStage. *)
From Verif Require Import PyBase PyText Utf Brace Spec_Brace BraceProofs BraceSim BraceMain BraceFile BraceMore Cp1251 JsonText JsonTextProofs JsonSim Pipeline JsonStage Spec_Stage.
From Coq Require Import Permutation.
Open Scope list_scope.
Open Scope N_scope.

(** ** A list of writes *)
Definition ent : Type := path * list N * entry.
Definition key (x : ent) : path := fst (fst x) ++ [snd (fst x)].
Definition apply (ws : list ent) (fs : fsys) : fsys := fold_left (fun fs x => upd (key x) (snd x) fs) ws fs.
Lemma path_eqb_spec p q : path_eqb p q = true <-> p = q.
Proof. unfold path_eqb. destruct (list_eq_dec str_eq_dec p q); split; congruence. Qed.
Lemma path_eqb_refl p : path_eqb p p = true.
Proof. apply path_eqb_spec. reflexivity. Qed.
Lemma path_eqb_neq p q : p <> q -> path_eqb p q = false.
Proof. intros H. destruct (path_eqb p q) eqn:E; [apply path_eqb_spec in E; congruence|reflexivity]. Qed.
Lemma apply_app a b fs : apply (a ++ b) fs = apply b (apply a fs).
Proof. apply fold_left_app. Qed.
Lemma apply_notin ws : forall fs p, ~ In p (map key ws) -> apply ws fs p = fs p.
Proof.
  induction ws as [|x ws IH]; intros fs p H; [reflexivity|]. cbn [apply fold_left]. fold (apply ws (upd (key x) (snd x) fs)). rewrite IH by (intros Hin; apply H; right; exact Hin).
  unfold upd. rewrite path_eqb_neq; [reflexivity|]. intros ->. apply H. left. reflexivity.
Qed.
Lemma apply_in ws : forall fs x, NoDup (map key ws) -> In x ws -> apply ws fs (key x) = Some (snd x).
Proof.
  induction ws as [|y ws IH]; intros fs x Hn Hin; [contradiction|]. cbn [map] in Hn. inversion Hn as [|? ? Hy Hr]; subst. cbn [apply fold_left]. fold (apply ws (upd (key y) (snd y) fs)).
  destruct Hin as [->|Hin]; [rewrite apply_notin by exact Hy; unfold upd; rewrite path_eqb_refl; reflexivity|apply IH; assumption].
Qed.
Lemma apply_some ws fs p e : NoDup (map key ws) -> (forall x, In x ws -> fs (key x) = None) -> 
  (apply ws fs p = Some e <-> (exists x, In x ws /\ key x = p /\ snd x = e) \/ fs p = Some e).
Proof.
  intros Hn Hf. destruct (in_dec (list_eq_dec str_eq_dec) p (map key ws)) as [Hin|Hin].
  - apply in_map_iff in Hin. destruct Hin as (x & <- & Hx). rewrite apply_in by assumption. split.
    + intros H. injection H as <-. left. exists x. auto.
    + intros [(y & Hy & Ek & Es)|H]; [|rewrite Hf in H by exact Hx; discriminate]. f_equal. rewrite <- Es.
      assert (x = y); [|congruence]. clear - Hn Hx Hy Ek. induction ws as [|z ws IH]; [contradiction|]. cbn [map] in Hn. inversion Hn as [|? ? Hz Hr]; subst.
      destruct Hx as [->|Hx], Hy as [->|Hy]; [reflexivity| | |auto].
      * exfalso. apply Hz. rewrite <- Ek. apply in_map. exact Hy.
      * exfalso. apply Hz. rewrite Ek. apply in_map. exact Hx.
  - rewrite apply_notin by exact Hin. split; [auto|]. intros [(x & Hx & Ek & _)|H]; [|exact H]. exfalso. apply Hin. rewrite <- Ek. apply in_map. exact Hx.
Qed.

(** ** The entries of a tree *)
Fixpoint entries (d : path) (t : tree) : list ent :=
  match t with
  | TFile _ => []
  | TDir ents =>
    (fix go (ents : list (list N * tree)) : list ent :=
       match ents with
       | [] => []
       | (n, x) :: r => (match x with TFile b => [(d, n, EFile b)] | TDir _ => (d, n, EDir) :: entries (d ++ [n]) x end) ++ go r
       end) ents
  end.
Definition entries_of (d : path) (n : list N) (x : tree) : list ent :=
  match x with TFile b => [(d, n, EFile b)] | TDir _ => (d, n, EDir) :: entries (d ++ [n]) x end.
Lemma entries_dir d ents : entries d (TDir ents) = flat_map (fun e => entries_of d (fst e) (snd e)) ents.
Proof. cbn [entries]. induction ents as [|[n x] r IH]; [reflexivity|]. cbn [flat_map fst snd]. rewrite IH. reflexivity. Qed.

Section TreeInd.
  Variable P : tree -> Prop.
  Hypothesis Hf : forall b, P (TFile b).
  Hypothesis Hd : forall ents, Forall (fun e => P (snd e)) ents -> P (TDir ents).
  Fixpoint tree_ind2 (t : tree) : P t :=
    match t with
    | TFile b => Hf b
    | TDir ents => Hd ents ((fix go ents : Forall (fun e => P (snd e)) ents := match ents with [] => Forall_nil _ | e :: r => Forall_cons e (tree_ind2 (snd e)) (go r) end) ents)
    end.
End TreeInd.

Lemma entries_prefix t : forall d x, In x (entries d t) -> exists q, fst (fst x) = d ++ q.
Proof.
  induction t as [b|ents IH] using tree_ind2; intros d x H; [contradiction|]. rewrite entries_dir in H. apply in_flat_map in H. destruct H as ([n y] & Hin & Hx).
  cbn [fst snd] in Hx. rewrite Forall_forall in IH. specialize (IH _ Hin). cbn [snd] in IH. destruct y as [b|es]; cbn [entries_of] in Hx.
  - destruct Hx as [<-|[]]. exists []. cbn. symmetry. apply app_nil_r.
  - destruct Hx as [<-|Hx]; [exists []; cbn; symmetry; apply app_nil_r|]. destruct (IH _ _ Hx) as [q Hq]. exists (n :: q). rewrite Hq, <- app_assoc. reflexivity.
Qed.
Lemma key_of d n x y : In y (entries_of d n x) -> exists q, key y = d ++ n :: q.
Proof.
  destruct x as [b|es]; cbn [entries_of]; intros H.
  - destruct H as [<-|[]]. exists []. reflexivity.
  - destruct H as [<-|H]; [exists []; reflexivity|]. apply entries_prefix in H. destruct H as [q Hq]. unfold key. rewrite Hq. exists (q ++ [snd (fst y)]). rewrite <- !app_assoc. reflexivity.
Qed.
Lemma entries_nodup t : forall d, every_folder distinct_names t -> NoDup (map key (entries d t)).
Proof.
  induction t as [b|ents IH] using tree_ind2; intros d H; [constructor|]. inversion H as [|? Hd Hall]; subst. rewrite entries_dir. clear H. unfold distinct_names in Hd.
  induction ents as [|[n x] r IHr]; [constructor|]. cbn [map fst] in Hd. inversion Hd as [|? ? Hn Hr]; subst. inversion IH as [|? ? Hx IH']; subst. inversion Hall as [|? ? Hax Hall']; subst. cbn [fst snd] in *.
  cbn [flat_map fst snd]. rewrite map_app. specialize (IHr IH' Hr Hall').
  assert (Hone : NoDup (map key (entries_of d n x))).
  { destruct x as [b|es]; cbn [entries_of map]; [constructor; [intros []|constructor]|]. constructor; [|apply Hx; exact Hax].
    intros Hin. apply in_map_iff in Hin. destruct Hin as (y & Ey & Hy). apply entries_prefix in Hy. destruct Hy as [q Hq]. unfold key in Ey. cbn [fst snd] in Ey. rewrite Hq, <- !app_assoc in Ey.
    apply app_inv_head in Ey. cbn in Ey. injection Ey as Ey. destruct q; discriminate. }
  revert Hone. generalize (fun p => proj1 (in_map_iff key (entries_of d n x) p)). intros Hk Hone.
  assert (Hdis : forall p, In p (map key (entries_of d n x)) -> ~ In p (map key (flat_map (fun e => entries_of d (fst e) (snd e)) r))).
  { intros p Hp Hq. apply Hk in Hp. destruct Hp as (y & <- & Hy). apply key_of in Hy. destruct Hy as [q Ey]. apply in_map_iff in Hq. destruct Hq as (z & Ez & Hz). apply in_flat_map in Hz. destruct Hz as ([m w] & Hm & Hz).
    cbn [fst snd] in Hz. apply key_of in Hz. destruct Hz as [q' Eq]. rewrite Ez, Ey in Eq. apply app_inv_head in Eq. injection Eq as -> _. apply Hn. change m with (fst (m, w)). apply in_map. exact Hm. }
  clear - IHr Hone Hdis. induction (map key (entries_of d n x)) as [|p l IHl]; [exact IHr|]. inversion Hone as [|? ? H1 H2]; subst. cbn [app]. constructor.
  - intros Hin. apply in_app_or in Hin. destruct Hin as [Hin|Hin]; [contradiction|]. apply (Hdis p); [left; reflexivity|exact Hin].
  - apply IHl; [exact H2|]. intros q Hq. apply Hdis. right. exact Hq.
Qed.
Lemma dget_in {A} n (x : A) ents : NoDup (map fst ents) -> In (n, x) ents -> dget n ents = Some x.
Proof.
  induction ents as [|[m y] r IH]; [contradiction|]. cbn [map fst dget]. intros Hn Hin. inversion Hn as [|? ? H1 H2]; subst. destruct (str_eqb n m) eqn:E.
  - apply str_eqb_spec in E. subst m. destruct Hin as [Hin|Hin]; [congruence|]. exfalso. apply H1. change n with (fst (n, x)). apply in_map. exact Hin.
  - destruct Hin as [Hin|Hin]; [injection Hin as -> ->; rewrite str_eqb_refl in E; discriminate|]. apply IH; assumption.
Qed.
Lemma dget_some_in {A} n (x : A) ents : dget n ents = Some x -> In (n, x) ents.
Proof.
  induction ents as [|[m y] r IH]; [discriminate|]. cbn [dget]. destruct (str_eqb n m) eqn:E; [apply str_eqb_spec in E; subst; intros H; injection H as ->; left; reflexivity|]. intros H. right. apply IH. exact H.
Qed.
Lemma entries_at t : forall d, every_folder distinct_names t -> forall q n e, In (d ++ q, n, e) (entries d t) <-> at_path t (q ++ [n]) = Some e.
Proof.
  induction t as [b|ents IH] using tree_ind2; intros d H q n e.
  - split; [contradiction|]. destruct q; discriminate.
  - inversion H as [|? Hd Hall]; subst. rewrite entries_dir, in_flat_map. rewrite Forall_forall in IH, Hall. split.
    + intros ([m x] & Hin & Hx). cbn [fst snd] in Hx. pose proof (IH _ Hin) as IHx. specialize (Hall _ Hin). cbn [snd] in *. destruct x as [b|es]; cbn [entries_of] in Hx.
      * destruct Hx as [Hx|[]]. injection Hx as Ed -> <-. rewrite <- (app_nil_r d) in Ed at 1. apply app_inv_head in Ed. subst q. cbn [app at_path]. rewrite (dget_in _ _ _ Hd Hin). reflexivity.
      * destruct Hx as [Hx|Hx].
        -- injection Hx as Ed -> <-. rewrite <- (app_nil_r d) in Ed at 1. apply app_inv_head in Ed. subst q. cbn [app at_path]. rewrite (dget_in _ _ _ Hd Hin). reflexivity.
        -- destruct (entries_prefix _ _ _ Hx) as [q' Eq]. cbn [fst] in Eq. rewrite <- app_assoc in Eq. apply app_inv_head in Eq. cbn in Eq. subst q.
           cbn [app at_path]. rewrite (dget_in _ _ _ Hd Hin). apply (IHx (d ++ [m]) Hall). rewrite <- app_assoc. exact Hx.
    + intros Hp. destruct q as [|m q]; cbn [app at_path] in Hp.
      * destruct (dget n ents) as [x|] eqn:E; [|discriminate]. apply dget_some_in in E. injection Hp as <-. exists (n, x). split; [exact E|]. rewrite app_nil_r. cbn [fst snd]. destruct x; left; reflexivity.
      * destruct (dget m ents) as [x|] eqn:E; [|discriminate]. apply dget_some_in in E. exists (m, x). split; [exact E|]. cbn [fst snd]. destruct x as [b|es]; [destruct q; discriminate|]. right.
        replace (d ++ m :: q) with ((d ++ [m]) ++ q) by (rewrite <- app_assoc; reflexivity). apply (IH _ E (d ++ [m]) (Hall _ E)). exact Hp.
Qed.

(** ** json_decode *)
Definition is_dir (x : ent) : bool := match snd x with EDir => true | _ => false end.
Definition dirs (l : list ent) : list ent := filter is_dir l.
Definition tasks (l : list ent) : list dtask := flat_map (fun x => match snd x with EFile b => [(fst x, b)] | EDir => [] end) l.
Lemma dirs_app a b : dirs (a ++ b) = dirs a ++ dirs b.
Proof. apply filter_app. Qed.
Lemma tasks_app a b : tasks (a ++ b) = tasks a ++ tasks b.
Proof. apply flat_map_app. Qed.
Lemma decode_walk_eq t : forall d fs, decode_walk d t fs = (apply (dirs (entries d t)) fs, tasks (entries d t)).
Proof.
  induction t as [b|ents IH] using tree_ind2; intros d fs; [reflexivity|]. rewrite entries_dir. cbn [decode_walk]. revert fs. induction ents as [|[n x] r IHr]; intros fs; [reflexivity|].
  inversion IH as [|? ? Hx IH']; subst. cbn [snd] in Hx. cbn [flat_map fst snd]. rewrite dirs_app, tasks_app, apply_app. specialize (IHr IH'). destruct x as [b|es].
  - rewrite IHr. reflexivity.
  - rewrite Hx. rewrite IHr. cbn [entries_of]. reflexivity.
Qed.

Section Run.
Variable os : platform.
Variable recode : list N -> res (list N).
Notation json_file := (json_file os).
Notation decode_task := (decode_task os).
Notation encode_bytes := (encode_bytes os).
Notation encode_task := (encode_task os).

Definition cext (bs : list N) : list N :=
  match decode_kind bs with Ok KBytes => ext_bin | Ok KBig => ext_c1b64 | Ok (KTree _) => ext_json | _ => ext_txt end.
Definition cdata (bs : list N) : list N :=
  match decode_kind bs with Ok (KTree data) => match json_file data with Ok j => j | Err _ => [] end | _ => bs end.
Definition conv (x : ent) : ent := match x with (d, n, EFile b) => (d, n ++ cext b, EFile (cdata b)) | _ => x end.
Definition convertible (bs : list N) : Prop :=
  match decode_kind bs with
  | Ok KBytes | Ok KBig => True
  | Ok (KTree data) => exists j, json_file data = Ok j
  | _ => False
  end.
Definition back (bs : list N) : Prop :=
  match decode_kind bs with
  | Ok KBytes | Ok KBig => True
  | Ok (KTree data) => exists j, json_file data = Ok j /\ encode_bytes j = Ok bs
  | _ => False
  end.
Lemma back_convertible bs : back bs -> convertible bs.
Proof. unfold back, convertible. destruct (decode_kind bs) as [[]|]; auto. intros (j & H & _). eauto. Qed.
Definition all_files (P : list N -> Prop) (l : list ent) : Prop := forall d n b, In (d, n, EFile b) l -> P b.

Lemma decode_task_conv d n b fs : convertible b -> fs (d ++ [n ++ cext b]) <> Some EDir ->
  decode_task (d, n, b) fs = Ok (upd (key (conv (d, n, EFile b))) (snd (conv (d, n, EFile b))) fs).
Proof.
  unfold convertible, decode_task, conv, cext, cdata, key. cbn [fst snd]. destruct (decode_kind b) as [[| |data|]|]; cbn [bind]; intros Hc Hp; try contradiction.
  - unfold copy_file. destruct (fs _) as [[]|]; [reflexivity|congruence|reflexivity].
  - unfold copy_file. destruct (fs _) as [[]|]; [reflexivity|congruence|reflexivity].
  - destruct Hc as [j ->]. cbn [bind]. unfold write_file. destruct (fs _) as [[]|]; [reflexivity|congruence|reflexivity].
Qed.
Definition conv_task (t : dtask) : ent := conv (fst (fst t), snd (fst t), EFile (snd t)).
Lemma run_decode ts : forall fs, (forall t, In t ts -> convertible (snd t)) -> (forall t, In t ts -> fs (key (conv_task t)) <> Some EDir) ->
  run_tasks decode_task ts fs = Ok (apply (map conv_task ts) fs).
Proof.
  induction ts as [|t ts IH]; intros fs Hc Hf; [reflexivity|]. cbn [run_tasks map apply fold_left]. fold (apply (map conv_task ts) (upd (key (conv_task t)) (snd (conv_task t)) fs)).
  destruct t as [[d n] b]. rewrite decode_task_conv; [|apply (Hc (d, n, b)); left; reflexivity|apply (Hf (d, n, b)); left; reflexivity]. cbn [bind]. apply IH.
  - intros t Ht. apply Hc. right. exact Ht.
  - intros t Ht. unfold upd. destruct (path_eqb (key (conv_task t)) (key (conv_task (d, n, b)))); [intros HH; cbn in HH; discriminate|]. apply Hf. right. exact Ht.
Qed.
Lemma tasks_in t l : In t (tasks l) <-> In (fst t, EFile (snd t)) l.
Proof.
  unfold tasks. rewrite in_flat_map. split.
  - intros (x & Hx & Ht). destruct x as [k [b|]]; cbn [fst snd] in Ht; [|contradiction]. destruct Ht as [<-|[]]. exact Hx.
  - intros H. exists (fst t, EFile (snd t)). split; [exact H|]. cbn. destruct t; left; reflexivity.
Qed.
Lemma conv_split l : Permutation (dirs l ++ map conv_task (tasks l)) (map conv l).
Proof.
  induction l as [|[[d n] e] l IH]; [constructor|]. destruct e as [b|]; cbn.
  - symmetry. apply Permutation_cons_app. symmetry. exact IH.
  - constructor. exact IH.
Qed.
Lemma conv_task_perm l ts : Permutation ts (tasks l) -> Permutation (dirs l ++ map conv_task ts) (map conv l).
Proof. intros H. etransitivity; [apply Permutation_app_head; apply Permutation_map; exact H|apply conv_split]. Qed.

Lemma empty_fs_key x : empty_fs (key x) = None.
Proof. unfold key. destruct (fst (fst x)); reflexivity. Qed.
Lemma json_decode_ok sched src : (forall l, Permutation (sched l) l) -> NoDup (map key (map conv (entries [] (TDir src)))) ->
  all_files convertible (entries [] (TDir src)) ->
  exists ws mid, json_decode os sched src = Ok mid /\ mid = apply ws empty_fs /\ Permutation ws (map conv (entries [] (TDir src))).
Proof.
  intros Hs Hn Hc. set (l := entries [] (TDir src)) in *. pose proof (conv_task_perm l (sched (tasks l)) (Hs _)) as Hp. exists (dirs l ++ map conv_task (sched (tasks l))). eexists. split; [|split; [reflexivity|exact Hp]].
  unfold json_decode. rewrite decode_walk_eq. fold l. rewrite run_decode; [rewrite <- apply_app; reflexivity| |].
  - intros t Ht. apply (Permutation_in _ (Hs _)) in Ht. apply tasks_in in Ht. destruct t as [[d n] b]. apply (Hc d n b Ht).
  - intros t Ht. assert (Hn2 : NoDup (map key (dirs l ++ map conv_task (sched (tasks l))))) by (eapply Permutation_NoDup; [|exact Hn]; apply Permutation_map; symmetry; exact Hp).
    rewrite apply_notin; [rewrite empty_fs_key; discriminate|]. rewrite map_app in Hn2. intros Hin. 
    assert (Hin2 : In (key (conv_task t)) (map key (map conv_task (sched (tasks l))))) by (apply in_map, in_map; exact Ht).
    revert Hn2 Hin Hin2. generalize (map key (dirs l)) (map key (map conv_task (sched (tasks l)))) (key (conv_task t)). clear. intros a b p. induction a as [|q a IH]; [contradiction|]. cbn [app]. intros Hn [->|Hin] Hb; inversion Hn; subst; [apply H1; apply in_or_app; right; exact Hb|auto].
Qed.

(** ** json_encode *)
Lemma split_ch_sep c a b : split_ch c (a ++ c :: b) = split_ch c a ++ split_ch c b.
Proof.
  induction a as [|x a IH]; [cbn [app split_ch]; rewrite N.eqb_refl; reflexivity|]. cbn [app split_ch]. rewrite IH. destruct (x =? c); [reflexivity|].
  destruct (split_ch c a) as [|y l] eqn:E; [exfalso; revert E; apply split_ch_nonnil|reflexivity].
Qed.
Lemma last_part_snoc l x : last_part (l ++ [x]) = x.
Proof. induction l as [|y l IH]; [reflexivity|]. cbn [app last_part]. destruct (l ++ [x]) eqn:E; [destruct l; discriminate|exact IH]. Qed.
Lemma last_ext n x : ~ In dot x -> last_part (split_ch dot (n ++ dot :: x)) = x.
Proof. intros H. rewrite split_ch_sep, (split_ch_nosep dot x H). apply last_part_snoc. Qed.
Lemma splitext_ext n x : ~ In dot x -> ~ Forall (fun c => c = dot) n -> splitext0 (n ++ dot :: x) = n.
Proof.
  intros H Hn. unfold splitext0. rewrite split_ch_sep, (split_ch_nosep dot x H), removelast_last, join_split_ch.
  destruct (forallb (fun c => c =? dot) n) eqn:E; [|reflexivity]. exfalso. apply Hn. rewrite forallb_forall in E. apply Forall_forall. intros c Hc. apply N.eqb_eq. apply E. exact Hc.
Qed.
Lemma nodot_b x : forallb (fun c => negb (c =? dot)) x = true -> ~ In dot x.
Proof. intros H Hin. rewrite forallb_forall in H. specialize (H _ Hin). rewrite N.eqb_refl in H. discriminate. Qed.

(** an entry of the JSON folder and what becomes of it *)
Inductive restored : ent -> ent -> Prop :=
| rs_dir d n : restored (d, n, EDir) (d, n, EDir)
| rs_bin d n b : ~ Forall (fun c => c = dot) n -> restored (d, n ++ ext_bin, EFile b) (d, n, EFile b)
| rs_big d n b : ~ Forall (fun c => c = dot) n -> restored (d, n ++ ext_c1b64, EFile b) (d, n, EFile b)
| rs_json d n j b : encode_bytes j = Ok b -> restored (d, n ++ ext_json, EFile j) (d, n, EFile b).

Lemma restored_conv x : (forall d n b, x = (d, n, EFile b) -> ~ Forall (fun c => c = dot) n /\ back b) -> restored (conv x) x.
Proof.
  destruct x as [[d n] [b|]]; intros H; [|constructor]. destruct (H d n b eq_refl) as [Hn Hb]. unfold conv, cext, cdata. unfold back in Hb. destruct (decode_kind b) as [[| |data|]|]; try contradiction.
  - apply rs_bin. exact Hn.
  - apply rs_big. exact Hn.
  - destruct Hb as (j & -> & Hj). apply rs_json. exact Hj.
Qed.

(** the writes done during the walk, and those of the tasks *)
Definition now (x y : ent) : list ent := match x with (_, _, EDir) => [y] | (_, n, EFile _) => if str_eqb (last_part (split_ch dot n)) x_bin || str_eqb (last_part (split_ch dot n)) x_c1b64 then [y] else [] end.
Definition later (x y : ent) : list ent := match x with (_, _, EDir) => [] | (_, n, EFile _) => if str_eqb (last_part (split_ch dot n)) x_bin || str_eqb (last_part (split_ch dot n)) x_c1b64 then [] else [y] end.
Definition later_task (x : ent) : list dtask := match x with (_, _, EDir) => [] | (k, EFile b) => if str_eqb (last_part (split_ch dot (snd k))) x_bin || str_eqb (last_part (split_ch dot (snd k))) x_c1b64 then [] else [(k, b)] end.
Fixpoint zip2 {A B C} (f : A -> B -> list C) (l : list A) (m : list B) : list C := match l, m with a :: l, b :: m => f a b ++ zip2 f l m | _, _ => [] end.
Definition fresh (ws : list ent) (fs : fsys) : Prop := NoDup (map key ws) /\ forall x, In x ws -> fs (key x) = None.
Lemma fresh_app a b fs : fresh (a ++ b) fs -> fresh a fs /\ fresh b (apply a fs).
Proof.
  unfold fresh. rewrite map_app. intros [Hn Hf]. split; [split|split].
  - clear - Hn. induction (map key a) as [|p l IH]; [constructor|]. cbn in Hn. inversion Hn; subst. constructor; [intros H; apply H1; apply in_or_app; left; exact H|auto].
  - intros x Hx. apply Hf. apply in_or_app. left. exact Hx.
  - clear - Hn. induction (map key a) as [|p l IH]; [exact Hn|]. cbn in Hn. inversion Hn; subst. auto.
  - intros x Hx. rewrite apply_notin; [apply Hf; apply in_or_app; right; exact Hx|]. intros Hin. apply (in_map key) in Hx. revert Hn Hin Hx. generalize (map key a) (map key b) (key x). clear. intros a b p.
    induction a as [|q a IH]; [contradiction|]. cbn [app]. intros Hn [->|Hin] Hb; inversion Hn; subst; [apply H1; apply in_or_app; right; exact Hb|auto].
Qed.
Lemma encode_entry_ok d n b y fs : restored (d, n, EFile b) y -> (now (d, n, EFile b) y <> [] -> fs (key y) = None) ->
  encode_entry recode d n b fs = Ok (apply (now (d, n, EFile b) y) fs, later_task (d, n, EFile b)).
Proof.
  intros H Hf. unfold encode_entry. inversion H; subst; unfold now, later_task in *; cbn [fst snd] in *.
  - change (n0 ++ ext_bin) with (n0 ++ dot :: x_bin) in *. rewrite !last_ext in * by (apply nodot_b; reflexivity). cbn [str_eqb] in *. change (str_eqb x_bin x_txt) with false. change (str_eqb x_bin x_bin || str_eqb x_bin x_c1b64) with true in *. cbn iota in *.
    rewrite splitext_ext by (first [apply nodot_b; reflexivity|assumption]). unfold copy_file. specialize (Hf ltac:(discriminate)). unfold key in Hf. cbn [fst snd] in Hf. rewrite Hf. reflexivity.
  - change (n0 ++ ext_c1b64) with (n0 ++ dot :: x_c1b64) in *. rewrite !last_ext in * by (apply nodot_b; reflexivity). change (str_eqb x_c1b64 x_txt) with false. change (str_eqb x_c1b64 x_bin || str_eqb x_c1b64 x_c1b64) with true in *. cbn iota in *.
    rewrite splitext_ext by (first [apply nodot_b; reflexivity|assumption]). unfold copy_file. specialize (Hf ltac:(discriminate)). unfold key in Hf. cbn [fst snd] in Hf. rewrite Hf. reflexivity.
  - change (n0 ++ ext_json) with (n0 ++ dot :: tl ext_json) in *. rewrite !last_ext in * by (apply nodot_b; reflexivity). reflexivity.
Qed.
Lemma F2_len {A B} (R : A -> B -> Prop) l m : Forall2 R l m -> length l = length m.
Proof. induction 1; cbn; congruence. Qed.
Lemma encode_walk_ok t : forall d ys fs, Forall2 restored (entries d t) ys -> fresh (zip2 now (entries d t) ys) fs ->
  encode_walk recode d t fs = Ok (apply (zip2 now (entries d t) ys) fs, flat_map later_task (entries d t)).
Proof.
  induction t as [b|ents IH] using tree_ind2; intros d ys fs HF Hfr; [reflexivity|]. rewrite entries_dir in *. cbn [encode_walk]. revert ys fs HF Hfr. induction ents as [|[n x] r IHr]; intros ys fs HF Hfr; [reflexivity|].
  inversion IH as [|? ? Hx IH']; subst. cbn [snd] in Hx. cbn [flat_map fst snd] in *. apply Forall2_app_inv_l in HF. destruct HF as (ys1 & ys2 & HF1 & HF2 & ->).
  assert (Hz : forall (a b : list ent) c e, length a = length c -> zip2 now (a ++ b) (c ++ e) = zip2 now a c ++ zip2 now b e).
  { clear. induction a as [|p a IH]; intros b c e Hl; destruct c; try discriminate; [reflexivity|]. cbn [app zip2]. rewrite IH by (cbn in Hl; lia). rewrite app_assoc. reflexivity. }
  rewrite Hz in Hfr by (apply (F2_len _ _ _ HF1)). rewrite Hz by (apply (F2_len _ _ _ HF1)). apply fresh_app in Hfr. destruct Hfr as [Hf1 Hf2]. specialize (IHr IH' _ _ HF2 Hf2). rewrite flat_map_app, apply_app.
  destruct x as [b|es]; cbn [entries_of] in *.
  - inversion HF1 as [|? y ? ? Hy Hnil]; subst. inversion Hnil; subst. cbn [zip2] in *. rewrite app_nil_r in *.
    rewrite (encode_entry_ok d n b y fs Hy).
    + cbn [bind]. rewrite IHr. cbn [bind]. change (flat_map later_task [(d, n, EFile b)]) with (later_task (d, n, EFile b) ++ []). rewrite app_nil_r. reflexivity.
    + intros Hne. destruct Hf1 as [_ Hf1]. destruct (now (d, n, EFile b) y) as [|z l] eqn:E; [congruence|]. assert (z = y) as ->.
      { unfold now in E. destruct (_ || _); congruence. } apply Hf1. left. reflexivity.
  - inversion HF1 as [|? y ? ? Hy HF3]; subst. inversion Hy; subst. cbn [zip2 now] in *. change ([(d, n, EDir)] ++ zip2 now (entries (d ++ [n]) (TDir es)) l') with ((d, n, EDir) :: zip2 now (entries (d ++ [n]) (TDir es)) l') in *.
    destruct Hf1 as [Hn1 Hf1]. pose proof (Hf1 _ (or_introl eq_refl)) as Hk. unfold key in Hk. cbn [fst snd] in Hk.
    assert (Hmk : mkdir (d ++ [n]) fs = Ok (upd (d ++ [n]) EDir fs)) by (unfold mkdir; rewrite Hk; reflexivity). rewrite Hmk. cbn [bind].
    rewrite (Hx (d ++ [n]) l' (upd (d ++ [n]) EDir fs) HF3).
    + cbn [bind]. change (apply ((d, n, EDir) :: zip2 now (entries (d ++ [n]) (TDir es)) l') fs) with (apply (zip2 now (entries (d ++ [n]) (TDir es)) l') (upd (d ++ [n]) EDir fs)) in IHr |- *. rewrite IHr. cbn [bind]. reflexivity.
    + apply (fresh_app [(d, n, EDir)] (zip2 now (entries (d ++ [n]) (TDir es)) l') fs). split; assumption.
Qed.
Lemma later_split l ys : Forall2 restored l ys -> Permutation (zip2 now l ys ++ zip2 later l ys) ys.
Proof.
  induction 1 as [|x y l ys Hxy HF IH]; [constructor|]. cbn [zip2]. assert (E : (now x y = [y] /\ later x y = []) \/ (now x y = [] /\ later x y = [y])).
  { destruct x as [[d n] [b|]]; cbn [now later]; [|auto]. destruct (_ || _); auto. }
  destruct E as [[-> ->]|[-> ->]]; cbn [app]; [constructor; exact IH|]. symmetry. apply Permutation_cons_app. symmetry. exact IH.
Qed.
(** the tasks, in the order of the entries, and what they write *)
Lemma later_tasks l ys : Forall2 restored l ys ->
  Forall2 (fun t y => forall fs, fs (key y) = None -> encode_task t fs = Ok (upd (key y) (snd y) fs)) (flat_map later_task l) (zip2 later l ys).
Proof.
  induction 1 as [|x y l ys Hxy HF IH]; [constructor|]. cbn [flat_map zip2]. apply Forall2_app; [|exact IH]. inversion Hxy; subst; unfold later_task, later; cbn [fst snd].
  - constructor.
  - change (n ++ ext_bin) with (n ++ dot :: x_bin). rewrite !last_ext by (apply nodot_b; reflexivity). constructor.
  - change (n ++ ext_c1b64) with (n ++ dot :: x_c1b64). rewrite !last_ext by (apply nodot_b; reflexivity). constructor.
  - change (n ++ ext_json) with (n ++ dot :: tl ext_json). rewrite !last_ext by (apply nodot_b; reflexivity). change (str_eqb (tl ext_json) x_bin || str_eqb (tl ext_json) x_c1b64) with false. cbn iota. constructor; [|constructor].
    intros fs Hfs. unfold encode_task. rewrite H. cbn [bind]. rewrite app_length. change (length (dot :: tl ext_json)) with 5%nat. replace (length n + 5 - 5)%nat with (length n) by lia. rewrite firstn_app, firstn_all, Nat.sub_diag, firstn_O, app_nil_r.
    unfold key in *. cbn [fst snd] in *. unfold write_file. rewrite Hfs. reflexivity.
Qed.
Lemma run_encode ts ys : Forall2 (fun t y => forall fs, fs (key y) = None -> encode_task t fs = Ok (upd (key y) (snd y) fs)) ts ys ->
  forall fs, fresh ys fs -> run_tasks encode_task ts fs = Ok (apply ys fs).
Proof.
  induction 1 as [|t y ts ys Ht HF IH]; intros fs Hfr; [reflexivity|]. change (y :: ys) with ([y] ++ ys) in Hfr. apply fresh_app in Hfr. destruct Hfr as [[_ H1] H2]. cbn [run_tasks]. rewrite Ht by (apply H1; left; reflexivity). cbn [bind]. apply IH. exact H2.
Qed.
Lemma Forall2_perm {A B} (R : A -> B -> Prop) a a' : Permutation a a' -> forall b, Forall2 R a b -> exists b', Permutation b b' /\ Forall2 R a' b'.
Proof.
  induction 1 as [|x a a' HP IH|x y a|a a' a'' H1 IH1 H2 IH2]; intros b HF.
  - inversion HF; subst. exists []. split; constructor.
  - inversion HF as [|? z ? b0 Hz HF']; subst. destruct (IH _ HF') as (b' & P & F). exists (z :: b'). split; constructor; assumption.
  - inversion HF as [|? z ? b0 Hz HF']; subst. inversion HF' as [|? w ? b1 Hw HF'']; subst. exists (w :: z :: b1). split; [apply perm_swap|]. repeat constructor; assumption.
  - destruct (IH1 _ HF) as (b' & P1 & F1). destruct (IH2 _ F1) as (b'' & P2 & F2). exists b''. split; [etransitivity; eassumption|exact F2].
Qed.
Lemma fresh_perm a b fs : Permutation a b -> fresh a fs -> fresh b fs.
Proof. intros P [H1 H2]. split; [eapply Permutation_NoDup; [apply Permutation_map; exact P|exact H1]|]. intros x Hx. apply H2. eapply Permutation_in; [symmetry; exact P|exact Hx]. Qed.
Lemma json_encode_ok sched t ys : (forall l, Permutation (sched l) l) -> Forall2 restored (entries [] (TDir t)) ys -> NoDup (map key ys) ->
  exists ws out, json_encode os recode sched t = Ok out /\ out = apply ws empty_fs /\ Permutation ws ys.
Proof.
  intros Hs HF Hn. set (l := entries [] (TDir t)) in *. pose proof (later_split _ _ HF) as Hp. pose proof (later_tasks _ _ HF) as HT.
  destruct (Forall2_perm _ _ _ (Permutation_sym (Hs (flat_map later_task l))) _ HT) as (zs & Pz & HZ).
  assert (Hfr : fresh (zip2 now l ys ++ zs) empty_fs).
  { apply (fresh_perm ys); [|split; [exact Hn|intros; apply empty_fs_key]]. etransitivity; [symmetry; exact Hp|]. apply Permutation_app_head. exact Pz. }
  apply fresh_app in Hfr. destruct Hfr as [F1 F2]. exists (zip2 now l ys ++ zs). eexists. split; [|split; [reflexivity|]].
  - unfold json_encode. rewrite (encode_walk_ok (TDir t) [] ys empty_fs HF F1). cbn [bind]. fold l. rewrite (run_encode _ _ HZ _ F2). rewrite apply_app. reflexivity.
  - etransitivity; [apply Permutation_app_head; symmetry; exact Pz|exact Hp].
Qed.
End Run.
