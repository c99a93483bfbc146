(** The round trip of the JSON stage. *)
From Verif Require Import PyBase PyText Utf Cp1251 JsonText Brace Spec_Brace Pipeline JsonStage Spec_Stage JsonStageProofs JsonStageBack.
From Coq Require Import Permutation.
Open Scope list_scope.
Open Scope N_scope.

(** ** Folders and lists of writes *)
Lemma path_end (p : path) : p = [] \/ exists d n, p = d ++ [n].
Proof. destruct p as [|a p]; [left; reflexivity|right]. exists (removelast (a :: p)), (last (a :: p) []). apply app_removelast_last. discriminate. Qed.
Lemma opt_ext {A} (x y : option A) : (forall e, x = Some e <-> y = Some e) -> x = y.
Proof. intros H. destruct x as [a|]; [symmetry; apply H; reflexivity|]. destruct y as [b|]; [|reflexivity]. apply H. reflexivity. Qed.
Lemma apply_empty ws d n e : NoDup (map key ws) -> (apply ws empty_fs (d ++ [n]) = Some e <-> In (d, n, e) ws).
Proof.
  intros Hn. rewrite apply_some; [|exact Hn|intros; apply empty_fs_key]. split.
  - intros [(x & Hx & Ek & Es)|H]; [|destruct d; discriminate]. destruct x as [[d' n'] e']. unfold key in Ek. cbn [fst snd] in *. apply app_inj_tail in Ek. destruct Ek as [-> ->]. subst e'. exact Hx.
  - intros H. left. exists (d, n, e). auto.
Qed.
Lemma apply_root ws : apply ws empty_fs [] = Some EDir.
Proof. rewrite apply_notin; [reflexivity|]. intros H. apply in_map_iff in H. destruct H as (x & H & _). unfold key in H. destruct (fst (fst x)); discriminate. Qed.
Lemma perm_contains ws t : every_folder distinct_names (TDir t) -> Permutation ws (entries [] (TDir t)) -> contains (apply ws empty_fs) (TDir t).
Proof.
  intros Hd Hp p. assert (Hn : NoDup (map key ws)) by (eapply Permutation_NoDup; [apply Permutation_map; symmetry; exact Hp|apply entries_nodup; exact Hd]).
  destruct (path_end p) as [->|(d & n & ->)]; [apply apply_root|]. apply opt_ext. intros e. rewrite apply_empty by exact Hn. rewrite <- (entries_at (TDir t) [] Hd d n e). cbn [app]. 
  split; apply Permutation_in; [exact Hp|symmetry; exact Hp].
Qed.
Lemma NoDup_key (ws : list ent) : NoDup (map key ws) -> NoDup ws.
Proof. apply NoDup_map_inv. Qed.
Lemma contains_perm ws t : every_folder distinct_names (TDir t) -> NoDup (map key ws) -> contains (apply ws empty_fs) (TDir t) -> Permutation ws (entries [] (TDir t)).
Proof.
  intros Hd Hn Hc. apply NoDup_Permutation; [apply NoDup_key; exact Hn|apply NoDup_key, entries_nodup; exact Hd|]. intros [[d n] e].
  pose proof (entries_at (TDir t) [] Hd d n e) as H. cbn [app] in H. rewrite H, <- (Hc (d ++ [n])). symmetry. apply apply_empty. exact Hn.
Qed.

(** two entries of one folder *)
Definition kind_of (t : tree) : entry := match t with TFile b => EFile b | TDir _ => EDir end.
Lemma siblings P t : every_folder P t -> forall d n m e f, at_path t (d ++ [n]) = Some e -> at_path t (d ++ [m]) = Some f ->
  exists ents x y, P ents /\ In (n, x) ents /\ kind_of x = e /\ In (m, y) ents /\ kind_of y = f.
Proof.
  induction t as [b|ents IH] using tree_ind2; intros HP d n m e f H1 H2; [destruct d; discriminate|]. inversion HP as [|? Hp Hall]; subst.
    destruct d as [|a d]; cbn [app at_path] in H1, H2.
    + destruct (dget n ents) as [x|] eqn:Ex; [|discriminate]. destruct (dget m ents) as [y|] eqn:Ey; [|discriminate]. exists ents, x, y. injection H1 as <-. injection H2 as <-.
      repeat split; try exact Hp; try (apply dget_some_in; assumption).
    + destruct (dget a ents) as [x|] eqn:Ex; [|discriminate]. apply dget_some_in in Ex. rewrite Forall_forall in Hall, IH. apply (IH _ Ex (Hall _ Ex) d n m e f H1 H2).
Qed.
Lemma every_file_all P t : forall d, every_file P t -> all_files P (entries d t).
Proof.
  induction t as [b|ents IH] using tree_ind2; intros d H d' n b' Hin; [contradiction|]. inversion H as [|? Hall]; subst. rewrite entries_dir in Hin. apply in_flat_map in Hin. destruct Hin as ([m x] & Hin & Hx).
  rewrite Forall_forall in IH, Hall. specialize (IH _ Hin). specialize (Hall _ Hin). cbn [fst snd] in *. destruct x as [c|es]; cbn [entries_of] in Hx.
  - destruct Hx as [Hx|[]]. injection Hx as _ _ <-. inversion Hall. assumption.
  - destruct Hx as [Hx|Hx]; [discriminate|]. apply (IH (d ++ [m]) Hall _ _ _ Hx).
Qed.
Lemma NoDup_inj {A B C} (f : A -> B) (g : A -> C) l : NoDup (map f l) -> (forall x y, In x l -> In y l -> g x = g y -> f x = f y) -> NoDup (map g l).
Proof.
  induction l as [|a l IH]; intros Hn H; [constructor|]. cbn [map] in *. inversion Hn as [|? ? Ha Hl]; subst. constructor.
  - intros Hin. apply in_map_iff in Hin. destruct Hin as (y & Ey & Hy). apply Ha. rewrite (H a y (or_introl eq_refl) (or_intror Hy) (eq_sym Ey)). apply in_map. exact Hy.
  - apply IH; [exact Hl|]. intros x y Hx Hy. apply H; right; assumption.
Qed.
Lemma nodup_app_l {A} (a b : list A) : NoDup (a ++ b) -> NoDup a.
Proof. induction a as [|x a IH]; intros H; [constructor|]. cbn in H. inversion H; subst. constructor; [intros Hin; apply H2; apply in_or_app; left; exact Hin|auto]. Qed.
Lemma nodup_app_r {A} (a b : list A) : NoDup (a ++ b) -> NoDup b.
Proof. induction a as [|x a IH]; intros H; [exact H|]. cbn in H. inversion H; subst. auto. Qed.
Lemma nodup_entries t : forall d, NoDup (map key (entries d t)) -> every_folder distinct_names t.
Proof.
  induction t as [b|ents IH] using tree_ind2; intros d H; [constructor|]. rewrite entries_dir in H. constructor.
  - unfold distinct_names. clear IH. induction ents as [|[n x] r IHr]; [constructor|]. cbn [flat_map fst snd map] in *. rewrite map_app in H. constructor; [|apply IHr; apply nodup_app_r in H; exact H].
    intros Hin. apply in_map_iff in Hin. destruct Hin as ([m y] & Em & Hy). cbn [fst] in Em. subst m.
    assert (H1 : forall x, In (d ++ [n]) (map key (entries_of d n x))) by (clear; intros [b|es]; left; reflexivity).
    assert (H2 : In (d ++ [n]) (map key (flat_map (fun e => entries_of d (fst e) (snd e)) r))).
    { specialize (H1 y). apply in_map_iff in H1. destruct H1 as (z & <- & Hz). apply in_map. apply in_flat_map. exists (n, y). auto. }
    specialize (H1 x). revert H1 H2 H. generalize (map key (entries_of d n x)) (map key (flat_map (fun e => entries_of d (fst e) (snd e)) r)) (d ++ [n]). clear. intros a b p.
    induction a as [|q a IHa]; [contradiction|]. cbn [app]. intros [->|Hin] Hb Hn; inversion Hn; subst; [apply H1; apply in_or_app; right; exact Hb|auto].
  - revert H. induction ents as [|[n x] r IHr]; intros H; [constructor|]. inversion IH as [|? ? Hx IH']; subst. cbn [flat_map fst snd map] in *. rewrite map_app in H. constructor; [|apply IHr; [exact IH'|apply nodup_app_r in H; exact H]].
    cbn [snd]. destruct x as [b|es]; [constructor|]. apply (Hx (d ++ [n])). apply nodup_app_l in H. cbn [entries_of map] in H. inversion H; assumption.
Qed.

Section Main.
Variable os : platform.
Variable recode : list N -> res (list N).
Notation conv := (conv os).
Notation back := (back os).

Lemma cext_stage b : back b -> In (cext b) stage_exts /\ exists x, cext b = dot :: x /\ ~ In dot x.
Proof.
  unfold JsonStageProofs.back, cext, stage_exts. destruct (decode_kind b) as [[| |data|]|]; try contradiction; intros _; split; cbn; auto; eexists; split; try reflexivity; apply nodot_b; reflexivity.
Qed.
Lemma ext_inj n x m y : ~ In dot x -> ~ In dot y -> n ++ dot :: x = m ++ dot :: y -> n = m.
Proof. intros Hx Hy E. pose proof (last_ext n x Hx) as H. rewrite E, (last_ext m y Hy) in H. subst y. apply app_inv_tail in E. exact E. Qed.

(** the folder of JSON files, as a tree *)
Fixpoint ctree (t : tree) : tree :=
  match t with
  | TFile b => TFile b
  | TDir ents => TDir (map (fun e => match e with (n, TFile b) => (n ++ cext b, TFile (cdata os b)) | (n, x) => (n, ctree x) end) ents)
  end.
Definition cents (ents : list (list N * tree)) : list (list N * tree) :=
  map (fun e => match e with (n, TFile b) => (n ++ cext b, TFile (cdata os b)) | (n, x) => (n, ctree x) end) ents.
Lemma ctree_entries t : forall d, entries d (ctree t) = map conv (entries d t).
Proof.
  induction t as [b|ents IH] using tree_ind2; intros d; [reflexivity|]. change (ctree (TDir ents)) with (TDir (cents ents)). rewrite !entries_dir. induction ents as [|[n x] r IHr]; [reflexivity|].
  inversion IH as [|? ? Hx IH']; subst. unfold cents in *. cbn [map flat_map]. rewrite map_app, <- (IHr IH'). f_equal. cbn [snd] in Hx. destruct x as [b|es]; [reflexivity|].
  cbn [fst snd]. change (entries_of d n (ctree (TDir es))) with ((d, n, EDir) :: entries (d ++ [n]) (ctree (TDir es))). rewrite Hx. reflexivity.
Qed.

Variable src : list (list N * tree).
Hypothesis Hnames : every_folder distinct_names (TDir src).
Hypothesis Hclash : every_folder no_clash (TDir src).
Hypothesis Hback : every_file back (TDir src).
Notation E := (entries [] (TDir src)).

Lemma conv_nodup : NoDup (map key (map conv E)).
Proof.
  rewrite map_map. apply (NoDup_inj key _ E (entries_nodup _ _ Hnames)). intros [[d n] e] [[d' m] f] Hx Hy Ek.
  pose proof (proj1 (entries_at _ [] Hnames d n e) Hx) as Ax. pose proof (proj1 (entries_at _ [] Hnames d' m f) Hy) as Ay.
  destruct e as [b|], f as [c|]; unfold JsonStageProofs.conv, key in Ek; cbn [fst snd] in Ek; apply app_inj_tail in Ek; destruct Ek as [-> Ek].
  - pose proof (every_file_all _ _ [] Hback _ _ _ Hx) as Bx. pose proof (every_file_all _ _ [] Hback _ _ _ Hy) as By. apply cext_stage in Bx, By. destruct Bx as [_ (x & Ex & Nx)], By as [_ (y & Ey & Ny)].
    rewrite Ex, Ey in Ek. apply ext_inj in Ek; [subst; reflexivity|assumption|assumption].
  - exfalso. destruct (siblings _ _ Hclash d' n m _ _ Ax Ay) as (ents & x & y & Hc & Ix & Kx & Iy & Ky). destruct x as [b'|]; [|discriminate]. injection Kx as ->. destruct y as [|es]; [discriminate|].
    pose proof (every_file_all _ _ [] Hback _ _ _ Hx) as Bx. apply cext_stage in Bx. destruct Bx as [Bx _]. destruct (Hc _ _ Ix) as [_ Hc']. apply (Hc' _ es Bx). rewrite Ek. exact Iy.
  - exfalso. destruct (siblings _ _ Hclash d' m n _ _ Ay Ax) as (ents & x & y & Hc & Ix & Kx & Iy & Ky). destruct x as [b'|]; [|discriminate]. injection Kx as ->. destruct y as [|es]; [discriminate|].
    pose proof (every_file_all _ _ [] Hback _ _ _ Hy) as Bx. apply cext_stage in Bx. destruct Bx as [Bx _]. destruct (Hc _ _ Ix) as [_ Hc']. apply (Hc' _ es Bx). rewrite <- Ek. exact Iy.
  - subst m. reflexivity.
Qed.
Lemma all_restored : Forall2 (restored os) (map conv E) E.
Proof.
  assert (H : forall x, In x E -> restored os (conv x) x).
  { intros [[d n] e] Hx. apply restored_conv. intros d' n' b Eq. injection Eq as -> -> ->. split; [|apply (every_file_all _ _ [] Hback _ _ _ Hx)].
    pose proof (proj1 (entries_at _ [] Hnames d' n' _) Hx) as Ax. destruct (siblings _ _ Hclash d' n' n' _ _ Ax Ax) as (ents & x & y & Hc & Ix & Kx & _). destruct x as [c|]; [|discriminate]. apply (Hc _ _ Ix). }
  induction E as [|x l IH]; constructor; [apply H; left; reflexivity|]. apply IH. intros y Hy. apply H. right. exact Hy.
Qed.

Lemma cents_distinct : every_folder distinct_names (TDir (cents src)).
Proof. apply (nodup_entries _ []). pose proof (ctree_entries (TDir src) []) as Hc. change (ctree (TDir src)) with (TDir (cents src)) in Hc. rewrite Hc. apply conv_nodup. Qed.
Lemma stage_decode sched : (forall l, Permutation (sched l) l) -> exists mid, json_decode os sched src = Ok mid /\ contains mid (TDir (cents src)).
Proof.
  intros Hs. destruct (json_decode_ok os sched src Hs conv_nodup) as (ws & mid & Hok & -> & Hp).
  { intros d n b Hin. apply back_convertible. apply (every_file_all _ _ [] Hback _ _ _ Hin). }
  exists (apply ws empty_fs). split; [exact Hok|]. apply perm_contains; [exact cents_distinct|]. pose proof (ctree_entries (TDir src) []) as Hc. change (ctree (TDir src)) with (TDir (cents src)) in Hc. rewrite Hc. exact Hp.
Qed.
Lemma stage_encode sched t : (forall l, Permutation (sched l) l) -> (forall p, at_path (TDir t) p = at_path (TDir (cents src)) p) -> every_folder distinct_names (TDir t) ->
  exists out, json_encode os recode sched t = Ok out /\ contains out (TDir src).
Proof.
  intros Hs Heq Hd. pose proof (ctree_entries (TDir src) []) as Hc. change (ctree (TDir src)) with (TDir (cents src)) in Hc.
  assert (Hpm : Permutation (map conv E) (entries [] (TDir t))).
  { rewrite <- Hc. apply NoDup_Permutation; [apply NoDup_key, entries_nodup, cents_distinct|apply NoDup_key, entries_nodup; exact Hd|]. intros [[d n] e].
    pose proof (entries_at (TDir t) [] Hd d n e) as H1. pose proof (entries_at (TDir (cents src)) [] cents_distinct d n e) as H2. cbn [app] in *. rewrite H1, H2, Heq. reflexivity. }
  destruct (Forall2_perm _ _ _ Hpm _ all_restored) as (ys & Py & HF).
  destruct (json_encode_ok os recode sched t ys Hs HF) as (ws' & out & Ho & -> & Pw).
  { eapply Permutation_NoDup; [apply Permutation_map; exact Py|]. apply entries_nodup. exact Hnames. }
  exists (apply ws' empty_fs). split; [exact Ho|]. apply perm_contains; [exact Hnames|]. etransitivity; [exact Pw|]. symmetry. exact Py.
Qed.
End Main.

(** ** The branch that writes a .txt file is dead *)
Definition seen (s : bst) : Prop := roots s <> [] \/ stack s <> [].
Lemma end_value_seen s s' : end_value s = Ok s' -> seen s -> seen s'.
Proof. unfold end_value. destruct (is_pc CLOSE s); [intros H; injection H as <-; auto|]. destruct (stack s) eqn:E; [discriminate|]. intros H _. injection H as <-. right. discriminate. Qed.
Lemma end_object_seen s s' : end_object s = Ok s' -> seen s -> seen s'.
Proof.
  unfold end_object. destruct (end_value s) as [x|] eqn:E; [|discriminate]. cbn [bind]. intros H Hs. pose proof (end_value_seen _ _ E Hs) as Hx. injection H as <-. destruct (stack x) as [|t [|p r]] eqn:Ex.
  - destruct Hx as [Hx|Hx]; [left; exact Hx|congruence].
  - left. cbn. destruct (roots x); discriminate.
  - right. discriminate.
Qed.
Lemma dobj_seen line rest : forall i s s', dobj line i rest s = Ok s' -> seen s -> seen s'.
Proof.
  induction rest as [|c t IH]; intros i s s'; cbn [dobj]; [intros H; injection H as <-; auto|].
  assert (Ha : forall v x, seen x -> seen (add_cv v x)) by (intros v x Hx; exact Hx). assert (Hm : forall m x, seen x -> seen (set_md m x)) by (intros m x Hx; exact Hx).
  destruct (md s); try discriminate.
  - destruct (c =? COMMA); [destruct (end_value s) as [x|] eqn:E; [|discriminate]; cbn [bind]; intros H Hs; apply (IH _ _ _ H), (end_value_seen _ _ E Hs)|].
    destruct (c =? CLOSE); [destruct (end_object s) as [x|] eqn:E; [|discriminate]; cbn [bind]; intros H Hs; apply (IH _ _ _ H), (end_object_seen _ _ E Hs)|].
    destruct (c =? QUOTE); [destruct (_ && _); [intros H Hs; injection H as <-; exact Hs|intros H Hs; apply (IH _ _ _ H); exact Hs]|].
    destruct (c =? LF); [intros H Hs; injection H as <-; exact Hs|]. intros H Hs. apply (IH _ _ _ H). exact Hs.
  - destruct (c =? QUOTE); intros H Hs; apply (IH _ _ _ H); exact Hs.
  - destruct (c =? QUOTE); [intros H Hs; apply (IH _ _ _ H); exact Hs|].
    destruct (c =? COMMA); [destruct (end_value s) as [x|] eqn:E; [|discriminate]; cbn [bind]; intros H Hs; apply (IH _ _ _ H), (end_value_seen _ _ E Hs)|].
    destruct (c =? CLOSE); [destruct (end_object s) as [x|] eqn:E; [|discriminate]; cbn [bind]; intros H Hs; apply (IH _ _ _ H), (end_object_seen _ _ E Hs)|].
    intros H Hs. apply (IH _ _ _ H). exact Hs.
Qed.
Lemma plus_cv_seen x s s' : plus_cv x s = Ok s' -> seen s -> seen s'.
Proof. unfold plus_cv. destruct (cv s); [|discriminate]. intros H. injection H as <-. auto. Qed.
Lemma b64_seen line p s s' : decode_b64_line line p s = Ok s' -> seen s -> seen s'.
Proof.
  unfold decode_b64_line. destruct (find_ch CLOSE line) as [e|]; [|apply plus_cv_seen]. destruct (plus_cv _ s) as [x|] eqn:E; [|discriminate]. cbn [bind].
  destruct (end_object _) as [y|] eqn:Ey; [|discriminate]. cbn [bind]. intros H Hs. apply (dobj_seen _ _ _ _ _ H). apply (end_object_seen _ _ Ey). apply (plus_cv_seen _ _ _ E) in Hs. destruct (Nat.eqb p 1); exact Hs.
Qed.
Lemma line_seen line s s' : decode_line line s = Ok s' -> seen s -> seen s'.
Proof.
  unfold decode_line. destruct (md s); try discriminate.
  - unfold line_param. destruct line as [|c rest]; [discriminate|]. destruct (c =? OPEN).
    + cbv zeta. destruct (starts _ _); [destruct (big_shape _); [discriminate|]; intros H _; apply (b64_seen _ _ _ _ H); right; discriminate|]. intros H _. apply (dobj_seen _ _ _ _ _ H). right. discriminate.
    + destruct (c =? CLOSE); [destruct (end_object s) as [x|] eqn:E; [|discriminate]; cbn [bind]; intros H Hs; apply (dobj_seen _ _ _ _ _ H), (end_object_seen _ _ E Hs)|].
      cbv zeta. destruct (_ && _); [intros H Hs; injection H as <-; exact Hs|].
      assert (HL : line_b64 (c :: rest) (set_md MB64 s) = Ok s' -> seen s -> seen s') by (unfold line_b64; destruct (str_eqb _ _); [intros H Hs; injection H as <-; exact Hs|intros H Hs; apply (b64_seen _ _ _ _ H Hs)]).
      destruct (data_of s) as [|d0 d1]; [destruct (cv s)|].
      * repeat match goal with |- context [if ?b then _ else _] => destruct b end; try discriminate; try exact HL; intros H Hs; injection H as <-; exact Hs.
      * destruct (str_eqb _ _); intros H Hs; injection H as <-; exact Hs.
      * repeat match goal with |- context [if ?b then _ else _] => destruct b end; try discriminate; try exact HL; intros H Hs; injection H as <-; exact Hs.
  - apply dobj_seen.
  - unfold line_multi. destruct (negb _); [intros H Hs; apply (dobj_seen _ _ _ _ _ H Hs)|apply plus_cv_seen].
  - unfold line_b64. destruct (str_eqb _ _); [intros H Hs; injection H as <-; exact Hs|apply b64_seen].
  - intros H Hs. injection H as <-. exact Hs.
Qed.
Lemma run_seen ls : forall s s', run_lines ls s = Ok s' -> seen s -> seen s'.
Proof.
  induction ls as [|l ls IH]; intros s s'; cbn [run_lines]; [intros H; injection H as <-; auto|]. unfold wrap_err. destruct (decode_line l s) as [x|e] eqn:E; [|destruct e; discriminate]. cbn [bind]. intros H Hs. apply (IH _ _ H), (line_seen _ _ _ E Hs).
Qed.
Lemma seen_data s : seen s -> data_of s <> [].
Proof. unfold seen, data_of. destruct (stack s); [intros [H|H]; [exact H|congruence]|]. intros _. destruct (roots s); discriminate. Qed.
Lemma open_no_text t x : decode_file (OPEN :: t) <> Ok (DText x).
Proof.
  unfold decode_file. rewrite lines_first by discriminate. cbn [first_line]. change (OPEN =? LF) with false. destruct (first_line t) as [l0 ls]. cbn [fst snd run_lines].
  change (decode_line (OPEN :: l0) init) with (line_param (OPEN :: l0) init). destruct (line_param (OPEN :: l0) init) as [s|e] eqn:E; cbn [wrap_err]; [|destruct e; discriminate]. cbn [bind].
  assert (Hs : seen s).
  { unfold line_param in E. change (OPEN =? OPEN) with true in E. cbv zeta iota in E. destruct (starts _ _).
    - destruct (big_shape _); [discriminate|]. apply (b64_seen _ _ _ _ E). right. discriminate.
    - apply (dobj_seen _ _ _ _ _ E). right. discriminate. }
  destruct (run_lines (lines ls) s) as [s'|] eqn:E2; [|discriminate]. cbn [bind]. apply (run_seen _ _ _ E2), seen_data in Hs. unfold finish. destruct (md s'); try discriminate. destruct (data_of s'); [congruence|discriminate].
Qed.
Lemma no_empty bs : decode_kind bs <> Ok KEmpty.
Proof.
  assert (H : forall txt, decode_pass txt <> Ok (Some KEmpty)).
  { intros [raw|]; [|discriminate]. unfold decode_pass. cbv zeta. destruct (univ_nl raw) as [|c t]; [discriminate|]. destruct (c =? OPEN) eqn:Ec; [|discriminate]. apply N.eqb_eq in Ec. subst c.
    destruct (jload _); [discriminate|]. pose proof (open_no_text t) as Hn. destruct (decode_file (OPEN :: t)) as [[x|d]|[]]; try discriminate. intros _. apply (Hn x). reflexivity. }
  unfold decode_kind. pose proof (H (utf8sig_decode bs)) as H1. pose proof (H (cp1251_decode bs)) as H2. destruct (decode_pass (utf8sig_decode bs)) as [[k|]|]; cbn [bind]; [congruence| |discriminate].
  destruct (decode_pass (cp1251_decode bs)) as [[k|]|]; cbn [bind]; congruence.
Qed.
