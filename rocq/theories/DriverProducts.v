(** The commands over a file of products, and the command line. *)
From Verif Require Import PyBase PyInt Paths Json UpdateDict OrgCode Driver Spec_Driver DriverProofs DriverMain.
Set Implicit Arguments.
Open Scope list_scope.

Lemma not_off d : ~ off d -> jtruthy (match dget w_disable d with Some v => v | None => JNull end) = false.
Proof.
  intros H. destruct (dget w_disable d) as [v|] eqn:E; [|reflexivity]. destruct (jtruthy v) eqn:T; [|reflexivity].
  exfalso. apply H. exists v. auto.
Qed.
Lemma may_be_field d k o : may_be d k o -> opt_field (match dget k d with Some v => v | None => JNull end) = Ok o.
Proof. destruct o as [s|]; cbn [may_be]; [intros ->; reflexivity|]. intros [->| ->]; reflexivity. Qed.

Definition set_product (name : list N) (o : jdict) : json := JDict (dset kd_product (JStr name) o).

Lemma build_call_off name d : off d -> build_call name (JDict d) = Ok None.
Proof. intros (v & H & T). unfold build_call. cbn [jfield bind]. change kd_disable with w_disable. rewrite H, T. reflexivity. Qed.
Lemma extract_call_off d : off d -> extract_call (JDict d) = Ok None.
Proof. intros (v & H & T). unfold extract_call. cbn [jfield bind]. change kd_disable with w_disable. rewrite H, T. reflexivity. Qed.
Lemma index_call_off dest d : off d -> index_call dest (JDict d) = Ok None.
Proof. intros (v & H & T). unfold index_call. cbn [jfield bind]. change kd_disable with w_disable. rewrite H, T. reflexivity. Qed.

Lemma build_call_on name d c : ~ off d -> asks_build name d c ->
  exists c', build_call name (JDict d) = Ok (Some c') /\ asks_build name d c'.
Proof.
  intros Hoff (Hs & Hb & Ht & (i & Hi & Hci) & o & o' & Ho & _).
  exists (mkcall (a_bin c) (a_src c) (a_temp c) (a_index c) (set_product name o)). split.
  - unfold build_call. cbn [jfield bind jitem]. change kd_disable with w_disable. rewrite (not_off Hoff). change kd_options with w_options.
    assert (Hoo : match dget w_options d with Some v => v | None => JDict [] end = JDict o)
      by (destruct Ho as [->|[-> ->]]; reflexivity).
    rewrite Hoo. change kd_src with w_src. change kd_bin with w_bin. change kd_temp with w_temp. change kd_index with w_index.
    rewrite Hs, Hb. cbn [bind path_field]. rewrite (may_be_field _ _ _ Ht). cbn [bind]. rewrite (may_be_field _ _ _ Hi). cbn [bind].
    unfold or_empty. rewrite Hci. reflexivity.
  - unfold asks_build. cbn [a_src a_bin a_temp a_index a_options].
    split; [exact Hs|]. split; [exact Hb|]. split; [exact Ht|]. split; [exists i; auto|].
    exists o, (dset kd_product (JStr name) o). split; [exact Ho|]. split; [reflexivity|]. split.
    + apply dget_dset_same.
    + intros k Hk. apply dget_dset_other. exact Hk.
Qed.
Lemma extract_call_on d c : ~ off d -> asks_extract d c -> extract_call (JDict d) = Ok (Some c).
Proof.
  intros Hoff (Hs & Hb & Ht & (i & Hi & Hci) & Ho).
  unfold extract_call. cbn [jfield bind jitem]. change kd_disable with w_disable. rewrite (not_off Hoff).
  change kd_options with w_options. change kd_src with w_src. change kd_bin with w_bin. change kd_temp with w_temp. change kd_index with w_index.
  rewrite Hs, Hb. cbn [bind path_field]. rewrite (may_be_field _ _ _ Ht). cbn [bind]. rewrite (may_be_field _ _ _ Hi). cbn [bind].
  assert (Hoi : or_empty i = a_index c) by (symmetry; exact Hci). rewrite Hoi.
  assert (Hoo : match dget w_options d with Some v => v | None => JNull end = a_options c)
    by (destruct Ho as [->|[-> ->]]; reflexivity).
  rewrite Hoo. destruct c; reflexivity.
Qed.
Lemma index_call_on dest d c : ~ off d -> asks_index dest d c -> index_call dest (JDict d) = Ok (Some c).
Proof.
  intros Hoff (s & i & Hs & Hi & ->). unfold index_call. cbn [jfield bind jitem]. change kd_disable with w_disable. rewrite (not_off Hoff).
  change kd_src with w_src. change kd_index with w_index. rewrite Hs. cbn [bind].
  assert (Hii : match dget w_index d with Some v => v | None => JNull end = i) by (destruct Hi as [->|[-> ->]]; reflexivity).
  rewrite Hii. reflexivity.
Qed.

Section Each.
  Context {A : Type}.
  Variable asks : list N -> jdict -> A -> Prop.
  Variable one : list N -> json -> res (option A).
  Variable run : A -> act.
  Hypothesis Hoff : forall name d, off d -> one name (JDict d) = Ok None.
  Hypothesis Hon : forall name d c, ~ off d -> asks name d c -> exists c', one name (JDict d) = Ok (Some c') /\ asks name d c'.
  Hypothesis Hrun : forall c w w' e, run c w = (w', Err e) -> e = ExtExc.

  Lemma each_in_order products cs w w' r : to_do asks products cs ->
    each (fun name params => run_call (one name params) run) products w = (w', r) ->
    exists cs', to_do asks products cs' /\ in_order run cs' w w' r.
  Proof.
    intros H. revert w. induction H as [|name d rest cs Ho Hr IH|name d rest c cs Ho Ha Hr IH]; intros w E; cbn [each] in E.
    - unfold ret in E. injection E as <- <-. exists []. split; constructor.
    - rewrite (Hoff name Ho) in E. cbn [run_call] in E. unfold seq, ret in E. destruct (IH w E) as (cs' & T & O). exists cs'. split; [constructor; auto|exact O].
    - destruct (Hon Ho Ha) as (c' & Hc & Ha'). rewrite Hc in E. cbn [run_call] in E.
      destruct (seq_cases _ _ _ E) as [(v & A1 & B1)|(e & A1 & ->)].
      + destruct (IH v B1) as (cs' & T & O). exists (c' :: cs'). split; [constructor 3; auto|]. econstructor; eauto.
      + rewrite (Hrun A1). exists (c' :: cs). split; [constructor 3; auto|]. econstructor 3; eauto.
  Qed.
End Each.

Lemma each_app one l1 l2 w : each one (l1 ++ l2) w = seq (each one l1) (each one l2) w.
Proof.
  revert w. induction l1 as [|[n p] l1 IH]; intros w; [reflexivity|]. cbn [app each]. unfold seq at 1 2. unfold seq at 1.
  destruct (one n p w) as [w1 [[]|e]]; [exact (IH w1)|reflexivity].
Qed.

Lemma unbuildable_err name params : unbuildable params -> exists e, build_call name params = Err e.
Proof.
  intros [H|(d & -> & Ho & H)].
  - unfold build_call. destruct params; try (exists AttributeError; reflexivity). exfalso. exact (H _ eq_refl).
  - unfold build_call. cbn [jfield bind jitem]. change kd_disable with w_disable. rewrite (not_off Ho).
    change kd_options with w_options. change kd_src with w_src. change kd_bin with w_bin.
    set (oo := match dget w_options d with Some v => v | None => JDict [] end).
    destruct oo as [| | | | |o] eqn:Eo; cbn [bind]; try (eexists; reflexivity).
    destruct H as [H|[H|(o' & H & Hn)]].
    + rewrite H. eexists; reflexivity.
    + destruct (dget w_src d); cbn [bind]; [|eexists; reflexivity]. rewrite H. eexists; reflexivity.
    + unfold oo in Eo. rewrite H in Eo. exfalso. exact (Hn _ Eo).
Qed.

Lemma asks_build_ext name d d' c : (forall k, k <> w_disable -> dget k d' = dget k d) -> asks_build name d c -> asks_build name d' c.
Proof.
  intros Hk (A1 & A2 & A3 & (i & Hi & A4) & o & o' & A5). unfold asks_build, may_be in *. rewrite !Hk by discriminate.
  split; [exact A1|]. split; [exact A2|]. split; [exact A3|]. split; [|exists o, o'; exact A5].
  exists i. split; [|exact A4]. exact Hi.
Qed.
Lemma asks_extract_ext d d' c : (forall k, k <> w_disable -> dget k d' = dget k d) -> asks_extract d c -> asks_extract d' c.
Proof.
  intros Hk (A1 & A2 & A3 & (i & Hi & A4) & A5). unfold asks_extract, may_be in *. rewrite !Hk by discriminate.
  split; [exact A1|]. split; [exact A2|]. split; [exact A3|]. split; [|exact A5].
  exists i. split; [|exact A4]. exact Hi.
Qed.

(** os.path.abspath does not change what a path means *)
Definition plain_comp (c : list N) : Prop := c <> [] /\ ~ In slash c /\ c <> dot1 /\ c <> dot2.
Lemma plain_step st c : ~ In slash c -> Forall plain_comp st -> Forall plain_comp (astep st c).
Proof.
  intros Hc H. unfold astep. destruct c as [|x c]; [exact H|].
  destruct (str_eqb (x :: c) dot1) eqn:E1; [exact H|]. destruct (str_eqb (x :: c) dot2) eqn:E2; [destruct H; [constructor|assumption]|].
  constructor; [|exact H]. split; [discriminate|]. split; [exact Hc|].
  split; intros E; rewrite E in *; [discriminate E1|discriminate E2].
Qed.
Lemma plain_fold l : Forall (fun c => ~ In slash c) l -> forall st, Forall plain_comp st -> Forall plain_comp (fold_left astep l st).
Proof. induction 1 as [|c l Hc Hl IH]; intros st H; [exact H|]. cbn [fold_left]. apply IH, plain_step; assumption. Qed.
Lemma split_no_slash s : Forall (fun c => ~ In slash c) (split_ch slash s).
Proof.
  induction s as [|x s IH]; cbn [split_ch]; [constructor; [intros []|constructor]|].
  destruct (N.eqb_spec x slash) as [->|Hx]; [constructor; [intros []|exact IH]|].
  destruct (split_ch slash s) as [|c l]; [constructor; [intros [E|[]]; congruence|constructor]|].
  inversion IH; subst. constructor; [intros [E|E]; [congruence|contradiction]|assumption].
Qed.
Lemma plain_acomps p : Forall plain_comp (acomps p).
Proof. apply plain_fold; [apply split_no_slash|constructor]. Qed.
Lemma fold_plain l : Forall plain_comp l -> forall st, fold_left astep l st = rev l ++ st.
Proof.
  induction 1 as [|c l (H1 & _ & H3 & H4) Hl IH]; intros st; [reflexivity|]. cbn [fold_left rev]. rewrite IH.
  assert (E : astep st c = c :: st).
  { unfold astep. destruct c as [|x c]; [congruence|]. destruct (str_eqb (x :: c) dot1) eqn:E1; [apply str_eqb_spec in E1; congruence|].
    destruct (str_eqb (x :: c) dot2) eqn:E2; [apply str_eqb_spec in E2; congruence|]. reflexivity. }
  rewrite E, <- app_assoc. reflexivity.
Qed.
Lemma split_single c : ~ In slash c -> split_ch slash c = [c].
Proof.
  induction c as [|x c IH]; intros H; [reflexivity|]. cbn [split_ch]. destruct (N.eqb_spec x slash) as [->|_]; [exfalso; apply H; left; reflexivity|].
  rewrite IH by (intros E; apply H; right; exact E). reflexivity.
Qed.
Lemma split_joined l : l <> [] -> Forall plain_comp l -> split_ch slash (join [slash] l) = l.
Proof.
  intros Hn H. induction H as [|c l (H1 & H2 & _) Hl IH]; [congruence|]. destruct l as [|c2 l].
  - cbn [join]. apply split_single, H2.
  - change (join [slash] (c :: c2 :: l)) with (c ++ slash :: join [slash] (c2 :: l)). rewrite split_ch_app, (split_single c H2), IH by discriminate. reflexivity.
Qed.
Lemma acomps_abspath p : acomps (abspath p) = acomps p.
Proof.
  unfold abspath. set (l := rev (acomps p)). assert (Hl : Forall plain_comp l) by (apply Forall_rev, plain_acomps).
  assert (Hr : acomps p = rev l) by (unfold l; rewrite rev_involutive; reflexivity). rewrite Hr.
  unfold acomps. cbn [split_ch]. rewrite N.eqb_refl. cbn [fold_left astep].
  destruct l as [|c l'] eqn:E; [reflexivity|]. rewrite split_joined by (try discriminate; exact Hl). rewrite fold_plain by exact Hl. apply app_nil_r.
Qed.
Lemma locate_absolute cwd p : locate cwd (absolute cwd p) = locate cwd p.
Proof.
  unfold locate, absolute. f_equal. replace (path_join cwd (abspath (path_join cwd p))) with (abspath (path_join cwd p)) by reflexivity.
  apply acomps_abspath.
Qed.
