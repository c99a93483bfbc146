(** Lemmas about the entry points. *)
From Verif Require Import PyBase PyInt Paths Json UpdateDict OrgCode Driver Spec_Driver.
Set Implicit Arguments.
Open Scope list_scope.

Lemma inside_within d f : inside d f = true <-> within d f.
Proof.
  revert f. induction d as [|x d IH]; intros f; cbn [inside].
  - destruct f as [|y f]; split; intros H.
    + discriminate.
    + destruct H as (r & Hr & E). cbn in E. congruence.
    + exists (y :: f). split; [discriminate|reflexivity].
    + reflexivity.
  - destruct f as [|y f]; split; intros H.
    + discriminate.
    + destruct H as (r & Hr & E). discriminate E.
    + apply andb_true_iff in H. destruct H as [H1 H2]. apply str_eqb_spec in H1. subst y.
      apply IH in H2. destruct H2 as (r & Hr & ->). exists r. split; [exact Hr|reflexivity].
    + destruct H as (r & Hr & E). cbn [app] in E. injection E as -> ->.
      apply andb_true_iff. split; [apply str_eqb_spec; reflexivity|]. apply IH. exists r. auto.
Qed.
Lemma inside_self d : inside d d = false.
Proof.
  destruct (inside d d) eqn:E; [|reflexivity]. apply inside_within in E. destruct E as (r & Hr & E).
  rewrite <- (app_nil_r d) in E at 1. apply app_inv_head in E. congruence.
Qed.
Lemma not_inside d f : ~ within d f -> inside d f = false.
Proof. intros H. destruct (inside d f) eqn:E; [|reflexivity]. apply inside_within in E. contradiction. Qed.

Lemma seq_ok a b w w1 : a w = (w1, Ok tt) -> seq a b w = b w1.
Proof. unfold seq. intros ->. reflexivity. Qed.
Lemma seq_err a b w w1 e : a w = (w1, Err e) -> seq a b w = (w1, Err e).
Proof. unfold seq. intros ->. reflexivity. Qed.
Lemma seq_cases a b w w' r : seq a b w = (w', r) ->
  (exists w1, a w = (w1, Ok tt) /\ b w1 = (w', r)) \/ (exists e, a w = (w', Err e) /\ r = Err e).
Proof.
  unfold seq. destruct (a w) as [w1 [[]|e]] eqn:E; intros H.
  - left. exists w1. auto.
  - right. exists e. injection H as -> <-. auto.
Qed.

Lemma wrapped_cases a w w' r : wrapped a w = (w', r) ->
  (a w = (w', Ok tt) /\ r = Ok tt) \/ (exists e, a w = (w', Err e) /\ r = Err ExtExc).
Proof.
  unfold wrapped. destruct (a w) as [w1 [[]|e]]; intros H; apply pair_equal_spec in H; destruct H as [<- <-]; [left; auto|right; exists e; auto].
Qed.
Lemma wrapped_idem a w w' r : (forall e, r = Err e -> e = ExtExc) -> a w = (w', r) -> wrapped a w = (w', r).
Proof. intros H E. unfold wrapped. rewrite E. destruct r as [[]|e]; [reflexivity|]. rewrite (H e eq_refl). reflexivity. Qed.
Lemma wrapped_err a w w' r e : wrapped a w = (w', r) -> r = Err e -> e = ExtExc.
Proof. intros H ->. destruct (wrapped_cases _ _ H) as [[_ ?]|(e' & _ & ?)]; congruence. Qed.

(** ** respects *)
Lemma respects_seq a b : respects a -> respects b -> respects (seq a b).
Proof.
  intros Ha Hb w1 w2 w1' w2' r1 r2 Hw E1 E2.
  destruct (seq_cases _ _ _ E1) as [(v1 & A1 & B1)|(e1 & A1 & ->)]; destruct (seq_cases _ _ _ E2) as [(v2 & A2 & B2)|(e2 & A2 & ->)];
    destruct (Ha _ _ _ _ _ _ Hw A1 A2) as [Hr Hv]; try discriminate.
  - exact (Hb _ _ _ _ _ _ Hv B1 B2).
  - split; [congruence|exact Hv].
Qed.
Lemma respects_ret : respects ret.
Proof. intros w1 w2 w1' w2' r1 r2 Hw E1 E2. unfold ret in *. injection E1 as <- <-. injection E2 as <- <-. auto. Qed.
Lemma respects_rmtree cwd p : respects (rmtree cwd p).
Proof.
  intros w1 w2 w1' w2' r1 r2 Hw E1 E2. unfold rmtree in *. injection E1 as <- <-. injection E2 as <- <-. split; [reflexivity|].
  intros f. cbn. destruct (inside (locate cwd p) f); [reflexivity|apply Hw].
Qed.
Lemma respects_clear cwd p : respects (clear_dir cwd p).
Proof.
  apply respects_seq; [apply respects_rmtree|]. intros w1 w2 w1' w2' r1 r2 Hw E1 E2. rewrite (Hw _) in E1.
  destruct (w2 (locate cwd p)); injection E1 as <- <-; injection E2 as <- <-; auto.
Qed.
Lemma respects_pool n : respects (get_pool n).
Proof.
  intros w1 w2 w1' w2' r1 r2 Hw E1 E2. unfold get_pool in *. destruct n as [n|]; [destruct (n <? 1)%Z|];
    injection E1 as <- <-; injection E2 as <- <-; auto.
Qed.
Lemma respects_wrapped a : respects a -> respects (wrapped a).
Proof.
  intros Ha w1 w2 w1' w2' r1 r2 Hw E1 E2.
  destruct (wrapped_cases _ _ E1) as [[A1 ->]|(e1 & A1 & ->)]; destruct (wrapped_cases _ _ E2) as [[A2 ->]|(e2 & A2 & ->)];
    destruct (Ha _ _ _ _ _ _ Hw A1 A2) as [Hr Hv]; try discriminate; auto.
Qed.

(** ** touches_only *)
Lemma touches_seq P a b : touches_only P a -> touches_only P b -> touches_only P (seq a b).
Proof.
  intros Ha Hb w w' r f E Hf. destruct (seq_cases _ _ _ E) as [(v & A & B)|(e & A & ->)].
  - rewrite (Hb _ _ _ _ B Hf). apply (Ha _ _ _ _ A Hf).
  - apply (Ha _ _ _ _ A Hf).
Qed.
Lemma touches_ret P : touches_only P ret.
Proof. intros w w' r f E _. unfold ret in E. injection E as <- <-. reflexivity. Qed.
Lemma touches_rmtree cwd p : touches_only (within (locate cwd p)) (rmtree cwd p).
Proof. intros w w' r f E Hf. unfold rmtree in E. injection E as <- <-. cbn. rewrite (not_inside Hf). reflexivity. Qed.
Lemma touches_clear cwd p : touches_only (within (locate cwd p)) (clear_dir cwd p).
Proof.
  apply touches_seq; [apply touches_rmtree|]. intros w w' r f E _. destruct (w (locate cwd p)); injection E as <- <-; reflexivity.
Qed.
Lemma touches_pool P n : touches_only P (get_pool n).
Proof. intros w w' r f E _. unfold get_pool in E. destruct n as [n|]; [destruct (n <? 1)%Z|]; injection E as <- <-; reflexivity. Qed.
Lemma touches_mono (P Q : list (list N) -> Prop) a : (forall f, P f -> Q f) -> touches_only P a -> touches_only Q a.
Proof. intros H Ha w w' r f E Hf. apply (Ha _ _ _ _ E). intros HP. apply Hf, H, HP. Qed.

Lemma clear_ok cwd p w : w (locate cwd p) = None ->
  clear_dir cwd p w = (fun f => if inside (locate cwd p) f then None else w f, Ok tt).
Proof.
  intros H. unfold clear_dir, seq, rmtree. rewrite inside_self, H. reflexivity.
Qed.

(** ** Where the stages write *)
Lemma locate_join cwd t s : is_abs s = false -> s <> [] -> Forall (fun x => x <> slash) s -> s <> dot1 -> s <> dot2 ->
  locate cwd (path_join t s) = locate cwd t ++ [s].
Proof.
  intros Ha Hs Hn H1 H2.
  assert (Hsp : split_ch slash s = [s]).
  { clear -Hn. induction s as [|c s IH]; [reflexivity|]. inversion Hn as [|? ? Hc Hr]; subst. cbn [split_ch].
    destruct (N.eqb_spec c slash) as [->|_]; [congruence|]. rewrite (IH Hr). reflexivity. }
  assert (Happ : forall a, acomps (a ++ slash :: s) = s :: acomps a).
  { intros a. unfold acomps. rewrite split_ch_app, fold_left_app, Hsp. cbn [fold_left]. unfold astep at 1.
    destruct s as [|c s]; [congruence|].
    destruct (str_eqb (c :: s) dot1) eqn:E1; [apply str_eqb_spec in E1; congruence|].
    destruct (str_eqb (c :: s) dot2) eqn:E2; [apply str_eqb_spec in E2; congruence|]. reflexivity. }
  assert (Hsl : forall a, acomps (a ++ [slash]) = acomps a).
  { intros a. unfold acomps. change [slash] with (slash :: []). rewrite split_ch_app, fold_left_app. reflexivity. }
  assert (Hnil : acomps s = [s]) by (specialize (Happ []); unfold acomps in *; cbn [app split_ch] in Happ; rewrite N.eqb_refl in Happ; cbn [fold_left astep] in Happ; exact Happ).
  assert (Hj : forall a, acomps (path_join a s) = s :: acomps a).
  { intros a. unfold path_join. unfold is_abs in Ha. rewrite Ha. destruct a as [|x a0] eqn:E.
    - cbn [orb app]. exact Hnil.
    - rewrite <- E. cbn [orb]. destruct (ends [slash] a) eqn:Ee.
      + apply ends_spec in Ee. destruct Ee as [b ->]. rewrite <- app_assoc. cbn [app]. rewrite Happ, Hsl. reflexivity.
      + cbn [app]. apply Happ. }
  unfold locate. change (rev (acomps t) ++ [s]) with (rev (acomps t) ++ rev [s]).
  assert (Hjj : path_join cwd (path_join t s) = path_join (path_join cwd t) s \/ acomps (path_join cwd (path_join t s)) = s :: acomps (path_join cwd t)).
  { right. unfold path_join at 2. unfold is_abs in Ha. rewrite Ha. destruct t as [|x t0] eqn:Et.
    - cbn [orb app]. rewrite Hj. f_equal. unfold path_join. cbn [starts]. destruct cwd as [|y c0] eqn:Ec; [reflexivity|].
      rewrite <- Ec. cbn [orb app]. destruct (ends [slash] cwd); [rewrite app_nil_r; reflexivity|]. symmetry. apply Hsl.
    - rewrite <- Et. cbn [orb].
      assert (Hst : forall y, starts [slash] (t ++ y) = starts [slash] t) by (intros y; rewrite Et; reflexivity).
      destruct (ends [slash] t) eqn:Ee.
      + apply ends_spec in Ee. destruct Ee as [b Hb].
        unfold path_join. rewrite Hst. destruct (starts [slash] t).
        * rewrite Hb, <- app_assoc. cbn [app]. rewrite Happ, Hsl. reflexivity.
        * destruct (match cwd with [] => true | _ :: _ => false end || ends [slash] cwd)%bool.
          -- rewrite Hb, <- !app_assoc. cbn [app]. rewrite !app_assoc, Happ. rewrite Hsl. reflexivity.
          -- rewrite Hb. replace (cwd ++ [slash] ++ (b ++ [slash]) ++ s) with ((cwd ++ [slash] ++ b) ++ slash :: s) by (rewrite <- !app_assoc; reflexivity).
             rewrite Happ. f_equal. replace (cwd ++ [slash] ++ b ++ [slash]) with ((cwd ++ [slash] ++ b) ++ [slash]) by (rewrite <- !app_assoc; reflexivity).
             symmetry. apply Hsl.
      + unfold path_join. rewrite Hst. destruct (starts [slash] t); [apply Happ|].
        destruct (match cwd with [] => true | _ :: _ => false end || ends [slash] cwd)%bool.
        * replace (cwd ++ t ++ [slash] ++ s) with ((cwd ++ t) ++ slash :: s) by (rewrite <- !app_assoc; reflexivity). apply Happ.
        * replace (cwd ++ [slash] ++ t ++ [slash] ++ s) with ((cwd ++ [slash] ++ t) ++ slash :: s) by (rewrite <- !app_assoc; reflexivity). apply Happ. }
  destruct Hjj as [Hjj|Hjj].
  - rewrite Hjj, Hj. reflexivity.
  - rewrite Hjj. reflexivity.
Qed.
Lemma within_stage cwd t s f : is_abs s = false -> s <> [] -> Forall (fun x => x <> slash) s -> s <> dot1 -> s <> dot2 ->
  within (locate cwd (path_join t s)) f -> within (locate cwd t) f.
Proof.
  intros Ha Hs Hn H1 H2 (r & Hr & ->). rewrite (locate_join cwd t Ha Hs Hn H1 H2). exists ([s] ++ r).
  split; [destruct r; discriminate|]. rewrite <- app_assoc. reflexivity.
Qed.
