(** Model: POSIX path functions (os.path.join and lexical resolution). *)
From Verif Require Import PyBase.
Open Scope N_scope.

Definition slash : N := 47.
Definition dot1 : list N := [46].
Definition dot2 : list N := [46; 46].

(** posixpath.join(a, b) *)
Definition path_join (a b : list N) : list N :=
  if starts [slash] b then b
  else if match a with [] => true | _ => false end || ends [slash] a then a ++ b
  else a ++ [slash] ++ b.

(** posixpath.join(a, *ps) *)
Definition path_joins (a : list N) (ps : list (list N)) : list N := fold_left path_join ps a.

(** The folder chain a path denotes, resolved lexically (no symbolic links): empty and "."
    components do nothing, ".." removes the last one (above the start it stays as ".."). *)
Definition step (st : list (list N)) (c : list N) : list (list N) :=
  match c with
  | [] => st
  | _ => if str_eqb c dot1 then st
         else if str_eqb c dot2 then
           match st with
           | [] => [dot2]
           | d :: r => if str_eqb d dot2 then dot2 :: st else r
           end
         else c :: st
  end.
Definition is_abs (p : list N) : bool := starts [slash] p.
(** innermost component first *)
Definition resolve (p : list N) : list (list N) := fold_left step (split_ch slash p) [].

Lemma ends_slash_app a : a <> [] -> ends [slash] a = false -> exists x l, a = l ++ [x] /\ x <> slash.
Proof.
  intros Hne He. destruct (exists_last Hne) as (l & x & ->). exists x, l. split; [reflexivity|].
  intros ->. assert (ends [slash] (l ++ [slash]) = true) by (apply ends_spec; exists l; reflexivity). congruence.
Qed.

Lemma split_ch_app sep p q : split_ch sep (p ++ sep :: q) = split_ch sep p ++ split_ch sep q.
Proof.
  induction p as [|c p IH]; cbn [app split_ch].
  - rewrite N.eqb_refl. reflexivity.
  - destruct (c =? sep); [rewrite IH; reflexivity|]. rewrite IH.
    pose proof (split_ch_nonnil sep p). destruct (split_ch sep p); [congruence|reflexivity].
Qed.

Lemma resolve_app a b : resolve (a ++ slash :: b) = fold_left step (split_ch slash b) (resolve a).
Proof. unfold resolve. rewrite split_ch_app, fold_left_app. reflexivity. Qed.
Lemma resolve_slash a : resolve (a ++ [slash]) = resolve a.
Proof. change [slash] with (slash :: []). rewrite resolve_app. reflexivity. Qed.

Lemma resolve_join a b : is_abs b = false -> a <> [] ->
  resolve (path_join a b) = fold_left step (split_ch slash b) (resolve a).
Proof.
  intros Hb Ha. unfold path_join. unfold is_abs in Hb. rewrite Hb.
  destruct a as [|x a0] eqn:E; [congruence|]. rewrite <- E. cbn [orb].
  destruct (ends [slash] a) eqn:Ee.
  - apply ends_spec in Ee. destruct Ee as [t ->]. rewrite <- app_assoc. cbn [app].
    rewrite resolve_app, resolve_slash. reflexivity.
  - cbn [app]. apply resolve_app.
Qed.

(** a name that denotes an entry of a folder *)
Definition plain_name (n : list N) : Prop := n <> [] /\ ~ In slash n /\ n <> dot1 /\ n <> dot2.

Lemma plain_not_abs n : plain_name n -> is_abs n = false.
Proof.
  intros (H1 & H2 & _). destruct n as [|c n]; [congruence|]. unfold is_abs. cbn [starts].
  destruct (slash =? c) eqn:E; [|reflexivity]. apply N.eqb_eq in E. subst. exfalso. apply H2. left; reflexivity.
Qed.
Lemma resolve_plain a n : a <> [] -> plain_name n -> resolve (path_join a n) = n :: resolve a.
Proof.
  intros Ha Hn. rewrite resolve_join by (try exact Ha; apply plain_not_abs; exact Hn).
  destruct Hn as (H1 & H2 & H3 & H4). rewrite split_ch_nosep by exact H2. cbn [fold_left].
  unfold step. destruct n as [|c n]; [congruence|].
  apply str_eqb_neq in H3, H4. rewrite H3, H4. reflexivity.
Qed.
Lemma is_abs_join a n : a <> [] -> is_abs n = false -> is_abs (path_join a n) = is_abs a.
Proof.
  intros Ha Hn. unfold path_join, is_abs in *. rewrite Hn. destruct a as [|c a]; [congruence|].
  cbn [orb]. destruct (ends [slash] (c :: a)); reflexivity.
Qed.

Lemma path_join_nonnil a b : a <> [] -> is_abs b = false -> path_join a b <> [].
Proof.
  intros Ha Hb. unfold path_join, is_abs in *. rewrite Hb. destruct a as [|c a]; [congruence|]. cbn [orb].
  destruct (ends [slash] (c :: a)); discriminate.
Qed.
Lemma escape dest folder x : dest <> [] -> plain_name folder -> plain_name x ->
  resolve (path_join (path_join dest folder) (dot2 ++ [slash] ++ x)) = x :: resolve dest
  /\ path_join dest ([slash] ++ x) = [slash] ++ x.
Proof.
  intros Hd Hf Hx. split; [|reflexivity].
  rewrite resolve_join; [|reflexivity|apply path_join_nonnil; [exact Hd|apply plain_not_abs; exact Hf]].
  rewrite resolve_plain by assumption.
  destruct Hx as (H1 & H2 & H3 & H4). cbn [app dot2].
  change (46 :: 46 :: slash :: x) with (dot2 ++ slash :: x). rewrite split_ch_app.
  change (split_ch slash dot2) with [dot2]. rewrite (split_ch_nosep slash x H2). cbn [app fold_left].
  assert (E : step (folder :: resolve dest) dot2 = resolve dest).
  { destruct Hf as (_ & _ & _ & Hf4). apply str_eqb_neq in Hf4. change (step (folder :: resolve dest) dot2) with (if str_eqb folder dot2 then dot2 :: folder :: resolve dest else resolve dest). rewrite Hf4. reflexivity. }
  rewrite E. unfold step. destruct x as [|c x]; [congruence|]. apply str_eqb_neq in H3, H4. rewrite H3, H4. reflexivity.
Qed.
